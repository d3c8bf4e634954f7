(** Model of [coins_send] with the arguments a caller gives: /repo/tfchain/TFChainWallet.py:304-356, 1491-1524 and 2287-2316.  What
    follows once they are understood is in Ops.v. *)
From Verif Require Import Base Encoders Currency Primitive Types Conditions Fulfillments ThreeBotTypes Txn TxnSign Wallet Ops.

Section Front.
Variable H : bytes -> bytes.
Variable sign : pubkey -> bytes -> bytes.
Variable now : Z.

(** TFChainWallet.py:313-318: a recipient: an ERC20Address object, or anything else *)
Inductive payee := PErc20 (a : bytes) | PVal (r : rval).
(** types/ERC20.py:20-40, as what the validity check sees a recipient *)
Definition payee_value (p : payee) : bval :=
  match p with
  | PErc20 a => BVData (mkbd (Some 20) (Some (s2b "hexprefix")) a)
  | PVal (RStr s) => BVStr s
  | PVal (RBytes b) => BVBytes b
  | PVal RNone => BVNone
  | PVal _ => BVOther
  end.
(** TFChainWallet.py:348, 1511, types/PrimitiveTypes.py:181-229: [Currency(value=amount)], in smallest units *)
Definition amount_arg (v : cinput) : res N := do c <- cset v; Ok (scaled9 (cvalue c)).
(** TFChainWallet.py:2301-2312: one source address *)
Definition source_one (v : rval) : res uh :=
  match v with RStr s => uh_parse H s | RUh u => Ok u | _ => Err TypeError end.
(** TFChainWallet.py:2294-2312: the source argument *)
Definition source_arg (v : rval) : res (option (list uh)) :=
  match v with
  | RNone => Ok None
  | RList l => do us <- mapM source_one l; Ok (Some us)
  | v => do u <- source_one v; Ok (Some [u])
  end.
(** TFChainWallet.py:360-368: the refund argument *)
Definition refund_arg (v : rval) : res (option cond) :=
  match v with RNone => Ok None | v => do c <- from_recipient H now v LNone; Ok (Some c) end.
(** TFChainWallet.py:384-386, types/transactions/Standard.py:214-222: the data argument *)
Inductive dataval := DVNone | DVStr (s : pystr) | DVBytes (b : bytes).
(** TFChainWallet.py:384-386, types/transactions/Standard.py:214-222 *)
Definition data_arg (d : dataval) : res bytes :=
  match d with DVNone => Ok [] | DVStr s => utf8 s | DVBytes b => Ok b end.

(** TFChainWallet.py:304-419: [coins_send].  The order in which bad arguments are noticed is not kept: source and refund are looked at before,
    not after, the funds. *)
Definition coins_send_args (x : wctx) (recipient : payee) (amount : cinput) (source refund : rval) (lock : lockval) (data : dataval) : res (txn * bool) :=
  if eaddr_valid (payee_value recipient) then
    do _ <- guard (match lock with LNone => true | _ => false end) ValueError;
    do _ <- guard (match data with DVNone => true | _ => false end) ValueError;
    do n <- amount_arg amount; do s <- source_arg source; do r <- refund_arg refund;
    erc20_send H sign x (payee_value recipient) n (mkfunding s r)
  else
    do n <- amount_arg amount;
    do _ <- guard (0 <? n) ValueError;
    do c <- (match recipient with PErc20 _ => Err TypeError | PVal r => from_recipient H now r lock end);
    do s <- source_arg source; do r <- refund_arg refund; do d <- data_arg data;
    wallet_send H sign x c n (mkfunding s r) d.
End Front.
