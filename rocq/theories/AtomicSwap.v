(** Model of atomic swap contracts: /repo/tfchain/types/AtomicSwap.py and the verification, redemption and refund of
    /repo/tfchain/TFChainWallet.py:880-1062, 1159-1214.  (Their creation, 1065-1157, is [create_contract] in Wallet.v.) *)
From Verif Require Import Base Encoders Primitive Types Conditions Fulfillments ThreeBotTypes Txn TxnSign Wallet.

(** types/AtomicSwap.py:15-39: the output a contract consists of, and whether it is marked unspent.  The timestamp it also keeps is
    only used to print it. *)
Record contract := mkct {
  k_id : bytes; k_amount : N; k_sender : uh; k_receiver : uh; k_hash : option bytes; k_refund : Z; k_unspent : bool }.
(** types/AtomicSwap.py:15-39 *)
Definition contract_new (o : output) (unspent : bool) : res contract :=
  match o_cond o with
  | CSwap s r h l => Ok (mkct (o_id o) (o_value o) s r h l unspent)
  | _ => Err TypeError
  end.
(** types/AtomicSwap.py:107-119 [coin_output] *)
Definition contract_output (k : contract) : output :=
  mkout (k_amount k) (CSwap (k_sender k) (k_receiver k) (k_hash k) (k_refund k)) (k_id k).
(** ConditionTypes.py:576-580: without hash the getter gives BinaryData(), which cannot be compared with a hash *)
Definition hash_cmp (k : contract) (h : bytes) : res bool :=
  match k_hash k with Some x => Ok (listN_eqb x h) | None => Err TypeError end.

Section Swap.
Variable H : bytes -> bytes.             (* Blake2b *)
Variable S256 : bytes -> bytes.          (* hashlib.sha256 *)
Variable sign : pubkey -> bytes -> bytes.

(** types/AtomicSwap.py:121-130 [verify_secret], ConditionTypes.py:504-508 *)
Definition verify_secret (k : contract) (secret : bval) : res bool :=
  do s <- secret_new secret; do h <- hash_new (BVBytes (S256 s)); hash_cmp k h.

(** [unlockhash in addresses] on the list of address texts: ConditionTypes.py:367-381 *)
Fixpoint uh_in (u : uh) (addrs : list pystr) : res bool :=
  match addrs with
  | [] => Ok false
  | a :: addrs => do v <- uh_parse H a; if uh_eqb u v then Ok true else uh_in u addrs
  end.

(** What [coin_output_get] gives for an id: the output and whether a spending transaction is known (TFChainClient.py:329-376) *)
Definition lookup := bytes -> res (output * bool).
(** TFChainWallet.py:906-913, 995-1002: a missing output *)
Definition fetch (get : lookup) (id : bytes) : res (output * bool) :=
  match get id with Err ExplorerNoContent => Err AtomicSwapContractNotFound | r => r end.

(** TFChainWallet.py:880-982: [verify].  [t1], [t2]: the chain time when asked for the first and the second time (942, 948). *)
Definition verify (t1 t2 : Z) (addrs : list pystr) (get : lookup) (given : option contract) (id : bytes)
    (amount : option N) (secret_hash : option bval) (min_refund : option lockval) (sender receiver : bool) : res contract :=
  do k <- match given with
          | None =>
              do f <- fetch get id;
              let '(o, spent) := f in
              if spent then do _ <- contract_new o false; Err AtomicSwapContractSpent
              else contract_new o true
          | Some k => do _ <- guard (listN_eqb (k_id k) id) AtomicSwapContractInvalid; Ok k
          end;
  do _ <- match amount with None => Ok tt | Some a => guard (a =? k_amount k) AtomicSwapContractInvalid end;
  do _ <- match secret_hash with
          | None => Ok tt
          | Some v => do h <- hash_new v; do b <- hash_cmp k h; guard b AtomicSwapContractInvalid
          end;
  do _ <- match min_refund with
          | None => Ok tt
          | Some v =>
              do m <- match v with
                      | LInt z => Ok z
                      | LDuration _ | LDate _ => lock_new t1 v      (* str *)
                      | _ => Err TypeError
                      end;
              let min_duration := Z.max 0 (m - t1) in
              let duration := if (k_refund k <=? t2)%Z then 0%Z else (k_refund k - t2)%Z in
              if (min_duration <=? 0)%Z then guard (duration =? 0)%Z AtomicSwapContractInvalid
              else guard (negb (duration <? min_duration)%Z) AtomicSwapContractInvalid
          end;
  do _ <- (if sender then do b <- uh_in (k_sender k) addrs; guard b AtomicSwapContractInvalid else Ok tt);
  do _ <- (if receiver then do b <- uh_in (k_receiver k) addrs; guard b AtomicSwapContractInvalid else Ok tt);
  Ok k.

(** TFChainWallet.py:1159-1206: [_claim_contract] up to the submission *)
Definition claim (primary : pystr) (ks : keys) (fee : N) (k : contract) (as_sender : bool) (secret : option bytes) (data : bytes) : res txn :=
  do d <- data_new data;
  do _ <- guard (fee <=? k_amount k) NameError;      (* a negative Currency, PrimitiveTypes.py:225 *)
  let t := T1 (mkstd false [mkin (k_id k) (FSwap pk_default None secret) (Some (contract_output k))]
                     [mkout (k_amount k - fee) (CUnlockHash (if as_sender then k_sender k else k_receiver k)) []] [] [] [fee] d) in
  do qs <- requests H t;
  do _ <- guard (negb (length qs =? 0)%nat) RuntimeError;     (* Exception("BUG: ...") *)
  match sign_loop H sign primary ks qs t 0 with
  | (t', Ok _) => do b <- t_is_fulfilled t'; do _ <- guard b RuntimeError; Ok t'
  | (_, Err e) => Err e
  end.

(** types/FulfillmentTypes.py:515-519: the secret of [redeem].  The fulfilment is made of the secret as given: [None] leaves it without secret. *)
Definition secret_opt (v : bval) : res (option bytes) :=
  match v with BVNone => Ok None | _ => do s <- secret_new v; Ok (Some s) end.
(** TFChainWallet.py:984-1021 *)
Definition redeem (primary : pystr) (ks : keys) (get : lookup) (fee : N) (id : bytes) (secret : bval) (data : bytes) : res txn :=
  do f <- fetch get id;
  let '(o, spent) := f in
  do k <- contract_new o false;
  do _ <- guard (negb spent) AtomicSwapContractSpent;
  do b <- verify_secret k secret;
  do _ <- guard b AtomicSwapInvalidSecret;
  do b <- uh_in (k_receiver k) (map fst ks);
  do _ <- guard b AtomicSwapForbidden;
  do s <- secret_opt secret;
  claim primary ks fee k false s data.
(** TFChainWallet.py:1023-1062: [refund]; [now]: the chain time *)
Definition refund (now : Z) (primary : pystr) (ks : keys) (get : lookup) (fee : N) (id : bytes) (data : bytes) : res txn :=
  do f <- fetch get id;
  let '(o, spent) := f in
  do k <- contract_new o false;
  do _ <- guard (negb spent) AtomicSwapContractSpent;
  do _ <- guard (negb (now <? k_refund k)%Z) AtomicSwapForbidden;
  do b <- uh_in (k_sender k) (map fst ks);
  do _ <- guard b AtomicSwapForbidden;
  claim primary ks fee k true None data.
End Swap.
