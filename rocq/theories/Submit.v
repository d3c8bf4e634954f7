(** Model of what the operations of a wallet do with a finished transaction: they hand it to the explorers and bring their copy
    of the balance up to date, /repo/tfchain/TFChainWallet.py:402-419, 497-513, 668-675, 748-761, 1140-1157, 1190-1206, 1438-1455,
    1667-1685, 2524-2542.  The balance is a local variable of the operation: nobody sees it afterwards (184-229 makes a new one at
    each access), but exceptions of its update are seen. *)
From Verif Require Import Base Encoders Currency Primitive Types Conditions Fulfillments ThreeBotTypes Txn TxnSign Wallet AtomicSwap Ops.

Section Submit.
Variable H : bytes -> bytes.
Variable S256 : bytes -> bytes.
Variable sign : pubkey -> bytes -> bytes.
Variable ip_parse : pystr -> res bytes.

(** TFChainWallet.py:2213-2219 [addresses_multisig] *)
Definition multisig_texts (w : wbal) : res (list pystr) := mapM (fun m => uh_str H (ms_addr m)) (wb_ms w).
(** TFChainWallet.py:414, 504, 508: [str(o.condition.unlockhash) in addresses] *)
Definition is_own (addrs : list pystr) (o : output) : res bool :=
  do u <- cond_unlockhash H (o_cond o); do s <- uh_str H u; Ok (existsb (listN_eqb s) addrs).
(** types/IO.py:64-66: the output an input spends, an empty one if it is not known *)
Definition parent_output (i : input) : output := match i_out i with Some o => o | None => out_default end.
(** TFChainWallet.py:409-410, 1149-1150, 1446-1447, 1675-1676, 2532-2533 *)
Fixpoint spend_all (w : wbal) (ins : list input) : res wbal :=
  match ins with
  | [] => Ok w
  | i :: ins => do w <- wb_output_add H w (parent_output i) false true; spend_all w ins
  end.
(** TFChainWallet.py:503-505, in [transaction_sign]: only the wallet's own *)
Fixpoint spend_own (addrs : list pystr) (w : wbal) (ins : list input) : res wbal :=
  match ins with
  | [] => Ok w
  | i :: ins => do b <- is_own addrs (parent_output i);
                do w <- (if b then wb_output_add H w (parent_output i) false true else Ok w); spend_own addrs w ins
  end.
(** TFChainWallet.py:412-416, 507-511, 754-758, 1152-1154, 1199-1202, 1449-1453, 1678-1682, 2535-2539: the wallet's own outputs get
    their ids (unless they have them, 1152-1154: [assign] is false) and are added to the balance *)
Fixpoint track (t : txn) (addrs : list pystr) (assign : bool) (i : nat) (outs : list output) (w : wbal) : res (list output * wbal) :=
  match outs with
  | [] => Ok ([], w)
  | o :: outs =>
      do b <- is_own addrs o;
      do r <- (if b then
                 do o <- (if assign then do id <- coin_outputid H t (Z.of_nat i); Ok (mkout (o_value o) (o_cond o) id) else Ok o);
                 do w <- wb_output_add H w o false false; Ok (o, w)
               else Ok (o, w));
      do s <- track t addrs assign (S i) outs (snd r); Ok (fst r :: fst s, snd s)
  end.
(** The outputs of a transaction changed in place: types/transactions/Base.py:134-140, ThreeBot.py:159-166, 520-527, 965-972,
    ERC20.py:78-84, 483-489, Minting.py:253-260 *)
Definition set_outs (t : txn) (l : list output) : txn :=
  let refund := match l with o :: _ => Some o | [] => None end in
  match t with
  | T1 s => T1 (mkstd (s_legacy s) (s_cin s) l (s_bin s) (s_bout s) (s_fees s) (s_data s))
  | TMint m => TMint (mkmint (m_ff m) (match m_new m with MCond c => MCond c | MCoins _ => MCoins l end) (m_fees m) (m_data m) (m_nonce m) (m_parent m))
  | T208 t => T208 (mkconv (c_addr t) (c_value t) (c_fee t) (c_cin t) refund)
  | T209 t => T209 t
  | T210 t => T210 (mkreg (r_pk t) (r_sig t) (r_fee t) (r_cin t) refund)
  | T144 t => T144 (mkbot (b_addrs t) (b_names t) (b_months t) (b_fee t) (b_cin t) refund (b_pk t) (b_sig t))
  | T145 t => T145 (mkupd (u_id t) (u_addr_add t) (u_addr_del t) (u_name_add t) (u_name_del t) (u_months t) (u_fee t) (u_cin t) refund (u_sig t) (u_parent t))
  | T146 t => T146 (mkname (n_sender t) (n_receiver t) (n_names t) (n_fee t) (n_cin t) refund (n_ssig t) (n_rsig t) (n_spk t) (n_rpk t))
  end.

(** TFChainWallet.py:304-513, 618-761, 798-878, 984-1062, 1250-1386, 1491-1565, 2477-2542: the operations that may submit a transaction.
    Arguments are those of Ops.v, AtomicSwap.v and TxnSign.v *)
Inductive op :=
| OSend (recipient : cond) (amount : N) (f : funding) (data : bytes)
| OSendMany (pays : list (cond * N)) (f : funding) (data : bytes)
| OContract (now : Z) (receiver : uh) (amount : N) (secret_hash : bytes) (lock : Z) (f : funding) (data : bytes) (submit : bool)
| ORedeem (get : lookup) (id : bytes) (secret : bval) (data : bytes)
| ORefund (now : Z) (get : lookup) (id : bytes) (data : bytes)
| ORecordNew (months : Z) (names addrs : option (list (option pystr))) (key : res pubkey) (f : funding)
| ORecordUpdate (now : Z) (rec : Z -> res bot_record) (id months : Z) (na nd aa ad : option (list (option pystr))) (f : funding)
| ONameTransfer (now : Z) (rec : Z -> res bot_record) (sender receiver : Z) (names : option (list (option pystr))) (f : funding)
| OErc20Send (address : bval) (amount : N) (f : funding)
| OErc20Register (key : res pubkey) (f : funding)
| OMinter (mc : res cond) (minter : cond) (nonce : bytes) (data : option bytes)
| OMint (mc : res cond) (recipient : cond) (amount : N) (nonce : bytes) (data : option bytes)
| OSign (mc : res cond) (submit : bool) (t : txn).

(** TFChainWallet.py:447-466: the outputs a wallet can spend, by id; the later one wins *)
Definition known_outputs (w : wbal) (id : bytes) : option output :=
  find (fun o => listN_eqb (o_id o) id)
    (rev (outputs_available (wb_own w) ++ outputs_unconfirmed_available (wb_own w) ++
          flat_map (fun m => outputs_available (ms_bal m) ++ outputs_unconfirmed_available (ms_bal m)) (wb_ms w))).
(** The operations up to the decision to submit (TFChainWallet.py:405, 499, 668, 748, 1145, 1187, 1440, 1669, 2526): the transaction, and
    whether it is to be submitted *)
Definition prepare (x : wctx) (o : op) : res (txn * bool) :=
  match o with
  | OSend c n f d => wallet_send H sign x c n f d
  | OSendMany p f d => wallet_send_many H sign x p f d
  | OContract now r n h l f d s => wallet_contract H sign now x r n h l f d s
  | ORedeem get id s d => do t <- redeem H S256 sign (x_primary x) (x_keys x) get (x_fee x) id s d; Ok (t, true)
  | ORefund now get id d => do t <- AtomicSwap.refund H sign now (x_primary x) (x_keys x) get (x_fee x) id d; Ok (t, true)
  | ORecordNew m n a k f => record_new H sign ip_parse x m n a k f
  | ORecordUpdate now rec id m na nd aa ad f => record_update H sign ip_parse now rec x id m na nd aa ad f
  | ONameTransfer now rec s r n f => name_transfer H sign ip_parse now rec x s r n f
  | OErc20Send a n f => erc20_send H sign x a n f
  | OErc20Register k f => erc20_register H sign x k f
  | OMinter mc c n d => definition_set H sign x mc c n d
  | OMint mc c a n d => coins_new H sign x mc c a n d
  | OSign mc s t => match transaction_sign H sign (x_primary x) (x_keys x) (known_outputs (x_bal x)) mc s t with
                    | (t', Ok (_, b)) => Ok (t', b)
                    | (_, Err e) => Err e
                    end
  end.
(** TFChainWallet.py:407-416, 500-511, 751-758, 1147-1154, 1193-1202, 1443-1453, 1672-1682, 2529-2539: after the submission.
    [own]: the wallet's addresses as looked up now ([addresses], which scans for keys again); [rebal]: the balance as looked up now
    (1196, the claims only) *)
Definition after (own : res (list pystr)) (rebal : res wbal) (x : wctx) (o : op) (t : txn) : res txn :=
  let w := x_bal x in
  match o with
  | OMinter _ _ _ _ => Ok t
  | ORedeem _ _ _ _ | ORefund _ _ _ _ =>
      do w <- rebal; do a <- own; do r <- track t a true 0 (coin_outputs t) w; Ok (set_outs t (fst r))
  | OMint _ _ _ _ _ =>
      do a <- own; do m <- multisig_texts w; do r <- track t (a ++ m) true 0 (coin_outputs t) w; Ok (set_outs t (fst r))
  | OSign _ _ _ =>
      do a <- own; do m <- multisig_texts w;
      do ins <- coin_inputs t; do w <- spend_own (a ++ m) w ins;
      do r <- track t (a ++ m) true 0 (coin_outputs t) w; Ok (set_outs t (fst r))
  | _ =>
      do ins <- coin_inputs t; do w <- spend_all w ins;
      do a <- own; do m <- multisig_texts w;
      do r <- track t (a ++ m) (match o with OContract _ _ _ _ _ _ _ _ => false | _ => true end) 0 (coin_outputs t) w; Ok (set_outs t (fst r))
  end.
(** TFChainWallet.py:402-419, 497-513, 668-675, 748-761, 1140-1157, 1190-1206, 1438-1455, 1667-1685, 2524-2542.  [put]: whether the transaction
    reached an explorer, and the id it returned or the exception (TFChainClient.py:237-252).  The result: the transactions that reached an
    explorer; the transaction with the id it was given, [None] if it is not submitted. *)
Definition run (put : txn -> bool * res bytes) (own : res (list pystr)) (rebal : res wbal) (x : wctx) (o : op) : list txn * res (txn * option bytes) :=
  match prepare x o with
  | Err e => ([], Err e)
  | Ok (t, false) => ([], Ok (t, None))
  | Ok (t, true) => (if fst (put t) then [t] else [], do id <- snd (put t); do t' <- after own rebal x o t; Ok (t', Some id))
  end.
End Submit.
