(** Model of the signing of transactions: /repo/tfchain/types/transactions/Base.py:273-329, the own signatures of the
    minting, 3Bot and ERC20 registration transactions, and /repo/tfchain/TFChainWallet.py:430-548. *)
From Verif Require Import Base Encoders Primitive Types Conditions Fulfillments ThreeBotTypes Txn.

(** types/FulfillmentTypes.py:99-120: Who receives a signature: the fulfilment of a coin or block stake input, the mint fulfilment, or the transaction.
    Fulfilments of different inputs are different objects. *)
Inductive cb := CbCoin (i : nat) | CbStake (i : nat) | CbMint | CbSelf.
(** types/FulfillmentTypes.py:104-120, types/transactions/Base.py:312-329: A signature request of a transaction: its callback, the marker word hashed for an own signature, the request. *)
Record treq := mktq { q_cb : cb; q_word : bytes; q_rq : request }.

(** Python's assignment to the object at an index, used for types/transactions/Base.py:273-284 *)
Fixpoint set_nth {A} (l : list A) (i : nat) (x : A) : list A :=
  match l, i with [], _ => [] | _ :: l, O => x :: l | y :: l, S i => y :: set_nth l i x end.
(** types/IO.py:50-62: the fulfilment of an input changed in place *)
Definition set_in_ff (l : list input) (i : nat) (f : ff) : list input :=
  match nth_error l i with Some x => set_nth l i (mkin (i_parent x) f (i_out x)) | None => l end.

(** types/transactions/Base.py:126-132: assignments to the fulfilment of coin input [i] *)
Definition set_cin (t : txn) (g : list input -> list input) : txn :=
  match t with
  | T1 t => T1 (mkstd (s_legacy t) (g (s_cin t)) (s_cout t) (s_bin t) (s_bout t) (s_fees t) (s_data t))
  | T208 t => T208 (mkconv (c_addr t) (c_value t) (c_fee t) (g (c_cin t)) (c_refund t))
  | T210 t => T210 (mkreg (r_pk t) (r_sig t) (r_fee t) (option_map g (r_cin t)) (r_refund t))
  | T144 t => T144 (mkbot (b_addrs t) (b_names t) (b_months t) (b_fee t) (g (b_cin t)) (b_refund t) (b_pk t) (b_sig t))
  | T145 t => T145 (mkupd (u_id t) (u_addr_add t) (u_addr_del t) (u_name_add t) (u_name_del t) (u_months t) (u_fee t)
                          (g (u_cin t)) (u_refund t) (u_sig t) (u_parent t))
  | T146 t => T146 (mkname (n_sender t) (n_receiver t) (n_names t) (n_fee t) (option_map g (n_cin t)) (n_refund t)
                           (n_ssig t) (n_rsig t) (n_spk t) (n_rpk t))
  | TMint _ | T209 _ => t
  end.
(** types/transactions/Base.py:142-148 *)
Definition set_bin (t : txn) (g : list input -> list input) : txn :=
  match t with
  | T1 t => T1 (mkstd (s_legacy t) (s_cin t) (s_cout t) (g (s_bin t)) (s_bout t) (s_fees t) (s_data t))
  | _ => t
  end.
(** types/transactions/Minting.py:112-120, 290-298 *)
Definition set_mint_ff (t : txn) (f : ff) : txn :=
  match t with
  | TMint m => TMint (mkmint (Some f) (m_new m) (m_fees m) (m_data m) (m_nonce m) (m_parent m))
  | _ => t
  end.
(** types/FulfillmentTypes.py:99-120: the object a request calls back *)
Definition get_ff (t : txn) (c : cb) : option ff :=
  match c with
  | CbCoin i => match coin_inputs t with Ok l => option_map i_ff (nth_error l i) | Err _ => None end
  | CbStake i => option_map i_ff (nth_error (blockstake_inputs t) i)
  | CbMint => match t with TMint m => m_ff m | _ => None end
  | CbSelf => None
  end.
(** types/FulfillmentTypes.py:99-102, 148-166: that object changed in place *)
Definition set_ff (t : txn) (c : cb) (f : ff) : txn :=
  match c with
  | CbCoin i => set_cin t (fun l => set_in_ff l i f)
  | CbStake i => set_bin t (fun l => set_in_ff l i f)
  | CbMint => set_mint_ff t f
  | CbSelf => t
  end.

Section Hash.
Variable H : bytes -> bytes.

(** types/transactions/Base.py:273-284 with types/IO.py:96-109, 283-296 *)
Fixpoint in_requests (mk : nat -> cb) (i : nat) (l : list input) : res (list treq) :=
  match l with
  | [] => Ok []
  | x :: l =>
      do a <- match i_out x with None => Ok [] | Some o => ff_requests H (i_ff x) (o_cond o) end;
      do r <- in_requests mk (S i) l;
      Ok (map (mktq (mk i) []) a ++ r)
  end.
(** a BlockstakeInput without parent output has the default one (types/IO.py:251-263) *)
Definition stake_in (x : input) : input := match i_out x with None => mkin (i_parent x) (i_ff x) (Some out_default) | Some _ => x end.
(** [_extra_signature_requests_new]: types/transactions/ERC20.py:666-682, types/transactions/ThreeBot.py:423-437, 864-878, 1235-1263 *)
Definition own_request (k : option pubkey) (s : bsig) (w : bytes) : res (list treq) :=
  match k, s with
  | Some k, None => do u <- pk_unlockhash H k; Ok [mktq CbSelf w (mkrq u false)]
  | _, _ => Ok []
  end.
(** types/transactions/ThreeBot.py:23 *)
Definition W_SENDER : bytes := s2b "sender".          (** types/transactions/ThreeBot.py:24: ThreeBot.py:24 *)
Definition W_RECEIVER : bytes := s2b "receiver".      (** types/transactions/ERC20.py:411-412: ThreeBot.py:25 *)
Definition W_REGISTRATION : bytes := s2b "registration".   (** types/transactions/Base.py:286-291, Minting.py:188-195, 382-389, ERC20.py:666-682, ThreeBot.py:423-437, 864-878, 1235-1246: ERC20.py:411 *)
Definition own_requests (t : txn) : res (list treq) :=
  match t with
  | TMint m =>
      match m_parent m with
      | None => Ok []
      | Some c => match m_ff m with
                  | None => Err AttributeError
                  | Some f => do a <- ff_requests H f c; Ok (map (mktq CbMint []) a)
                  end
      end
  | T144 b => own_request (b_pk b) (b_sig b) W_SENDER
  | T145 u => own_request (u_parent u) (u_sig u) W_SENDER
  | T210 r => own_request (r_pk r) (r_sig r) W_REGISTRATION
  | T146 n => do a <- own_request (n_spk n) (n_ssig n) W_SENDER; do b <- own_request (n_rpk n) (n_rsig n) W_RECEIVER; Ok (a ++ b)
  | _ => Ok []
  end.
(** types/transactions/Base.py:273-284 [signature_requests_new] *)
Definition requests (t : txn) : res (list treq) :=
  do l <- coin_inputs t;
  do a <- in_requests CbCoin 0 l;
  do b <- in_requests CbStake 0 (map stake_in (blockstake_inputs t));
  do c <- own_requests t;
  Ok (a ++ b ++ c).

(** types/IO.py:111-117 *)
Definition in_is_fulfilled (x : input) : res bool :=
  match i_out x with None => Ok false | Some o => ff_is_fulfilled (i_ff x) (o_cond o) end.
(** types/transactions/Base.py:293-300, the loop; block stake inputs are not looked at *)
Fixpoint all_fulfilled (acc : bool) (l : list input) : res bool :=
  match l with
  | [] => Ok acc
  | x :: l => do b <- (if acc then in_is_fulfilled x else Ok false); all_fulfilled b l
  end.
(** types/transactions/Base.py:302-309, Minting.py:197-200, 391-394, ERC20.py:684-685, ThreeBot.py:439-440, 880-881, 1265-1266 *)
Definition own_is_fulfilled (t : txn) : res bool :=
  match t with
  | TMint m => match m_parent m with
               | None => Ok false
               | Some c => ff_is_fulfilled (match m_ff m with Some f => f | None => FSingle pk_default None end) c
               end
  | T144 b => Ok (is_some (b_sig b)) | T145 u => Ok (is_some (u_sig u)) | T210 r => Ok (is_some (r_sig r))
  | T146 n => Ok (is_some (n_ssig n) && is_some (n_rsig n))
  | _ => Ok true
  end.
(** types/transactions/Base.py:293-300 [is_fulfilled] *)
Definition t_is_fulfilled (t : txn) : res bool :=
  do b <- own_is_fulfilled t; do l <- coin_inputs t; all_fulfilled b l.

(** The setters of own signatures (types/transactions/ThreeBot.py:274-279, 681-686, 1047-1052, 1059-1064, types/transactions/ERC20.py:452-457) *)
Definition arr_sig (v : bval) : res bsig := match v with BVNone => Ok None | _ => do s <- sig_new v; Ok (Some (true, s)) end.
(** [signature_add] of a transaction: types/transactions/ThreeBot.py:295-302, 702-709, 1094-1104, types/transactions/ERC20.py:553-560 *)
Definition same_key (k : option pubkey) (pk : pubkey) : res unit :=
  match k with
  | None => Err AttributeError
  | Some k => do u <- pk_unlockhash H k; do v <- pk_unlockhash H pk; guard (uh_eqb u v) ValueError
  end.
(** types/transactions/ThreeBot.py:295-302, 702-709, 1094-1104, ERC20.py:553-560 *)
Definition self_signature_add (t : txn) (pk : pubkey) (v : bval) : txn * res unit :=
  let r := match t with
  | T144 b => do _ <- same_key (b_pk b) pk; do s <- arr_sig v;
      Ok (T144 (mkbot (b_addrs b) (b_names b) (b_months b) (b_fee b) (b_cin b) (b_refund b) (b_pk b) s))
  | T145 u => do _ <- same_key (u_parent u) pk; do s <- arr_sig v;
      Ok (T145 (mkupd (u_id u) (u_addr_add u) (u_addr_del u) (u_name_add u) (u_name_del u) (u_months u) (u_fee u)
                      (u_cin u) (u_refund u) s (u_parent u)))
  | T210 r => do _ <- same_key (r_pk r) pk; do s <- arr_sig v; Ok (T210 (mkreg (r_pk r) s (r_fee r) (r_cin r) (r_refund r)))
  | T146 n =>
      do u <- pk_unlockhash H pk; do us <- pk_unlockhash H (opk (n_spk n));
      if uh_eqb u us
      then do s <- arr_sig v; Ok (T146 (mkname (n_sender n) (n_receiver n) (n_names n) (n_fee n) (n_cin n) (n_refund n)
                                               s (n_rsig n) (n_spk n) (n_rpk n)))
      else do ur <- pk_unlockhash H (opk (n_rpk n));
           if uh_eqb u ur
           then do s <- arr_sig v; Ok (T146 (mkname (n_sender n) (n_receiver n) (n_names n) (n_fee n) (n_cin n) (n_refund n)
                                                    (n_ssig n) s (n_spk n) (n_rpk n)))
           else Err ValueError
  | _ => Err AttributeError
  end in
  match r with Ok t' => (t', Ok tt) | Err e => (t, Err e) end.

(** What a request hashes besides the transaction, for the key of the signer: InputSignatureHashFactory (types/transactions/Base.py:312-329)
    (** TFChainWallet.py:430-513 *)
    with the closures of FulfillmentTypes.py and of the own requests. *)
Definition q_extras (t : txn) (q : treq) (pk : pubkey) : list extra :=
  let fx := match get_ff t (q_cb q) with Some f => ff_extras f pk | None => [] end in
  match q_cb q with
  | CbCoin i | CbStake i => XInt (Z.of_nat i) :: fx
  | CbMint => fx
  | CbSelf => [XBytes (q_word q)]
  end.
(** types/FulfillmentTypes.py:148-166 [signature_fulfill] on the transaction the request came from *)
Definition t_fulfil (t : txn) (q : treq) (pk : pubkey) (v : bval) : txn * res unit :=
  match q_cb q with
  | CbSelf => match fulfil_check H (q_rq q) (Some pk) with
              | Err e => (t, Err e)
              | Ok pk => self_signature_add t pk v
              end
  | c => match get_ff t c with
         | Some f => match fulfil H (q_rq q) f (Some pk) v with (_, f', r) => (set_ff t c f', r) end
         | None => (t, Err AttributeError)
         end
  end.

(** ** The wallet *)
(** Key pairs by address text, in the order they were added; the first is the primary one.  A key pair is represented by
    its public key; [sign k h] is what its private key makes of a hash. *)
Variable sign : pubkey -> bytes -> bytes.
(** TFChainWallet.py:588-604 [_key_pairs] *)
Definition keys := list (pystr * pubkey).
(** Python's dict.get, TFChainWallet.py:534-548 *)
Fixpoint kfind (a : pystr) (ks : keys) : option pubkey :=
  match ks with [] => None | (b, k) :: ks => if listN_eqb a b then Some k else kfind a ks end.
(** TFChainWallet.py:534-548 [key_pair_get]: None for KeyError *)
Definition key_pair_get (primary : pystr) (ks : keys) (a : pystr) : option pubkey :=
  if listN_eqb (firstn 2 a) (s2b "00") then kfind primary ks else kfind a ks.
(** TFChainWallet.py:484-494: , the loop over the requests; the transaction is changed in place *)
Fixpoint sign_loop (primary : pystr) (ks : keys) (qs : list treq) (t : txn) (n : nat) : txn * res nat :=
  match qs with
  | [] => (t, Ok n)
  | q :: qs =>
      match uh_str H (rq_uh (q_rq q)) with
      | Err e => (t, Err e)
      | Ok a =>
          match key_pair_get primary ks a with
          | None => sign_loop primary ks qs t n
          | Some k =>
              match signature_hash H t (q_extras t q k) with
              | Err e => (t, Err e)
              | Ok h => match t_fulfil t q k (BVBytes (sign k h)) with
                        | (t', Ok _) => sign_loop primary ks qs t' (S n)
                        | (t', Err e) => (t', Err e)
                        end
              end
          end
      end
  end.
(** TFChainWallet.py:450-466: known outputs become parents.  [known]: the spendable outputs of the wallet's balance, by id. *)
Definition attach (known : bytes -> option output) (l : list input) : list input :=
  map (fun x => match known (i_parent x) with Some o => mkin (i_parent x) (i_ff x) (Some o) | None => x end) l.
(** TFChainWallet.py:468-475: the mint condition in force, and the fulfilment for it *)
Definition mint_prepare (mc : res cond) (t : txn) : txn * res unit :=
  match t with
  | TMint m =>
      match mc with
      | Err e => (t, Err e)
      | Ok c =>
          let set f := TMint (mkmint f (m_new m) (m_fees m) (m_data m) (m_nonce m) (Some c)) in
          match m_ff m with
          | Some f => (set (Some f), Ok tt)
          | None => match from_condition c with Ok f => (set (Some f), Ok tt) | Err e => (set None, Err e) end
          end
      end
  | _ => (t, Ok tt)
  end.
(** TFChainWallet.py:430-513: [transaction_sign] on a Transaction object: the transaction afterwards, and whether something was signed and
    whether it was submitted.  The update of the balance after a submission is not part of this model. *)
Definition transaction_sign (primary : pystr) (ks : keys) (known : bytes -> option output) (mc : res cond) (submit : bool) (t : txn)
  : txn * res (bool * bool) :=
  match coin_inputs t with
  | Err e => (t, Err e)
  | Ok _ =>
      match mint_prepare mc (set_cin t (attach known)) with
      | (t1, Err e) => (t1, Err e)
      | (t1, Ok _) =>
          match requests t1 with
          | Err e => (t1, Err e)
          | Ok [] => (t1, Ok (false, false))
          | Ok qs =>
              match sign_loop primary ks qs t1 0 with
              | (t2, Err e) => (t2, Err e)
              | (t2, Ok n) => (t2, do b <- t_is_fulfilled t2; Ok ((0 <? n)%nat, submit && b))
              end
          end
      end
  end.

End Hash.
