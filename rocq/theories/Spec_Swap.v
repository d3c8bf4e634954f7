(** Vocabulary for atomic swaps. *)
From Verif Require Import Base Primitive Types Conditions Fulfillments Txn TxnSign Spec_Types Spec_Fulfil Spec_Sign AtomicSwap.

(** The wallet has the key of the address. *)
Definition has_key (H : bytes -> bytes) (ks : keys) (u : uh) : Prop := exists a k, In (a, k) ks /\ pk_unlockhash H k = Ok u.
(** The contract an output is. *)
Definition is_contract (o : output) (k : contract) : Prop :=
  o_cond o = CSwap (k_sender k) (k_receiver k) (k_hash k) (k_refund k) /\ o_value o = k_amount k /\ o_id o = k_id k.
(** The time an expectation about the refund time denotes. *)
Definition expected_time (now : Z) (v : lockval) (m : Z) : Prop :=
  match v with LInt z => m = z | LDuration (Ok z) => m = (now + z)%Z | LDate (Ok t) => m = t | _ => False end.
(** A time that is already over at [now] demands that the contract is refundable, another one that it stays locked at
    least as long as it takes until then. *)
Definition refund_as_expected (t1 t2 m refund : Z) : Prop :=
  ((m <= t1 -> refund <= t2) /\ (t1 < m -> m - t1 <= refund - t2))%Z.
(** Every expectation given is met. *)
Definition expectations (H : bytes -> bytes) (t1 t2 : Z) (ks : keys) (k : contract)
  (amount : option N) (secret_hash : option bval) (min_refund : option lockval) (sender receiver : bool) : Prop :=
  (forall a, amount = Some a -> k_amount k = a) /\
  (forall v, secret_hash = Some v -> exists h, hash_new v = Ok h /\ k_hash k = Some h) /\
  (forall v, min_refund = Some v -> exists m, expected_time t1 v m /\ refund_as_expected t1 t2 m (k_refund k)) /\
  (sender = true -> has_key H ks (k_sender k)) /\ (receiver = true -> has_key H ks (k_receiver k)).
(** The address is not the one of the key without algorithm and bytes, which no wallet has. *)
Definition real_address (H : bytes -> bytes) (u : uh) : Prop := pk_unlockhash H pk_default <> Ok u.
(** The transaction claiming a contract for an address with a key of the wallet: one input with a signature over the
    transaction, the key and the secret (if there is one), one output worth the contract minus the fee, the fee. *)
Definition claims (H : bytes -> bytes) (sign : pubkey -> bytes -> bytes) (k : contract) (o : output) (by_ : pubkey) (to : uh) (secret : option bytes) (fee : N) (data : bytes) (t : txn) : Prop :=
  exists d,
    t = T1 (mkstd false [mkin (k_id k) (FSwap by_ (Some (sign by_ (H d))) secret) (Some o)]
                  [mkout (k_amount k - fee) (CUnlockHash to) []] [] [] [fee] data) /\
    sig_input H t (XInt 0 :: XKey by_ :: match secret with Some s => [XSecret s] | None => [] end) = Ok d /\
    fee <= k_amount k /\ (length data <= 83)%nat.
