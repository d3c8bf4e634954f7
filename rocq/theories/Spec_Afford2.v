(** What a wallet can pay, according to the chain. *)
From Verif Require Import Base Primitive Types Conditions Fulfillments Txn TxnSign Wallet Explorer Ops Spec_Wallet Spec_Types Spec_Sign Spec_Swap Spec_Fits Spec_Explorer Spec_Load Spec_Session.

(** The histories show at most 99 outputs, free to be spent at this height and time and of different ids, that are worth the amount together. *)
Definition can_pay (H : bytes -> bytes) (height time : Z) (hs : list (pystr * uhresult)) (amount : N) : Prop :=
  exists s, NoDup (ids s) /\ Forall (free H height time hs) s /\ (length s <= 99)%nat /\ amount <= worth s.
(** The wallet holds the key of the address under it, and it is not the key without algorithm and bytes. *)
Definition holds_key (H : bytes -> bytes) (ks : keys) (a : pystr) : Prop := (exists k, In (a, k) ks) /\ pk_address H pk_default <> Ok a.
(** The outputs of the histories have conditions of the network, and what they show as free can be written in 1000 digits. *)
Definition real_outputs (H : bytes -> bytes) (height time : Z) (hs : list (pystr * uhresult)) : Prop :=
  (forall a r o, In (a, r) hs -> told H a (h_txns r) o -> network_cond (o_cond o)) /\
  (forall s, NoDup (ids s) -> Forall (free H height time hs) s -> modest (worth s)).
