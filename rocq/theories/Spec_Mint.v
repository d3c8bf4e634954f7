(** Vocabulary for the creation of coins: who may create them. *)
From Verif Require Import Base Types Conditions Fulfillments Txn TxnSign Spec_Types Spec_Fulfil Spec_Sign Spec_Swap Spec_Together.

(** The condition in force demands a signature of an address, or signatures of a number of different owners; it may be locked. *)
Definition mint_rule (H : bytes -> bytes) (c : cond) : Prop :=
  (exists u, cond_unwrap c = CUnlockHash u /\ full_uh u /\ uh_type u <> 0%Z /\ real_address H u) \/
  (exists us n, cond_unwrap c = CMulti us n /\ owners us /\ us <> []).
(** The keys suffice for the condition: that of the address, or those of enough owners. *)
Definition in_charge (H : bytes -> bytes) (ks : keys) (c : cond) : Prop :=
  (exists u, cond_unwrap c = CUnlockHash u /\ has_key H ks u) \/
  (exists us n held, cond_unwrap c = CMulti us n /\ NoDup held /\ (forall u, In u held -> In u us /\ has_key H ks u) /\ (n <= Z.of_nat (length held))%Z).
