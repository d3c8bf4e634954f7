(** Specification of the Merkle root: leaves are hashed with prefix 0; a tree of more than one leaf is split
    so that the left part has the largest power of two smaller than the number of leaves. *)
From Verif Require Import Base.

Inductive merkle (H : bytes -> bytes) : list bytes -> bytes -> Prop :=
| merkle_leaf d : merkle H [d] (H (0 :: d))
| merkle_node l r a b k :
    length l = (2 ^ k)%nat -> (1 <= length r <= 2 ^ k)%nat ->
    merkle H l a -> merkle H r b -> merkle H (l ++ r) (H (1 :: a ++ b)).
