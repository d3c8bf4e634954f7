(** Property C05: the Merkle root of pushed leaves. *)
From Verif Require Import Base Merkle Spec_Merkle MerkleFacts.

Theorem C05_merkle_root : forall (H : bytes -> bytes) (leaves : list bytes) (r : bytes), leaves <> [] ->
  (root H (push_all H leaves) = Ok r <-> merkle H leaves r).
Proof. exact root_iff. Qed.
Print Assumptions C05_merkle_root.

(** The root always exists and the specification determines it. *)
Theorem C05_merkle_total : forall (H : bytes -> bytes) (leaves : list bytes), leaves <> [] ->
  exists r, root H (push_all H leaves) = Ok r /\ merkle H leaves r.
Proof. exact merkle_root. Qed.
Print Assumptions C05_merkle_total.
Theorem C05_merkle_spec_deterministic : forall (H : bytes -> bytes) ls r r',
  merkle H ls r -> merkle H ls r' -> r = r'.
Proof. exact merkle_fun. Qed.
Print Assumptions C05_merkle_spec_deterministic.

(** Five leaves: ((0 1) (2 3)) 4, shown with the "hash" that keeps its input. *)
Example C05_merkle_root_ex :
  root (fun x => x) (push_all (fun x => x) [[10]; [11]; [12]; [13]; [14]]) =
  Ok (1 :: (1 :: (1 :: [0; 10] ++ [0; 11]) ++ (1 :: [0; 12] ++ [0; 13])) ++ [0; 14]).
Proof. reflexivity. Qed.

(** The root of an empty tree is not the hash of nothing as the comment in the code says: it raises. *)
Theorem C05_empty_root_raises : forall (H : bytes -> bytes), root H (push_all H []) = Err TypeError.
Proof. exact root_empty. Qed.
Print Assumptions C05_empty_root_raises.
