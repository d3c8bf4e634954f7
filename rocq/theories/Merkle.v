(** Model of /repo/tfchain/crypto/merkletree.py, over an arbitrary hash function. *)
From Verif Require Import Base.

Section Merkle.
  Variable H : bytes -> bytes.   (* hash_func, merkletree.py:81-91 [sum_] *)

  (** merkletree.py:94-103 [leaf_sum] *)
  Definition leaf_sum (data : bytes) : bytes := H (0 :: data).
  (** merkletree.py:106-116 [node_sum] *)
  Definition node_sum (a b : bytes) : bytes := H (1 :: a ++ b).

  (** merkletree.py:68-78 [SubTree]: height and sum; the [next] pointers are the list structure,
      head (smallest subtree) first. *)
  Definition subtree : Type := nat * bytes.
  (** crypto/merkletree.py:12-25 [Tree]: its subtrees *)
  Definition tree := list subtree.

  (** merkletree.py:119-126 [join_subtree a b]: [a] is the next (taller or equal) subtree *)
  Definition join_subtree (a b : subtree) : subtree := (S (fst a), node_sum (snd a) (snd b)).

  (** merkletree.py:47-50, the while loop of [push] *)
  Fixpoint join_loop (head : subtree) (next : tree) : tree :=
    match next with
    | n :: next' => if (fst head =? fst n)%nat then join_loop (join_subtree n head) next' else head :: next
    | [] => [head]
    end.
  (** merkletree.py:27-50 [push] *)
  Definition push (t : tree) (data : bytes) : tree := join_loop (0%nat, leaf_sum data) t.

  (** merkletree.py:62-65, the while loop of [root] *)
  Fixpoint root_loop (cur : subtree) (next : tree) : bytes :=
    match next with
    | n :: next' => root_loop (join_subtree n cur) next'
    | [] => snd cur
    end.
  (** merkletree.py:52-65 [root].  On an empty tree line 57 calls the builtin [sum] on a function instead
      of the local [sum_], which raises TypeError. *)
  Definition root (t : tree) : res bytes :=
    match t with
    | [] => Err TypeError
    | h :: n => Ok (root_loop h n)
    end.

  (** crypto/merkletree.py:23-25 *)
  Definition tree_new : tree := [].                       (** crypto/merkletree.py:27-50 [push], called for each in turn as in types/ConditionTypes.py:705-713: merkletree.py:23-25 *)
  Definition push_all (ls : list bytes) : tree := fold_left push ls tree_new.
End Merkle.
