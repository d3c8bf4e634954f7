(** Which of two heights told by an explorer is the greater one (C47).  Explorers tell numbers; Python compares texts as well, and a boolean as 0 or 1. *)
From Verif Require Import Base Primitive.

Inductive number : json -> Z -> Prop :=
| a_number z : number (JNum z) z
| a_false : number (JBool false) 0
| a_true : number (JBool true) 1.
(** [a] comes before [b] in the dictionary: it is a proper beginning of [b], or has the smaller character at the first difference. *)
Definition before (a b : pystr) : Prop :=
  (exists c r, b = a ++ c :: r) \/ (exists p c d r q, a = p ++ c :: r /\ b = p ++ d :: q /\ c < d).
Inductive less : json -> json -> Prop :=
| less_number a b m n : number a m -> number b n -> (m < n)%Z -> less a b
| less_text a b : before a b -> less (JStr a) (JStr b).
Inductive comparable : json -> json -> Prop :=
| two_numbers a b m n : number a m -> number b n -> comparable a b
| two_texts a b : comparable (JStr a) (JStr b).
