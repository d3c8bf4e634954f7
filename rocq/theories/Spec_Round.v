(** Rounding to 28 significant decimal digits, half to even. *)
From Verif Require Import Base.

Definition distance (x y : N) : N := (x - y) + (y - x).
(** [y] is [x] itself if it has at most 28 digits; otherwise, of the multiples of the power of ten which leaves 28 digits, it is the nearest one, and of
    two equally near the even one. *)
Definition rounded (x y : N) : Prop :=
  (x < 10 ^ 28 /\ y = x) \/
  exists k q, 10 ^ (28 + k) <= x < 10 ^ (29 + k) /\ y = q * 10 ^ (1 + k) /\
    (2 * distance x y < 10 ^ (1 + k) \/ (2 * distance x y = 10 ^ (1 + k) /\ N.even q = true)).
(** at most 28 significant digits *)
Definition digits28 (x : N) : Prop := exists q k, q < 10 ^ 28 /\ x = q * 10 ^ k.
