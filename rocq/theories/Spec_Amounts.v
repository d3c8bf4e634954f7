(** Amounts and whole numbers written as texts (C82). *)
From Verif Require Import Base Primitive.

Definition space (c : N) : Prop := 9 <= c <= 13 \/ c = 32 \/ 28 <= c <= 31.
Definition digit (c : N) : Prop := 48 <= c <= 57.
(** The number some digits write. *)
Inductive decimal : pystr -> N -> Prop :=
| decimal_none : decimal [] 0
| decimal_digit ds v c : decimal ds v -> digit c -> decimal (ds ++ [c]) (10 * v + (c - 48)).
(** [signed_by t b neg]: [t] is [b] after a sign, if any. *)
Definition signed_by (t b : pystr) (neg : bool) : Prop := (t = b /\ neg = false) \/ (t = 43 :: b /\ neg = false) \/ (t = 45 :: b /\ neg = true).
(** The text [t] without the underscores in it. *)
Inductive without_underscores : pystr -> pystr -> Prop :=
| wu_end : without_underscores [] []
| wu_skip t r : without_underscores t r -> without_underscores (95 :: t) r
| wu_keep c t r : c <> 95 -> without_underscores t r -> without_underscores (c :: t) (c :: r).
(** [exponent x k]: [x] is empty, or e or E and a whole number. *)
Definition exponent (x : pystr) (k : Z) : Prop :=
  (x = [] /\ k = 0%Z) \/
  exists c t ds neg v, x = c :: t /\ (c = 69 \/ c = 101) /\ signed_by t ds neg /\ ds <> [] /\ decimal ds v /\ k = (if neg : bool then - Z.of_N v else Z.of_N v)%Z.
(** [numeral t v e]: [t] writes [v * 10^e], such as 12, 1.5, .5, 1., 12e3, 1.5E-3 *)
Definition numeral (t : pystr) (v : N) (e : Z) : Prop :=
  exists ip f fp x k, t = ip ++ f ++ x /\ ((f = [] /\ fp = []) \/ f = 46 :: fp) /\ ip ++ fp <> [] /\ decimal (ip ++ fp) v /\ exponent x k /\ e = (k - Z.of_nat (length fp))%Z.
Definition tft (u : pystr) : Prop := exists a b c, u = [a; b; c] /\ (a = 84 \/ a = 116) /\ (b = 70 \/ b = 102) /\ (c = 84 \/ c = 116).
(** [amount_text s n]: between blanks, [s] writes an amount of [n] smallest units (nine decimals), with at most nine decimals and the unit TFT if any. *)
Definition amount_text (s : pystr) (n : N) : Prop :=
  exists l b t d gap u r v e, s = l ++ b ++ gap ++ u ++ r /\ Forall space l /\ Forall space gap /\ Forall space r /\ (u = [] \/ tft u) /\
    without_underscores b t /\ signed_by t d false /\ numeral d v e /\ (-9 <= e)%Z /\ n = v * 10 ^ Z.to_N (e + 9).
(** Digits in groups with single underscores between them, and all those digits. *)
Inductive grouped : pystr -> pystr -> Prop :=
| one_group d : d <> [] -> Forall digit d -> grouped d d
| next_group d g ds : d <> [] -> Forall digit d -> grouped g ds -> grouped (d ++ 95 :: g) (d ++ ds).
Definition int_text (s : pystr) (z : Z) : Prop :=
  exists l b g ds neg r v, s = l ++ b ++ r /\ Forall space l /\ Forall space r /\ signed_by b g neg /\ grouped g ds /\ decimal ds v /\ z = (if neg : bool then - Z.of_N v else Z.of_N v)%Z.
(** [decimal_text s neg v e]: between blanks, [s] writes [v * 10^e], negative if [neg]. *)
Definition decimal_text (s : pystr) (neg : bool) (v : N) (e : Z) : Prop :=
  exists l b t d r, s = l ++ b ++ r /\ Forall space l /\ Forall space r /\ without_underscores b t /\ signed_by t d neg /\ numeral d v e.
