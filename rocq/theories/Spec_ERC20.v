(** Vocabulary for ERC20 addresses (C44). *)
From Verif Require Import Base Primitive.

(** A hexadecimal digit, and the digits of a text after an optional 0x. *)
Definition hexchar (c : N) : Prop := 48 <= c <= 57 \/ 65 <= c <= 70 \/ 97 <= c <= 102.
Definition digits_of (s t : pystr) : Prop := s = t \/ s = s2b "0x" ++ t \/ s = s2b "0X" ++ t.
Definition prefixed (s : pystr) : Prop := exists t, s = s2b "0x" ++ t \/ s = s2b "0X" ++ t.
(** [t] is the text after the prefix [s] starts with, if it starts with one. *)
Definition after_prefix (s t : pystr) : Prop := s = s2b "0x" ++ t \/ s = s2b "0X" ++ t \/ (~ prefixed s /\ s = t).
(** What Python's [int(text, 16)] reads: between blanks a sign if any, 0x if any, and digits, with single underscores between them (one may follow the 0x). *)
Definition blank (c : N) : Prop := 9 <= c <= 13 \/ c = 32 \/ 28 <= c <= 31.
Inductive digit_groups : pystr -> Prop :=
| last_group d : d <> [] -> Forall hexchar d -> digit_groups d
| more_groups d r : d <> [] -> Forall hexchar d -> digit_groups r -> digit_groups (d ++ 95 :: r).
Definition hex_number (s : pystr) : Prop :=
  exists l sign x g r, s = l ++ sign ++ x ++ g ++ r /\ Forall blank l /\ Forall blank r /\ (sign = [] \/ sign = s2b "+" \/ sign = s2b "-") /\
    (x = [] \/ x = s2b "0x" \/ x = s2b "0X" \/ x = s2b "0x_" \/ x = s2b "0X_") /\ digit_groups g.
(** Digits in pairs with their bytes, and blanks before and between the pairs. *)
Definition digit_value (c x : N) : Prop := (48 <= c <= 57 /\ x = c - 48) \/ (65 <= c <= 70 /\ x = c - 55) \/ (97 <= c <= 102 /\ x = c - 87).
Inductive pairs : pystr -> bytes -> Prop :=
| no_pair : pairs [] []
| skip_blank c t b : (9 <= c <= 13 \/ c = 32) -> pairs t b -> pairs (c :: t) b
| a_pair c d t b x y : digit_value c x -> digit_value d y -> pairs t b -> pairs (c :: d :: t) (16 * x + y :: b).
