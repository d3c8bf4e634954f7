(** How numbers, amounts, times and durations are shown as texts (C08, C87, C88). *)
From Verif Require Import Base Types Dates Spec_Amounts Spec_ERC20 Spec_Texts.

(** A whole number: its digits, the first of which is 0 only if it is the only one *)
Definition whole_shown (s : pystr) (n : N) : Prop := decimal s n /\ s <> [] /\ (forall t, s = 48 :: t -> t = []).
(** An amount of [m] smallest units (10^-9 TFT): the whole TFT, and if there is a fraction, a point and at most nine decimals, the last of which is not 0 *)
Definition amount_shown (s : pystr) (m : N) : Prop :=
  exists ip fp w v, s = ip ++ (match fp with [] => [] | _ => 46 :: fp end) /\ whole_shown ip w /\ decimal fp v /\ (length fp <= 9)%nat /\
    (forall t, fp <> t ++ [48]) /\ m = w * 10 ^ 9 + v * 10 ^ (9 - N.of_nat (length fp)).
Definition tft_shown (s : pystr) (m : N) : Prop := exists a, amount_shown a m /\ s = a ++ s2b " TFT".
(** A number of two digits *)
Definition two_shown (s : pystr) (n : Z) : Prop := exists v, decimal s v /\ length s = 2%nat /\ n = Z.of_N v.
(** A broken-down time: 2019/03/21 14:05:00 *)
Definition date_shown (s : pystr) (t : tm) : Prop :=
  let '(y, mo, d, h, mi, se) := t in
  exists a b c e f g, (exists v, whole_shown a v /\ y = Z.of_N v) /\ two_shown b mo /\ two_shown c d /\ two_shown e h /\ two_shown f mi /\ two_shown g se /\
    s = a ++ s2b "/" ++ b ++ s2b "/" ++ c ++ s2b " " ++ e ++ s2b ":" ++ f ++ s2b ":" ++ g.
(** A number with its unit, left out if it is 0 *)
Definition part_shown (s : pystr) (n : N) (u : string) : Prop := (n = 0 /\ s = []) \/ (0 < n /\ exists t, whole_shown t n /\ s = t ++ s2b u).
(** A duration: days, hours, minutes and seconds *)
Definition duration_shown (s : pystr) (n : N) : Prop :=
  exists d h m x a b c e, part_shown a d "d" /\ part_shown b h "h" /\ part_shown c m "m" /\ part_shown e x "s" /\
    h < 24 /\ m < 60 /\ x < 60 /\ n = d * 86400 + h * 3600 + m * 60 + x /\ s = a ++ b ++ c ++ e.
(** An identifier: 64 digits; nothing but zeros where it is not known *)
Definition id_shown (s : pystr) (id : bytes) : Prop := lower_text s (match id with [] => repeat 0 32 | _ => id end).
