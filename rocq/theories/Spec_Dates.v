(** Vocabulary for duration and date texts (C50, C61). *)
From Verif Require Import Base Dates.

(** a whole number written in digits *)
Definition numeral (t : pystr) (n : N) : Prop := t <> [] /\ digits_val 0 t = Some n.
Definition onumeral (t : option pystr) (n : N) : Prop := match t with Some t => numeral t n | None => n = 0%N end.
(** the longest duration Python's timedelta can hold, plus a second *)
Definition max_duration : Z := (86400 * 10 ^ 9)%Z.
(** what is relied on of Python's float and timedelta: whole numbers are summed exactly, or OverflowError is raised; a text
    that is no number (no digit, or several dots) raises ValueError *)
Definition bad_number (t : option pystr) : Prop :=
  match t with Some t => Forall (fun c => numc c = true) t /\ (forallb (N.eqb 46) t = true \/ (1 < length (filter (N.eqb 46) t))%nat) | None => False end.
Definition td_library (td : option pystr -> option pystr -> option pystr -> option pystr -> res Z) : Prop :=
  (forall d h m s nd nh nm ns, onumeral d nd -> onumeral h nh -> onumeral m nm -> onumeral s ns ->
     td d h m s = let z := (86400 * Z.of_N nd + 3600 * Z.of_N nh + 60 * Z.of_N nm + Z.of_N ns)%Z in
                  if (z <? max_duration)%Z then Ok z else Err OverflowError) /\
  (forall d h m s, bad_number d \/ bad_number h \/ bad_number m \/ bad_number s -> td d h m s = Err ValueError).
(** the texts of durations: at most one number each of days, hours, minutes and seconds, in this order *)
Definition otext (t : option pystr) (u : N) : pystr := match t with Some t => t ++ [u] | None => [] end.
Definition onum (t : option pystr) : Prop := match t with Some t => t <> [] /\ Forall (fun c => numc c = true) t | None => True end.
Definition duration_text (s : pystr) : Prop := exists d h m x, onum d /\ onum h /\ onum m /\ onum x /\
  s = otext d 100 ++ otext h 104 ++ otext m 109 ++ otext x 115.
Definition whole_text (s : pystr) : Prop := s <> [] /\ Forall (fun c => digitb c = true) s.
(** the text without quotes and surrounding blanks *)
Definition bare (s : pystr) : pystr := strip (filter (fun c => negb ((c =? 39) || (c =? 34))%N) s).

(** what is relied on of Python's calendar: reading back printed fields, and local time *)
Definition fields_ok (t : tm) : Prop :=
  let '(y, mo, d, h, mi, s) := t in
  (1000 <= y <= 9999 /\ 1 <= mo <= 12 /\ 1 <= d <= 31 /\ 0 <= h < 24 /\ 0 <= mi < 60 /\ 0 <= s < 60)%Z.
(** a date and a time of day written in the given formats *)
Definition ymd (y mo d : Z) : pystr := dec_str (Z.to_N y) ++ s2b "/" ++ two mo ++ s2b "/" ++ two d.
Definition dmy (y mo d : Z) : pystr := two d ++ s2b "/" ++ two mo ++ s2b "/" ++ dec_str (Z.to_N y).
Definition hms (h mi s : Z) : pystr := two h ++ s2b ":" ++ two mi ++ s2b ":" ++ two s.
Definition hm (h mi : Z) : pystr := two h ++ s2b ":" ++ two mi.
(** [valid]: the days that exist *)
Definition calendar (valid : tm -> Prop) (strptime : pystr -> dfmt -> tfmt -> res tm) : Prop :=
  forall y mo d h mi s, valid (y, mo, d, h, mi, s) ->
    strptime (ymd y mo d ++ s2b " " ++ hms h mi s) F_Ymd F_HMS = Ok (y, mo, d, h, mi, s) /\
    strptime (dmy y mo d ++ s2b " " ++ hms h mi s) F_dmY F_HMS = Ok (y, mo, d, h, mi, s) /\
    (s = 0%Z -> strptime (ymd y mo d ++ s2b " " ++ hm h mi) F_Ymd F_HM = Ok (y, mo, d, h, mi, s) /\
                strptime (dmy y mo d ++ s2b " " ++ hm h mi) F_dmY F_HM = Ok (y, mo, d, h, mi, s)).

(** ** The documented forms of dates and times of day *)
(** a number written in one or two digits *)
Definition field (t : pystr) (n : N) : Prop := numeral t n /\ (length t = 1%nat \/ length t = 2%nat).
(** am (0) or pm (1), in letters of any size *)
Inductive half_text (t : pystr) : N -> Prop :=
| Am : In t [s2b "am"; s2b "AM"; s2b "Am"; s2b "aM"] -> half_text t 0
| Pm : In t [s2b "pm"; s2b "PM"; s2b "Pm"; s2b "pM"] -> half_text t 1.
(** year, month and day of a text *)
Inductive date_text (this_year : N) : pystr -> N -> N -> N -> Prop :=
| Date_ymd ty y tm m td d : numeral ty y -> length ty = 4%nat -> field tm m -> field td d -> date_text this_year (ty ++ s2b "/" ++ tm ++ s2b "/" ++ td) y m d
| Date_dmy ty y tm m td d : numeral ty y -> length ty = 4%nat -> field tm m -> field td d -> date_text this_year (td ++ s2b "/" ++ tm ++ s2b "/" ++ ty) y m d
| Date_short ty y tm m td d : numeral ty y -> length ty = 2%nat -> field tm m -> field td d ->
    date_text this_year (ty ++ s2b "/" ++ tm ++ s2b "/" ++ td) (if y <=? 68 then 2000 + y else 1900 + y) m d
| Date_this tm m td d : field tm m -> field td d -> date_text this_year (tm ++ s2b "/" ++ td) this_year m d.
(** hour, minute and second of a text *)
Inductive time_text : pystr -> N -> N -> N -> Prop :=
| Time_hm th h tm m : field th h -> field tm m -> h < 24 -> m < 60 -> time_text (th ++ s2b ":" ++ tm) h m 0
| Time_hms th h tm m ts s : field th h -> field tm m -> field ts s -> h < 24 -> m < 60 -> s < 60 -> time_text (th ++ s2b ":" ++ tm ++ s2b ":" ++ ts) h m s
| Time_half th h tp p tm m : field th h -> half_text tp p -> field tm m -> 1 <= h <= 12 -> m < 60 -> time_text (th ++ tp ++ s2b ":" ++ tm) (h mod 12 + 12 * p) m 0
| Time_half_s th h tp p tm m ts s : field th h -> half_text tp p -> field tm m -> field ts s -> 1 <= h <= 12 -> m < 60 -> s < 60 ->
    time_text (th ++ tp ++ s2b ":" ++ tm ++ s2b ":" ++ ts) (h mod 12 + 12 * p) m s.
(** the day exists *)
Definition is_leap (y : N) : Prop := (N.divide 4 y /\ ~ N.divide 100 y) \/ N.divide 400 y.
Definition real_day (y m d : N) : Prop :=
  1 <= y <= 9999 /\ 1 <= d /\
  ((In m [1; 3; 5; 7; 8; 10; 12] /\ d <= 31) \/ (In m [4; 6; 9; 11] /\ d <= 30) \/ (m = 2 /\ (d <= 28 \/ (is_leap y /\ d = 29)))).
(** a lock text names this local time: quotes and blanks around it do not matter; without a time of day it is midnight *)
Inductive names_time (this_year : N) (s : pystr) : tm -> Prop :=
| Names_day t y m d : bare s = t -> date_text this_year t y m d -> names_time this_year s (Z.of_N y, Z.of_N m, Z.of_N d, 0, 0, 0)%Z
| Names_moment t y m d sp u h mi sec : bare s = t ++ s2b " " ++ sp ++ u -> date_text this_year t y m d -> Forall (fun c => is_pyspace c = true) sp -> time_text u h mi sec ->
    names_time this_year s (Z.of_N y, Z.of_N m, Z.of_N d, Z.of_N h, Z.of_N mi, Z.of_N sec).
(** seconds of the units of relative texts *)
Definition unit_seconds (u : N) (k : Z) : Prop :=
  In (u, k) (combine (s2b "smhdwMY") [1; 60; 3600; 24 * 3600; 7 * 24 * 3600; 365 * 2 * 3600; 365 * 24 * 3600]%Z).
(** what is relied on of [int(float(t) * k)]: exact for whole numbers within the 53 bits of a float *)
Definition scaled_library (scaled : pystr -> Z -> res Z) : Prop :=
  forall t n k, numeral t n -> (0 < k)%Z -> (Z.of_N n * k < 2 ^ 53)%Z -> scaled t k = Ok (Z.of_N n * k)%Z /\ scaled (s2b "-" ++ t) k = Ok (- (Z.of_N n * k))%Z.
(** a time of day in one of these forms, whatever its numbers: hour, with am (0) or pm (1) if by twice 12, minute and second *)
Inductive time_form : pystr -> option N -> N -> N -> N -> Prop :=
| Form_hm th h tm m : field th h -> field tm m -> time_form (th ++ s2b ":" ++ tm) None h m 0
| Form_hms th h tm m ts s : field th h -> field tm m -> field ts s -> time_form (th ++ s2b ":" ++ tm ++ s2b ":" ++ ts) None h m s
| Form_half th h tp p tm m : field th h -> half_text tp p -> field tm m -> time_form (th ++ tp ++ s2b ":" ++ tm) (Some p) h m 0
| Form_half_s th h tp p tm m ts s : field th h -> half_text tp p -> field tm m -> field ts s -> time_form (th ++ tp ++ s2b ":" ++ tm ++ s2b ":" ++ ts) (Some p) h m s.
(** such a time of day occurs; a minute may have two leap seconds *)
Definition real_time (p : option N) (h m s : N) : Prop := match p with None => h < 24 | Some _ => 1 <= h <= 12 end /\ m < 60 /\ s < 62.
