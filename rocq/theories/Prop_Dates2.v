(** C61: the documented forms of dates, read with Python's strptime. *)
From Verif Require Import Base BaseFacts Types TypesFacts TypesFacts2 CurrencyFacts Conditions Dates Strptime Spec_Dates DateFacts StrptimeFacts DateFacts2 StrptimeFacts2 Prop_Dates.
From Coq Require Import ZifyBool ZifyNat ZifyN.
Ltac Zify.zify_post_hook ::= Z.div_mod_to_equations.

Lemma strptime_ok t df vs y m d u tf ws h mi s :
  (forall l r ws, first_is l r ws -> starts_digitb r = true -> first_is (date_items df ++ IBlanks :: l) (t ++ 32 :: r) (vs ++ ws)) ->
  (forall ws, date_of df (vs ++ ws) = Some (y, m, d, ws)) -> real_day y m d -> first_is (time_items tf) u ws -> starts_digitb u = true -> time_of tf ws = Some (h, mi, s) ->
  py_strptime (t ++ [32] ++ u) df tf = Ok (Z.of_N y, Z.of_N m, Z.of_N d, Z.of_N h, Z.of_N mi, Z.of_N s).
Proof.
  intros F D R G S1 T. cbn [app]. destruct (F _ _ _ G S1) as (alts & E). unfold py_strptime. rewrite E, D, T. rewrite (proj2 (day_spec y m d) R). reflexivity.
Qed.
(** Every text in one of the documented forms, with fields of one or two digits, the hour by 24 or by twice 12, within quotes or blanks or not, is the local time it names. *)
Theorem C61_says : forall td scaled mktime localtime now now2 s t, let this_year := Z.to_N (year_of (localtime now2)) in
  names_time this_year s t -> (let '(y, m, d, _, _, _) := t in real_day (Z.to_N y) (Z.to_N m) (Z.to_N d)) -> 1000 <= this_year <= 9999 ->
  lock_text td scaled py_strptime mktime localtime now now2 s = mktime t.
Proof.
  intros td scaled mktime localtime now now2 s t. cbv zeta. intros N R Y. destruct N as [t y m d B T|t y m d sp u h mi sec B T SP U]; rewrite !N2Z.id in R;
    destruct (date_text_read localtime now2 t y m d T R ltac:(intros; exact Y)) as (t' & df & vs & P & Fd & Sd & L1 & F & D).
  - assert (G : first_is (time_items F_HMS) (s2b "00:00:00") [0; 0; 0]) by (eexists; vm_compute; reflexivity).
    assert (E : strip (unquote t) = t).
    { rewrite unquote_none by (eapply Forall_impl; [|exact Fd]; intros c; unfold datec, digitb; lia). apply strip_nospace. eapply Forall_impl; [|exact Fd]. exact datec_space. }
    rewrite (lock_text_date td scaled py_strptime mktime localtime now now2 s t B Sd E).
    rewrite date_clean_d; [|intros ->; discriminate Sd|intros ->; cbn in L1; lia|exact Fd]. rewrite P. cbn [bind fst snd].
    rewrite (strptime_ok t' df vs y m d (s2b "00:00:00") F_HMS [0; 0; 0] 0 0 0 F D R G eq_refl eq_refl). reflexivity.
  - destruct (time_text_read u h mi sec U) as (tf & ws & TP & Cu & H58 & G & TO & Su). cbn [s2b app] in B. change (N_of_ascii " ") with 32 in B.
    destruct (date_clean_blanks scaled py_strptime mktime localtime now2 t sp u ltac:(intros ->; discriminate Sd) Fd SP Cu H58) as (E & BI).
    rewrite (lock_text_date td scaled py_strptime mktime localtime now now2 s _ B); [|destruct t; [discriminate|exact Sd]|exact BI]. rewrite E, TP. cbn [bind fst snd]. rewrite P. cbn [bind fst snd].
    rewrite (strptime_ok t' df vs y m d u tf ws h mi sec F D R G Su TO). reflexivity.
Qed.
Print Assumptions C61_says.
(** A relative text ("-4h") is that long before now. *)
Theorem C61_relative : forall td scaled strptime mktime localtime now now2 t n u k, scaled_library scaled -> numeral t n -> unit_seconds u k -> (Z.of_N n * k < 2 ^ 53)%Z ->
  lock_text td scaled strptime mktime localtime now now2 (s2b "-" ++ t ++ [u]) = Ok (now2 - Z.of_N n * k)%Z.
Proof.
  intros td scaled strptime mktime localtime now now2 t n u k SL N U B. destruct (numeral_digits t n N) as (D & NE).
  assert (K : times u = Some k /\ (0 < k)%Z /\ is_pyspace u = false /\ u <> 39 /\ u <> 34).
  { unfold unit_seconds in U. cbn in U. repeat destruct U as [U|U]; try contradiction; injection U as <- <-; repeat split; discriminate. }
  destruct K as (K & Pk & Su & Q1 & Q2). destruct (SL t n k N Pk B) as (_ & E). cbn [s2b app] in *. change (N_of_ascii "-") with 45 in *.
  unfold lock_text, lock_of_text. cbn [lstrip]. change (is_pyspace 45) with false. cbv iota. change (45 =? 43) with false. cbv iota. cbn [bind lock_new].
  assert (BI : strip (unquote (45 :: t ++ [u])) = 45 :: t ++ [u]).
  { apply plain_bare. constructor; [unfold plain; repeat split; discriminate|]. apply Forall_app. split; [|constructor; [unfold plain; auto|constructor]].
    eapply Forall_impl; [|exact D]. intros c C. apply numc_plain, digit_numc, C. }
  unfold date_clean. cbv zeta. rewrite BI. cbn [listN_eqb orb s2b]. change (45 =? N_of_ascii "0") with false. cbn [andb orb]. assert (hasc 45 (45 :: t ++ [u]) = true) as -> by reflexivity. rewrite orb_true_r.
  unfold delta_time. assert (SP : strip (45 :: t ++ [u]) = 45 :: t ++ [u]).
  { apply strip_nospace. constructor; [reflexivity|]. apply Forall_app. split; [apply digits_spaces, D|]. constructor; [exact Su|constructor]. }
  rewrite SP. cbn [rev]. rewrite rev_app_distr. cbn [rev app]. rewrite K. rewrite rev_app_distr, rev_involutive. cbn [rev app]. rewrite E. cbn [bind]. f_equal.
Qed.
Print Assumptions C61_relative.
(** A date written with dashes is refused. *)
Theorem C61_dashes : forall td scaled strptime mktime localtime now now2 a b c, digits a -> digits b -> digits c -> a <> [] -> c <> [] ->
  lock_text td scaled strptime mktime localtime now now2 (a ++ s2b "-" ++ b ++ s2b "-" ++ c) = Err RuntimeError.
Proof.
  intros td scaled strptime mktime localtime now now2 a b c A B C Na Nc. cbn [s2b app]. change (N_of_ascii "-") with 45.
  assert (PL : Forall plain (a ++ 45 :: b ++ 45 :: c)).
  { assert (G : forall x, digits x -> Forall plain x) by (intros x X; eapply Forall_impl; [|exact X]; intros q Q; apply numc_plain, digit_numc, Q).
    apply Forall_app; split; [auto|]. constructor; [unfold plain; repeat split; discriminate|]. apply Forall_app; split; [auto|]. constructor; [unfold plain; repeat split; discriminate|auto]. }
  pose proof (plain_bare _ PL) as BI.
  rewrite (lock_text_date td scaled strptime mktime localtime now now2 _ _ BI); [|apply digits_head; assumption|exact BI].
  unfold date_clean. cbv zeta. rewrite BI.
  assert (listN_eqb (a ++ 45 :: b ++ 45 :: c) (s2b "0") = false) as ->.
  { apply listN_eqb_neq. intro E. apply (f_equal (@length N)) in E. rewrite app_length in E. cbn [length] in E. rewrite app_length in E. cbn in E. lia. }
  assert (listN_eqb (a ++ 45 :: b ++ 45 :: c) [] = false) as ->. { apply listN_eqb_neq. intro E. destruct a; discriminate. }
  assert (hasc 45 (a ++ 45 :: b ++ 45 :: c) = true) as -> by (rewrite hasc_app; apply orb_true_r). rewrite orb_true_r. cbn [orb].
  unfold delta_time. rewrite strip_nospace by (eapply Forall_impl; [|exact PL]; unfold plain; tauto).
  destruct (exists_last Nc) as (c' & x & ->). replace (a ++ 45 :: b ++ 45 :: c' ++ [x]) with ((a ++ 45 :: b ++ 45 :: c') ++ [x]) by (rewrite <- app_assoc; cbn [app]; rewrite <- app_assoc; reflexivity).
  rewrite rev_app_distr. cbn [rev app]. apply Forall_app in C as (_ & C). inversion C as [|? ? X _]. unfold digitb in X. unfold times.
  repeat match goal with |- context [if x =? ?k then _ else _] => replace (x =? k) with false by lia end. reflexivity.
Qed.
Print Assumptions C61_dashes.

(** A day that does not exist is refused, with or without a time of day. *)
Theorem C61_impossible_day : forall td scaled mktime localtime now now2 s t y m d, let this_year := Z.to_N (year_of (localtime now2)) in
  date_text this_year t y m d -> ~ real_day y m d -> 1000 <= this_year <= 9999 ->
  (bare s = t \/ exists sp u p h mi sec, bare s = t ++ s2b " " ++ sp ++ u /\ Forall (fun c => is_pyspace c = true) sp /\ time_form u p h mi sec) ->
  lock_text td scaled py_strptime mktime localtime now now2 s = Err ValueError.
Proof.
  intros td scaled mktime localtime now now2 s t y m d. cbv zeta. intros T R Y B.
  destruct (date_form_read localtime now2 t y m d T Y) as (t' & df & P & Fd & Sd & L1 & F).
  destruct B as [B|(sp & u & p & h & mi & sec & B & SP & U)].
  - assert (E : strip (unquote t) = t).
    { rewrite unquote_none by (eapply Forall_impl; [|exact Fd]; intros c; unfold datec, digitb; lia). apply strip_nospace. eapply Forall_impl; [|exact Fd]. exact datec_space. }
    rewrite (lock_text_date td scaled py_strptime mktime localtime now now2 s t B Sd E).
    rewrite date_clean_d; [|intros ->; discriminate Sd|intros ->; cbn in L1; lia|exact Fd]. rewrite P. cbn [bind fst snd].
    rewrite (strptime_refused t' df y m d (s2b "00:00:00") F_HMS F eq_refl (or_introl R)). reflexivity.
  - destruct (time_form_read u p h mi sec U) as (tf & TP & Cu & H58 & Su & _). cbn [s2b app] in B. change (N_of_ascii " ") with 32 in B.
    destruct (date_clean_blanks scaled py_strptime mktime localtime now2 t sp u ltac:(intros ->; discriminate Sd) Fd SP Cu H58) as (E & BI).
    rewrite (lock_text_date td scaled py_strptime mktime localtime now now2 s _ B); [|destruct t; [discriminate|exact Sd]|exact BI]. rewrite E, TP. cbn [bind fst snd]. rewrite P. cbn [bind fst snd].
    rewrite (strptime_refused t' df y m d u tf F Su (or_introl R)). reflexivity.
Qed.
Print Assumptions C61_impossible_day.
(** A time of day that does not occur is refused. *)
Theorem C61_impossible_time : forall td scaled mktime localtime now now2 s t y m d sp u p h mi sec, let this_year := Z.to_N (year_of (localtime now2)) in
  bare s = t ++ s2b " " ++ sp ++ u -> date_text this_year t y m d -> Forall (fun c => is_pyspace c = true) sp -> time_form u p h mi sec -> ~ real_time p h mi sec -> 1000 <= this_year <= 9999 ->
  lock_text td scaled py_strptime mktime localtime now now2 s = Err ValueError.
Proof.
  intros td scaled mktime localtime now now2 s t y m d sp u p h mi sec. cbv zeta. intros B T SP U R Y.
  destruct (date_form_read localtime now2 t y m d T Y) as (t' & df & P & Fd & Sd & L1 & F).
  destruct (time_form_read u p h mi sec U) as (tf & TP & Cu & H58 & Su & RT). cbn [s2b app] in B. change (N_of_ascii " ") with 32 in B.
  destruct (date_clean_blanks scaled py_strptime mktime localtime now2 t sp u ltac:(intros ->; discriminate Sd) Fd SP Cu H58) as (E & BI).
  rewrite (lock_text_date td scaled py_strptime mktime localtime now now2 s _ B); [|destruct t; [discriminate|exact Sd]|exact BI]. rewrite E, TP. cbn [bind fst snd]. rewrite P. cbn [bind fst snd].
  rewrite (strptime_refused t' df y m d u tf F Su). { reflexivity. } right. intros vs I. exact (R (RT _ I)).
Qed.
Print Assumptions C61_impossible_time.

(** What the earlier theorems ask of the calendar holds of Python's strptime, for the days that exist. *)
Definition real_fields (t : tm) : Prop := fields_ok t /\ let '(y, m, d, _, _, _) := t in real_day (Z.to_N y) (Z.to_N m) (Z.to_N d).
Lemma two_field n : (0 <= n < 100)%Z -> field (two n) (Z.to_N n).
Proof.
  intro B. split; [|right; reflexivity]. split; [discriminate|]. unfold two. cbv zeta. cbn [digits_val]. replace ((48 <=? 48 + Z.to_N n / 10) && (48 + Z.to_N n / 10 <=? 57)) with true by lia.
  replace ((48 <=? 48 + Z.to_N n mod 10) && (48 + Z.to_N n mod 10 <=? 57)) with true by lia. f_equal. lia.
Qed.
Theorem C61_calendar : calendar real_fields py_strptime.
Proof.
  intros y mo d h mi s (FO & R). destruct (date_parts _ _ _ _ _ _ FO) as (Dy & Dm & Dd & Dh & Di & Ds & _). destruct FO as (Y & M & D & H & MI & S1).
  pose (lt := fun _ : Z => (2020, 1, 1, 0, 0, 0)%Z).
  assert (L4 : length (dec_str (Z.to_N y)) = 4%nat) by (destruct (dec_str_4 (Z.to_N y) ltac:(lia)) as (? & ? & ? & ? & -> & _); reflexivity).
  assert (Ny : numeral (dec_str (Z.to_N y)) (Z.to_N y)) by (destruct (dec_str_spec (Z.to_N y)) as (Q1 & Q2 & _); split; assumption).
  assert (T1 : date_text 2020 (ymd y mo d) (Z.to_N y) (Z.to_N mo) (Z.to_N d)) by (apply Date_ymd; [exact Ny|exact L4|apply two_field; lia|apply two_field; lia]).
  assert (T2 : date_text 2020 (dmy y mo d) (Z.to_N y) (Z.to_N mo) (Z.to_N d)) by (apply Date_dmy; [exact Ny|exact L4|apply two_field; lia|apply two_field; lia]).
  assert (U1 : time_text (hms h mi s) (Z.to_N h) (Z.to_N mi) (Z.to_N s)) by (apply Time_hms; try apply two_field; lia).
  assert (U2 : time_text (hm h mi) (Z.to_N h) (Z.to_N mi) 0) by (apply Time_hm; try apply two_field; lia).
  destruct (date_text_read lt 0%Z _ _ _ _ T1 R ltac:(intros; cbn; lia)) as (t1 & f1 & v1 & P1 & _ & _ & _ & F1 & G1).
  destruct (date_text_read lt 0%Z _ _ _ _ T2 R ltac:(intros; cbn; lia)) as (t2 & f2 & v2 & P2 & _ & _ & _ & F2 & G2).
  assert (O : forall n, one_two (two n) = true) by reflexivity.
  assert (Q1 : date_process lt 0%Z (ymd y mo d) = Ok (ymd y mo d, F_Ymd)).
  { unfold ymd. cbn [s2b app]. change (N_of_ascii "/") with 47. rewrite date_3 by assumption. rewrite L4, !O. reflexivity. }
  assert (Q2 : date_process lt 0%Z (dmy y mo d) = Ok (dmy y mo d, F_dmY)).
  { unfold dmy. cbn [s2b app]. change (N_of_ascii "/") with 47. rewrite date_3 by assumption. rewrite (one_two_4 _ L4), L4, !O. rewrite !andb_false_r. reflexivity. }
  rewrite Q1 in P1. apply ok_inj in P1. apply pair_equal_spec in P1 as [<- <-]. rewrite Q2 in P2. apply ok_inj in P2. apply pair_equal_spec in P2 as [<- <-].
  destruct (time_text_read _ _ _ _ U1) as (tf1 & w1 & X1 & _ & _ & Y1 & Z1 & S2). destruct (time_text_read _ _ _ _ U2) as (tf2 & w2 & X2 & _ & _ & Y2 & Z2 & S3).
  assert (X1' : time_process (hms h mi s) = Ok (hms h mi s, F_HMS)) by (apply (time_hms (fun _ _ => Err RuntimeError) (fun _ _ _ => Err RuntimeError)); auto; discriminate).
  assert (X2' : time_process (hm h mi) = Ok (hm h mi, F_HM)) by (apply (time_hm (fun _ _ => Err RuntimeError) (fun _ _ _ => Err RuntimeError)); auto).
  rewrite X1' in X1. apply ok_inj in X1. apply pair_equal_spec in X1 as [_ <-]. rewrite X2' in X2. apply ok_inj in X2. apply pair_equal_spec in X2 as [_ <-].
  assert (E : (y, mo, d, h, mi, s) = (Z.of_N (Z.to_N y), Z.of_N (Z.to_N mo), Z.of_N (Z.to_N d), Z.of_N (Z.to_N h), Z.of_N (Z.to_N mi), Z.of_N (Z.to_N s))) by (rewrite !Z2N.id by lia; reflexivity).
  split; [|split; [|intros ->; split]]; rewrite E.
  - exact (strptime_ok _ _ _ _ _ _ _ _ _ _ _ _ F1 G1 R Y1 S2 Z1).
  - exact (strptime_ok _ _ _ _ _ _ _ _ _ _ _ _ F2 G2 R Y1 S2 Z1).
  - exact (strptime_ok _ _ _ _ _ _ _ _ _ _ _ _ F1 G1 R Y2 S3 Z2).
  - exact (strptime_ok _ _ _ _ _ _ _ _ _ _ _ _ F2 G2 R Y2 S3 Z2).
Qed.
Print Assumptions C61_calendar.

(** ** Examples: Python's strptime, local time in a fixed zone one hour east *)
Definition exd_scaled (t : pystr) (k : Z) : res Z :=
  match t with
  | c :: r => if c =? 45 then match digits_val 0 r with Some n => if (Z.of_N n * k <? 2 ^ 53)%Z then Ok (- (Z.of_N n * k))%Z else Err OverflowError | None => Err ValueError end
              else match digits_val 0 t with Some n => if (Z.of_N n * k <? 2 ^ 53)%Z then Ok (Z.of_N n * k)%Z else Err OverflowError | None => Err ValueError end
  | [] => Err ValueError
  end.
Example exd_scaled_ok : scaled_library exd_scaled.
Proof.
  intros t n k N P B. destruct (numeral_digits t n N) as (D & NE). destruct N as (_ & N). destruct t as [|c r]; [congruence|]. inversion D as [|? ? C _]; subst. split.
  - unfold exd_scaled. replace (c =? 45) with false by (unfold digitb in C; lia). rewrite N. apply Z.ltb_lt in B. rewrite B. reflexivity.
  - cbn [s2b app]. unfold exd_scaled. change (N_of_ascii "-" =? 45) with true. cbv iota. rewrite N. apply Z.ltb_lt in B. rewrite B. reflexivity.
Qed.
Definition exd_lock2 := lock_text exd_td exd_scaled py_strptime exd_mktime (fun _ => (2020, 1, 1, 0, 0, 0)%Z).
Lemma exd_field (t : pystr) n : digits_val 0 t = Some n -> length t = 1%nat \/ length t = 2%nat -> field t n.
Proof. intros D L. split; [split; [intros ->; cbn in L; lia|exact D]|exact L]. Qed.
Example exd_names : names_time 2020 (s2b " '19/3/4  9pm:50'") (2019, 3, 4, 21, 50, 0)%Z /\ names_time 2020 (s2b "2/29") (2020, 2, 29, 0, 0, 0)%Z /\ real_day 2020 2 29.
Proof.
  split; [|split].
  - refine (Names_moment 2020 _ (s2b "19/3/4") 2019 3 4 (s2b " ") (s2b "9pm:50") 21 50 0 _ _ _ _); [reflexivity| |repeat constructor|].
    + refine (Date_short 2020 (s2b "19") 19 (s2b "3") 3 (s2b "4") 4 _ _ _ _); [split; [discriminate|reflexivity]|reflexivity|apply exd_field; [reflexivity|cbn; auto]|apply exd_field; [reflexivity|cbn; auto]].
    + refine (Time_half (s2b "9") 9 (s2b "pm") 1 (s2b "50") 50 _ _ _ _ _); [apply exd_field; [reflexivity|cbn; auto]|apply Pm; left; reflexivity|apply exd_field; [reflexivity|cbn; auto]|lia|lia].
  - refine (Names_day 2020 _ (s2b "2/29") 2020 2 29 _ _); [reflexivity|]. refine (Date_this 2020 (s2b "2") 2 (s2b "29") 29 _ _); apply exd_field; try reflexivity; cbn; auto.
  - split; [lia|]. split; [lia|]. right. right. split; [reflexivity|]. right. split; [|reflexivity]. left. split; [exists 505; reflexivity|]. intros (k & E). lia.
Qed.
Example exd_lock2_1 : exd_lock2 0 0 (s2b " '19/3/4  9pm:50'") = exd_mktime (2019, 3, 4, 21, 50, 0)%Z /\ exd_lock2 0 0 (s2b "2/29") = exd_mktime (2020, 2, 29, 0, 0, 0)%Z /\
  exd_lock2 0 1000000 (s2b "-4h") = Ok 985600%Z /\ exd_lock2 0 0 (s2b "2019/02/30") = Err ValueError /\ exd_lock2 0 0 (s2b "2019/02/29 12:00") = Err ValueError /\
  exd_lock2 0 0 (s2b "2019/02/28 24:00") = Err ValueError /\ exd_lock2 0 0 (s2b "2019-02-28") = Err RuntimeError.
Proof. vm_compute. repeat split. Qed.
Example exd_impossible : date_text 2020 (s2b "2019/02/30") 2019 2 30 /\ ~ real_day 2019 2 30 /\ time_form (s2b "24:00") None 24 0 0 /\ ~ real_time None 24 0 0.
Proof.
  split; [|split; [|split]].
  - refine (Date_ymd 2020 (s2b "2019") 2019 (s2b "02") 2 (s2b "30") 30 _ _ _ _); [split; [discriminate|reflexivity]|reflexivity|apply exd_field; [reflexivity|cbn; auto]|apply exd_field; [reflexivity|cbn; auto]].
  - intros (_ & _ & [(I & _)|[(I & _)|(_ & [L|(_ & L)])]]); cbn in *; lia.
  - refine (Form_hm (s2b "24") 24 (s2b "00") 0 _ _); apply exd_field; try reflexivity; cbn; auto.
  - intros (L & _). lia.
Qed.
