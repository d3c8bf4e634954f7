(** C50, C61: durations and dates as text. *)
From Verif Require Import Base BaseFacts Types TypesFacts TypesFacts2 Conditions Dates Spec_Dates DateFacts.
From Coq Require Import ZifyBool ZifyNat ZifyN.
Ltac Zify.zify_post_hook ::= Z.div_mod_to_equations.

(** ** C50 *)
Section C50.
Variable td : option pystr -> option pystr -> option pystr -> option pystr -> res Z.
Hypothesis TD : td_library td.
Lemma parts_num z : (0 <= z)%Z -> onum (opart (z / 86400)) /\ onum (opart (z mod 86400 / 3600)) /\ onum (opart (z mod 3600 / 60)) /\ onum (opart (z mod 60)).
Proof. intro P. repeat split; eapply onumeral_num, opart_numeral; lia. Qed.
Lemma parts_some z : (0 < z)%Z -> (opart (z / 86400), opart (z mod 86400 / 3600), opart (z mod 3600 / 60), opart (z mod 60)) <> (None, None, None, None).
Proof. intros P E. pose proof (parts_none z ltac:(lia) E). lia. Qed.
Lemma parts_td z : (0 <= z)%Z -> td (opart (z / 86400)) (opart (z mod 86400 / 3600)) (opart (z mod 3600 / 60)) (opart (z mod 60)) = if (z <? max_duration)%Z then Ok z else Err OverflowError.
Proof.
  intro P. rewrite (proj1 TD _ _ _ _ (Z.to_N (z / 86400)) (Z.to_N (z mod 86400 / 3600)) (Z.to_N (z mod 3600 / 60)) (Z.to_N (z mod 60))) by (apply opart_numeral; lia).
  cbv zeta. replace (86400 * Z.of_N (Z.to_N (z / 86400)) + 3600 * Z.of_N (Z.to_N (z mod 86400 / 3600)) + 60 * Z.of_N (Z.to_N (z mod 3600 / 60)) + Z.of_N (Z.to_N (z mod 60)))%Z with z; [reflexivity|].
  rewrite !Z2N.id by lia. lia.
Qed.
(** Every number of seconds a timedelta can hold is printed, and read back as the same number. *)
Theorem C50_roundtrip z : (0 <= z < max_duration)%Z -> exists t, dur_str td (DInt z) = Ok t /\ dur_clean td (DStr t) = Ok z.
Proof.
  intros (P & B). rewrite (dur_str_int td z P). eexists. split; [reflexivity|]. destruct (Z.eq_dec z 0) as [->|NZ]; [reflexivity|].
  destruct (parts_num z P) as (A1 & A2 & A3 & A4). rewrite dur_clean_groups; [|assumption..|apply parts_some; lia].
  rewrite parts_td by exact P. replace (z <? max_duration)%Z with true by lia. reflexivity.
Qed.
(** Larger numbers are printed, but the text is refused. *)
Theorem C50_outside_domain z : (max_duration <= z)%Z -> exists t, dur_str td (DInt z) = Ok t /\ dur_clean td (DStr t) = Err OverflowError.
Proof.
  unfold max_duration. intro B. assert (P : (0 <= z)%Z) by lia. rewrite (dur_str_int td z P). eexists. split; [reflexivity|].
  destruct (parts_num z P) as (A1 & A2 & A3 & A4). rewrite dur_clean_groups; [|assumption..|apply parts_some; lia].
  rewrite parts_td by exact P. replace (z <? max_duration)%Z with false by (unfold max_duration; lia). reflexivity.
Qed.
(** What a text of whole numbers means. *)
Theorem C50_meaning d h m s nd nh nm ns : onumeral d nd -> onumeral h nh -> onumeral m nm -> onumeral s ns -> (d, h, m, s) <> (None, None, None, None) ->
  dur_clean td (DStr (otext d 100 ++ otext h 104 ++ otext m 109 ++ otext s 115)) =
  let z := (86400 * Z.of_N nd + 3600 * Z.of_N nh + 60 * Z.of_N nm + Z.of_N ns)%Z in if (z <? max_duration)%Z then Ok z else Err OverflowError.
Proof.
  intros A B C D NE. rewrite dur_clean_groups by (try eapply onumeral_num; eauto). apply (proj1 TD); assumption.
Qed.
Theorem C50_seconds t n : numeral t n -> dur_clean td (DStr t) = Ok (Z.of_N n).
Proof.
  intros (NE & V). pose proof (digits_val_Forall _ _ V) as F.
  assert (D : digits t) by (eapply Forall_impl; [|exact F]; intros c C; apply is_digit_b, C).
  unfold dur_clean. destruct (listN_eqb t (s2b "0")) eqn:E0.
  - apply listN_eqb_eq in E0. subst t. cbn in V. injection V as <-. reflexivity.
  - replace (listN_eqb t []) with false by (symmetry; apply listN_eqb_neq; exact NE). cbn [orb].
    rewrite plain_bare by (eapply Forall_impl; [|exact D]; intros c C; apply numc_plain, digit_numc, C).
    replace (forallb digitb t) with true by (symmetry; apply forallb_forall; apply Forall_forall; exact D).
    replace (listN_eqb t []) with false by (symmetry; apply listN_eqb_neq; exact NE). cbn [negb andb].
    unfold py_int. rewrite strip_digits by exact D. destruct t as [|c t]; [congruence|].
    assert (Hc : is_digit c) by (inversion F; assumption). unfold is_digit in Hc. replace (c =? 45) with false by lia. replace (c =? 43) with false by lia.
    rewrite int_digits_plain by (auto; left; discriminate). rewrite V. reflexivity.
Qed.
(** Anything else than a whole number or a sequence of such parts in descending order is refused. *)
Theorem C50_refused s z : dur_clean td (DStr s) = Ok z -> bare s = [] \/ whole_text (bare s) \/ duration_text (bare s).
Proof.
  intro E. unfold dur_clean in E. change (strip (unquote s)) with (bare s) in E.
  destruct (listN_eqb s (s2b "0")) eqn:E0. { apply listN_eqb_eq in E0. subst s. right. left. split; [discriminate|repeat constructor]. }
  destruct (listN_eqb s []) eqn:En. { apply listN_eqb_eq in En. subst s. left. reflexivity. }
  cbn [orb] in E. destruct (listN_eqb (bare s) []) eqn:Eb. { apply listN_eqb_eq in Eb. left. exact Eb. }
  cbn [negb andb] in E. destruct (forallb digitb (bare s)) eqn:Ed.
  - right. left. apply listN_eqb_neq in Eb. split; [exact Eb|]. apply Forall_forall. apply forallb_forall. exact Ed.
  - right. right. set (v := bare s) in *. pose proof (group_inv 100 v) as (G1 & O1). set (g1 := group 100 v) in *.
    pose proof (group_inv 104 (snd g1)) as (G2 & O2). set (g2 := group 104 (snd g1)) in *.
    pose proof (group_inv 109 (snd g2)) as (G3 & O3). set (g3 := group 109 (snd g2)) in *.
    pose proof (group_inv 115 (snd g3)) as (G4 & O4). set (g4 := group 115 (snd g3)) in *.
    destruct (snd g4) eqn:E4; [|discriminate]. exists (fst g1), (fst g2), (fst g3), (fst g4). repeat (split; [assumption|]).
    rewrite G1, G2, G3, G4, app_nil_r. reflexivity.
Qed.
(** ... as are parts that are no numbers. *)
Theorem C50_bad_number d h m s : onum d -> onum h -> onum m -> onum s -> bad_number d \/ bad_number h \/ bad_number m \/ bad_number s ->
  dur_clean td (DStr (otext d 100 ++ otext h 104 ++ otext m 109 ++ otext s 115)) = Err ValueError.
Proof.
  intros A B C D BN. rewrite dur_clean_groups by (auto; intro E; injection E as -> -> -> ->; cbn in BN; tauto). apply (proj2 TD). exact BN.
Qed.
End C50.
(** Different numbers of seconds are printed differently, however large. *)
Theorem C50_distinct td z z' t : (0 <= z)%Z -> (0 <= z')%Z -> dur_str td (DInt z) = Ok t -> dur_str td (DInt z') = Ok t -> z = z'.
Proof.
  intros P P' E E'. rewrite dur_str_int in E, E' by assumption. apply ok_inj in E, E'.
  destruct (parts_num z P) as (A1 & A2 & A3 & A4). destruct (parts_num z' P') as (B1 & B2 & B3 & B4).
  pose proof (groups_text _ _ _ _ A1 A2 A3 A4) as G. pose proof (groups_text _ _ _ _ B1 B2 B3 B4) as G'. cbv zeta in G, G'. rewrite E in G. rewrite E' in G'.
  destruct G as (G1 & G2 & G3 & G4 & _), G' as (H1 & H2 & H3 & H4 & _). rewrite H1 in G1. rewrite H2 in G2. rewrite H3 in G3. rewrite H4 in G4.
  apply opart_inj in G1, G2, G3, G4; lia.
Qed.
(** A negative number (which the claim leaves out) is printed as if a day had been added. *)
Theorem C50_negative_outside_domain td : dur_str td (DInt (-1)) = Ok (s2b "23h59m59s").
Proof. vm_compute. reflexivity. Qed.
Print Assumptions C50_roundtrip.
Print Assumptions C50_outside_domain.
Print Assumptions C50_meaning.
Print Assumptions C50_seconds.
Print Assumptions C50_refused.
Print Assumptions C50_bad_number.
Print Assumptions C50_distinct.
Print Assumptions C50_negative_outside_domain.
(** a library that meets the requirements: whole numbers only *)
Definition exd_num (t : option pystr) : option N := match t with None => Some 0 | Some [] => None | Some t => digits_val 0 t end.
Definition exd_td (d h m s : option pystr) : res Z :=
  match exd_num d, exd_num h, exd_num m, exd_num s with
  | Some d, Some h, Some m, Some s => let z := (86400 * Z.of_N d + 3600 * Z.of_N h + 60 * Z.of_N m + Z.of_N s)%Z in if (z <? max_duration)%Z then Ok z else Err OverflowError
  | _, _, _, _ => Err ValueError
  end.
Lemma exd_num_ok t n : onumeral t n -> exd_num t = Some n.
Proof. destruct t as [[|c t]|]; cbn; intros H; [destruct H; congruence| |subst; reflexivity]. destruct H as (_ & H). exact H. Qed.
Lemma exd_num_bad t : bad_number t -> exd_num t = None.
Proof.
  destruct t as [t|]; [|intros []]. intros (F & H). destruct t as [|c t]; [reflexivity|]. cbn [exd_num].
  destruct (digits_val 0 (c :: t)) as [n|] eqn:V; [|reflexivity]. exfalso. apply digits_val_Forall in V. destruct H as [H|H].
  - cbn in H. inversion V; subst. unfold is_digit in *. lia.
  - assert (Q : filter (N.eqb 46) (c :: t) = []). { clear - V. induction V as [|x l Hx Hl IH]; [reflexivity|]. cbn [filter]. unfold is_digit in Hx. replace (46 =? x) with false by lia. exact IH. }
    rewrite Q in H. cbn in H. lia.
Qed.
Example exd_library : td_library exd_td.
Proof.
  split.
  - intros d h m s nd nh nm ns A B C D. unfold exd_td. rewrite (exd_num_ok _ _ A), (exd_num_ok _ _ B), (exd_num_ok _ _ C), (exd_num_ok _ _ D). reflexivity.
  - intros d h m s B. unfold exd_td. destruct B as [B|[B|[B|B]]]; apply exd_num_bad in B; rewrite B; destruct (exd_num d), (exd_num h), (exd_num m); reflexivity.
Qed.
Example exd_1 : dur_str exd_td (DInt 788645) = Ok (s2b "9d3h4m5s") /\ dur_clean exd_td (DStr (s2b " 9d3h'4m5s")) = Ok 788645%Z.
Proof. split; vm_compute; reflexivity. Qed.
Example exd_2 : dur_clean exd_td (DStr (s2b "4m9d")) = Err ValueError /\ dur_clean exd_td (DStr (s2b "1.2.3h")) = Err ValueError.
Proof. split; vm_compute; reflexivity. Qed.

(** ** C61 *)
Lemma date_parts y mo d h mi s : fields_ok (y, mo, d, h, mi, s) ->
  digits (dec_str (Z.to_N y)) /\ digits (two mo) /\ digits (two d) /\ digits (two h) /\ digits (two mi) /\ digits (two s) /\
  length (dec_str (Z.to_N y)) = 4%nat /\ length (two mo) = 2%nat /\ length (two d) = 2%nat /\ two h <> [] /\ two s <> [].
Proof.
  intros (Y & M & D & H & MI & S1). destruct (dec_str_4 (Z.to_N y)) as (a & b & c & e & -> & A1 & A2 & A3 & A4); [lia|].
  assert (DT : forall n, (0 <= n < 100)%Z -> digits (two n)). { intros n B. destruct (two_digits n B) as (x & x' & -> & X1 & X2). repeat constructor; assumption. }
  repeat split; try (apply DT; lia); try discriminate. repeat constructor; assumption.
Qed.
Lemma ymd_chars y mo d : digits (dec_str (Z.to_N y)) -> digits (two mo) -> digits (two d) -> Forall datec (ymd y mo d).
Proof.
  intros A B C. unfold ymd. assert (G : forall x, digits x -> Forall datec x) by (intros x X; eapply Forall_impl; [|exact X]; intros c ?; left; assumption).
  repeat (apply Forall_app; split); try (apply G; assumption); repeat constructor; right; reflexivity.
Qed.
Lemma dmy_chars y mo d : digits (dec_str (Z.to_N y)) -> digits (two mo) -> digits (two d) -> Forall datec (dmy y mo d).
Proof.
  intros A B C. unfold dmy. assert (G : forall x, digits x -> Forall datec x) by (intros x X; eapply Forall_impl; [|exact X]; intros c ?; left; assumption).
  repeat (apply Forall_app; split); try (apply G; assumption); repeat constructor; right; reflexivity.
Qed.
Lemma hms_chars h mi s : digits (two h) -> digits (two mi) -> digits (two s) -> Forall timec (hms h mi s) /\ hasc 58 (hms h mi s) = true.
Proof.
  intros A B C. unfold hms. assert (G : forall x, digits x -> Forall timec x) by (intros x X; eapply Forall_impl; [|exact X]; intros c ?; left; assumption).
  split; [|rewrite hasc_app; apply orb_true_r]. repeat (apply Forall_app; split); try (apply G; assumption); repeat constructor; right; reflexivity.
Qed.
Lemma hm_chars h mi : digits (two h) -> digits (two mi) -> Forall timec (hm h mi) /\ hasc 58 (hm h mi) = true.
Proof.
  intros A B. unfold hm. assert (G : forall x, digits x -> Forall timec x) by (intros x X; eapply Forall_impl; [|exact X]; intros c ?; left; assumption).
  split; [|rewrite hasc_app; apply orb_true_r]. repeat (apply Forall_app; split); try (apply G; assumption); repeat constructor; right; reflexivity.
Qed.
Section C61.
Variable td : option pystr -> option pystr -> option pystr -> option pystr -> res Z.
Variable scaled : pystr -> Z -> res Z.
Variable valid : tm -> Prop.
Variable strptime : pystr -> dfmt -> tfmt -> res tm.
Variable mktime : tm -> res Z.
Variable localtime : Z -> tm.
Notation LT := (lock_text td scaled strptime mktime localtime).
(** A lock "+<duration>" is that duration from now. *)
Theorem C61_duration now now2 t z : dur_clean td (DStr t) = Ok z -> LT now now2 (s2b "+" ++ t) = Ok (now + z)%Z.
Proof. intro E. unfold lock_text, lock_of_text. cbn [s2b app lstrip]. change (is_pyspace (N_of_ascii "+")) with false. cbn [bind]. change (N_of_ascii "+" =? 43)%N with true. cbn [bind lock_new]. rewrite E. reflexivity. Qed.
Theorem C61_duration_printed now now2 z t : td_library td -> (0 <= z < max_duration)%Z -> dur_str td (DInt z) = Ok t -> LT now now2 (s2b "+" ++ t) = Ok (now + z)%Z.
Proof.
  intros TD B E. apply C61_duration. destruct (C50_roundtrip td TD z B) as (t' & E1 & E2). rewrite E1 in E. apply ok_inj in E. subst t'. exact E2.
Qed.
Hypothesis CAL : calendar valid strptime.
Lemma process_ymd now2 y mo d : digits (dec_str (Z.to_N y)) -> digits (two mo) -> digits (two d) -> length (dec_str (Z.to_N y)) = 4%nat ->
  date_process localtime now2 (ymd y mo d) = Ok (ymd y mo d, F_Ymd).
Proof. intros A B C L. unfold ymd. cbn [s2b app]. rewrite date_3 by assumption. rewrite L. reflexivity. Qed.
Lemma process_dmy now2 y mo d : digits (dec_str (Z.to_N y)) -> digits (two mo) -> digits (two d) -> length (dec_str (Z.to_N y)) = 4%nat ->
  date_process localtime now2 (dmy y mo d) = Ok (dmy y mo d, F_dmY).
Proof. intros A B C L. unfold dmy. cbn [s2b app]. rewrite date_3 by assumption. rewrite L. reflexivity. Qed.
Lemma LT_date now now2 c r : digitb c = true -> LT now now2 (c :: r) = date_clean scaled strptime mktime localtime now2 (c :: r).
Proof.
  intro D. unfold lock_text, lock_of_text. assert (P : is_pyspace c = false) by (apply digit_not_space, is_digit_b, D). cbn [lstrip]. rewrite P.
  replace (c =? 43) with false by (unfold digitb in D; lia). reflexivity.
Qed.
Lemma LT_date' now now2 s : (exists c r, s = c :: r /\ digitb c = true) -> LT now now2 s = date_clean scaled strptime mktime localtime now2 s.
Proof. intros (c & r & -> & D). apply LT_date. exact D. Qed.
Lemma starts_digit (a b : pystr) : digits a -> a <> [] -> exists c r, a ++ b = c :: r /\ digitb c = true.
Proof. intros D N. destruct a as [|c a]; [congruence|]. exists c, (a ++ b). split; [reflexivity|]. inversion D; assumption. Qed.
(** A lock given as a date, or as a date and a time of day, in one of the documented orders, is that local time. *)
Theorem C61_date_time now now2 y mo d h mi s : valid (y, mo, d, h, mi, s) -> fields_ok (y, mo, d, h, mi, s) ->
  LT now now2 (ymd y mo d ++ s2b " " ++ hms h mi s) = mktime (y, mo, d, h, mi, s) /\
  LT now now2 (dmy y mo d ++ s2b " " ++ hms h mi s) = mktime (y, mo, d, h, mi, s).
Proof.
  intros V F. destruct (date_parts _ _ _ _ _ _ F) as (Dy & Dm & Dd & Dh & Di & Ds & Ly & Lm & Ld & Nh & Ns). destruct (CAL _ _ _ _ _ _ V) as (C1 & C2 & _).
  destruct (hms_chars h mi s Dh Di Ds) as (HC & H58).
  assert (Ny : dec_str (Z.to_N y) <> []) by (intro Q; rewrite Q in Ly; discriminate). assert (Nd : two d <> []) by (intro Q; rewrite Q in Ld; discriminate).
  assert (TP : time_process (hms h mi s) = Ok (hms h mi s, F_HMS)) by (apply time_hms; assumption). cbn [s2b app] in *. split.
  - rewrite LT_date' by (unfold ymd; rewrite <- !app_assoc; apply starts_digit; assumption).
    rewrite date_clean_dt; [|unfold ymd; intro Q; apply app_eq_nil in Q; tauto|apply ymd_chars; assumption|exact HC|exact H58].
    rewrite TP. cbn [bind]. rewrite process_ymd by assumption. cbn [bind fst snd app]. change (N_of_ascii " ") with 32 in C1. rewrite C1. reflexivity.
  - rewrite LT_date' by (unfold dmy; rewrite <- !app_assoc; apply starts_digit; assumption).
    rewrite date_clean_dt; [|unfold dmy; intro Q; apply app_eq_nil in Q; tauto|apply dmy_chars; assumption|exact HC|exact H58].
    rewrite TP. cbn [bind]. rewrite process_dmy by assumption. cbn [bind fst snd app]. change (N_of_ascii " ") with 32 in C2. rewrite C2. reflexivity.
Qed.
Theorem C61_date_minutes now now2 y mo d h mi : valid (y, mo, d, h, mi, 0%Z) -> fields_ok (y, mo, d, h, mi, 0%Z) ->
  LT now now2 (ymd y mo d ++ s2b " " ++ hm h mi) = mktime (y, mo, d, h, mi, 0%Z) /\
  LT now now2 (dmy y mo d ++ s2b " " ++ hm h mi) = mktime (y, mo, d, h, mi, 0%Z).
Proof.
  intros V F. destruct (date_parts _ _ _ _ _ _ F) as (Dy & Dm & Dd & Dh & Di & Ds & Ly & Lm & Ld & Nh & Ns). destruct (CAL _ _ _ _ _ _ V) as (_ & _ & C3).
  destruct (C3 eq_refl) as (C1 & C2). destruct (hm_chars h mi Dh Di) as (HC & H58).
  assert (Ny : dec_str (Z.to_N y) <> []) by (intro Q; rewrite Q in Ly; discriminate). assert (Nd : two d <> []) by (intro Q; rewrite Q in Ld; discriminate).
  assert (TP : time_process (hm h mi) = Ok (hm h mi, F_HM)) by (apply time_hm; assumption). cbn [s2b app] in *. split.
  - rewrite LT_date' by (unfold ymd; rewrite <- !app_assoc; apply starts_digit; assumption).
    rewrite date_clean_dt; [|unfold ymd; intro Q; apply app_eq_nil in Q; tauto|apply ymd_chars; assumption|exact HC|exact H58].
    rewrite TP. cbn [bind]. rewrite process_ymd by assumption. cbn [bind fst snd app]. change (N_of_ascii " ") with 32 in C1. rewrite C1. reflexivity.
  - rewrite LT_date' by (unfold dmy; rewrite <- !app_assoc; apply starts_digit; assumption).
    rewrite date_clean_dt; [|unfold dmy; intro Q; apply app_eq_nil in Q; tauto|apply dmy_chars; assumption|exact HC|exact H58].
    rewrite TP. cbn [bind]. rewrite process_dmy by assumption. cbn [bind fst snd app]. change (N_of_ascii " ") with 32 in C2. rewrite C2. reflexivity.
Qed.
Theorem C61_date_only now now2 y mo d : valid (y, mo, d, 0, 0, 0)%Z -> fields_ok (y, mo, d, 0, 0, 0)%Z ->
  LT now now2 (ymd y mo d) = mktime (y, mo, d, 0, 0, 0)%Z /\ LT now now2 (dmy y mo d) = mktime (y, mo, d, 0, 0, 0)%Z.
Proof.
  intros V F. destruct (date_parts _ _ _ _ _ _ F) as (Dy & Dm & Dd & Dh & Di & Ds & Ly & Lm & Ld & Nh & Ns). destruct (CAL _ _ _ _ _ _ V) as (C1 & C2 & _).
  assert (Ny : dec_str (Z.to_N y) <> []) by (intro Q; rewrite Q in Ly; discriminate). assert (Nd : two d <> []) by (intro Q; rewrite Q in Ld; discriminate). split.
  - rewrite LT_date' by (unfold ymd; apply starts_digit; assumption).
    rewrite date_clean_d; [|unfold ymd; intro Q; apply app_eq_nil in Q; tauto| |apply ymd_chars; assumption].
    2:{ unfold ymd. intro Q. apply (f_equal (@length N)) in Q. rewrite !app_length, Ly in Q. cbn in Q. lia. }
    rewrite process_ymd by assumption. cbn [bind fst snd app]. change (ymd y mo d ++ 32 :: s2b "00:00:00") with (ymd y mo d ++ s2b " " ++ hms 0 0 0). rewrite C1. reflexivity.
  - rewrite LT_date' by (unfold dmy; apply starts_digit; assumption).
    rewrite date_clean_d; [|unfold dmy; intro Q; apply app_eq_nil in Q; tauto| |apply dmy_chars; assumption].
    2:{ unfold dmy. intro Q. apply (f_equal (@length N)) in Q. rewrite !app_length, Ld in Q. cbn in Q. lia. }
    rewrite process_dmy by assumption. cbn [bind fst snd app]. change (dmy y mo d ++ 32 :: s2b "00:00:00") with (dmy y mo d ++ s2b " " ++ hms 0 0 0). rewrite C2. reflexivity.
Qed.
(** A date without a year is in the current year. *)
Theorem C61_this_year now now2 mo d h mi s : let y := year_of (localtime now2) in valid (y, mo, d, h, mi, s) -> fields_ok (y, mo, d, h, mi, s) ->
  LT now now2 (two mo ++ s2b "/" ++ two d ++ s2b " " ++ hms h mi s) = mktime (y, mo, d, h, mi, s).
Proof.
  cbv zeta. set (y := year_of _). intros V F. destruct (date_parts _ _ _ _ _ _ F) as (Dy & Dm & Dd & Dh & Di & Ds & Ly & Lm & Ld & Nh & Ns). destruct (CAL _ _ _ _ _ _ V) as (C1 & _ & _).
  destruct (hms_chars h mi s Dh Di Ds) as (HC & H58). assert (Nm : two mo <> []) by (intro Q; rewrite Q in Lm; discriminate). assert (Nd : two d <> []) by (intro Q; rewrite Q in Ld; discriminate).
  assert (TP : time_process (hms h mi s) = Ok (hms h mi s, F_HMS)) by (apply time_hms; assumption).
  rewrite LT_date' by (apply starts_digit; assumption).
  replace (two mo ++ s2b "/" ++ two d ++ s2b " " ++ hms h mi s) with ((two mo ++ 47 :: two d) ++ 32 :: hms h mi s) by (rewrite <- app_assoc; reflexivity).
  rewrite date_clean_dt; [|intro Q; apply app_eq_nil in Q; tauto| |exact HC|exact H58].
  2:{ apply Forall_app. split; [eapply Forall_impl; [|exact Dm]; intros c ?; left; assumption|]. constructor; [right; reflexivity|]. eapply Forall_impl; [|exact Dd]; intros c ?; left; assumption. }
  rewrite TP. cbn [bind]. rewrite date_2 by assumption. cbn [bind fst snd app]. fold y.
  replace ((dec_str (Z.to_N y) ++ 47 :: two mo ++ 47 :: two d) ++ 32 :: hms h mi s) with (ymd y mo d ++ s2b " " ++ hms h mi s) by (unfold ymd; rewrite <- !app_assoc; reflexivity).
  rewrite C1. reflexivity.
Qed.
(** The text a lock is shown as is a lock text with the same meaning, except where the clock is set back. *)
Theorem C61_shown now now2 e : valid (localtime e) -> fields_ok (localtime e) -> mktime (localtime e) = Ok e ->
  LT now now2 (date_str localtime e) = Ok e.
Proof.
  intros V F M. unfold date_str. destruct (localtime e) as [[[[[y mo] d] h] mi] s] eqn:E.
  destruct (C61_date_time now now2 _ _ _ _ _ _ V F) as (Q & _). rewrite M in Q. rewrite <- Q. f_equal. unfold ymd, hms. rewrite <- !app_assoc. reflexivity.
Qed.
(** A time of day alone, which the documentation of the sending calls gives as the first example ('12:00:10'), is always refused. *)
Theorem C61_time_only_refuted now now2 h mi s : fields_ok (2020, 1, 1, h, mi, s)%Z -> LT now now2 (hms h mi s) = Err ValueError.
Proof.
  intro F. destruct (date_parts _ _ _ _ _ _ F) as (_ & _ & _ & Dh & Di & Ds & _ & _ & _ & Nh & Ns). destruct (hms_chars h mi s Dh Di Ds) as (HC & H58).
  rewrite LT_date' by (unfold hms; apply starts_digit; assumption). unfold date_clean.
  assert (BI : strip (unquote (hms h mi s)) = hms h mi s).
  { rewrite unquote_none by (eapply Forall_impl; [|exact HC]; intros c; unfold timec, digitb; lia). apply strip_nospace. eapply Forall_impl; [|exact HC]. exact timec_space. }
  cbv zeta. rewrite BI.
  replace (listN_eqb (hms h mi s) (s2b "0")) with false. 2:{ symmetry. apply listN_eqb_neq. intro Q. rewrite Q in H58. discriminate. }
  replace (listN_eqb (hms h mi s) []) with false. 2:{ symmetry. apply listN_eqb_neq. intro Q. rewrite Q in H58. discriminate. }
  cbn [orb]. rewrite (hasc_none 43 _ timec), (hasc_none 45 _ timec), H58 by (try assumption; unfold timec, digitb; lia). cbn [orb].
  rewrite splitn_nosep by (eapply Forall_impl; [|exact HC]; intros c; unfold timec, digitb; lia). reflexivity.
Qed.
(** A date before 5 November 1985 is accepted but makes a lock on a block height: one that is never reached. *)
Theorem C61_early_refuted now now2 y mo d t : valid (y, mo, d, 0, 0, 0)%Z -> fields_ok (y, mo, d, 0, 0, 0)%Z -> mktime (y, mo, d, 0, 0, 0)%Z = Ok t -> (0 < t < 500000000)%Z ->
  exists l, LT now now2 (ymd y mo d) = Ok l /\ lock_is_timestamp l = false /\ forall height time, (height < t)%Z -> locked_check l height time = true.
Proof.
  intros V F M B. destruct (C61_date_only now now2 _ _ _ V F) as (Q & _). exists t. rewrite Q, M. split; [reflexivity|]. unfold locked_check, lock_is_timestamp.
  replace (500 * 1000 * 1000 <=? t)%Z with false by lia. split; [reflexivity|]. intros. lia.
Qed.
End C61.
Print Assumptions C61_duration.
Print Assumptions C61_duration_printed.
Print Assumptions C61_date_time.
Print Assumptions C61_date_minutes.
Print Assumptions C61_date_only.
Print Assumptions C61_this_year.
Print Assumptions C61_shown.
Print Assumptions C61_time_only_refuted.
Print Assumptions C61_early_refuted.
(** ** Examples: a calendar of all days, and local time in a fixed zone one hour east *)
Definition exd_n (t : pystr) : res Z := match digits_val 0 t with Some n => Ok (Z.of_N n) | None => Err ValueError end.
Definition exd_strptime (s : pystr) (df : dfmt) (tf : tfmt) : res tm :=
  match splitn 32 1 [] s with
  | [dd; ti] =>
      match split_all 47 dd, split_all 58 ti with
      | [a; b; c], h :: mi :: r =>
          do y <- exd_n (match df with F_dmY => c | _ => a end); do mo <- exd_n b; do d <- exd_n (match df with F_dmY => a | _ => c end);
          do h <- exd_n h; do mi <- exd_n mi; do s <- match r with [x] => exd_n x | _ => Ok 0%Z end; Ok (y, mo, d, h, mi, s)
      | _, _ => Err ValueError
      end
  | _ => Err ValueError
  end.
Lemma exd_two n : (0 <= n < 100)%Z -> exd_n (two n) = Ok n.
Proof.
  intro B. unfold exd_n, two. cbv zeta. cbn [digits_val]. replace ((48 <=? 48 + Z.to_N n / 10) && (48 + Z.to_N n / 10 <=? 57)) with true by lia.
  replace ((48 <=? 48 + Z.to_N n mod 10) && (48 + Z.to_N n mod 10 <=? 57)) with true by lia. f_equal. lia.
Qed.
Lemma exd_year y : (0 <= y)%Z -> exd_n (dec_str (Z.to_N y)) = Ok y.
Proof. intro B. unfold exd_n. rewrite dec_str_val. f_equal. lia. Qed.
Example exd_calendar : calendar fields_ok exd_strptime.
Proof.
  intros y mo d h mi s F. destruct (date_parts _ _ _ _ _ _ F) as (Dy & Dm & Dd & Dh & Di & Ds & _). destruct F as (Y & M & D & H & MI & S1).
  assert (SP : forall a b, Forall datec a -> Forall timec b -> b <> [] -> splitn 32 1 [] (a ++ s2b " " ++ b) = [a; b]).
  { intros a b A B NB. cbn [s2b app]. change (N_of_ascii " ") with 32. rewrite splitn_sep by (eapply Forall_impl; [|exact A]; intros c; unfold datec, digitb; lia). cbn [rev app]. destruct b as [|x b]; [congruence|]. reflexivity. }
  assert (T3 : split_all 58 (hms h mi s) = [two h; two mi; two s]) by (apply (split_all_3 58 (two h) (two mi) (two s)); apply digits_not; auto).
  assert (T2 : split_all 58 (hm h mi) = [two h; two mi]) by (apply (split_all_2 58 (two h) (two mi)); apply digits_not; auto).
  assert (D1 : split_all 47 (ymd y mo d) = [dec_str (Z.to_N y); two mo; two d]) by (apply (split_all_3 47 (dec_str (Z.to_N y)) (two mo) (two d)); apply digits_not; auto).
  assert (D2 : split_all 47 (dmy y mo d) = [two d; two mo; dec_str (Z.to_N y)]) by (apply (split_all_3 47 (two d) (two mo) (dec_str (Z.to_N y))); apply digits_not; auto).
  pose proof (ymd_chars y mo d Dy Dm Dd) as C1. pose proof (dmy_chars y mo d Dy Dm Dd) as C2. destruct (hms_chars h mi s Dh Di Ds) as (C3 & N3). destruct (hm_chars h mi Dh Di) as (C4 & N4).
  assert (N3' : hms h mi s <> []) by (intro Q; rewrite Q in N3; discriminate). assert (N4' : hm h mi <> []) by (intro Q; rewrite Q in N4; discriminate).
  unfold exd_strptime. rewrite !SP by assumption. rewrite D1, D2, T3. rewrite exd_year, !exd_two by lia. split; [reflexivity|]. split; [reflexivity|].
  intros ->. rewrite T2. rewrite !exd_two by lia. split; reflexivity.
Qed.
Definition exd_mktime (t : tm) : res Z := let '(y, mo, d, h, mi, s) := t in Ok ((((y - 1970) * 372 + (mo - 1) * 31 + (d - 1)) * 24 + h) * 3600 + mi * 60 + s - 3600)%Z.
Definition exd_lock := lock_text exd_td (fun _ _ => Err ValueError) exd_strptime exd_mktime (fun _ => (2020, 1, 1, 0, 0, 0)%Z).
Example exd_lock_1 : exd_lock 1000 1000 (s2b "+ 7d12h") = Ok 649000%Z /\ exd_lock 0 0 (s2b "31/10/2012 12:30") = exd_lock 0 0 (s2b "2012/10/31 12:30:00") /\
  exd_lock 0 0 (s2b "12:00:10") = Err ValueError /\ exd_lock 0 0 (s2b "03/04 05:06:07") = exd_lock 0 0 (s2b "2020/03/04 05:06:07").
Proof. vm_compute. auto. Qed.
Example exd_early : exists t, exd_mktime (1984, 10, 31, 0, 0, 0)%Z = Ok t /\ (0 < t < 500000000)%Z /\ exd_lock 0 0 (s2b "1984/10/31") = Ok t.
Proof. eexists. split; [reflexivity|]. vm_compute. auto. Qed.
