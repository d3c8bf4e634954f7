(** Lemmas about texts that strptime refuses. *)
From Verif Require Import Base BaseFacts Types TypesFacts TypesFacts2 CurrencyFacts Conditions Dates Strptime Spec_Dates DateFacts StrptimeFacts DateFacts2.
From Coq Require Import ZifyBool ZifyNat ZifyN.
Ltac Zify.zify_post_hook ::= Z.div_mod_to_equations.

(** what a directive reads: a numeral in its range (or, for %d, a blank and a digit) *)
Definition sound (m : matcher) (P : N -> Prop) : Prop :=
  forall s v r, In (v, r) (m s) -> P v /\ exists t, s = t ++ r /\ (numeral t v \/ exists d, t = 32 :: d).
Lemma m1_sound lo hi s v r : hi <= 9 -> In (v, r) (m1 lo hi s) -> (lo <= v <= hi) /\ exists t, s = t ++ r /\ numeral t v.
Proof.
  intros B I. destruct s as [|x s]; [contradiction|]. cbn [m1] in I. destruct (cls lo hi x) eqn:E; [|contradiction]. destruct I as [I|[]]. injection I as <- <-. unfold cls in E. split; [lia|].
  exists [x]. split; [reflexivity|]. split; [discriminate|]. cbn [digits_val]. replace ((48 <=? x) && (x <=? 57)) with true by lia. f_equal; lia.
Qed.
Lemma m2_sound lo hi lo' hi' s v r : hi <= 9 -> hi' <= 9 -> In (v, r) (m2 lo hi lo' hi' s) -> (10 * lo + lo' <= v <= 10 * hi + hi') /\ exists t, s = t ++ r /\ numeral t v.
Proof.
  intros B B' I. destruct s as [|x [|y s]]; [contradiction|contradiction|]. cbn [m2] in I. destruct (cls lo hi x && cls lo' hi' y) eqn:E; [|contradiction]. destruct I as [I|[]]. injection I as <- <-. unfold cls in E. split; [lia|].
  exists [x; y]. split; [reflexivity|]. split; [discriminate|]. cbn [digits_val]. replace ((48 <=? x) && (x <=? 57)) with true by lia. replace ((48 <=? y) && (y <=? 57)) with true by lia. f_equal; lia.
Qed.
Ltac sound1 := match goal with I : In _ (m2 _ _ _ _ _) |- _ => apply m2_sound in I as (? & ? & ? & ?); [|lia|lia] | I : In _ (m1 _ _ _) |- _ => apply m1_sound in I as (? & ? & ? & ?); [|lia] end;
  (split; [lia|]); eauto.
Ltac sounds := repeat match goal with I : In _ (_ ++ _) |- _ => apply in_app_or in I as [I|I] end; sound1.
Lemma sound_m : sound d_m (fun v => 1 <= v <= 12).
Proof. intros s v r I. unfold d_m in I. sounds. Qed.
Lemma sound_H : sound d_H (fun v => v < 24).
Proof. intros s v r I. unfold d_H in I. sounds. Qed.
Lemma sound_M : sound d_M (fun v => v < 60).
Proof. intros s v r I. unfold d_M in I. sounds. Qed.
Lemma sound_S : sound d_S (fun v => v < 62).
Proof. intros s v r I. unfold d_S in I. sounds. Qed.
Lemma sound_y : sound d_y (fun v => True).
Proof. intros s v r I. unfold d_y in I. apply m2_sound in I as (_ & t & E & N); [|lia|lia]. split; [exact Logic.I|]. eauto. Qed.
Lemma sound_d : sound d_d (fun v => 1 <= v <= 31).
Proof.
  intros s v r I. unfold d_d in I. repeat apply in_app_or in I as [I|I]. 5:{ destruct s as [|x s]; [contradiction|]. destruct (N.eqb_spec x 32) as [->|_]; [|contradiction].
    apply m1_sound in I as (B & t & -> & N); [|lia]. split; [lia|]. exists (32 :: t). split; [reflexivity|]. right. eauto. }
  all: sound1.
Qed.
Lemma sound_Y : sound d_Y (fun v => True).
Proof.
  intros s v r I. split; [exact Logic.I|]. unfold d_Y in I. apply in_flat_map in I as ([a s'] & I1 & I2). cbn [fst snd] in I2. apply in_map_iff in I2 as ([b q] & E & I2). cbn [fst snd] in E. injection E as <- <-.
  destruct s as [|x [|x' s]]; try contradiction. cbn [m2] in I1. destruct (cls 0 9 x && cls 0 9 x') eqn:E1; [|contradiction]. destruct I1 as [I1|[]]. injection I1 as <- <-.
  destruct s as [|y [|y' s]]; try contradiction. cbn [m2] in I2. destruct (cls 0 9 y && cls 0 9 y') eqn:E2; [|contradiction]. destruct I2 as [I2|[]]. injection I2 as <- <-. unfold cls in *.
  exists [x; x'; y; y']. split; [reflexivity|]. left. split; [discriminate|]. cbn [digits_val].
  replace ((48 <=? x) && (x <=? 57)) with true by lia. replace ((48 <=? x') && (x' <=? 57)) with true by lia. replace ((48 <=? y) && (y <=? 57)) with true by lia. replace ((48 <=? y') && (y' <=? 57)) with true by lia. f_equal; lia.
Qed.
(** reading a numeral which something other than a digit follows *)
Lemma split_digits (a t r q : pystr) : digits a -> digits t -> starts_digitb r = false -> starts_digitb q = false -> a ++ r = t ++ q -> a = t /\ r = q.
Proof.
  revert t. induction a as [|x a IH]; intros t A T R Q E.
  - destruct t as [|y t]; [auto|]. cbn [app] in E. subst r. inversion T. cbn [starts_digitb] in R. congruence.
  - destruct t as [|y t]. { cbn [app] in E. subst q. inversion A. cbn [starts_digitb] in Q. congruence. }
    cbn [app] in E. injection E as -> E. inversion A; inversion T; subst. destruct (IH t) as (-> & ->); auto.
Qed.
Lemma read_unique m P a n l r vs q : sound m P -> numeral a n -> starts_digitb r = false -> refuses_digits l -> In (vs, q) (matches (IRead m :: l) (a ++ r)) ->
  exists ws, vs = n :: ws /\ P n /\ In (ws, q) (matches l r).
Proof.
  intros S1 A R X I. cbn [matches] in I. apply in_flat_map in I as ([v s] & I1 & I2). cbn [fst snd] in I2. apply in_map_iff in I2 as ([ws q'] & E & I2). cbn [fst snd] in E. injection E as <- <-.
  destruct (S1 _ _ _ I1) as (Pv & t & E & T). destruct (numeral_digits _ _ A) as (Da & Na).
  destruct T as [T|(d & ->)]. 2:{ exfalso. destruct a as [|x a]; [congruence|]. cbn [app] in E. injection E as -> _. inversion Da as [|? ? Q _]. discriminate Q. }
  destruct (starts_digitb s) eqn:Q. { rewrite (X _ Q) in I2. contradiction. }
  destruct (numeral_digits _ _ T) as (Dt & _). destruct (split_digits _ _ _ _ Da Dt R Q E) as (<- & <-).
  destruct A as (_ & A), T as (_ & T). rewrite A in T. injection T as <-. eauto.
Qed.
Lemma read_last m P a n vs : sound m P -> numeral a n -> In (vs, []) (matches [IRead m] a) -> vs = [n] /\ P n.
Proof.
  intros S1 A I. cbn [matches] in I. apply in_flat_map in I as ([v s] & I1 & I2). cbn [map fst snd] in I2. destruct I2 as [I2|[]]. injection I2 as <- ->.
  destruct (S1 _ _ _ I1) as (Pv & t & E & T). rewrite app_nil_r in E. subst t. destruct (numeral_digits _ _ A) as (Da & Na).
  destruct T as [T|(d & ->)]; [|inversion Da as [|? ? Q _]; discriminate Q]. destruct A as (_ & A), T as (_ & T). rewrite A in T. injection T as <-. auto.
Qed.
Lemma char_in c l r vs q : In (vs, q) (matches (IChar c :: l) (c :: r)) -> In (vs, q) (matches l r).
Proof. cbn [matches]. rewrite N.eqb_refl. auto. Qed.
Lemma blanks_in l r vs q : starts_digitb r = true -> In (vs, q) (matches (IBlanks :: l) (32 :: r)) -> In (vs, q) (matches l r).
Proof.
  intros D I. cbn [matches blanks] in I. change (is_pyspace 32) with true in I. cbv iota in I. destruct r as [|x r]; [discriminate|]. cbn [starts_digitb] in D.
  assert (E : blanks (x :: r) = []). { cbn [blanks]. assert (is_pyspace x = false) as -> by (apply digit_not_space, is_digit_b, D). reflexivity. }
  rewrite E in I. cbn [app flat_map] in I. rewrite app_nil_r in I. exact I.
Qed.
Lemma half_in p v l r vs q : half_text p v -> In (vs, q) (matches (IRead d_p :: l) (p ++ r)) -> exists ws, vs = v :: ws /\ In (ws, q) (matches l r).
Proof.
  intros H I. destruct (half_cases p v H) as (x & y & -> & _ & Q). cbn [matches] in I. rewrite Q in I. cbn [flat_map fst snd] in I. rewrite app_nil_r in I.
  apply in_map_iff in I as ([ws q'] & E & I). cbn [fst snd] in E. injection E as <- <-. eauto.
Qed.
Lemma three_in d1 d2 d3 P1 P2 P3 (a b c : pystr) x y z l r vs q : sound d1 P1 -> sound d2 P2 -> sound d3 P3 -> numeral a x -> numeral b y -> numeral c z -> starts_digitb r = true ->
  In (vs, q) (matches (IRead d1 :: IChar 47 :: IRead d2 :: IChar 47 :: IRead d3 :: IBlanks :: l) (a ++ 47 :: b ++ 47 :: c ++ 32 :: r)) ->
  exists ws, vs = x :: y :: z :: ws /\ In (ws, q) (matches l r).
Proof.
  intros S1 S2 S3 A B C D I.
  apply (read_unique _ _ _ _ _ _ _ _ S1 A) in I as (w1 & -> & _ & I); [|reflexivity|apply refuses_char; reflexivity]. apply char_in in I.
  apply (read_unique _ _ _ _ _ _ _ _ S2 B) in I as (w2 & -> & _ & I); [|reflexivity|apply refuses_char; reflexivity]. apply char_in in I.
  apply (read_unique _ _ _ _ _ _ _ _ S3 C) in I as (w3 & -> & _ & I); [|reflexivity|apply refuses_blanks]. apply blanks_in in I; [|exact D]. eauto.
Qed.
(** dates *)
Lemma date_form_read localtime now2 t y m d : let this := Z.to_N (year_of (localtime now2)) in
  date_text this t y m d -> 1000 <= this <= 9999 ->
  exists t' df, date_process localtime now2 t = Ok (t', df) /\ Forall datec t /\ starts_digitb t = true /\ (1 < length t)%nat /\
    (forall l r vs q, starts_digitb r = true -> In (vs, q) (matches (date_items df ++ IBlanks :: l) (t' ++ 32 :: r)) ->
       exists ws, date_of df vs = Some (y, m, d, ws) /\ In (ws, q) (matches l r)).
Proof.
  cbv zeta. intros T Y.
  destruct T as [ty y tm m td d A L B C|ty y tm m td d A L B C|ty y tm m td d A L B C|tm m td d B C]; cbn [s2b app] in *; change (N_of_ascii "/") with 47 in *;
    destruct (field_digits _ _ B) as (Dm & Nm & Om); destruct (field_digits _ _ C) as (Dd & Nd & Od); try destruct (numeral_digits _ _ A) as (Dy & Ny).
  - exists (ty ++ 47 :: tm ++ 47 :: td), F_Ymd. split; [rewrite date_3 by assumption; rewrite L, Om, Od; reflexivity|].
    split; [apply three_datec; assumption|]. split; [apply digits_head; assumption|]. split; [rewrite app_length; lia|].
    intros l r vs q D I. cbn [date_items app] in I. rewrite <- app_assoc in I. cbn [app] in I. rewrite <- app_assoc in I. cbn [app] in I.
    apply (three_in _ _ _ _ _ _ _ _ _ _ _ _ _ _ _ _ sound_Y sound_m sound_d A (proj1 B) (proj1 C) D) in I as (ws & -> & I). exists ws. auto.
  - exists (td ++ 47 :: tm ++ 47 :: ty), F_dmY. split.
    { rewrite date_3 by assumption. rewrite (one_two_4 ty L), L, Om, Od. rewrite !andb_false_r. reflexivity. }
    split; [apply three_datec; assumption|]. split; [apply digits_head; assumption|]. split; [rewrite app_length; cbn [length]; rewrite app_length; cbn [length]; destruct td; [congruence|cbn [length]; lia]|].
    intros l r vs q D I. cbn [date_items app] in I. rewrite <- app_assoc in I. cbn [app] in I. rewrite <- app_assoc in I. cbn [app] in I.
    apply (three_in _ _ _ _ _ _ _ _ _ _ _ _ _ _ _ _ sound_d sound_m sound_Y (proj1 C) (proj1 B) A D) in I as (ws & -> & I). exists ws. auto.
  - exists (ty ++ 47 :: tm ++ 47 :: td), F_ymd. assert (Oy : one_two ty = true) by (unfold one_two; rewrite L; reflexivity). split.
    { rewrite date_3 by assumption. rewrite L, Om, Od, Oy. cbn [Nat.eqb andb]. assert ((length td =? 4)%nat = false) as -> by (unfold one_two in Od; lia). reflexivity. }
    split; [apply three_datec; assumption|]. split; [apply digits_head; assumption|]. split; [rewrite app_length; lia|].
    intros l r vs q D I. cbn [date_items app] in I. rewrite <- app_assoc in I. cbn [app] in I. rewrite <- app_assoc in I. cbn [app] in I.
    apply (three_in _ _ _ _ _ _ _ _ _ _ _ _ _ _ _ _ sound_y sound_m sound_d A (proj1 B) (proj1 C) D) in I as (ws & -> & I). exists ws. auto.
  - set (y := Z.to_N (year_of (localtime now2))) in *.
    assert (A : numeral (dec_str y) y) by (destruct (dec_str_spec y) as (Q1 & Q2 & _); split; assumption).
    assert (L : length (dec_str y) = 4%nat) by (destruct (dec_str_4 y Y) as (? & ? & ? & ? & -> & _); reflexivity).
    destruct (numeral_digits _ _ A) as (Dy & Ny).
    exists (dec_str y ++ 47 :: tm ++ 47 :: td), F_Ymd. split; [rewrite date_2 by assumption; reflexivity|].
    split; [apply Forall_app; split; [eapply Forall_impl; [|exact Dm]; intros ? ?; left; assumption|]; constructor; [right; reflexivity|]; eapply Forall_impl; [|exact Dd]; intros ? ?; left; assumption|].
    split; [apply digits_head; assumption|]. split; [rewrite app_length; cbn [length]; destruct tm; [congruence|cbn [length]; lia]|].
    intros l r vs q D I. cbn [date_items app] in I. rewrite <- app_assoc in I. cbn [app] in I. rewrite <- app_assoc in I. cbn [app] in I.
    apply (three_in _ _ _ _ _ _ _ _ _ _ _ _ _ _ _ _ sound_Y sound_m sound_d A (proj1 B) (proj1 C) D) in I as (ws & -> & I). exists ws. auto.
Qed.
(** times *)
Lemma time_form_read t p h m s : time_form t p h m s -> exists tf, time_process t = Ok (t, tf) /\ Forall clockc t /\ hasc 58 t = true /\ starts_digitb t = true /\
  (forall vs, In (vs, []) (matches (time_items tf) t) -> real_time p h m s).
Proof.
  intro T. destruct T as [th h tm m A B|th h tm m ts s A B C|th h tp p tm m A P B|th h tp p tm m ts s A P B C]; cbn [s2b app] in *;
    change (N_of_ascii ":") with 58 in *; destruct (field_digits _ _ A) as (Dh & Nh & _); destruct (field_digits _ _ B) as (Dm & Nm & _).
  - exists F_HM. split; [apply (time_hm (fun _ _ => Err RuntimeError) (fun _ _ _ => Err RuntimeError)); assumption|].
    split; [apply Forall_app; split; [apply digits_clock, Dh|constructor; [right; left; reflexivity|apply digits_clock, Dm]]|].
    split; [rewrite hasc_app; apply orb_true_r|]. split; [apply digits_head; assumption|]. intros vs I. cbn [time_items] in I.
    apply (read_unique _ _ _ _ _ _ _ _ sound_H (proj1 A)) in I as (w1 & -> & R1 & I); [|reflexivity|apply refuses_char; reflexivity]. apply char_in in I.
    apply (read_last _ _ _ _ _ sound_M (proj1 B)) in I as (_ & R2). split; [exact R1|]. split; [exact R2|lia].
  - destruct (field_digits _ _ C) as (Ds & Ns & _). exists F_HMS. split; [apply (time_hms (fun _ _ => Err RuntimeError) (fun _ _ _ => Err RuntimeError)); assumption|].
    split; [apply Forall_app; split; [apply digits_clock, Dh|constructor; [right; left; reflexivity|]]; apply Forall_app; split; [apply digits_clock, Dm|constructor; [right; left; reflexivity|apply digits_clock, Ds]]|].
    split; [rewrite hasc_app; apply orb_true_r|]. split; [apply digits_head; assumption|]. intros vs I. cbn [time_items] in I.
    apply (read_unique _ _ _ _ _ _ _ _ sound_H (proj1 A)) in I as (w1 & -> & R1 & I); [|reflexivity|apply refuses_char; reflexivity]. apply char_in in I.
    apply (read_unique _ _ _ _ _ _ _ _ sound_M (proj1 B)) in I as (w2 & -> & R2 & I); [|reflexivity|apply refuses_char; reflexivity]. apply char_in in I.
    apply (read_last _ _ _ _ _ sound_S (proj1 C)) in I as (_ & R3). split; [exact R1|]. split; [exact R2|exact R3].
  - destruct (half_text_chars _ _ P) as (Cp & (x & y & Ep & Dx) & N58).
    assert (Fc : Forall clockc (th ++ tp ++ 58 :: tm)).
    { apply Forall_app; split; [apply digits_clock, Dh|]. apply Forall_app; split; [exact Cp|]. constructor; [right; left; reflexivity|apply digits_clock, Dm]. }
    exists F_IpM. split.
    { unfold time_process. cbv zeta. rewrite strip_nospace by (eapply Forall_impl; [|exact Fc]; exact clockc_space). rewrite !hasc_app. change (hasc 58 (58 :: tm)) with true. rewrite !orb_true_r. cbn [negb].
      rewrite app_assoc, split_all_2 by (first [apply Forall_app; split; [apply digits_not; auto|exact N58] | apply digits_not; auto]). rewrite <- app_assoc, (half_true _ _ _ _ P). reflexivity. }
    split; [exact Fc|]. split; [rewrite !hasc_app; change (hasc 58 (58 :: tm)) with true; rewrite !orb_true_r; reflexivity|]. split; [apply digits_head; assumption|]. intros vs I. cbn [time_items] in I.
    apply (read_unique _ _ _ _ _ _ _ _ sound_m (proj1 A)) in I as (w1 & -> & R1 & I); [|rewrite Ep; exact Dx|apply refuses_p].
    apply (half_in _ _ _ _ _ _ P) in I as (w2 & -> & I). apply char_in in I. apply (read_last _ _ _ _ _ sound_M (proj1 B)) in I as (_ & R2). split; [exact R1|]. split; [exact R2|lia].
  - destruct (half_text_chars _ _ P) as (Cp & (x & y & Ep & Dx) & N58). destruct (field_digits _ _ C) as (Ds & Ns & _).
    assert (Fc : Forall clockc (th ++ tp ++ 58 :: tm ++ 58 :: ts)).
    { apply Forall_app; split; [apply digits_clock, Dh|]. apply Forall_app; split; [exact Cp|]. constructor; [right; left; reflexivity|]. apply Forall_app; split; [apply digits_clock, Dm|]. constructor; [right; left; reflexivity|apply digits_clock, Ds]. }
    exists F_IpMS. split.
    { unfold time_process. cbv zeta. rewrite strip_nospace by (eapply Forall_impl; [|exact Fc]; exact clockc_space). rewrite !hasc_app. change (hasc 58 (58 :: tm ++ 58 :: ts)) with true. rewrite !orb_true_r. cbn [negb].
      rewrite app_assoc, split_all_3 by (first [apply Forall_app; split; [apply digits_not; auto|exact N58] | apply digits_not; auto]). rewrite <- app_assoc, (half_true _ _ _ _ P). reflexivity. }
    split; [exact Fc|]. split; [rewrite !hasc_app; change (hasc 58 (58 :: tm ++ 58 :: ts)) with true; rewrite !orb_true_r; reflexivity|]. split; [apply digits_head; assumption|]. intros vs I. cbn [time_items] in I.
    apply (read_unique _ _ _ _ _ _ _ _ sound_m (proj1 A)) in I as (w1 & -> & R1 & I); [|rewrite Ep; exact Dx|apply refuses_p].
    apply (half_in _ _ _ _ _ _ P) in I as (w2 & -> & I). apply char_in in I.
    apply (read_unique _ _ _ _ _ _ _ _ sound_M (proj1 B)) in I as (w3 & -> & R2 & I); [|reflexivity|apply refuses_char; reflexivity]. apply char_in in I.
    apply (read_last _ _ _ _ _ sound_S (proj1 C)) in I as (_ & R3). split; [exact R1|]. split; [exact R2|exact R3].
Qed.
(** a date that is none, or a time of day that is none *)
Lemma strptime_refused t df y m d u tf : (forall l r vs q, starts_digitb r = true -> In (vs, q) (matches (date_items df ++ IBlanks :: l) (t ++ 32 :: r)) ->
       exists ws, date_of df vs = Some (y, m, d, ws) /\ In (ws, q) (matches l r)) -> starts_digitb u = true ->
  ~ real_day y m d \/ (forall vs, ~ In (vs, []) (matches (time_items tf) u)) -> py_strptime (t ++ [32] ++ u) df tf = Err ValueError.
Proof.
  intros F D X. cbn [app]. unfold py_strptime. destruct (matches (date_items df ++ IBlanks :: time_items tf) (t ++ 32 :: u)) as [|[vs [|c q]] alts] eqn:E; try reflexivity.
  destruct (F (time_items tf) u vs [] D ltac:(rewrite E; left; reflexivity)) as (ws & -> & I). destruct X as [X|X]; [|exfalso; exact (X _ I)].
  destruct (time_of tf ws) as [[[h mi] sec]|]; [|reflexivity]. destruct (day_exists y m d) eqn:Q; [|reflexivity]. apply day_spec in Q. contradiction.
Qed.
