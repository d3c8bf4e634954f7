(** Lemmas about the documented forms of dates and times of day. *)
From Verif Require Import Base BaseFacts Types TypesFacts TypesFacts2 CurrencyFacts Conditions Dates Strptime Spec_Dates DateFacts StrptimeFacts.
From Coq Require Import ZifyBool ZifyNat ZifyN.
Ltac Zify.zify_post_hook ::= Z.div_mod_to_equations.

(** ** Texts *)
Lemma numeral_digits t n : numeral t n -> digits t /\ t <> [].
Proof. intros (NE & V). split; [|exact NE]. apply digits_val_Forall in V. eapply Forall_impl; [|exact V]. intros c C. apply is_digit_b, C. Qed.
Lemma field_digits t n : field t n -> digits t /\ t <> [] /\ one_two t = true.
Proof. intros (N & L). destruct (numeral_digits t n N). split; [assumption|]. split; [assumption|]. unfold one_two. lia. Qed.
Lemma digits_head t r : digits t -> t <> [] -> starts_digitb (t ++ r) = true.
Proof. intros D N. destruct t; [congruence|]. inversion D; assumption. Qed.
(** characters of a time of day *)
Definition clockc (c : N) : Prop := digitb c = true \/ c = 58 \/ In c [97; 109; 112; 65; 77; 80].
Lemma clockc_space c : clockc c -> is_pyspace c = false.
Proof. intros [C|[-> |C]]; [apply digit_not_space, is_digit_b, C|reflexivity|]. cbn in C. repeat destruct C as [<-|C]; try contradiction; reflexivity. Qed.
Lemma half_text_chars t p : half_text t p -> Forall clockc t /\ (exists x y, t = [x; y] /\ digitb x = false) /\ Forall (fun c => c <> 58) t.
Proof.
  intro H. destruct H as [H|H]; cbn in H; repeat destruct H as [<-|H]; try contradiction;
    (split; [repeat constructor; right; right; cbn; tauto|split; [do 2 eexists; split; reflexivity|repeat constructor; discriminate]]).
Qed.
Lemma digits_clock t : digits t -> Forall clockc t.
Proof. intro D. eapply Forall_impl; [|exact D]. intros c C. left. exact C. Qed.
(** a time of day: its characters, how it is taken, and how it is read *)
Lemma has2_app a b s t : has2 a b s = true -> has2 a b (s ++ t) = true.
Proof.
  induction s as [|x s IH]; cbn [has2 app]; [discriminate|]. intro E. apply orb_prop in E as [E|E].
  - destruct s as [|y s]; [rewrite andb_false_r in E; discriminate|]. cbn [app]. rewrite E. reflexivity.
  - rewrite (IH E). apply orb_true_r.
Qed.
Lemma has2_mid a b s t : has2 a b t = true -> has2 a b (s ++ t) = true.
Proof. intro E. induction s as [|x s IH]; [exact E|]. cbn [has2 app]. rewrite IH. apply orb_true_r. Qed.
Lemma half_true h p v r : half_text p v -> half (h ++ p ++ r) = true.
Proof.
  intro H. unfold half, lower. rewrite !map_app. destruct H as [H|H].
  - apply orb_true_intro. left. apply has2_mid, has2_app. cbn in H. repeat destruct H as [<-|H]; try contradiction; reflexivity.
  - apply orb_true_intro. right. apply has2_mid, has2_app. cbn in H. repeat destruct H as [<-|H]; try contradiction; reflexivity.
Qed.
Definition secs (tf : tfmt) : list item := match tf with F_HMS | F_IpMS => [IChar 58; IRead d_S] | _ => [] end.
Lemma time_text_read t h m s : time_text t h m s -> exists tf vs, time_process t = Ok (t, tf) /\ Forall clockc t /\ hasc 58 t = true /\
  first_is (time_items tf) t vs /\ time_of tf vs = Some (h, m, s) /\ starts_digitb t = true.
Proof.
  intro T. destruct T as [th h tm m A B Bh Bm|th h tm m ts s A B C Bh Bm Bs|th h tp p tm m A P B Bh Bm|th h tp p tm m ts s A P B C Bh Bm Bs]; cbn [s2b app] in *;
    change (N_of_ascii ":") with 58 in *; destruct (field_digits _ _ A) as (Dh & Nh & _); destruct (field_digits _ _ B) as (Dm & Nm & _).
  - exists F_HM, [h; m]. split; [apply (time_hm (fun _ _ => Err RuntimeError) (fun _ _ _ => Err RuntimeError)); assumption|]. split; [apply Forall_app; split; [apply digits_clock, Dh|constructor; [right; left; reflexivity|apply digits_clock, Dm]]|].
    split; [rewrite hasc_app; apply orb_true_r|]. split; [|split; [reflexivity|apply digits_head; assumption]].
    apply first_read; [apply reads_H; assumption|reflexivity|apply refuses_char; reflexivity|]. apply first_char, first_last, reads_M; assumption.
  - destruct (field_digits _ _ C) as (Ds & Ns & _). exists F_HMS, [h; m; s]. split; [apply (time_hms (fun _ _ => Err RuntimeError) (fun _ _ _ => Err RuntimeError)); assumption|].
    split; [apply Forall_app; split; [apply digits_clock, Dh|constructor; [right; left; reflexivity|]]; apply Forall_app; split; [apply digits_clock, Dm|constructor; [right; left; reflexivity|apply digits_clock, Ds]]|].
    split; [rewrite hasc_app; apply orb_true_r|]. split; [|split; [reflexivity|apply digits_head; assumption]].
    apply first_read; [apply reads_H; assumption|reflexivity|apply refuses_char; reflexivity|]. apply first_char.
    apply first_read; [apply reads_M; assumption|reflexivity|apply refuses_char; reflexivity|]. apply first_char, first_last, reads_S; assumption.
  - destruct (half_text_chars _ _ P) as (Cp & (x & y & Ep & Dx) & N58).
    assert (Fc : Forall clockc (th ++ tp ++ 58 :: tm)).
    { apply Forall_app; split; [apply digits_clock, Dh|]. apply Forall_app; split; [exact Cp|]. constructor; [right; left; reflexivity|apply digits_clock, Dm]. }
    exists F_IpM, [h; p; m]. split.
    { unfold time_process. cbv zeta. rewrite strip_nospace by (eapply Forall_impl; [|exact Fc]; exact clockc_space). rewrite !hasc_app. change (hasc 58 (58 :: tm)) with true. rewrite !orb_true_r. cbn [negb].
      rewrite app_assoc, split_all_2 by (first [apply Forall_app; split; [apply digits_not; auto|exact N58] | apply digits_not; auto]). rewrite <- app_assoc, (half_true _ _ _ _ P). reflexivity. }
    split; [exact Fc|]. split; [rewrite !hasc_app; change (hasc 58 (58 :: tm)) with true; rewrite !orb_true_r; reflexivity|]. split; [|split].
    + apply first_read; [apply reads_m; assumption|rewrite Ep; exact Dx|apply refuses_p|]. apply first_half; [exact P|]. apply first_char, first_last, reads_M; assumption.
    + cbn [time_of]. do 3 f_equal. unfold hour_of. destruct P as [_|_]; cbn [N.eqb Pos.eqb].
      * change (0 =? 0) with true. cbv iota. destruct (N.eqb_spec h 12) as [-> | Q]; [reflexivity|]. rewrite N.mod_small; lia.
      * change (1 =? 0) with false. cbv iota. destruct (N.eqb_spec h 12) as [-> | Q]; [reflexivity|]. rewrite N.mod_small; lia.
    + apply digits_head; assumption.
  - destruct (half_text_chars _ _ P) as (Cp & (x & y & Ep & Dx) & N58). destruct (field_digits _ _ C) as (Ds & Ns & _).
    assert (Fc : Forall clockc (th ++ tp ++ 58 :: tm ++ 58 :: ts)).
    { apply Forall_app; split; [apply digits_clock, Dh|]. apply Forall_app; split; [exact Cp|]. constructor; [right; left; reflexivity|]. apply Forall_app; split; [apply digits_clock, Dm|]. constructor; [right; left; reflexivity|apply digits_clock, Ds]. }
    exists F_IpMS, [h; p; m; s]. split.
    { unfold time_process. cbv zeta. rewrite strip_nospace by (eapply Forall_impl; [|exact Fc]; exact clockc_space). rewrite !hasc_app. change (hasc 58 (58 :: tm ++ 58 :: ts)) with true. rewrite !orb_true_r. cbn [negb].
      rewrite app_assoc, split_all_3 by (first [apply Forall_app; split; [apply digits_not; auto|exact N58] | apply digits_not; auto]). rewrite <- app_assoc, (half_true _ _ _ _ P). reflexivity. }
    split; [exact Fc|]. split; [rewrite !hasc_app; change (hasc 58 (58 :: tm ++ 58 :: ts)) with true; rewrite !orb_true_r; reflexivity|]. split; [|split].
    + apply first_read; [apply reads_m; assumption|rewrite Ep; exact Dx|apply refuses_p|]. apply first_half; [exact P|]. apply first_char.
      apply first_read; [apply reads_M; assumption|reflexivity|apply refuses_char; reflexivity|]. apply first_char, first_last, reads_S; assumption.
    + cbn [time_of]. do 3 f_equal. unfold hour_of. destruct P as [_|_].
      * change (0 =? 0) with true. cbv iota. destruct (N.eqb_spec h 12) as [-> | Q]; [reflexivity|]. rewrite N.mod_small; lia.
      * change (1 =? 0) with false. cbv iota. destruct (N.eqb_spec h 12) as [-> | Q]; [reflexivity|]. rewrite N.mod_small; lia.
    + apply digits_head; assumption.
Qed.
(** first matches of a date followed by a blank and a time *)
Definition date_first (df : dfmt) (t : pystr) (vs : list N) : Prop :=
  forall l r ws, first_is l r ws -> starts_digitb r = true -> first_is (date_items df ++ IBlanks :: l) (t ++ 32 :: r) (vs ++ ws).
Lemma blank_first l r ws : first_is l r ws -> starts_digitb r = true -> first_is (IBlanks :: l) (32 :: r) ws.
Proof.
  intros F D. apply first_blanks; [reflexivity| |exact F]. intros x s ->. apply digit_not_space, is_digit_b. exact D.
Qed.
Lemma three_first d1 d2 d3 (a b c : pystr) x y z l r ws : reads d1 a x -> reads d2 b y -> reads d3 c z -> first_is l r ws -> starts_digitb r = true ->
  first_is (IRead d1 :: IChar 47 :: IRead d2 :: IChar 47 :: IRead d3 :: IBlanks :: l) (a ++ 47 :: b ++ 47 :: c ++ 32 :: r) (x :: y :: z :: ws).
Proof.
  intros A B C F D. apply first_read; [exact A|reflexivity|apply refuses_char; reflexivity|]. apply first_char.
  apply first_read; [exact B|reflexivity|apply refuses_char; reflexivity|]. apply first_char.
  apply first_read; [exact C|reflexivity|apply refuses_blanks|]. apply blank_first; assumption.
Qed.
Lemma real_day_month y m d : real_day y m d -> 1 <= m <= 12 /\ 1 <= d <= 31.
Proof. intros (_ & L & [(I & U)|[(I & U)|(-> & U)]]); try (cbn [In] in I); lia. Qed.
Lemma leap_spec y : leap y = true <-> is_leap y.
Proof.
  unfold leap, is_leap. rewrite <- !N.mod_divide by discriminate. rewrite orb_true_iff, andb_true_iff, negb_true_iff, !N.eqb_eq, N.eqb_neq. tauto.
Qed.
Lemma day_spec y m d : day_exists y m d = true <-> real_day y m d.
Proof.
  unfold day_exists, real_day, month_days. destruct (N.eqb_spec m 2) as [->|N2].
  - destruct (leap y) eqn:L.
    + apply leap_spec in L. split; [|cbn [In]; lia]. intro E. split; [lia|]. split; [lia|]. right. right. split; [reflexivity|]. destruct (N.eq_dec d 29); [right; auto|left; lia].
    + assert (NL : ~ is_leap y) by (intro Q; apply leap_spec in Q; congruence). split; [|cbn [In]; intuition lia]. intro E. split; [lia|]. split; [lia|]. right. right. split; [reflexivity|]. left. lia.
  - cbn [In]. destruct ((m =? 4) || (m =? 6) || (m =? 9) || (m =? 11)) eqn:E; lia.
Qed.

(** ** Dates *)
Lemma three_datec a b c : digits a -> digits b -> digits c -> Forall datec (a ++ 47 :: b ++ 47 :: c).
Proof.
  intros A B C. assert (G : forall x, digits x -> Forall datec x) by (intros x X; eapply Forall_impl; [|exact X]; intros ? ?; left; assumption).
  apply Forall_app; split; [apply G, A|]. constructor; [right; reflexivity|]. apply Forall_app; split; [apply G, B|]. constructor; [right; reflexivity|]. apply G, C.
Qed.
Lemma one_two_4 t : length t = 4%nat -> one_two t = false.
Proof. unfold one_two. intros ->. reflexivity. Qed.
Lemma date_text_read localtime now2 t y m d : let this := Z.to_N (year_of (localtime now2)) in
  date_text this t y m d -> real_day y m d -> (y = this -> 1000 <= this <= 9999) ->
  exists t' df vs, date_process localtime now2 t = Ok (t', df) /\ Forall datec t /\ starts_digitb t = true /\ (1 < length t)%nat /\
    (forall l r ws, first_is l r ws -> starts_digitb r = true -> first_is (date_items df ++ IBlanks :: l) (t' ++ 32 :: r) (vs ++ ws)) /\
    (forall ws, date_of df (vs ++ ws) = Some (y, m, d, ws)).
Proof.
  cbv zeta. intros T R Y. destruct (real_day_month _ _ _ R) as (Bm & Bd).
  destruct T as [ty y tm m td d A L B C|ty y tm m td d A L B C|ty y tm m td d A L B C|tm m td d B C]; cbn [s2b app] in *; change (N_of_ascii "/") with 47 in *;
    destruct (field_digits _ _ B) as (Dm & Nm & Om); destruct (field_digits _ _ C) as (Dd & Nd & Od); try destruct (numeral_digits _ _ A) as (Dy & Ny).
  - exists (ty ++ 47 :: tm ++ 47 :: td), F_Ymd, [y; m; d]. split; [rewrite date_3 by assumption; rewrite L, Om, Od; reflexivity|].
    split; [apply three_datec; assumption|]. split; [apply digits_head; assumption|]. split; [rewrite app_length; lia|]. split; [|reflexivity].
    intros l r ws F D. cbn [date_items app]. rewrite <- app_assoc. cbn [app]. rewrite <- app_assoc. cbn [app]. apply three_first; [apply reads_Y|apply reads_m|apply reads_d| |]; assumption.
  - exists (td ++ 47 :: tm ++ 47 :: ty), F_dmY, [d; m; y]. split.
    { rewrite date_3 by assumption. rewrite (one_two_4 ty L), L, Om, Od. rewrite !andb_false_r. reflexivity. }
    split; [apply three_datec; assumption|]. split; [apply digits_head; assumption|]. split; [rewrite app_length; cbn [length]; rewrite app_length; cbn [length]; destruct td; [congruence|cbn [length]; lia]|]. split; [|reflexivity].
    intros l r ws F D. cbn [date_items app]. rewrite <- app_assoc. cbn [app]. rewrite <- app_assoc. cbn [app]. apply three_first; [apply reads_d|apply reads_m|apply reads_Y| |]; assumption.
  - exists (ty ++ 47 :: tm ++ 47 :: td), F_ymd, [y; m; d]. assert (Oy : one_two ty = true) by (unfold one_two; rewrite L; reflexivity). split.
    { rewrite date_3 by assumption. rewrite L, Om, Od, Oy. cbn [Nat.eqb andb]. assert ((length td =? 4)%nat = false) as -> by (unfold one_two in Od; lia). reflexivity. }
    split; [apply three_datec; assumption|]. split; [apply digits_head; assumption|]. split; [rewrite app_length; lia|]. split; [|reflexivity].
    intros l r ws F D. cbn [date_items app]. rewrite <- app_assoc. cbn [app]. rewrite <- app_assoc. cbn [app]. apply three_first; [apply reads_y|apply reads_m|apply reads_d| |]; assumption.
  - set (y := Z.to_N (year_of (localtime now2))) in *. specialize (Y eq_refl).
    assert (A : numeral (dec_str y) y) by (destruct (dec_str_spec y) as (Q1 & Q2 & _); split; assumption).
    assert (L : length (dec_str y) = 4%nat) by (destruct (dec_str_4 y Y) as (? & ? & ? & ? & -> & _); reflexivity).
    destruct (numeral_digits _ _ A) as (Dy & Ny).
    exists (dec_str y ++ 47 :: tm ++ 47 :: td), F_Ymd, [y; m; d]. split; [rewrite date_2 by assumption; reflexivity|].
    split; [apply Forall_app; split; [eapply Forall_impl; [|exact Dm]; intros ? ?; left; assumption|]; constructor; [right; reflexivity|]; eapply Forall_impl; [|exact Dd]; intros ? ?; left; assumption|].
    split; [apply digits_head; assumption|]. split; [rewrite app_length; cbn [length]; destruct tm; [congruence|cbn [length]; lia]|]. split; [|reflexivity].
    intros l r ws F D. cbn [date_items app]. rewrite <- app_assoc. cbn [app]. rewrite <- app_assoc. cbn [app]. apply three_first; [apply reads_Y|apply reads_m|apply reads_d| |]; assumption.
Qed.
(** ** Whole texts *)
Lemma unquote_blank z : Forall (fun c => is_pyspace c = true) z -> unquote z = z.
Proof. intro F. apply unquote_none. eapply Forall_impl; [|exact F]. intros c C. split; intros ->; discriminate C. Qed.
Lemma unquote_app a b : unquote (a ++ b) = unquote a ++ unquote b.
Proof. apply filter_app. Qed.
Lemma lstrip_blank z s : Forall (fun c => is_pyspace c = true) z -> lstrip is_pyspace (z ++ s) = lstrip is_pyspace s.
Proof. induction 1 as [|c z C F IH]; [reflexivity|]. cbn [app lstrip]. rewrite C. exact IH. Qed.
Lemma bare_lstrip s : strip (unquote (lstrip is_pyspace s)) = strip (unquote s).
Proof.
  destruct (lstrip_split is_pyspace s) as (z & E & F & _). rewrite E at 2. rewrite unquote_app, (unquote_blank z F). unfold strip. rewrite lstrip_blank by exact F. reflexivity.
Qed.
Section Lib.
Variable td : option pystr -> option pystr -> option pystr -> option pystr -> res Z.
Variable scaled : pystr -> Z -> res Z.
Variable strptime : pystr -> dfmt -> tfmt -> res tm.
Variable mktime : tm -> res Z.
Variable localtime : Z -> tm.
Lemma date_clean_bare now2 s t : strip (unquote s) = strip (unquote t) -> date_clean scaled strptime mktime localtime now2 s = date_clean scaled strptime mktime localtime now2 t.
Proof. intro E. unfold date_clean. rewrite E. reflexivity. Qed.
Lemma lock_text_date now now2 s t : bare s = t -> starts_digitb t = true -> strip (unquote t) = t ->
  lock_text td scaled strptime mktime localtime now now2 s = date_clean scaled strptime mktime localtime now2 t.
Proof.
  intros B D T. unfold bare in B. change (filter _ s) with (unquote s) in B. unfold lock_text, lock_of_text. destruct (lstrip is_pyspace s) as [|c r] eqn:L.
  - exfalso. rewrite <- bare_lstrip, L in B. subst t. discriminate D.
  - destruct (N.eqb_spec c 43) as [->|N].
    + exfalso. rewrite <- bare_lstrip, L in B. unfold unquote in B. cbn [filter] in B. change (negb ((43 =? 39) || (43 =? 34))) with true in B. cbv iota in B.
      destruct t as [|x t]; [discriminate|]. cbn [starts_digitb] in D.
      assert (Q : exists w, strip (43 :: filter (fun c => negb ((c =? 39) || (c =? 34))) r) = 43 :: w).
      { unfold strip. cbn [lstrip]. change (is_pyspace 43) with false. cbv iota. generalize (filter (fun c => negb ((c =? 39) || (c =? 34))) r). intro w. unfold rstrip. cbn [rev].
        rewrite lstrip_app_stop by reflexivity. rewrite rev_app_distr. cbn [rev app]. eauto. }
      destruct Q as (w & Q). rewrite Q in B. injection B as <- _. discriminate D.
    + cbn [bind lock_new]. apply date_clean_bare. rewrite <- L, bare_lstrip, B. symmetry. exact T.
Qed.
Lemma date_clean_blanks now2 dd sp ti : dd <> [] -> Forall datec dd -> Forall (fun c => is_pyspace c = true) sp -> Forall clockc ti -> hasc 58 ti = true ->
  date_clean scaled strptime mktime localtime now2 (dd ++ 32 :: sp ++ ti) =
  (do t <- time_process ti; do d <- date_process localtime now2 dd; do x <- strptime (fst d ++ [32] ++ fst t) (snd d) (snd t); mktime x) /\
  strip (unquote (dd ++ 32 :: sp ++ ti)) = dd ++ 32 :: sp ++ ti.
Proof.
  intros N D SP T H58. assert (NT : ti <> []) by (intros ->; discriminate).
  assert (QS : forall c, is_pyspace c = true -> c <> 39 /\ c <> 34 /\ c <> 43 /\ c <> 45 /\ c <> 58) by (intros c Q; repeat split; intros ->; discriminate Q).
  assert (QT : forall c, clockc c -> c <> 39 /\ c <> 34 /\ c <> 43 /\ c <> 45 /\ c <> 32).
  { intros c [Q|[-> |Q]]; [unfold digitb in Q; lia|lia|]. cbn [In] in Q. lia. }
  assert (BI : strip (unquote (dd ++ 32 :: sp ++ ti)) = dd ++ 32 :: sp ++ ti).
  { apply bare_id.
    - intros c r E. destruct dd as [|x dd]; [congruence|]. injection E as -> _. apply datec_space. inversion D; assumption.
    - intros c r E. destruct (exists_last NT) as (ti' & x & ->). replace (dd ++ 32 :: sp ++ ti' ++ [x]) with ((dd ++ 32 :: sp ++ ti') ++ [x]) in E by (rewrite <- app_assoc; cbn [app]; rewrite <- app_assoc; reflexivity).
      apply app_inj_tail in E as (_ & <-). apply clockc_space. apply Forall_app in T as (_ & T). inversion T; assumption.
    - apply Forall_app. split; [eapply Forall_impl; [|exact D]; intros c; unfold datec, digitb; lia|]. constructor; [lia|]. apply Forall_app. split; [eapply Forall_impl; [|exact SP]; intros c C; apply QS in C; tauto|].
      eapply Forall_impl; [|exact T]; intros c C; apply QT in C; tauto. }
  split; [|exact BI]. unfold date_clean. cbv zeta. rewrite BI.
  assert (Hsp : listN_eqb (dd ++ 32 :: sp ++ ti) (s2b "0") = false).
  { apply listN_eqb_neq. intro E. assert (In 32 (s2b "0")) as Q by (rewrite <- E; apply in_or_app; right; left; reflexivity). cbn in Q. lia. }
  assert (Hnil : listN_eqb (dd ++ 32 :: sp ++ ti) [] = false). { apply listN_eqb_neq. intro E. destruct dd; discriminate. }
  rewrite Hsp, Hnil. cbn [orb]. change (32 :: sp ++ ti) with ([32] ++ sp ++ ti). rewrite !hasc_app.
  rewrite (hasc_none 43 dd datec), (hasc_none 43 sp (fun c => is_pyspace c = true)), (hasc_none 43 ti clockc), (hasc_none 45 dd datec), (hasc_none 45 sp (fun c => is_pyspace c = true)), (hasc_none 45 ti clockc)
    by (try assumption; try (unfold datec, digitb; lia); try (intro Q; apply QS in Q; tauto); intro Q; apply QT in Q; tauto).
  cbn [hasc existsb N.eqb Pos.eqb orb]. rewrite H58, !orb_true_r. cbn [app]. rewrite splitn_sep by (eapply Forall_impl; [|exact D]; intros c; unfold datec, digitb; lia).
  cbn [rev app]. assert (E1 : splitn 32 0 [] (sp ++ ti) = [sp ++ ti]). { destruct (sp ++ ti) as [|x w] eqn:E; [apply app_eq_nil in E as (_ & E); congruence|reflexivity]. }
  rewrite E1. assert (E2 : time_process (sp ++ ti) = time_process ti).
  { unfold time_process. cbv zeta. replace (strip (sp ++ ti)) with (strip ti); [reflexivity|]. unfold strip. rewrite lstrip_blank by exact SP. reflexivity. }
  rewrite E2. destruct (time_process ti) as [t|e]; reflexivity.
Qed.
End Lib.
