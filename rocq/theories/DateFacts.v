(** Lemmas about duration and date texts. *)
From Verif Require Import Base BaseFacts Types TypesFacts TypesFacts2 Conditions Dates Spec_Dates.
From Coq Require Import ZifyBool ZifyNat ZifyN.
Ltac Zify.zify_post_hook ::= Z.div_mod_to_equations.

(** ** Groups *)
Lemma span_stop p t c r : Forall (fun c => p c = true) t -> p c = false -> span p (t ++ c :: r) = (t, c :: r).
Proof.
  induction 1 as [|x t Hx Ht IH]; intro Hc; cbn [app span]; [rewrite Hc; reflexivity|]. rewrite Hx, IH by exact Hc. reflexivity.
Qed.
Lemma span_all p t : Forall (fun c => p c = true) t -> span p t = (t, []).
Proof. induction 1 as [|x t Hx Ht IH]; cbn [span]; [reflexivity|]. rewrite Hx, IH. reflexivity. Qed.
Lemma span_inv p s : s = fst (span p s) ++ snd (span p s) /\ Forall (fun c => p c = true) (fst (span p s)).
Proof.
  induction s as [|c s IH]; cbn [span]; [split; [reflexivity|constructor]|]. destruct (p c) eqn:E; cbn [fst snd]; [|split; [reflexivity|constructor]].
  destruct IH as (A & B). split; [cbn [app]; f_equal; exact A|constructor; assumption].
Qed.
Lemma group_hit u t r : numc u = false -> t <> [] -> Forall (fun c => numc c = true) t -> group u (t ++ u :: r) = (Some t, r).
Proof.
  intros U N F. unfold group. rewrite span_stop by assumption. cbn [fst snd]. destruct t; [congruence|]. rewrite N.eqb_refl. reflexivity.
Qed.
Lemma group_other u t c r : numc c = false -> c <> u -> Forall (fun c => numc c = true) t -> group u (t ++ c :: r) = (None, t ++ c :: r).
Proof.
  intros U N F. unfold group. rewrite span_stop by assumption. cbn [fst snd]. destruct t; [reflexivity|]. replace (c =? u) with false by lia. reflexivity.
Qed.
Lemma group_all u t : Forall (fun c => numc c = true) t -> group u t = (None, t).
Proof. intro F. unfold group. rewrite span_all by exact F. cbn [fst snd]. destruct t; reflexivity. Qed.
Lemma group_inv u s : s = otext (fst (group u s)) u ++ snd (group u s) /\ onum (fst (group u s)).
Proof.
  unfold group. destruct (span_inv numc s) as (A & B). destruct (fst (span numc s)) as [|x t] eqn:F; [split; [reflexivity|exact I]|].
  destruct (snd (span numc s)) as [|c r] eqn:Q; [split; [reflexivity|exact I]|]. destruct (c =? u) eqn:E; cbn [fst snd otext onum]; [|split; [reflexivity|exact I]].
  apply N.eqb_eq in E. subst c. split; [rewrite A, <- app_assoc; reflexivity|]. split; [discriminate|exact B].
Qed.
Ltac gr := repeat first [rewrite group_hit by auto | rewrite group_other by (auto; lia) | rewrite (group_all _ []) by constructor].
Lemma groups_text d h m x : onum d -> onum h -> onum m -> onum x ->
  let s := otext d 100 ++ otext h 104 ++ otext m 109 ++ otext x 115 in
  let g1 := group 100 s in let g2 := group 104 (snd g1) in let g3 := group 109 (snd g2) in let g4 := group 115 (snd g3) in
  fst g1 = d /\ fst g2 = h /\ fst g3 = m /\ fst g4 = x /\ snd g4 = [].
Proof.
  intros Hd Hh Hm Hx. cbv zeta.
  destruct d as [d|], h as [h|], m as [m|], x as [x|]; cbn [otext onum] in *; rewrite <- ?app_assoc, ?app_nil_r; cbn [app];
    repeat match goal with H : _ /\ _ |- _ => destruct H end;
    repeat (first [rewrite group_hit by auto | rewrite group_other by (auto; discriminate) | rewrite (group_all _ []) by constructor]; cbn [fst snd]); auto 10.
Qed.
Lemma digit_numc c : digitb c = true -> numc c = true.
Proof. unfold numc. intros ->. apply orb_true_r. Qed.
Lemma is_digit_b c : is_digit c <-> digitb c = true.
Proof. unfold is_digit, digitb. lia. Qed.
Lemma numeral_num t n : numeral t n -> t <> [] /\ Forall (fun c => numc c = true) t.
Proof.
  intros (A & B). split; [exact A|]. apply digits_val_Forall in B. eapply Forall_impl; [|exact B]. intros c C. apply digit_numc, is_digit_b, C.
Qed.
Lemma onumeral_num t n : onumeral t n -> onum t.
Proof. destruct t as [t|]; [apply numeral_num|constructor]. Qed.
(** a text of groups is not all digits, and has no quotes or blanks *)
Lemma unquote_none s : Forall (fun c => c <> 39 /\ c <> 34) s -> unquote s = s.
Proof. unfold unquote. induction 1 as [|c s Hc Hs IH]; cbn [filter]; [reflexivity|]. replace (negb ((c =? 39) || (c =? 34))) with true by lia. rewrite IH. reflexivity. Qed.
Definition plain (c : N) : Prop := is_pyspace c = false /\ c <> 39 /\ c <> 34.
Lemma plain_bare s : Forall plain s -> strip (unquote s) = s.
Proof.
  intro F. rewrite unquote_none by (eapply Forall_impl; [|exact F]; unfold plain; tauto). apply strip_nospace. eapply Forall_impl; [|exact F]. unfold plain; tauto.
Qed.
Lemma numc_plain c : numc c = true -> plain c.
Proof. unfold plain, numc, digitb, is_pyspace, is_space. lia. Qed.
Lemma otext_plain t u : onum t -> plain u -> Forall plain (otext t u).
Proof.
  intros O U. destruct t as [t|]; cbn; [|constructor]. apply Forall_app. split; [|constructor; [exact U|constructor]]. destruct O as (_ & F). eapply Forall_impl; [|exact F]. exact numc_plain.
Qed.
Lemma dur_plain d h m x : onum d -> onum h -> onum m -> onum x -> Forall plain (otext d 100 ++ otext h 104 ++ otext m 109 ++ otext x 115).
Proof. intros. repeat (apply Forall_app; split); apply otext_plain; auto; unfold plain, is_pyspace, is_space; lia. Qed.
Lemma otext_digits t u : digitb u = false -> forallb digitb (otext t u) = match t with Some _ => false | None => true end.
Proof. intro U. destruct t as [t|]; cbn; [|reflexivity]. rewrite forallb_app. cbn [forallb]. rewrite U. cbn. apply andb_false_r. Qed.
(** reading a text of groups *)
Lemma dur_clean_groups td d h m x : onum d -> onum h -> onum m -> onum x -> (d, h, m, x) <> (None, None, None, None) ->
  dur_clean td (DStr (otext d 100 ++ otext h 104 ++ otext m 109 ++ otext x 115)) = td d h m x.
Proof.
  intros Hd Hh Hm Hx NE. unfold dur_clean. pose proof (groups_text d h m x Hd Hh Hm Hx) as G. pose proof (dur_plain d h m x Hd Hh Hm Hx) as PL.
  assert (ND : forallb digitb (otext d 100 ++ otext h 104 ++ otext m 109 ++ otext x 115) = false).
  { rewrite !forallb_app, !otext_digits by reflexivity. destruct d, h, m, x; try reflexivity. congruence. }
  set (s := otext d 100 ++ _) in *. cbv zeta in G.
  replace (listN_eqb s (s2b "0")) with false. 2:{ symmetry. apply listN_eqb_neq. intro E. rewrite E in ND. discriminate. }
  replace (listN_eqb s []) with false. 2:{ symmetry. apply listN_eqb_neq. intro E. rewrite E in ND. discriminate. }
  cbn [orb]. rewrite (plain_bare s PL), ND, andb_false_r. destruct G as (-> & -> & -> & -> & ->). reflexivity.
Qed.

(** ** Printing durations *)
Definition opart (n : Z) : option pystr := if (0 <? n)%Z then Some (dec_str (Z.to_N n)) else None.
Lemma dur_part_eq n u : dur_part n u = otext (opart n) u.
Proof. unfold dur_part, opart. destruct (0 <? n)%Z; reflexivity. Qed.
Lemma opart_numeral n : (0 <= n)%Z -> onumeral (opart n) (Z.to_N n).
Proof.
  intro P. unfold opart. destruct (Z.ltb_spec 0 n); cbn [onumeral]; [|lia]. destruct (dec_str_spec (Z.to_N n)) as (A & B & _). split; assumption.
Qed.
Lemma opart_inj n m : (0 <= n)%Z -> (0 <= m)%Z -> opart n = opart m -> n = m.
Proof.
  unfold opart. intros A B. destruct (Z.ltb_spec 0 n), (Z.ltb_spec 0 m); intro E; try discriminate; [|lia]. injection E as E. apply dec_str_inj in E. lia.
Qed.
Lemma dur_str_int td z : (0 <= z)%Z -> dur_str td (DInt z) =
  Ok (otext (opart (z / 86400)) 100 ++ otext (opart (z mod 86400 / 3600)) 104 ++ otext (opart (z mod 3600 / 60)) 109 ++ otext (opart (z mod 60)) 115).
Proof.
  intro P. unfold dur_str. cbn [dur_clean bind]. destruct (Z.eqb_spec z 0) as [->|N]; [reflexivity|]. rewrite !dur_part_eq.
  replace (z - z / 86400 * 86400)%Z with (z mod 86400)%Z by lia. do 4 f_equal; f_equal; f_equal; lia.
Qed.
Lemma parts_none z : (0 <= z)%Z -> (opart (z / 86400), opart (z mod 86400 / 3600), opart (z mod 3600 / 60), opart (z mod 60)) = (None, None, None, None) -> z = 0%Z.
Proof.
  unfold opart. intros P E. injection E as E1 E2 E3 E4. revert E1 E2 E3 E4.
  destruct (Z.ltb_spec 0 (z / 86400)); [discriminate|]. destruct (Z.ltb_spec 0 (z mod 86400 / 3600)); [discriminate|].
  destruct (Z.ltb_spec 0 (z mod 3600 / 60)); [discriminate|]. destruct (Z.ltb_spec 0 (z mod 60)); [discriminate|]. intros _ _ _ _. lia.
Qed.

(** ** Dates *)
Lemma dec_str_4 n : 1000 <= n <= 9999 -> exists a b c d, dec_str n = [a; b; c; d] /\ digitb a = true /\ digitb b = true /\ digitb c = true /\ digitb d = true.
Proof.
  intro B. unfold dec_str. assert (S : (9 <= N.to_nat (N.size n))%nat).
  { destruct (N.to_nat (N.size n) <? 9)%nat eqn:Q; [|lia]. pose proof (N.size_gt n) as G. assert (2 ^ N.size n <= 2 ^ 8) by (apply N.pow_le_mono_r; lia). change (2 ^ 8) with 256 in *. lia. }
  destruct (N.to_nat (N.size n)) as [|[|[|[|f]]]]; try lia. cbn [digs].
  replace (n / 10 =? 0) with false by lia. replace (n / 10 / 10 =? 0) with false by lia. replace (n / 10 / 10 / 10 =? 0) with false by lia. replace (n / 10 / 10 / 10 / 10 =? 0) with true by lia.
  eexists _, _, _, _. split; [reflexivity|]. unfold digitb. repeat split; lia.
Qed.
Lemma two_digits n : (0 <= n < 100)%Z -> exists a b, two n = [a; b] /\ digitb a = true /\ digitb b = true.
Proof. intro B. unfold two. eexists _, _. split; [reflexivity|]. unfold digitb. split; lia. Qed.
Definition digits (s : pystr) : Prop := Forall (fun c => digitb c = true) s.
Lemma digits_not sep s : digitb sep = false -> digits s -> Forall (fun c => c <> sep) s.
Proof. intros D F. eapply Forall_impl; [|exact F]. intros c C ->. cbn in C. congruence. Qed.
Lemma split_all_2 sep a b : Forall (fun c => c <> sep) a -> Forall (fun c => c <> sep) b -> split_all sep (a ++ sep :: b) = [a; b].
Proof.
  intros A B. unfold split_all. rewrite app_length. cbn [length]. rewrite Nat.add_succ_r. rewrite splitn_sep by exact A. rewrite splitn_nosep by exact B. reflexivity.
Qed.
Lemma split_all_3 sep a b c : Forall (fun c => c <> sep) a -> Forall (fun c => c <> sep) b -> Forall (fun c => c <> sep) c -> split_all sep (a ++ sep :: b ++ sep :: c) = [a; b; c].
Proof.
  intros A B C. unfold split_all. rewrite app_length. cbn [length]. rewrite Nat.add_succ_r. rewrite splitn_sep by exact A. rewrite app_length. cbn [length].
  rewrite !Nat.add_succ_r. rewrite splitn_sep by exact B. rewrite splitn_nosep by exact C. reflexivity.
Qed.
Lemma strip_ends s : (forall c r, s = c :: r -> is_pyspace c = false) -> (forall c r, s = r ++ [c] -> is_pyspace c = false) -> strip s = s.
Proof.
  intros A B. unfold strip, rstrip. rewrite (@lstrip_none is_pyspace s A). rewrite lstrip_none; [apply rev_involutive|].
  intros c t E. apply (B c (rev t)). rewrite <- (rev_involutive s), E. reflexivity.
Qed.
Lemma hasc_app c a b : hasc c (a ++ b) = hasc c a || hasc c b.
Proof. apply existsb_app. Qed.
Lemma hasc_digits c s : digitb c = false -> digits s -> hasc c s = false.
Proof.
  intros D F. induction F as [|x s Hx Hs IH]; [reflexivity|]. unfold hasc in *. cbn [existsb]. rewrite IH, orb_false_r. apply N.eqb_neq. intros ->. cbn in Hx. congruence.
Qed.
Lemma digits_spaces s : digits s -> Forall (fun c => is_pyspace c = false) s.
Proof. intro F. eapply Forall_impl; [|exact F]. intros c C. apply digit_not_space, is_digit_b, C. Qed.
Lemma strip_digits s : digits s -> strip s = s.
Proof. intro F. apply strip_nospace, digits_spaces, F. Qed.
Lemma has2_digits_colon a s : a <> 58 -> digitb a = false -> Forall (fun c => digitb c = true \/ c = 58) s -> forall b, has2 a b (lower s) = false.
Proof.
  intros A D F b. unfold lower. induction F as [|c s Hc Hs IH]; [reflexivity|]. cbn [map has2]. rewrite IH, orb_false_r.
  assert (E : lower_c c = c) by (unfold lower_c, digitb in *; destruct Hc as [Hc| ->]; [|reflexivity]; replace ((65 <=? c) && (c <=? 90)) with false by lia; reflexivity).
  rewrite E. replace (c =? a) with false; [reflexivity|]. symmetry. apply N.eqb_neq. intros ->. destruct Hc as [Hc|Hc]; congruence.
Qed.
Section Lib.
Variable td : option pystr -> option pystr -> option pystr -> option pystr -> res Z.
Variable scaled : pystr -> Z -> res Z.
Variable strptime : pystr -> dfmt -> tfmt -> res tm.
Variable mktime : tm -> res Z.
Variable localtime : Z -> tm.
(** a time of day as text *)
Lemma time_hms h mi s : digits h -> digits mi -> digits s -> h <> [] -> s <> [] ->
  time_process (h ++ 58 :: mi ++ 58 :: s) = Ok (h ++ 58 :: mi ++ 58 :: s, F_HMS).
Proof.
  intros Dh Dm Ds Nh Ns. unfold time_process.
  assert (F : Forall (fun c => digitb c = true \/ c = 58) (h ++ 58 :: mi ++ 58 :: s)).
  { apply Forall_app. split; [eapply Forall_impl; [|exact Dh]; auto|]. constructor; [auto|]. apply Forall_app. split; [eapply Forall_impl; [|exact Dm]; auto|]. constructor; [auto|]. eapply Forall_impl; [|exact Ds]; auto. }
  assert (SP : strip (h ++ 58 :: mi ++ 58 :: s) = h ++ 58 :: mi ++ 58 :: s).
  { apply strip_nospace. eapply Forall_impl; [|exact F]. intros c [C| ->]; [apply digit_not_space, is_digit_b, C|reflexivity]. }
  cbv zeta. rewrite SP. rewrite hasc_app. change (hasc 58 (58 :: ?x)) with true. rewrite orb_true_r. cbn [negb].
  rewrite split_all_3 by (apply digits_not; auto). unfold half. rewrite !has2_digits_colon by (auto; lia). reflexivity.
Qed.
Lemma time_hm h mi : digits h -> digits mi -> time_process (h ++ 58 :: mi) = Ok (h ++ 58 :: mi, F_HM).
Proof.
  intros Dh Dm. unfold time_process.
  assert (F : Forall (fun c => digitb c = true \/ c = 58) (h ++ 58 :: mi)).
  { apply Forall_app. split; [eapply Forall_impl; [|exact Dh]; auto|]. constructor; [auto|]. eapply Forall_impl; [|exact Dm]; auto. }
  assert (SP : strip (h ++ 58 :: mi) = h ++ 58 :: mi).
  { apply strip_nospace. eapply Forall_impl; [|exact F]. intros c [C| ->]; [apply digit_not_space, is_digit_b, C|reflexivity]. }
  cbv zeta. rewrite SP. rewrite hasc_app. change (hasc 58 (58 :: mi)) with true. rewrite orb_true_r. cbn [negb].
  rewrite split_all_2 by (apply digits_not; auto). unfold half. rewrite !has2_digits_colon by (auto; lia). reflexivity.
Qed.
Lemma date_3 now2 a b c : digits a -> digits b -> digits c ->
  date_process localtime now2 (a ++ 47 :: b ++ 47 :: c) =
  if (length a =? 4)%nat && one_two b && one_two c then Ok (a ++ 47 :: b ++ 47 :: c, F_Ymd)
  else if (length c =? 4)%nat && one_two b && one_two a then Ok (a ++ 47 :: b ++ 47 :: c, F_dmY)
  else if one_two c && one_two b && one_two a then Ok (a ++ 47 :: b ++ 47 :: c, F_ymd) else Err ValueError.
Proof.
  intros A B C. unfold date_process. rewrite hasc_app. change (hasc 47 (47 :: b ++ 47 :: c)) with true. rewrite orb_true_r. cbn [negb].
  rewrite split_all_3 by (apply digits_not; auto). cbv zeta. rewrite !strip_digits by assumption. reflexivity.
Qed.
Lemma date_2 now2 a b : digits a -> digits b -> b <> [] -> a <> [] ->
  date_process localtime now2 (a ++ 47 :: b) = Ok (dec_str (Z.to_N (year_of (localtime now2))) ++ [47] ++ a ++ 47 :: b, F_Ymd).
Proof.
  intros A B NB NA. unfold date_process. rewrite hasc_app. change (hasc 47 (47 :: b)) with true. rewrite orb_true_r. cbn [negb].
  rewrite split_all_2 by (apply digits_not; auto). cbn [app]. do 4 f_equal. apply strip_nospace. apply Forall_app. split; [apply digits_spaces, A|].
  constructor; [reflexivity|apply digits_spaces, B].
Qed.
(** characters of dates *)
Definition datec (c : N) : Prop := digitb c = true \/ c = 47.
Definition timec (c : N) : Prop := digitb c = true \/ c = 58.
Lemma hasc_none c s (P : N -> Prop) : Forall P s -> ~ P c -> hasc c s = false.
Proof. intros F N. unfold hasc. induction F as [|x s Hx Hs IH]; [reflexivity|]. cbn [existsb]. rewrite IH, orb_false_r. apply N.eqb_neq. intros ->. contradiction. Qed.
Lemma bare_id v : (forall c r, v = c :: r -> is_pyspace c = false) -> (forall c r, v = r ++ [c] -> is_pyspace c = false) -> Forall (fun c => c <> 39 /\ c <> 34) v -> strip (unquote v) = v.
Proof. intros A B C. rewrite unquote_none by exact C. apply strip_ends; assumption. Qed.
Lemma datec_space c : datec c -> is_pyspace c = false.
Proof. intros [C| ->]; [apply digit_not_space, is_digit_b, C|reflexivity]. Qed.
Lemma timec_space c : timec c -> is_pyspace c = false.
Proof. intros [C| ->]; [apply digit_not_space, is_digit_b, C|reflexivity]. Qed.
Lemma date_clean_dt now2 dd ti : dd <> [] -> Forall datec dd -> Forall timec ti -> hasc 58 ti = true ->
  date_clean scaled strptime mktime localtime now2 (dd ++ 32 :: ti) =
  (do t <- time_process ti; do d <- date_process localtime now2 dd; do x <- strptime (fst d ++ [32] ++ fst t) (snd d) (snd t); mktime x).
Proof.
  intros N D T H58. assert (NT : ti <> []) by (intros ->; discriminate). unfold date_clean.
  assert (BI : strip (unquote (dd ++ 32 :: ti)) = dd ++ 32 :: ti).
  { apply bare_id.
    - intros c r E. destruct dd as [|x dd]; [congruence|]. injection E as -> _. apply datec_space. inversion D; assumption.
    - intros c r E. destruct (exists_last NT) as (ti' & x & ->). replace (dd ++ 32 :: ti' ++ [x]) with ((dd ++ 32 :: ti') ++ [x]) in E by (rewrite <- app_assoc; reflexivity).
      apply app_inj_tail in E as (_ & <-). apply timec_space. apply Forall_app in T as (_ & T). inversion T; assumption.
    - apply Forall_app. split; [eapply Forall_impl; [|exact D]; intros c; unfold datec, digitb; lia|]. constructor; [lia|]. eapply Forall_impl; [|exact T]; intros c; unfold timec, digitb; lia. }
  cbv zeta. rewrite BI.
  assert (Hsp : listN_eqb (dd ++ 32 :: ti) (s2b "0") = false).
  { apply listN_eqb_neq. intro E. assert (In 32 (s2b "0")) by (rewrite <- E; apply in_or_app; right; left; reflexivity). cbn in H. lia. }
  assert (Hnil : listN_eqb (dd ++ 32 :: ti) [] = false). { apply listN_eqb_neq. intro E. destruct dd; discriminate. }
  rewrite Hsp, Hnil. cbn [orb]. change (32 :: ti) with ([32] ++ ti). rewrite !hasc_app.
  rewrite (hasc_none 43 dd datec), (hasc_none 43 ti timec), (hasc_none 45 dd datec), (hasc_none 45 ti timec) by (try assumption; unfold datec, timec, digitb; lia).
  cbn [hasc existsb N.eqb Pos.eqb orb]. rewrite H58, !orb_true_r. cbn [app]. rewrite splitn_sep by (eapply Forall_impl; [|exact D]; intros c; unfold datec, digitb; lia).
  cbn [rev app]. destruct ti as [|x ti]; [congruence|]. cbn [splitn rev app]. destruct (time_process (x :: ti)) as [t|e]; reflexivity.
Qed.
Lemma date_clean_d now2 dd : dd <> [] -> dd <> s2b "0" -> Forall datec dd ->
  date_clean scaled strptime mktime localtime now2 dd =
  (do d <- date_process localtime now2 dd; do x <- strptime (fst d ++ [32] ++ s2b "00:00:00") (snd d) F_HMS; mktime x).
Proof.
  intros N N0 D. unfold date_clean.
  assert (BI : strip (unquote dd) = dd).
  { rewrite unquote_none by (eapply Forall_impl; [|exact D]; intros c; unfold datec, digitb; lia). apply strip_nospace. eapply Forall_impl; [|exact D]. exact datec_space. }
  cbv zeta. rewrite BI.
  replace (listN_eqb dd (s2b "0")) with false by (symmetry; apply listN_eqb_neq; exact N0).
  replace (listN_eqb dd []) with false by (symmetry; apply listN_eqb_neq; exact N). cbn [orb].
  rewrite (hasc_none 43 dd datec), (hasc_none 45 dd datec), (hasc_none 58 dd datec) by (try assumption; unfold datec, digitb; lia). reflexivity.
Qed.
End Lib.
