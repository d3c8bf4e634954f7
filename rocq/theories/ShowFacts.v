(** Facts about texts shown. *)
From Verif Require Import Base BaseFacts Primitive Types TypesFacts Dates DateFacts Spec_Amounts Spec_ERC20 Spec_Texts Spec_Show AmountFacts Currency CurrencyFacts Prop_Texts Prop_Dates.
From Coq Require Import ZifyBool ZifyNat ZifyN.
Ltac Zify.zify_post_hook ::= Z.div_mod_to_equations.

Lemma digits_same s t v : length s = length t -> digits_val 0 s = Some v -> digits_val 0 t = Some v -> s = t.
Proof.
  revert t v. induction s as [|c s IH] using rev_ind; intros t v L E F.
  - destruct t; [reflexivity|discriminate].
  - destruct (@exists_last _ t) as (t' & d & ->). { intros ->. rewrite app_length in L. cbn in L. lia. }
    rewrite !app_length in L. cbn [length] in L. rewrite digits_val_app in E, F.
    destruct (digits_val 0 s) as [a|] eqn:Es; [|discriminate]. destruct (digits_val 0 t') as [b|] eqn:Et; [|discriminate].
    cbn [digits_val] in E, F. destruct ((48 <=? c) && (c <=? 57)) eqn:B1; [|discriminate]. destruct ((48 <=? d) && (d <=? 57)) eqn:B2; [|discriminate].
    injection E as E. injection F as F. assert (a = b /\ c = d) as (-> & ->) by lia. f_equal. apply (IH t' b); [lia|reflexivity|exact Et].
Qed.
Lemma dec_str_shown n : whole_shown (dec_str n) n.
Proof.
  destruct (dec_str_spec n) as (A & B & C). split; [now apply decimal_iff|]. split; [exact B|]. intros t E. destruct (C 48 t E eq_refl). assumption.
Qed.
(** lead-digit bound *)
Lemma digits_lower c s v : digits_val 0 (c :: s) = Some v -> c <> 48 -> 10 ^ lenN s <= v.
Proof.
  intros E NZ. cbn [digits_val] in E. destruct ((48 <=? c) && (c <=? 57)) eqn:B; [|discriminate].
  assert (A : 1 <= 10 * 0 + (c - 48)) by lia. revert E A. generalize (10 * 0 + (c - 48)). clear. revert v.
  induction s as [|d s IH]; intros v acc E A; cbn [digits_val] in E; [injection E as <-; exact A|].
  destruct ((48 <=? d) && (d <=? 57)) eqn:B; [|discriminate].
  unfold lenN in *; cbn [length]; rewrite Nat2N.inj_succ, N.pow_succ_r'.
  assert (X : forall s acc v k, digits_val acc s = Some v -> k <= acc -> k * 10 ^ N.of_nat (length s) <= v).
  { clear. induction s as [|d s IH]; intros acc v k E A; cbn [digits_val] in E; [injection E as <-; cbn [length]; change (10 ^ N.of_nat 0) with 1; lia|].
    destruct ((48 <=? d) && (d <=? 57)) eqn:B; [|discriminate]. cbn [length]. rewrite Nat2N.inj_succ, N.pow_succ_r'.
    pose proof (IH _ _ (10 * k) E ltac:(lia)). lia. }
  pose proof (X s _ v 10 E ltac:(lia)). lia.
Qed.
Lemma digits_upper s v : digits_val 0 s = Some v -> v < 10 ^ lenN s.
Proof.
  revert v. induction s as [|c s IH] using rev_ind; intros v E; [injection E as <-; reflexivity|].
  rewrite digits_val_app in E. destruct (digits_val 0 s) as [a|] eqn:Es; [|discriminate]. specialize (IH a eq_refl).
  cbn [digits_val] in E. destruct ((48 <=? c) && (c <=? 57)) eqn:B; [|discriminate]. injection E as <-.
  unfold lenN in *. rewrite app_length. cbn [length]. rewrite Nat.add_1_r, Nat2N.inj_succ, N.pow_succ_r'. lia.
Qed.
Lemma whole_shown_length s t n : whole_shown s n -> whole_shown t n -> length s = length t.
Proof.
  assert (X : forall s t, whole_shown s n -> whole_shown t n -> (length t <= length s)%nat).
  { clear. intros s t (D & N & Z) (D' & N' & Z'). apply decimal_iff in D, D'. destruct t as [|c t]; [congruence|]. destruct s as [|d s]; [congruence|]. cbn [length].
    destruct (N.eq_dec c 48) as [->|NZ]; [rewrite (Z' t eq_refl); cbn; lia|].
    pose proof (digits_lower _ _ _ D' NZ) as LO. pose proof (digits_upper _ _ D) as UP. unfold lenN in *. cbn [length] in UP.
    destruct (Nat.le_gt_cases (S (length t)) (S (length s))); [assumption|].
    assert (10 ^ N.of_nat (S (length s)) <= 10 ^ N.of_nat (length t)) by (apply N.pow_le_mono_r; lia). lia. }
  intros A B. apply Nat.le_antisymm; auto.
Qed.
Lemma whole_shown_iff s n : whole_shown s n <-> s = dec_str n.
Proof.
  split; [|intros ->; apply dec_str_shown]. intros W. pose proof (dec_str_shown n) as V. pose proof (whole_shown_length _ _ _ W V) as L.
  destruct W as (D & _), V as (D' & _). apply decimal_iff in D, D'. exact (digits_same _ _ _ L D D').
Qed.
Lemma no_trailing s t k k' : (forall r, s <> r ++ [48]) -> (forall r, t <> r ++ [48]) -> s ++ repeat 48 k = t ++ repeat 48 k' -> s = t.
Proof.
  intros A B. revert k'. induction k as [|k IH]; intros k' E.
  - cbn [repeat] in E. rewrite app_nil_r in E. destruct k' as [|k']; cbn [repeat] in E; [now rewrite app_nil_r in E|].
    rewrite repeat_cons, app_assoc in E. exfalso. now apply (A _ E).
  - destruct k' as [|k']; cbn [repeat] in E.
    + rewrite app_nil_r, repeat_cons, app_assoc in E. exfalso. apply (B (s ++ repeat 48 k)). now symmetry.
    + rewrite !repeat_cons, !app_assoc in E. apply app_inj_tail in E as (E & _). now apply (IH k').
Qed.
Lemma zero_digits k : digits_val 0 (repeat 48 k) = Some 0.
Proof. rewrite zeros_val; [reflexivity|]. apply Forall_forall. intros x I. now apply repeat_spec in I. Qed.
Lemma amount_shown_fun s t m : amount_shown s m -> amount_shown t m -> s = t.
Proof.
  intros (ip & fp & w & v & -> & W & D & L & Z & E) (ip' & fp' & w' & v' & -> & W' & D' & L' & Z' & E').
  apply decimal_iff in D, D'.
  assert (P : forall fp v, digits_val 0 fp = Some v -> (length fp <= 9)%nat -> digits_val 0 (fp ++ repeat 48 (9 - length fp)) = Some (v * 10 ^ (9 - N.of_nat (length fp))) /\ v * 10 ^ (9 - N.of_nat (length fp)) < 10 ^ 9).
  { clear. intros fp v D L. assert (X : digits_val 0 (fp ++ repeat 48 (9 - length fp)) = Some (v * 10 ^ (9 - N.of_nat (length fp)))).
    { rewrite digits_val_app, D, zeros_val by (apply Forall_forall; intros x I; now apply repeat_spec in I). unfold lenN. rewrite repeat_length. do 3 f_equal. lia. }
    split; [exact X|]. pose proof (digits_upper _ _ X) as U. unfold lenN in U. rewrite app_length, repeat_length in U. replace (length fp + (9 - length fp))%nat with 9%nat in U by lia. exact U. }
  destruct (P _ _ D L) as (Q & B). destruct (P _ _ D' L') as (Q' & B').
  change (10 ^ 9) with 1000000000 in *. set (x := v * 10 ^ (9 - N.of_nat (length fp))) in *. set (x' := v' * 10 ^ (9 - N.of_nat (length fp'))) in *.
  assert (w = w' /\ x = x') as (-> & Ex) by lia. rewrite <- Ex in Q'. apply whole_shown_iff in W, W'. subst ip ip'.
  assert (F : fp ++ repeat 48 (9 - length fp) = fp' ++ repeat 48 (9 - length fp')). { apply (digits_same _ _ x); [rewrite !app_length, !repeat_length; lia|exact Q|exact Q']. }
  apply no_trailing in F; [|exact Z|exact Z']. now subst fp'.
Qed.
Lemma cstr_shown c : CurrencyFacts.valid c -> amount_shown (cstr c false) (units c).
Proof.
  intros [H1 H2]. set (n := units c). assert (Hf : n mod 10 ^ 9 < 10 ^ 9) by (apply N.mod_lt; discriminate).
  destruct (pad_left_spec _ Hf) as (L & V & D). set (ip := dec_str (n / 10 ^ 9)) in *. set (pd := pad_left 9 (dec_str (n mod 10 ^ 9))) in *.
  assert (Hip : ip <> []) by (apply dec_str_spec). destruct (rstrip_split zsp pd) as (z & E & F & G). set (fp := rstrip zsp pd) in *.
  assert (Dfp : Forall is_digit fp /\ Forall is_digit z) by (rewrite E in D; now apply Forall_app in D).
  assert (Hz : Forall (fun c => c = 48) z).
  { rewrite Forall_forall in *. intros x Hx. specialize (F x Hx). destruct Dfp as [_ Dz]. rewrite Forall_forall in Dz. specialize (Dz x Hx). unfold zsp in F. unfold is_digit in Dz. lia. }
  assert (Hlen : (length fp + length z = 9)%nat) by (rewrite <- L, E, app_length; reflexivity).
  assert (Hs : cstr c false = ip ++ match fp with [] => [] | _ => 46 :: fp end).
  { unfold cstr, fmt9. rewrite H1. fold (units c). fold n. fold ip. fold pd. cbn [app]. change (fun x : N => (x =? 48) || (x =? 32)) with zsp. rewrite rstrip_stop by reflexivity. fold fp.
    destruct fp as [|c0 f0] eqn:Efp.
    - rewrite rev_app_distr. cbn [rev app]. rewrite rev_involutive, app_nil_r. destruct ip; [congruence|reflexivity].
    - destruct (@exists_last _ (c0 :: f0)) as (t & x & Et); [discriminate|]. rewrite Et. rewrite rev_app_distr. cbn [rev]. rewrite rev_app_distr. cbn [rev app].
      assert (Hx : is_digit x). { destruct Dfp as [Df _]. rewrite Et in Df. apply Forall_app in Df as [_ Df]. inversion Df; assumption. }
      replace (x =? 46) with false by (unfold is_digit in Hx; lia). destruct (ip ++ 46 :: t ++ [x]) as [|h hs] eqn:Eh; [apply app_eq_nil in Eh as [Eh _]; contradiction|]. rewrite <- Eh. destruct t; reflexivity. }
  destruct (digits_val_ex 0 (proj1 Dfp)) as [v Hv].
  exists ip, fp, (n / 10 ^ 9), v. split; [exact Hs|]. split; [apply dec_str_shown|]. split; [now apply decimal_iff|]. split; [lia|]. split.
  - intros t Et. specialize (G t 48 Et). discriminate G.
  - rewrite E, digits_val_app, Hv, zeros_val in V by exact Hz. injection V as V. unfold lenN in V. replace (9 - N.of_nat (length fp)) with (N.of_nat (length z)) by lia. rewrite V.
    change (10 ^ 9) with 1000000000. lia.
Qed.
Lemma cstr_iff c s : CurrencyFacts.valid c -> cstr c false = s <-> amount_shown s (units c).
Proof. intros V. split; [intros <-; now apply cstr_shown|]. intros A. exact (amount_shown_fun _ _ _ (cstr_shown c V) A). Qed.

(** ** Amounts with their unit *)
Lemma units_of n : units (Some (mkdec false n (-9))) = n.
Proof. unfold units. cbn [cvalue]. unfold scaled9. cbn [dexp dcoef]. change (-9 <=? -9)%Z with true. cbn match. change (Z.to_N (-9 + 9)) with 0. change (10 ^ 0) with 1. apply N.mul_1_r. Qed.
Lemma cstr_unit c : cstr c true = cstr c false ++ s2b " TFT".
Proof. reflexivity. Qed.
Lemma tft_iff c s : CurrencyFacts.valid c -> s = cstr c true <-> tft_shown s (units c).
Proof.
  intros V. rewrite cstr_unit. split.
  - intros ->. eexists. split; [now apply cstr_shown|reflexivity].
  - intros (a & A & ->). f_equal. exact (amount_shown_fun _ _ _ A (cstr_shown c V)).
Qed.
Lemma tft_shown_iff s n : tft_shown s n <-> s = cstr (Some (mkdec false n (-9))) true.
Proof. rewrite tft_iff by (split; [reflexivity|cbn; lia]). now rewrite units_of. Qed.
Lemma amount_shown_inj s m m' : amount_shown s m -> amount_shown s m' -> m = m'.
Proof.
  intros A B. assert (V : forall n, CurrencyFacts.valid (Some (mkdec false n (-9)))) by (intros n; split; [reflexivity|cbn; lia]).
  rewrite <- (units_of m) in A |- *. rewrite <- (units_of m') in B |- *. apply cstr_iff in A; [|apply V]. apply cstr_iff in B; [|apply V].
  destruct (cstr_parse (Some (mkdec false m (-9))) false (V m)) as (c & E & _ & U). destruct (cstr_parse (Some (mkdec false m' (-9))) false (V m')) as (c' & E' & _ & U').
  rewrite A in E. rewrite B in E'. rewrite E in E'. apply ok_inj in E'. subst c'. congruence.
Qed.
Lemma tft_shown_inj s m m' : tft_shown s m -> tft_shown s m' -> m = m'.
Proof. intros (a & A & ->) (b & B & E). apply app_inv_tail in E. subst b. exact (amount_shown_inj _ _ _ A B). Qed.
Lemma decimal_chars ds v : decimal ds v -> Forall (fun c => 48 <= c <= 57) ds.
Proof. intros D. apply decimal_digits in D. exact D. Qed.
Lemma amount_chars s m : amount_shown s m -> Forall (fun c => 46 <= c <= 57) s.
Proof.
  intros (ip & fp & w & v & -> & (D & _) & D' & _). apply decimal_chars in D, D'. apply Forall_app. split; [eapply Forall_impl; [|exact D]; intros; cbv beta in *; lia|].
  assert (F : Forall (fun c => 46 <= c <= 57) fp) by (eapply Forall_impl; [|exact D']; intros; cbv beta in *; lia). destruct fp; [constructor|]. constructor; [lia|exact F].
Qed.
Lemma tft_chars s m : tft_shown s m -> Forall (fun c => 32 <= c) s.
Proof. intros (a & A & ->). apply Forall_app. split; [eapply Forall_impl; [|exact (amount_chars _ _ A)]; intros; cbv beta in *; lia|]. apply Forall_forall. intros x I. vm_compute in I. intuition lia. Qed.

(** ** Dates *)
Lemma two_shown_iff s n : (0 <= n < 100)%Z -> two_shown s n <-> s = two n.
Proof.
  intros B. unfold two. set (k := Z.to_N n). assert (K : k < 100) by (unfold k; lia). assert (Q : decimal [48 + k / 10; 48 + k mod 10] k).
  { apply decimal_iff. cbn [digits_val]. replace ((48 <=? 48 + k / 10) && (48 + k / 10 <=? 57)) with true by lia. replace ((48 <=? 48 + k mod 10) && (48 + k mod 10 <=? 57)) with true by lia. f_equal. lia. }
  split.
  - intros (v & D & L & E). assert (v = k) by (unfold k; lia). subst v. apply decimal_iff in D, Q. apply (digits_same _ _ k); [exact L|exact D|exact Q].
  - intros ->. exists k. split; [exact Q|]. split; [reflexivity|unfold k; lia].
Qed.
(** the fields of a time which can be shown *)
Definition showable (t : tm) : Prop := let '(y, mo, d, h, mi, s) := t in (0 <= y /\ 0 <= mo < 100 /\ 0 <= d < 100 /\ 0 <= h < 100 /\ 0 <= mi < 100 /\ 0 <= s < 100)%Z.
Lemma date_iff lt e s : showable (lt e) -> date_shown s (lt e) <-> s = date_str lt e.
Proof.
  unfold date_str. destruct (lt e) as [[[[[y mo] d] h] mi] se]. intros (Y & MO & D & HH & MI & SE). unfold date_shown. split.
  - intros (a & b & c & x & f & g & (v & W & ->) & B & C & X & F & G & ->). apply whole_shown_iff in W. apply two_shown_iff in B, C, X, F, G; try assumption. subst. rewrite N2Z.id. reflexivity.
  - intros ->. exists (dec_str (Z.to_N y)), (two mo), (two d), (two h), (two mi), (two se). split; [exists (Z.to_N y); split; [apply dec_str_shown|lia]|].
    repeat match goal with |- two_shown _ _ /\ _ => split; [now apply two_shown_iff|] end. reflexivity.
Qed.
Lemma two_chars s n : two_shown s n -> Forall (fun c => 48 <= c <= 57) s.
Proof. intros (v & D & _). now apply decimal_chars in D. Qed.
Ltac chars := apply Forall_forall; let x := fresh in let I := fresh in intros x I; vm_compute in I; intuition lia.
Lemma date_chars s t : date_shown s t -> Forall (fun c => 32 <= c) s.
Proof.
  destruct t as [[[[[y mo] d] h] mi] se]. intros (a & b & c & x & f & g & (v & (W & _) & _) & B & C & X & F & G & ->). apply decimal_chars in W. apply two_chars in B, C, X, F, G.
  assert (K : forall l, Forall (fun c => 48 <= c <= 57) l -> Forall (fun c => 32 <= c) l) by (intros l Q; eapply Forall_impl; [|exact Q]; intros; cbv beta in *; lia).
  repeat (apply Forall_app; split); try (now apply K); chars.
Qed.
(** ** Durations *)
Lemma part_iff s n u : part_shown s n u <-> s = if 0 <? n then dec_str n ++ s2b u else [].
Proof.
  unfold part_shown. destruct (N.ltb_spec 0 n) as [L|L].
  - split; [intros [(-> & _)|(_ & t & W & ->)]; [lia|apply whole_shown_iff in W; now subst]|]. intros ->. right. split; [exact L|]. eexists. split; [apply dec_str_shown|reflexivity].
  - split; [intros [(_ & ->)|(L' & _)]; [reflexivity|lia]|]. intros ->. left. split; [lia|reflexivity].
Qed.
Lemma dur_part_if z (u : string) c : s2b u = [c] -> (0 <= z)%Z -> dur_part z c = if 0 <? Z.to_N z then dec_str (Z.to_N z) ++ s2b u else [].
Proof. intros -> P. unfold dur_part. destruct (Z.ltb_spec 0 z), (N.ltb_spec 0 (Z.to_N z)); try lia; reflexivity. Qed.
Lemma duration_iff td z s : (0 < z)%Z -> dur_str td (DInt z) = Ok s <-> duration_shown s (Z.to_N z).
Proof.
  intros P. unfold dur_str. cbn [dur_clean bind]. destruct (Z.eqb_spec z 0) as [E|_]; [lia|]. cbv zeta.
  set (d := (z / 86400)%Z). set (h := ((z - d * 86400) / 3600)%Z). set (m := ((z - d * 86400 - h * 3600) / 60)%Z). set (x := (z - d * 86400 - h * 3600 - m * 60)%Z).
  assert (R : (0 <= d /\ 0 <= h < 24 /\ 0 <= m < 60 /\ 0 <= x < 60 /\ z = d * 86400 + h * 3600 + m * 60 + x)%Z) by (unfold x, m, h, d; lia). clearbody d h m x. destruct R as (Rd & Rh & Rm & Rx & Rz).
  rewrite (dur_part_if d "d"), (dur_part_if h "h"), (dur_part_if m "m"), (dur_part_if x "s") by (reflexivity || lia). split.
  - intros E. apply ok_inj in E. subst s. exists (Z.to_N d), (Z.to_N h), (Z.to_N m), (Z.to_N x). do 4 eexists.
    repeat match goal with |- part_shown _ _ _ /\ _ => split; [now apply part_iff|] end. repeat match goal with |- _ /\ _ => split end; try lia. reflexivity.
  - intros (d' & h' & m' & x' & a & b & c & e & A & B & C & E & H1 & H2 & H3 & Q & ->). apply part_iff in A, B, C, E. subst a b c e.
    assert (d' = Z.to_N d /\ h' = Z.to_N h /\ m' = Z.to_N m /\ x' = Z.to_N x) as (-> & -> & -> & ->) by lia. reflexivity.
Qed.
Lemma part_chars s n u : Forall (fun c => 32 <= c) (s2b u) -> part_shown s n u -> Forall (fun c => 32 <= c) s.
Proof. intros U [(_ & ->)|(_ & t & (D & _) & ->)]; [constructor|]. apply decimal_chars in D. apply Forall_app. split; [|exact U]. eapply Forall_impl; [|exact D]; intros; cbv beta in *; lia. Qed.
Lemma duration_chars s n : duration_shown s n -> Forall (fun c => 32 <= c) s.
Proof.
  intros (d & h & m & x & a & b & c & e & A & B & C & E & _ & _ & _ & _ & ->). apply part_chars in A, B, C, E; try (chars). repeat (apply Forall_app; split); assumption.
Qed.
Lemma duration_inj s n n' : 0 < n -> 0 < n' -> duration_shown s n -> duration_shown s n' -> n = n'.
Proof.
  intros P P' A B. set (td := fun _ _ _ _ : option pystr => @Err Z ValueError).
  assert (K : forall n, 0 < n -> duration_shown s n -> dur_str td (DInt (Z.of_N n)) = Ok s) by (intros k Pk D; apply duration_iff; [lia|now rewrite N2Z.id]).
  pose proof (Prop_Dates.C50_distinct td (Z.of_N n) (Z.of_N n') s (N2Z.is_nonneg n) (N2Z.is_nonneg n') (K n P A) (K n' P' B)). lia.
Qed.
(** ** Identifiers *)
Lemma id_shown_iff s id : wf_bytes id -> id_shown s id <-> s = hash_str id.
Proof.
  intros W. unfold id_shown, hash_str. destruct id as [|x id]; [|].
  - rewrite lower_hex by (apply Forall_forall; intros y I; apply repeat_spec in I; lia). reflexivity.
  - rewrite lower_hex by exact W. reflexivity.
Qed.
Lemma lower_chars s b : lower_text s b -> Forall (fun c => 32 <= c) s.
Proof. intros (_ & F). eapply Forall_impl; [|exact F]. unfold lower_digit. intros; lia. Qed.
