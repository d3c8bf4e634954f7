(** Proofs about the Currency model. *)
From Verif Require Import Base BaseFacts Encoders EncodersFacts Currency.
From Coq Require Import ZifyBool ZifyNat ZifyN.
Ltac Zify.zify_post_hook ::= Z.div_mod_to_equations.

(** ** number of digits *)
Lemma lenN_app {A} (a b : list A) : lenN (a ++ b) = lenN a + lenN b.
Proof. unfold lenN. rewrite app_length. lia. Qed.

Lemma ndigits_upper n : n < 10 ^ ndigits n.
Proof. apply digits_val_bound, dec_str_val. Qed.

Lemma ndigits_lower n : n <> 0 -> 10 ^ (ndigits n - 1) <= n.
Proof.
  intros Hn. destruct (dec_str_spec n) as (H1 & H2 & H3). unfold ndigits.
  pose proof (dec_str_digits n) as HD.
  destruct (dec_str n) as [|c t]; [congruence|].
  inversion HD as [|? ? Hc Ht]; subst. unfold is_digit in Hc.
  assert (c <> 48). { intros E. destruct (H3 c t eq_refl E); contradiction. }
  cbn [digits_val] in H1.
  replace ((48 <=? c) && (c <=? 57)) with true in H1 by lia.
  destruct (digits_val_ex 0 Ht) as [v Hv].
  rewrite (digits_val_acc _ _ Hv) in H1. injection H1 as H1.
  unfold lenN in *. cbn [length]. replace (N.of_nat (S (length t)) - 1) with (N.of_nat (length t)) by lia.
  generalize dependent (10 ^ N.of_nat (length t)). intros P H1. nia.
Qed.

Lemma ndigits_le n k : 0 < k -> n < 10 ^ k -> ndigits n <= k.
Proof.
  intros Hk H. destruct (N.eq_dec n 0) as [->|Hn].
  - change (ndigits 0) with 1. lia.
  - pose proof (ndigits_lower n Hn) as L.
    destruct (N.le_gt_cases (ndigits n) k) as [?|G]; [assumption|].
    assert (10 ^ k <= 10 ^ (ndigits n - 1)) by (apply N.pow_le_mono_r; lia). lia.
Qed.

Lemma dfix_small d : dcoef d < 10 ^ 28 -> dfix d = d.
Proof.
  intros H. unfold dfix. replace (ndigits (dcoef d) <=? prec) with true; [reflexivity|].
  symmetry. apply N.leb_le. apply ndigits_le; [unfold prec; lia | exact H].
Qed.

Lemma dfix_neg d : dneg (dfix d) = dneg d.
Proof.
  unfold dfix. destruct (ndigits (dcoef d) <=? prec); [reflexivity|].
  destruct (rhe (dcoef d) (ndigits (dcoef d) - prec) =? 10 ^ prec); reflexivity.
Qed.
Lemma dfix_exp d : (dexp d <= dexp (dfix d))%Z.
Proof.
  unfold dfix. destruct (ndigits (dcoef d) <=? prec); [lia|].
  destruct (rhe (dcoef d) (ndigits (dcoef d) - prec) =? 10 ^ prec); cbn [dexp]; lia.
Qed.

(** ** valid amounts *)
Definition valid_dec (d : dec) : Prop := dneg d = false /\ (-9 <= dexp d)%Z.
Definition valid (c : currency) : Prop := valid_dec (cvalue c).
Definition units (c : currency) : N := scaled9 (cvalue c).

Lemma valid_units c : valid c -> units c = dcoef (cvalue c) * 10 ^ Z.to_N (dexp (cvalue c) + 9).
Proof. intros [_ H]. unfold units, scaled9. replace (-9 <=? dexp (cvalue c))%Z with true by lia. reflexivity. Qed.

Lemma check_dec_ok d c : check_dec d = Ok c -> exists f, d = DFin f /\ c = Some f /\ valid_dec f.
Proof.
  destruct d as [f|]; cbn; [|discriminate].
  destruct (Z.ltb_spec (dexp f) (-9)); [discriminate|].
  destruct (dneg f) eqn:E; [discriminate|]. intros H'; inversion H'. exists f. repeat split; auto.
Qed.
Lemma check_dec_valid f : valid_dec f -> check_dec (DFin f) = Ok (Some f).
Proof.
  intros [H1 H2]. cbn. replace (dexp f <? -9)%Z with false by lia. rewrite H1. reflexivity.
Qed.
Lemma check_dec_err d e : check_dec d = Err e -> e = TypeError \/ e = NameError.
Proof.
  destruct d as [f|]; cbn; [|intros H; inversion H; auto].
  destruct (dexp f <? -9)%Z; [intros H; inversion H; auto|].
  destruct (dneg f); intros H; inversion H; auto.
Qed.

Lemma cset_valid v c : cset v = Ok c -> (forall d, v = CICur d -> valid d) -> valid c.
Proof.
  destruct v as [|d|z|s|d|]; cbn [cset]; intros H Hv.
  - inversion H. split; [reflexivity | cbn; lia].
  - inversion H. exact (Hv d eq_refl).
  - apply check_dec_ok in H as (f & _ & -> & Hf). exact Hf.
  - apply bind_ok in H as (d & _ & H). apply check_dec_ok in H as (f & _ & -> & Hf). exact Hf.
  - apply check_dec_ok in H as (f & _ & -> & Hf). exact Hf.
  - discriminate.
Qed.

Definition valid_operand (o : coperand) : Prop := match o with COCur c => valid c | _ => True end.
Lemma as_currency_valid o c : as_currency o = Ok c -> valid_operand o -> valid c.
Proof.
  destruct o as [z|s|s|d|]; cbn [as_currency valid_operand]; intros H Hv.
  - eapply cset_valid; [exact H | congruence].
  - eapply cset_valid; [exact H | congruence].
  - apply bind_ok in H as (d & _ & H). eapply cset_valid; [exact H | congruence].
  - inversion H; subst; exact Hv.
  - discriminate.
Qed.

Lemma dec_of_Z_units z : (0 <= z)%Z -> scaled9 (dec_of_Z z) = Z.to_N z * 10 ^ 9.
Proof. intros H. unfold scaled9, dec_of_Z; cbn [dexp dcoef]. replace (Z.abs z) with z by lia. reflexivity. Qed.

Lemma cset_int z : (0 <= z)%Z -> exists c, cset (CIInt z) = Ok c /\ valid c /\ units c = Z.to_N z * 10 ^ 9.
Proof.
  intros H. exists (Some (dec_of_Z z)). cbn [cset]. rewrite check_dec_valid.
  - split; [reflexivity|]. split; [split; [cbn; lia | cbn; lia]|]. apply dec_of_Z_units; exact H.
  - split; cbn; lia.
Qed.

(** ** arithmetic *)
Lemma signed_units d e : valid_dec d -> (-9 <= e <= dexp d)%Z ->
  (0 <= signed d e)%Z /\ Z.to_N (signed d e) * 10 ^ Z.to_N (e + 9) = scaled9 d.
Proof.
  intros [H1 H2] He. unfold signed, scaled9. rewrite H1.
  replace (-9 <=? dexp d)%Z with true by lia.
  split; [lia|]. rewrite N2Z.id, <- N.mul_assoc, <- N.pow_add_r. f_equal. f_equal. lia.
Qed.

Lemma signed_opp d e : signed (dopp d) e = (- signed d e)%Z.
Proof. unfold signed, dopp; cbn. destruct (dneg d); cbn; lia. Qed.

Lemma scaled9_exact neg z e : (-9 <= e)%Z -> scaled9 (mkdec neg z e) = z * 10 ^ Z.to_N (e + 9).
Proof. intros H. unfold scaled9; cbn. replace (-9 <=? e)%Z with true by lia. reflexivity. Qed.

Lemma pow10_pos k : 1 <= 10 ^ k.
Proof. pose proof (N.pow_nonzero 10 k). lia. Qed.

Lemma dadd_exact a b : valid_dec a -> valid_dec b -> scaled9 a + scaled9 b < 10 ^ 28 ->
  valid_dec (dadd a b) /\ scaled9 (dadd a b) = scaled9 a + scaled9 b.
Proof.
  intros Ha Hb HL. unfold dadd. set (e := Z.min (dexp a) (dexp b)).
  assert (He : (-9 <= e)%Z) by (destruct Ha, Hb; unfold e; lia).
  destruct (signed_units a e Ha) as [Pa Ea]; [unfold e; lia|].
  destruct (signed_units b e Hb) as [Pb Eb]; [unfold e; lia|].
  rewrite <- Ea, <- Eb in *. rewrite <- N.mul_add_distr_r in *.
  set (s := (signed a e + signed b e)%Z) in *.
  replace (Z.to_N (signed a e) + Z.to_N (signed b e)) with (Z.to_N s) in * by (unfold s; lia).
  rewrite dfix_small.
  - assert (E1 : (s <? 0)%Z = false) by (unfold s; lia). rewrite E1.
    assert (E2 : dneg a && dneg b = false) by (destruct Ha as [-> _]; reflexivity). rewrite E2.
    split.
    + split; [cbn; destruct (s =? 0)%Z; reflexivity | exact He].
    + rewrite scaled9_exact by exact He. f_equal. unfold s; lia.
  - cbn [dcoef]. pose proof (pow10_pos (Z.to_N (e + 9))).
    replace (Z.to_N (Z.abs s)) with (Z.to_N s) by (unfold s; lia). nia.
Qed.

Lemma dsub_exact a b : valid_dec a -> valid_dec b -> scaled9 a < 10 ^ 28 -> scaled9 b <= scaled9 a ->
  valid_dec (dsub a b) /\ scaled9 (dsub a b) = scaled9 a - scaled9 b.
Proof.
  intros Ha Hb HL Hle. unfold dsub, dadd. cbn [dexp dopp]. set (e := Z.min (dexp a) (dexp b)).
  assert (He : (-9 <= e)%Z) by (destruct Ha, Hb; unfold e; lia).
  destruct (signed_units a e Ha) as [Pa Ea]; [unfold e; lia|].
  destruct (signed_units b e Hb) as [Pb Eb]; [unfold e; lia|].
  rewrite signed_opp. rewrite <- Ea, <- Eb in *. rewrite <- N.mul_sub_distr_r in *.
  pose proof (pow10_pos (Z.to_N (e + 9))) as HP.
  assert (HS : (signed b e <= signed a e)%Z) by nia.
  set (s := (signed a e + - signed b e)%Z) in *.
  replace (Z.to_N (signed a e) - Z.to_N (signed b e)) with (Z.to_N s) in * by (unfold s; lia).
  rewrite dfix_small.
  - assert (E1 : (s <? 0)%Z = false) by (unfold s; lia). rewrite E1.
    assert (E2 : dneg a && negb (dneg b) = false) by (destruct Ha as [-> _]; reflexivity).
    cbn [dneg dopp]. rewrite E2.
    split.
    + split; [cbn; destruct (s =? 0)%Z; reflexivity | exact He].
    + rewrite scaled9_exact by exact He. f_equal. unfold s; lia.
  - cbn [dcoef].
    replace (Z.to_N (Z.abs s)) with (Z.to_N s) by (unfold s; lia).
    assert (Z.to_N s <= Z.to_N (signed a e)) by (unfold s; lia). nia.
Qed.

Lemma dsub_negative a b : valid_dec a -> valid_dec b -> scaled9 a < scaled9 b -> dneg (dsub a b) = true.
Proof.
  intros Ha Hb Hlt. unfold dsub, dadd. cbn [dexp dopp]. set (e := Z.min (dexp a) (dexp b)).
  assert (He : (-9 <= e)%Z) by (destruct Ha, Hb; unfold e; lia).
  destruct (signed_units a e Ha) as [Pa Ea]; [unfold e; lia|].
  destruct (signed_units b e Hb) as [Pb Eb]; [unfold e; lia|].
  rewrite signed_opp. rewrite <- Ea, <- Eb in *.
  assert (HS : (signed a e < signed b e)%Z).
  { pose proof (pow10_pos (Z.to_N (e + 9))). nia. }
  rewrite dfix_neg. cbn [dneg].
  replace (signed a e + - signed b e =? 0)%Z with false by lia. lia.
Qed.

Lemma cadd_exact a b : valid a -> valid b -> units a + units b < 10 ^ 28 ->
  exists c, cadd a (COCur b) = Ok c /\ valid c /\ units c = units a + units b.
Proof.
  intros Ha Hb HL. destruct (dadd_exact _ _ Ha Hb HL) as [H1 H2].
  exists (Some (dadd (cvalue a) (cvalue b))). cbn [cadd as_currency bind cset].
  unfold cadd; cbn [as_currency bind cset]. rewrite check_dec_valid by exact H1. auto.
Qed.

Lemma csub_exact a b : valid a -> valid b -> units a < 10 ^ 28 -> units b <= units a ->
  exists c, csub a (COCur b) = Ok c /\ valid c /\ units c = units a - units b.
Proof.
  intros Ha Hb HL Hle. destruct (dsub_exact _ _ Ha Hb HL Hle) as [H1 H2].
  exists (Some (dsub (cvalue a) (cvalue b))).
  unfold csub; cbn [as_currency bind cset]. rewrite check_dec_valid by exact H1. auto.
Qed.

Lemma dadd_exp_ge a b : (-9 <= dexp a)%Z -> (-9 <= dexp b)%Z -> (-9 <= dexp (dadd a b))%Z.
Proof.
  intros Ha Hb. unfold dadd.
  match goal with |- (_ <= dexp (dfix ?d))%Z => pose proof (dfix_exp d) as H; cbn [dexp] in H end. lia.
Qed.

Lemma csub_negative a b : valid a -> valid b -> units a < units b -> csub a (COCur b) = Err NameError.
Proof.
  intros Ha Hb Hlt. unfold csub; cbn [as_currency bind cset check_dec].
  rewrite (dsub_negative _ _ Ha Hb Hlt).
  destruct (dexp (dsub (cvalue a) (cvalue b)) <? -9)%Z; reflexivity.
Qed.

(** Addition never fails. *)
Lemma cadd_total a b : valid a -> valid b -> exists c, cadd a (COCur b) = Ok c /\ valid c.
Proof.
  intros [Ha1 Ha2] [Hb1 Hb2]. unfold cadd; cbn [as_currency bind cset].
  exists (Some (dadd (cvalue a) (cvalue b))).
  assert (V : valid_dec (dadd (cvalue a) (cvalue b))).
  { split; [|apply dadd_exp_ge; assumption].
    unfold dadd. rewrite dfix_neg. cbn [dneg]. rewrite Ha1, Hb1. unfold signed. rewrite Ha1, Hb1.
    match goal with |- (if ?c then _ else _) = _ => destruct c; [reflexivity|] end. lia. }
  rewrite check_dec_valid by exact V. auto.
Qed.

Lemma cmul_exact a b c : valid a -> valid b -> units a * units b < 10 ^ 28 ->
  cmul a (COCur b) = Ok c -> valid c /\ units c * 10 ^ 9 = units a * units b.
Proof.
  intros Ha Hb HL H. unfold cmul in H; cbn [as_currency bind cset] in H.
  pose proof (valid_units _ Ha) as Ua. pose proof (valid_units _ Hb) as Ub.
  destruct Ha as [Ha1 Ha2], Hb as [Hb1 Hb2].
  assert (HC : dcoef (cvalue a) * dcoef (cvalue b) < 10 ^ 28).
  { rewrite Ua, Ub in HL. pose proof (pow10_pos (Z.to_N (dexp (cvalue a) + 9))).
    pose proof (pow10_pos (Z.to_N (dexp (cvalue b) + 9))).
    eapply N.le_lt_trans; [|exact HL].
    apply N.mul_le_mono; nia. }
  unfold dmul in H. rewrite dfix_small in H by exact HC. rewrite Ha1, Hb1 in H. cbn [xorb] in H.
  apply check_dec_ok in H as (f & E & -> & Hf). inversion E; subst f.
  split; [exact Hf|]. destruct Hf as [_ Hf]. cbn [dexp] in Hf.
  unfold units at 1. cbn [cvalue]. rewrite scaled9_exact by exact Hf.
  rewrite Ua, Ub. set (x := dcoef (cvalue a)) in *. set (y := dcoef (cvalue b)) in *.
  rewrite <- N.mul_assoc, <- N.pow_add_r.
  replace (Z.to_N (dexp (cvalue a) + dexp (cvalue b) + 9) + 9)
    with (Z.to_N (dexp (cvalue a) + 9) + Z.to_N (dexp (cvalue b) + 9)) by lia.
  rewrite N.pow_add_r. lia.
Qed.

(** Multiplying by a whole number never fails below the limit. *)
Lemma cmul_int a z : valid a -> (0 <= z)%Z -> units a * Z.to_N z < 10 ^ 28 ->
  exists c, cmul a (COInt z) = Ok c /\ valid c /\ units c = units a * Z.to_N z.
Proof.
  intros Ha Hz HL. unfold cmul; cbn [as_currency].
  assert (V : valid_dec (dec_of_Z z)) by (split; cbn; lia).
  cbn [cset]. rewrite check_dec_valid by exact V. cbn [bind cvalue].
  pose proof (valid_units _ Ha) as Ua. destruct Ha as [Ha1 Ha2].
  assert (HC : dcoef (cvalue a) * Z.to_N z < 10 ^ 28).
  { rewrite Ua in HL. pose proof (pow10_pos (Z.to_N (dexp (cvalue a) + 9))).
    eapply N.le_lt_trans; [|exact HL]. apply N.mul_le_mono; nia. }
  exists (Some (dmul (cvalue a) (dec_of_Z z))).
  assert (E : dmul (cvalue a) (dec_of_Z z) = mkdec false (dcoef (cvalue a) * Z.to_N z) (dexp (cvalue a))).
  { unfold dmul, dec_of_Z; cbn [dneg dcoef dexp].
    replace (z <? 0)%Z with false by lia. replace (Z.abs z) with z by lia.
    rewrite Ha1. cbn [xorb]. rewrite Z.add_0_r. rewrite dfix_small by exact HC. reflexivity. }
  rewrite E.
  assert (V2 : valid_dec (mkdec false (dcoef (cvalue a) * Z.to_N z) (dexp (cvalue a)))) by (split; auto).
  rewrite check_dec_valid by exact V2. split; [reflexivity|]. split; [exact V2|].
  unfold units at 1; cbn [cvalue]. rewrite scaled9_exact by exact Ha2. rewrite Ua. lia.
Qed.

(** comparison is comparison of the amounts *)
Lemma dcmp_units a b : valid_dec a -> valid_dec b -> dcmp a b = N.compare (scaled9 a) (scaled9 b).
Proof.
  intros Ha Hb. unfold dcmp. set (e := Z.min (dexp a) (dexp b)).
  assert (He : (-9 <= e)%Z) by (destruct Ha, Hb; unfold e; lia).
  destruct (signed_units a e Ha) as [Pa Ea]; [unfold e; lia|].
  destruct (signed_units b e Hb) as [Pb Eb]; [unfold e; lia|].
  rewrite <- Ea, <- Eb. pose proof (pow10_pos (Z.to_N (e + 9))) as HP.
  destruct (Z.compare_spec (signed a e) (signed b e)) as [E|E|E]; symmetry.
  - apply N.compare_eq_iff. rewrite E; reflexivity.
  - apply N.compare_lt_iff. nia.
  - apply N.compare_gt_iff. nia.
Qed.
Lemma ccmp_units a b : valid a -> valid b -> ccmp a (COCur b) = Ok (N.compare (units a) (units b)).
Proof. intros Ha Hb. unfold ccmp; cbn [as_currency bind]. rewrite (dcmp_units _ _ Ha Hb). reflexivity. Qed.

(** ** text *)
Lemma py_int_digits s v : s <> [] -> digits_val 0 s = Some v -> py_int s = Ok (Z.of_N v).
Proof.
  intros Hne Hv. pose proof (digits_val_Forall _ _ Hv) as HD. unfold py_int.
  rewrite strip_nospace by (eapply Forall_impl; [|exact HD]; apply digit_not_space).
  destruct s as [|c t]; [congruence|].
  assert (is_digit c) as Hc by (inversion HD; assumption). unfold is_digit in Hc.
  replace (c =? 45) with false by lia. replace (c =? 43) with false by lia.
  rewrite int_digits_plain, Hv by (auto; left; discriminate). reflexivity.
Qed.

Lemma digits_val_zeros k s : digits_val 0 (repeatN 48 k ++ s) = digits_val 0 s.
Proof. induction k as [|k IH]; cbn [repeatN app digits_val]; [reflexivity|]. exact IH. Qed.

Lemma repeatN_length {A} (x : A) k : length (repeatN x k) = k.
Proof. induction k; cbn; [|rewrite IHk]; reflexivity. Qed.

Lemma pad_left_spec f : f < 10 ^ 9 ->
  length (pad_left 9 (dec_str f)) = 9%nat /\ digits_val 0 (pad_left 9 (dec_str f)) = Some f /\
  Forall is_digit (pad_left 9 (dec_str f)).
Proof.
  intros Hf. unfold pad_left.
  assert (HL : (length (dec_str f) <= 9)%nat).
  { assert (ndigits f <= 9) as H by (apply ndigits_le; [lia | exact Hf]). unfold ndigits, lenN in H. lia. }
  assert (HV : digits_val 0 (repeatN 48 (9 - length (dec_str f)) ++ dec_str f) = Some f).
  { rewrite digits_val_zeros. apply dec_str_val. }
  split; [|split].
  - rewrite app_length, repeatN_length. lia.
  - exact HV.
  - eapply digits_val_Forall; exact HV.
Qed.

Lemma filter_digits s : Forall is_digit s -> filter (fun x => negb (x =? 46)) s = s.
Proof.
  induction 1 as [|c s Hc Hs IH]; [reflexivity|]. cbn [filter]. unfold is_digit in Hc.
  replace (c =? 46) with false by lia. cbn [negb]. rewrite IH. reflexivity.
Qed.

Definition split9 (n : N) : pystr * pystr := (dec_str (n / 10 ^ 9), pad_left 9 (dec_str (n mod 10 ^ 9))).

Lemma split9_val n : digits_val 0 (fst (split9 n) ++ snd (split9 n)) = Some n.
Proof.
  unfold split9; cbn [fst snd].
  assert (Hf : n mod 10 ^ 9 < 10 ^ 9) by (apply N.mod_lt; discriminate).
  destruct (pad_left_spec _ Hf) as (L & V & _).
  rewrite digits_val_app, dec_str_val, (digits_val_acc _ _ V). unfold lenN. rewrite L.
  f_equal. change (N.of_nat 9) with 9. rewrite (N.div_mod n (10 ^ 9)) at 3 by discriminate. lia.
Qed.

Lemma cint_units c : valid c -> cint c = Ok (Z.of_N (units c)).
Proof.
  intros [H1 H2]. unfold cint, fmt9. rewrite H1. cbn [app].
  assert (Hf : units c mod 10 ^ 9 < 10 ^ 9) by (apply N.mod_lt; discriminate).
  destruct (pad_left_spec _ Hf) as (L & V & D).
  fold (units c). rewrite filter_app. cbn [filter].
  change (46 =? 46) with true. cbn [negb].
  rewrite !filter_digits by (exact D || apply dec_str_digits).
  pose proof (split9_val (units c)) as HV. unfold split9 in HV; cbn [fst snd] in HV.
  apply py_int_digits; [|exact HV].
  intros E. apply app_eq_nil in E as [E _]. destruct (dec_str_spec (units c / 10 ^ 9)) as (_ & N & _).
  contradiction.
Qed.

Lemma cjson_units c : valid c -> cjson c = Ok (dec_str (units c)).
Proof.
  intros H. unfold cjson. rewrite cint_units by exact H. cbn [bind]. unfold z_str.
  replace (Z.of_N (units c) <? 0)%Z with false by lia. rewrite N2Z.id. reflexivity.
Qed.

(** parsing of a plain digit string, with optional fraction *)
Lemma digit_cases c : is_digit c -> In c [48;49;50;51;52;53;54;55;56;57].
Proof. unfold is_digit. cbn. lia. Qed.

Ltac digit_enum Hc := apply digit_cases in Hc; cbn in Hc;
  repeat (destruct Hc as [<-|Hc]; [ | ]); [.. | destruct Hc].

Lemma special_digit c t : is_digit c -> special_name (c :: t) = false.
Proof. intros Hc. digit_enum Hc; reflexivity. Qed.

Lemma span_digits_app s r : Forall is_digit s -> (forall c t, r = c :: t -> is_digit_b c = false) ->
  span_digits (s ++ r) = (s, r).
Proof.
  intros HD Hr. induction HD as [|c s Hc Hs IH]; cbn [app].
  - destruct r as [|c t]; [reflexivity|]. cbn [span_digits]. rewrite (Hr c t eq_refl). reflexivity.
  - cbn [span_digits]. unfold is_digit in Hc.
    replace (is_digit_b c) with true by (unfold is_digit_b; lia). rewrite IH. reflexivity.
Qed.

Definition numchar (c : N) : Prop := is_digit c \/ c = 46.
Lemma numchar_clean s : Forall numchar s ->
  strip s = s /\ filter (fun c => negb (c =? 95)) s = s /\ upper s = s.
Proof.
  intros H. split; [|split].
  - apply strip_nospace. eapply Forall_impl; [|exact H].
    intros c [Hc| ->]; [apply digit_not_space; exact Hc | reflexivity].
  - induction H as [|c s Hc Hs IH]; [reflexivity|]. cbn [filter].
    replace (c =? 95) with false by (unfold numchar, is_digit in Hc; lia). cbn [negb]. rewrite IH; reflexivity.
  - unfold upper. induction H as [|c s Hc Hs IH]; [reflexivity|]. cbn [map]. rewrite IH.
    f_equal. unfold upper_c. unfold numchar, is_digit in Hc.
    replace ((97 <=? c) && (c <=? 122)) with false by lia. reflexivity.
Qed.

Lemma parse_dec_num ip r d : ip <> [] -> Forall is_digit ip -> Forall numchar r ->
  parse_number false (ip ++ r) = Some d -> parse_dec (ip ++ r) = Ok d.
Proof.
  intros Hne Hip Hr HP. unfold parse_dec.
  assert (HN : Forall numchar (ip ++ r)).
  { apply Forall_app; split; [|exact Hr]. eapply Forall_impl; [|exact Hip]. intros c Hc; left; exact Hc. }
  destruct (numchar_clean _ HN) as (-> & -> & _).
  destruct ip as [|c ip]; [congruence|]. inversion Hip as [|? ? Hc Hip']; subst.
  cbn [app] in *. pose proof (special_digit c (ip ++ r) Hc) as HS.
  assert (E : split_sign (c :: ip ++ r) = (false, c :: ip ++ r)) by (digit_enum Hc; reflexivity).
  rewrite E. rewrite HS, HP. reflexivity.
Qed.

Lemma parse_int_digits s v : s <> [] -> digits_val 0 s = Some v ->
  parse_dec s = Ok (DFin (mkdec false v 0)).
Proof.
  intros Hne Hv. pose proof (digits_val_Forall _ _ Hv) as HD.
  rewrite <- (app_nil_r s). apply parse_dec_num; auto.
  unfold parse_number. rewrite span_digits_app by (auto; intros; discriminate).
  cbn match. rewrite !app_nil_r. destruct s as [|c t]; [congruence|]. rewrite Hv. reflexivity.
Qed.

Lemma parse_frac ip fp v : ip <> [] -> Forall is_digit ip -> Forall is_digit fp ->
  digits_val 0 (ip ++ fp) = Some v ->
  parse_dec (ip ++ 46 :: fp) = Ok (DFin (mkdec false v (- Z.of_nat (length fp)))).
Proof.
  intros Hne Hip Hfp Hv. apply parse_dec_num; auto.
  { constructor; [right; reflexivity|]. eapply Forall_impl; [|exact Hfp]. intros c Hc; left; exact Hc. }
  unfold parse_number. rewrite span_digits_app; auto.
  2:{ intros c t E; inversion E; reflexivity. }
  cbn match. rewrite <- (app_nil_r fp) at 1.
  rewrite span_digits_app by (auto; intros; discriminate).
  change (46 =? 46) with true. cbn match.
  destruct (ip ++ fp) as [|c t] eqn:E.
  { apply app_eq_nil in E as [E _]; contradiction. }
  rewrite Hv. cbn [parse_exp]. reflexivity.
Qed.

(** rstrip *)
Lemma lstrip_app_stop p a x b : p x = false -> lstrip p (a ++ x :: b) = lstrip p a ++ x :: b.
Proof.
  intros Hx. induction a as [|c a IH]; cbn [app lstrip].
  - rewrite Hx; reflexivity.
  - destruct (p c); [exact IH | reflexivity].
Qed.
Lemma rstrip_stop p a x b : p x = false -> rstrip p (a ++ x :: b) = a ++ x :: rstrip p b.
Proof.
  intros Hx. unfold rstrip. rewrite rev_app_distr. cbn [rev]. rewrite <- app_assoc.
  cbn [app]. rewrite lstrip_app_stop by exact Hx. rewrite rev_app_distr. cbn [rev].
  rewrite rev_involutive, <- app_assoc. reflexivity.
Qed.
Lemma lstrip_split p s : exists z, s = z ++ lstrip p s /\ Forall (fun c => p c = true) z /\
  (forall c t, lstrip p s = c :: t -> p c = false).
Proof.
  induction s as [|c s (z & E & F & G)].
  - exists []. repeat split; [constructor | intros; discriminate].
  - cbn [lstrip]. destruct (p c) eqn:Ec.
    + exists (c :: z). rewrite E at 1. repeat split; [constructor; assumption | exact G].
    + exists []. repeat split; [constructor | intros c' t E'; inversion E'; subst; exact Ec].
Qed.
Lemma rstrip_split p s : exists z, s = rstrip p s ++ z /\ Forall (fun c => p c = true) z /\
  (forall t c, rstrip p s = t ++ [c] -> p c = false).
Proof.
  destruct (lstrip_split p (rev s)) as (z & E & F & G). exists (rev z). unfold rstrip.
  split; [|split].
  - rewrite <- rev_app_distr, <- E, rev_involutive. reflexivity.
  - apply Forall_rev; exact F.
  - intros t c Ht. apply (G c (rev t)). rewrite <- (rev_involutive (lstrip p (rev s))), Ht, rev_app_distr.
    reflexivity.
Qed.

Definition zsp (x : N) : bool := (x =? 48) || (x =? 32).

Lemma zeros_val z acc : Forall (fun c => c = 48) z -> digits_val acc z = Some (acc * 10 ^ lenN z).
Proof.
  intros H; revert acc; induction H as [|c z Hc Hz IH]; intros acc; subst.
  - cbn. f_equal. unfold lenN; cbn. lia.
  - cbn [digits_val]. change ((48 <=? 48) && (48 <=? 57)) with true. cbn match. rewrite IH.
    f_equal. unfold lenN; cbn [length]. rewrite Nat2N.inj_succ, N.pow_succ_r'. nia.
Qed.

(** The display string: integer part, and the fraction without trailing zeros if there is one. *)
Lemma cstr_shape c : valid c ->
  exists ip fp, cstr c false = (match fp with [] => ip | _ => ip ++ 46 :: fp end) /\
    ip <> [] /\ Forall is_digit ip /\ Forall is_digit fp /\ (length fp <= 9)%nat /\
    exists v, digits_val 0 (ip ++ fp) = Some v /\ v * 10 ^ (9 - lenN fp) = units c.
Proof.
  intros [H1 H2]. set (n := units c).
  assert (Hf : n mod 10 ^ 9 < 10 ^ 9) by (apply N.mod_lt; discriminate).
  destruct (pad_left_spec _ Hf) as (L & V & D).
  pose proof (split9_val n) as HV. unfold split9 in HV; cbn [fst snd] in HV.
  set (ip := dec_str (n / 10 ^ 9)) in *. set (pd := pad_left 9 (dec_str (n mod 10 ^ 9))) in *.
  assert (Hip : ip <> []) by (apply dec_str_spec).
  assert (HipD : Forall is_digit ip) by (apply dec_str_digits).
  destruct (rstrip_split zsp pd) as (z & E & F & G).
  set (fp := rstrip zsp pd) in *.
  assert (Dfp : Forall is_digit fp /\ Forall is_digit z).
  { rewrite E in D. apply Forall_app in D. exact D. }
  assert (Hz : Forall (fun c => c = 48) z).
  { rewrite Forall_forall in *. intros x Hx. specialize (F x Hx).
    destruct Dfp as [_ Dz]. rewrite Forall_forall in Dz. specialize (Dz x Hx).
    unfold zsp in F. unfold is_digit in Dz. lia. }
  assert (Hlen : (length fp + length z = 9)%nat).
  { rewrite <- L, E, app_length. reflexivity. }
  exists ip, fp.
  assert (Hs : cstr c false = match fp with [] => ip | _ => ip ++ 46 :: fp end).
  { unfold cstr, fmt9. rewrite H1. fold (units c). fold n. fold ip. fold pd. cbn [app].
    change (fun x : N => (x =? 48) || (x =? 32)) with zsp.
    rewrite rstrip_stop by reflexivity. fold fp.
    destruct fp as [|c0 f0] eqn:Efp.
    - rewrite rev_app_distr. cbn [rev app]. rewrite rev_involutive.
      destruct ip; [congruence | reflexivity].
    - destruct (@exists_last _ (c0 :: f0)) as (t & x & Et); [discriminate|].
      rewrite Et. rewrite rev_app_distr. cbn [rev]. rewrite rev_app_distr. cbn [rev app].
      assert (Hx : is_digit x).
      { destruct Dfp as [Df _]. rewrite Et in Df. apply Forall_app in Df as [_ Df]. inversion Df; assumption. }
      replace (x =? 46) with false by (unfold is_digit in Hx; lia). destruct (ip ++ 46 :: t ++ [x]) as [|h hs] eqn:Eh; [|reflexivity].
      apply app_eq_nil in Eh as [Eh _]; contradiction. }
  split; [exact Hs|]. split; [exact Hip|]. split; [exact HipD|]. split; [apply Dfp|].
  split; [lia|].
  destruct (digits_val_ex 0 (proj2 (Forall_app _ ip fp) (conj HipD (proj1 Dfp)))) as [v Hv].
  exists v. split; [exact Hv|].
  rewrite E, app_assoc, digits_val_app, Hv, zeros_val in HV by exact Hz. injection HV as HV.
  fold n. rewrite <- HV. unfold lenN. f_equal. f_equal. lia.
Qed.

Lemma last_nonT s : Forall numchar s -> (4 <= length s)%nat -> listN_eqb (skipn (length s - 3) s) (s2b "TFT") = false.
Proof.
  intros H HL. destruct (skipn (length s - 3) s) as [|x l] eqn:E.
  - apply (f_equal (@length _)) in E. rewrite skipn_length in E. cbn in E. lia.
  - assert (In x s). { rewrite <- (firstn_skipn (length s - 3) s), E. apply in_or_app; right; left; reflexivity. }
    rewrite Forall_forall in H. specialize (H x H0). unfold numchar, is_digit in H.
    cbn [s2b listN_eqb]. change (N_of_ascii "T") with 84. replace (x =? 84) with false by lia. reflexivity.
Qed.

Lemma strip_unit_plain s : Forall numchar s -> strip_unit s = s.
Proof.
  intros H. unfold strip_unit. destruct (numchar_clean _ H) as (E1 & _ & E2). rewrite E2, E1.
  destruct (Nat.leb_spec 4 (length s)) as [HL|HL]; [|reflexivity].
  rewrite last_nonT by assumption. reflexivity.
Qed.

Lemma strip_unit_tft s : Forall numchar s -> s <> [] -> strip_unit (s ++ s2b " TFT") = s.
Proof.
  intros H Hne. unfold strip_unit. destruct (numchar_clean _ H) as (E1 & _ & E2).
  unfold upper. rewrite map_app. fold (upper s). rewrite E2.
  change (map upper_c (s2b " TFT")) with [32; 84; 70; 84].
  assert (HS : strip (s ++ [32; 84; 70; 84]) = s ++ [32; 84; 70; 84]).
  { unfold strip. rewrite lstrip_none.
    2:{ intros c t E. destruct s as [|x s]; [congruence|]. cbn in E. inversion E; subst.
        inversion H as [|? ? Hx _]; subst. destruct Hx as [Hx| ->]; [apply digit_not_space; exact Hx | reflexivity]. }
    unfold rstrip. rewrite rev_app_distr. cbn [rev app]. rewrite lstrip_head by reflexivity.
    cbn [rev]. rewrite rev_involutive, <- !app_assoc. reflexivity. }
  rewrite HS. rewrite app_length. cbn [length].
  replace (4 <=? length s + 4)%nat with true by lia.
  replace (length s + 4 - 3)%nat with (length (s ++ [32])) by (rewrite app_length; cbn; lia).
  change (s ++ [32; 84; 70; 84]) with (s ++ [32] ++ [84; 70; 84]). rewrite app_assoc.
  rewrite skipn_app_exact, firstn_app_exact by reflexivity.
  change (listN_eqb [84; 70; 84] (s2b "TFT")) with true. cbn [andb].
  unfold rstrip. rewrite rev_app_distr. cbn [rev app lstrip].
  change (is_pyspace 32) with true. cbn match.
  rewrite lstrip_none; [apply rev_involutive|].
  intros c t E. assert (In c s) by (apply in_rev; rewrite E; left; reflexivity).
  rewrite Forall_forall in H. destruct (H c H0) as [Hc| ->]; [apply digit_not_space; exact Hc | reflexivity].
Qed.

Lemma cstr_parse c wu : valid c ->
  exists c', cset (CIStr (cstr c wu)) = Ok c' /\ valid c' /\ units c' = units c.
Proof.
  intros Hv. destruct (cstr_shape c Hv) as (ip & fp & Es & Hne & Hip & Hfp & HL & v & Hv1 & Hu).
  assert (HN : Forall numchar (cstr c false) /\ cstr c false <> []).
  { rewrite Es. assert (Hip' : Forall numchar ip) by (eapply Forall_impl; [|exact Hip]; intros x Hx; left; exact Hx).
    destruct fp as [|x fp]; [split; assumption|]. split.
    - apply Forall_app; split; [exact Hip'|]. constructor; [right; reflexivity|].
      eapply Forall_impl; [|exact Hfp]; intros y Hy; left; exact Hy.
    - destruct ip; discriminate. }
  destruct HN as [HN Hne'].
  assert (HS : strip_unit (cstr c wu) = cstr c false).
  { destruct wu; [|apply strip_unit_plain; exact HN].
    change (cstr c true) with (cstr c false ++ s2b " TFT"). apply strip_unit_tft; assumption. }
  cbn [cset]. rewrite HS, Es.
  exists (Some (mkdec false v (- Z.of_nat (length fp)))).
  assert (HP : parse_dec (match fp with [] => ip | _ :: _ => ip ++ 46 :: fp end)
               = Ok (DFin (mkdec false v (- Z.of_nat (length fp))))).
  { destruct fp as [|x fp].
    - rewrite app_nil_r in Hv1. rewrite (parse_int_digits _ _ Hne Hv1). reflexivity.
    - apply parse_frac; assumption. }
  rewrite HP. cbn [bind].
  assert (V : valid_dec (mkdec false v (- Z.of_nat (length fp)))) by (split; cbn; lia).
  rewrite check_dec_valid by exact V. split; [reflexivity|]. split; [exact V|].
  unfold units at 1; cbn [cvalue]. rewrite scaled9_exact by lia. rewrite <- Hu. f_equal. f_equal.
  unfold lenN. lia.
Qed.

Lemma cjson_parse c : valid c -> units c < 10 ^ 28 ->
  exists s c', cjson c = Ok s /\ cfrom_json (JStr s) = Ok c' /\ valid c' /\ units c' = units c.
Proof.
  intros Hv HL. exists (dec_str (units c)). rewrite cjson_units by exact Hv.
  destruct (dec_str_spec (units c)) as (H1 & H2 & _).
  unfold cfrom_json. destruct (dec_str (units c)) as [|x t] eqn:E; [congruence|]. rewrite <- E in *.
  rewrite (parse_int_digits _ _ H2 H1). cbn [bind].
  unfold dmul; cbn [dneg dcoef dexp xorb]. rewrite N.mul_1_r.
  rewrite dfix_small by exact HL. cbn [cset].
  change (0 + -9)%Z with (-9)%Z.
  assert (V : valid_dec (mkdec false (units c) (-9))) by (split; cbn; lia).
  exists (Some (mkdec false (units c) (-9))). rewrite check_dec_valid by exact V.
  repeat split; [cbn; lia|]. unfold units at 1; cbn [cvalue]. rewrite scaled9_exact by lia.
  change (10 ^ Z.to_N (-9 + 9)) with 1. lia.
Qed.

(** ** binary *)
Lemma min_be_dec v : be_dec (min_be v) = v.
Proof. apply be_dec_be, nbytes_bound. Qed.
Lemma min_be_length v : length (min_be v) = nbytes v.
Proof. apply be_length. Qed.
Lemma min_be_inj a b : min_be a = min_be b -> a = b.
Proof. intros H. rewrite <- (min_be_dec a), <- (min_be_dec b), H. reflexivity. Qed.

Lemma min_be_minimal v b : wf_bytes b -> be_dec b = v -> (length (min_be v) <= length b)%nat.
Proof.
  intros Hw Hb. rewrite min_be_length. apply nbytes_min. rewrite <- Hb. unfold be_dec.
  rewrite <- rev_length. apply le_dec_bound. apply Forall_rev; exact Hw.
Qed.

Lemma csia_spec c : valid c -> csia c = sia_slice (min_be (units c)).
Proof.
  intros H. unfold csia. rewrite cint_units by exact H. cbn [bind]. rewrite N2Z.id.
  rewrite sia_slice_spec, min_be_length. reflexivity.
Qed.
Lemma criv_spec c : valid c -> criv c = riv_slice (min_be (units c)).
Proof. intros H. unfold criv. rewrite cint_units by exact H. cbn [bind]. rewrite N2Z.id. reflexivity. Qed.

Lemma csia_inj a b x y r s : valid a -> valid b -> csia a = Ok x -> csia b = Ok y ->
  x ++ r = y ++ s -> units a = units b /\ r = s.
Proof.
  intros Ha Hb Hx Hy H. rewrite csia_spec in Hx, Hy by assumption.
  destruct (sia_slice_uniq _ _ _ _ _ _ I I Hx Hy H) as [E ->]. apply min_be_inj in E. auto.
Qed.
Lemma criv_inj a b x y r s : valid a -> valid b -> criv a = Ok x -> criv b = Ok y ->
  x ++ r = y ++ s -> units a = units b /\ r = s.
Proof.
  intros Ha Hb Hx Hy H. rewrite criv_spec in Hx, Hy by assumption.
  destruct (riv_slice_uniq _ _ _ _ _ _ I I Hx Hy H) as [E ->]. apply min_be_inj in E. auto.
Qed.
