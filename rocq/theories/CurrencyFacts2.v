From Verif Require Import Base BaseFacts Encoders EncodersFacts Currency CurrencyFacts Spec_Currency.
From Coq Require Import ZifyBool ZifyNat ZifyN.
Ltac Zify.zify_post_hook ::= Z.div_mod_to_equations.

Lemma valid_amount c : valid c -> amount c (units c).
Proof.
  intros Hv. rewrite (valid_units _ Hv). destruct Hv as [H1 H2]. split; [exact H1|].
  rewrite <- !N.mul_assoc, <- !N.pow_add_r. f_equal. f_equal. lia.
Qed.
Lemma amount_units c k : valid c -> amount c k -> k = units c.
Proof.
  intros Hv [_ H]. destruct (valid_amount c Hv) as [_ H']. rewrite H in H'.
  apply N.mul_cancel_r in H'; [exact H'|]. apply N.pow_nonzero; discriminate.
Qed.

Lemma upd_In {A} i (x y : A) l : In y (upd i x l) -> y = x \/ In y l.
Proof.
  revert i; induction l as [|z l IH]; intros [|i]; cbn; intros H; try contradiction.
  - destruct H as [<-|H]; auto.
  - destruct H as [<-|H]; auto. destruct (IH _ H); auto.
Qed.

Lemma binop_valid k a o c : valid_operand o -> valid a -> binop k a o = Ok c -> valid c.
Proof.
  intros Ho Ha H. destruct k; cbn [binop] in H; unfold crsub, cadd, csub, cmul in H;
    apply bind_ok in H as (b & _ & H); eapply cset_valid; try exact H; congruence.
Qed.

Lemma cstep_valid st op : Forall valid st -> Forall valid (fst (cstep st op)).
Proof.
  intros HF. rewrite Forall_forall in HF.
  assert (Hin : forall v c, cset (as_input st v) = Ok c -> valid c).
  { intros v c H. eapply cset_valid; [exact H|]. intros d E. destruct v; cbn in E; try discriminate.
    destruct (nth_error st i) eqn:En; inversion E; subst. apply HF. eapply nth_error_In; exact En. }
  assert (Hop : forall o, valid_operand (as_operand st o)).
  { intros o. destruct o; cbn; auto. destruct (nth_error st i) eqn:En; cbn; auto.
    apply HF. eapply nth_error_In; exact En. }
  apply Forall_forall. intros x Hx. destruct op as [v|i v|k i o|k i o]; cbn [cstep] in Hx.
  - destruct (cset (as_input st v)) eqn:E; cbn in Hx; [|auto].
    apply in_app_or in Hx as [Hx|[<-|[]]]; [auto | eauto].
  - destruct (nth_error st i) eqn:En; cbn in Hx; [|auto].
    destruct (cset (as_input st v)) eqn:E; cbn in Hx; [|auto].
    apply upd_In in Hx as [-> |Hx]; [eauto | auto].
  - destruct (nth_error st i) eqn:En; cbn in Hx; [|auto].
    destruct (binop k c (as_operand st o)) eqn:E; cbn in Hx; [|auto].
    apply in_app_or in Hx as [Hx|[<-|[]]]; [auto|].
    eapply binop_valid; [apply Hop | apply HF; eapply nth_error_In; exact En | exact E].
  - destruct (nth_error st i) eqn:En; cbn in Hx; [|auto].
    destruct (binop k c (as_operand st o)) eqn:E; cbn in Hx; [|auto].
    apply upd_In in Hx as [-> |Hx]; [|auto].
    eapply binop_valid; [apply Hop | apply HF; eapply nth_error_In; exact En | exact E].
Qed.

Lemma crun_valid ops : Forall valid (crun ops).
Proof.
  unfold crun. assert (G : forall st, Forall valid st -> Forall valid (fold_left (fun st op => fst (cstep st op)) ops st)).
  { induction ops as [|op ops IH]; intros st H; cbn; [exact H|]. apply IH, cstep_valid, H. }
  apply G; constructor.
Qed.

Lemma is_currency_valid c : is_currency c <-> valid c.
Proof.
  split.
  - intros (ops & H). pose proof (crun_valid ops) as HF. rewrite Forall_forall in HF. auto.
  - intros Hv. destruct c as [d|].
    + exists [ONew (SDec (DFin d))]. unfold crun; cbn [fold_left cstep as_input cset].
      rewrite (check_dec_valid d Hv). cbn. auto.
    + exists [ONew SNone]. cbn. auto.
Qed.

Lemma currency_invariant ops c : In c (crun ops) -> exists k, amount c k.
Proof.
  intros H. assert (Hv : valid c) by (apply is_currency_valid; exists ops; exact H).
  exists (units c). apply valid_amount; exact Hv.
Qed.
Lemma cstep_failure st op st' e : cstep st op = (st', Some e) -> st' = st.
Proof.
  destruct op as [v|i v|k i o|k i o]; cbn [cstep]; intros H.
  - destruct (cset (as_input st v)); inversion H; reflexivity.
  - destruct (nth_error st i); [destruct (cset (as_input st v))|]; inversion H; reflexivity.
  - destruct (nth_error st i); [destruct (binop k c (as_operand st o))|]; inversion H; reflexivity.
  - destruct (nth_error st i); [destruct (binop k c (as_operand st o))|]; inversion H; reflexivity.
Qed.

(** Acceptance of a Decimal: exactly the non-negative ones with at most nine decimals. *)
Lemma set_decimal d : (exists c, cset (CIDec (DFin d)) = Ok c) <-> dneg d = false /\ (-9 <= dexp d)%Z.
Proof.
  split.
  - intros (c & H). cbn [cset] in H. apply check_dec_ok in H as (f & E & _ & Hf). inversion E; subst. exact Hf.
  - intros H. exists (Some d). apply check_dec_valid; exact H.
Qed.
Lemma set_error_kind_refuted :
  (exists z, (z < 0)%Z /\ cset (CIInt z) = Err NameError) /\
  cset (CIStr (s2b "0.0000000001")) = Err NameError.
Proof. split; [exists (-1)%Z; split; [lia | reflexivity] | vm_compute; reflexivity]. Qed.
Lemma set_never_documented v : cset v <> Err CurrencyNegativeValue /\ cset v <> Err CurrencyPrecisionOverflow.
Proof.
  assert (P : forall s e, parse_dec s = Err e -> e = DecimalInvalidOperation).
  { intros s e. unfold parse_dec. destruct (split_sign _) as [neg t]. destruct (special_name t); [discriminate|].
    destruct (parse_number neg t); [discriminate|]. congruence. }
  assert (K : forall d e, check_dec d = Err e -> e = TypeError \/ e = NameError) by apply check_dec_err.
  split; intros H; destruct v; cbn [cset] in H; try discriminate.
  all: try (apply K in H as [H|H]; discriminate).
  all: apply bind_err in H as [H|(d & _ & H)]; [apply P in H; discriminate | apply K in H as [H|H]; discriminate].
Qed.

Lemma add_amount a b m n : is_currency a -> is_currency b -> amount a m -> amount b n -> m + n < 10 ^ 28 ->
  exists c, cadd a (COCur b) = Ok c /\ is_currency c /\ amount c (m + n).
Proof.
  intros Ha Hb Hm Hn HL. apply is_currency_valid in Ha, Hb.
  rewrite (amount_units _ _ Ha Hm), (amount_units _ _ Hb Hn) in *.
  destruct (cadd_exact a b Ha Hb HL) as (c & E & V & U). exists c.
  rewrite <- U. split; [exact E|]. split; [apply is_currency_valid; exact V | apply valid_amount; exact V].
Qed.
Lemma sub_amount a b m n : is_currency a -> is_currency b -> amount a m -> amount b n -> m < 10 ^ 28 -> n <= m ->
  exists c, csub a (COCur b) = Ok c /\ is_currency c /\ amount c (m - n).
Proof.
  intros Ha Hb Hm Hn HL Hle. apply is_currency_valid in Ha, Hb.
  rewrite (amount_units _ _ Ha Hm), (amount_units _ _ Hb Hn) in *.
  destruct (csub_exact a b Ha Hb HL Hle) as (c & E & V & U). exists c.
  rewrite <- U. split; [exact E|]. split; [apply is_currency_valid; exact V | apply valid_amount; exact V].
Qed.
Lemma sub_amount_neg a b m n : is_currency a -> is_currency b -> amount a m -> amount b n -> m < n ->
  exists e, csub a (COCur b) = Err e.
Proof.
  intros Ha Hb Hm Hn HL. apply is_currency_valid in Ha, Hb.
  rewrite (amount_units _ _ Ha Hm), (amount_units _ _ Hb Hn) in *.
  exists NameError. apply csub_negative; assumption.
Qed.
Lemma mul_amount a b m n c : is_currency a -> is_currency b -> amount a m -> amount b n -> m * n < 10 ^ 28 ->
  cmul a (COCur b) = Ok c -> exists k, amount c k /\ k * 10 ^ 9 = m * n.
Proof.
  intros Ha Hb Hm Hn HL H. apply is_currency_valid in Ha, Hb.
  rewrite (amount_units _ _ Ha Hm), (amount_units _ _ Hb Hn) in *.
  destruct (cmul_exact a b c Ha Hb HL H) as [V U]. exists (units c). split; [apply valid_amount; exact V | exact U].
Qed.
Lemma mul_int_amount a m z : is_currency a -> amount a m -> (0 <= z)%Z -> m * Z.to_N z < 10 ^ 28 ->
  exists c, cmul a (COInt z) = Ok c /\ amount c (m * Z.to_N z).
Proof.
  intros Ha Hm Hz HL. apply is_currency_valid in Ha. rewrite (amount_units _ _ Ha Hm) in *.
  destruct (cmul_int a z Ha Hz HL) as (c & E & V & U). exists c. split; [exact E|].
  rewrite <- U. apply valid_amount; exact V.
Qed.
Lemma cmp_amount a b m n : is_currency a -> is_currency b -> amount a m -> amount b n ->
  ccmp a (COCur b) = Ok (m ?= n).
Proof.
  intros Ha Hb Hm Hn. apply is_currency_valid in Ha, Hb.
  rewrite (amount_units _ _ Ha Hm), (amount_units _ _ Hb Hn). apply ccmp_units; assumption.
Qed.

(** 10^19 TFT plus one unit: the unit is lost. *)
Definition big : currency := Some (mkdec false (10 ^ 19) 0).
Definition one_unit : currency := Some (mkdec false 1 (-9)).
Lemma add_refuted : exists a b m n c, is_currency a /\ is_currency b /\ amount a m /\ amount b n /\
  cadd a (COCur b) = Ok c /\ ~ amount c (m + n) /\ amount c m.
Proof.
  exists big, one_unit, (10 ^ 28), 1, (Some (mkdec false (10 ^ 27) (-8))).
  split; [apply is_currency_valid; split; cbn; lia|].
  split; [apply is_currency_valid; split; cbn; lia|].
  split; [vm_compute; auto|]. split; [vm_compute; auto|]. split; [vm_compute; reflexivity|].
  split; [|vm_compute; auto]. intros [_ H]. vm_compute in H. discriminate.
Qed.
(** Equal amounts multiply differently: 0.1 * 0.1 is fine, 0.100000000 * 0.1 fails. *)
Lemma mul_refuted : exists a a' b m n, is_currency a /\ is_currency a' /\ is_currency b /\
  amount a m /\ amount a' m /\ amount b n /\ is_ok (cmul a (COCur b)) = true /\ is_ok (cmul a' (COCur b)) = false.
Proof.
  exists (Some (mkdec false 1 (-1))), (Some (mkdec false 100000000 (-9))), (Some (mkdec false 1 (-1))), (10 ^ 8), (10 ^ 8).
  repeat (split; [first [apply is_currency_valid; split; cbn; lia | vm_compute; auto]|]).
  vm_compute; reflexivity.
Qed.

Lemma str_round_trip c m wu : is_currency c -> amount c m ->
  exists c', cset (CIStr (cstr c wu)) = Ok c' /\ amount c' m.
Proof.
  intros Hc Hm. apply is_currency_valid in Hc. rewrite (amount_units _ _ Hc Hm) in *.
  destruct (cstr_parse c wu Hc) as (c' & E & V & U). exists c'. split; [exact E|].
  rewrite <- U. apply valid_amount; exact V.
Qed.
Lemma json_round_trip c m : is_currency c -> amount c m -> m < 10 ^ 28 ->
  exists s c', cjson c = Ok s /\ cfrom_json (JStr s) = Ok c' /\ amount c' m.
Proof.
  intros Hc Hm HL. apply is_currency_valid in Hc. rewrite (amount_units _ _ Hc Hm) in *.
  destruct (cjson_parse c Hc HL) as (s & c' & E1 & E2 & V & U). exists s, c'. split; [exact E1|].
  split; [exact E2|]. rewrite <- U. apply valid_amount; exact V.
Qed.
(** The JSON form is the decimal number of smallest units. *)
Lemma json_is_units c m : is_currency c -> amount c m -> cjson c = Ok (dec_str m).
Proof.
  intros Hc Hm. apply is_currency_valid in Hc. rewrite (amount_units _ _ Hc Hm). apply cjson_units; exact Hc.
Qed.
Lemma json_refuted : exists c m s c', is_currency c /\ amount c m /\ cjson c = Ok s /\
  cfrom_json (JStr s) = Ok c' /\ ~ amount c' m.
Proof.
  exists (Some (mkdec false (10 ^ 28 + 1) (-9))), (10 ^ 28 + 1), (s2b "10000000000000000000000000001"),
    (Some (mkdec false (10 ^ 27) (-8))).
  split; [apply is_currency_valid; split; cbn; lia|]. split; [vm_compute; auto|].
  split; [vm_compute; reflexivity|]. split; [vm_compute; reflexivity|].
  intros [_ H]. vm_compute in H. discriminate.
Qed.

Lemma rsub_computes o a : crsub o a = csub a o.
Proof. reflexivity. Qed.
(** 5 - Currency(3) fails and 3 - Currency(5) is 2 TFT. *)
Lemma rsub_refuted : exists c3 c5, cset (CIInt 3) = Ok c3 /\ cset (CIInt 5) = Ok c5 /\
  (exists e, crsub (COInt 5) c3 = Err e) /\
  (exists c, crsub (COInt 3) c5 = Ok c /\ amount c (2 * 10 ^ 9)).
Proof.
  do 2 eexists. split; [reflexivity|]. split; [reflexivity|]. split.
  - exists NameError. vm_compute. reflexivity.
  - eexists. split; [vm_compute; reflexivity|]. vm_compute; auto.
Qed.

Lemma sia_encoding_exact c m w : is_currency c -> amount c m -> csia c = Ok w ->
  exists p b, w = p ++ b /\ length p = 8%nat /\ le_dec p = lenN b /\ be_dec b = m /\
    (forall b', wf_bytes b' -> be_dec b' = m -> (length b <= length b')%nat).
Proof.
  intros Hc Hm H. apply is_currency_valid in Hc. rewrite (amount_units _ _ Hc Hm) in *.
  rewrite csia_spec, sia_slice_spec in H by exact Hc. apply rapp_ok in H as (p & b & Hp & E & ->).
  injection E as <-. apply sia_int_ok in Hp as [Hp ->]. exists (le 8 (Z.to_N (Z.of_nat (length (min_be (units c)))))), (min_be (units c)).
  split; [reflexivity|]. split; [apply le_length|]. split.
  - rewrite le_dec_le; [unfold lenN; lia|]. change (256 ^ N.of_nat 8) with (2 ^ 64). lia.
  - split; [apply min_be_dec | intros b' Hw Hb; apply min_be_minimal; assumption].
Qed.
Lemma r_of_w_ok w p : r_of_w w = Ok p -> w = (p, None).
Proof. unfold r_of_w; destruct w as [x [e|]]; cbn; [discriminate | congruence]. Qed.
Lemma riv_encoding_exact c m w : is_currency c -> amount c m -> criv c = Ok w ->
  exists p b, w = p ++ b /\ riv_len (lenN b) = (p, None) /\ be_dec b = m /\
    (forall b', wf_bytes b' -> be_dec b' = m -> (length b <= length b')%nat).
Proof.
  intros Hc Hm H. apply is_currency_valid in Hc. rewrite (amount_units _ _ Hc Hm) in *.
  rewrite criv_spec, riv_slice_spec in H by exact Hc. apply rapp_ok in H as (p & b & Hp & E & ->).
  injection E as <-. exists p, (min_be (units c)). split; [reflexivity|]. split.
  - apply r_of_w_ok; exact Hp.
  - split; [apply min_be_dec | intros b' Hw Hb; apply min_be_minimal; assumption].
Qed.
Lemma encoding_injective a b m n : is_currency a -> is_currency b -> amount a m -> amount b n ->
  (forall x y r s, csia a = Ok x -> csia b = Ok y -> x ++ r = y ++ s -> m = n /\ r = s) /\
  (forall x y r s, criv a = Ok x -> criv b = Ok y -> x ++ r = y ++ s -> m = n /\ r = s).
Proof.
  intros Ha Hb Hm Hn. apply is_currency_valid in Ha, Hb.
  rewrite (amount_units _ _ Ha Hm), (amount_units _ _ Hb Hn).
  split; intros x y r s Hx Hy H; [eapply csia_inj | eapply criv_inj]; eauto.
Qed.
Lemma encoding_canonical a b m : is_currency a -> is_currency b -> amount a m -> amount b m ->
  csia a = csia b /\ criv a = criv b.
Proof.
  intros Ha Hb Hm Hn. apply is_currency_valid in Ha, Hb.
  pose proof (amount_units _ _ Ha Hm) as Ea. pose proof (amount_units _ _ Hb Hn) as Eb.
  rewrite !csia_spec, !criv_spec, <- Ea, <- Eb by assumption. auto.
Qed.
(** The encodings exist for every amount below 2^(8 * 2^29) units (rivine); in particular below 10^28. *)
Lemma encoding_total c m : is_currency c -> amount c m -> m < 10 ^ 28 ->
  is_ok (csia c) = true /\ is_ok (criv c) = true.
Proof.
  intros Hc Hm HL. apply is_currency_valid in Hc. rewrite (amount_units _ _ Hc Hm) in HL.
  rewrite csia_spec, criv_spec by exact Hc.
  assert (B : (nbytes (units c) <= 12)%nat).
  { apply nbytes_min. change (256 ^ N.of_nat 12) with (2 ^ 96).
    assert (10 ^ 28 <= 2 ^ 96) by (vm_compute; discriminate). lia. }
  rewrite sia_slice_spec, riv_slice_spec, sia_int_spec, riv_lenr_spec. unfold lenN. rewrite min_be_length.
  replace ((0 <=? Z.of_nat (nbytes (units c))) && (Z.of_nat (nbytes (units c)) <? 2 ^ 64))%Z with true.
  2:{ symmetry. rewrite andb_true_iff. split; [lia|]. apply Z.ltb_lt. change (2 ^ 64)%Z with 18446744073709551616%Z. lia. }
  replace (N.of_nat (nbytes (units c)) <? 2 ^ 29) with true; [split; reflexivity|].
  symmetry. apply N.ltb_lt. change (2 ^ 29) with 536870912. lia.
Qed.
(** Docstring claim: integers given to Currency(...) count whole TFT, not smallest units. *)
Lemma int_is_tft z c : (0 <= z)%Z -> cset (CIInt z) = Ok c -> amount c (Z.to_N z * 10 ^ 9).
Proof.
  intros Hz H. destruct (cset_int z Hz) as (c' & E & V & U). rewrite H in E. injection E as <-.
  rewrite <- U. apply valid_amount; exact V.
Qed.

(** Blockstakes *)
Lemma bs_round_trip n : bsfrom_json (JStr (bsjson n)) = Ok n.
Proof.
  unfold bsjson, bsfrom_json, bsset. destruct (dec_str_spec n) as (_ & H & _).
  destruct (dec_str n) as [|c t] eqn:E; [congruence|]. rewrite <- E, py_int_dec_str. cbn [bind].
  replace (Z.of_N n <? 0)%Z with false by lia. rewrite N2Z.id. reflexivity.
Qed.
Lemma bssia_uniq : uniq (fun _ : N => True) bssia.
Proof.
  intros a b x y r s _ _ Hx Hy H. unfold bssia in *.
  assert (E : forall v, sia_int (Z.of_nat (nbytes v)) +++ Ok (min_be v) = sia_slice (min_be v)).
  { intros v. rewrite sia_slice_spec, min_be_length. reflexivity. }
  rewrite E in Hx, Hy. destruct (sia_slice_uniq _ _ _ _ _ _ I I Hx Hy H) as [E' ->].
  apply min_be_inj in E'. auto.
Qed.
Lemma bsriv_uniq : uniq (fun _ : N => True) bsriv.
Proof.
  intros a b x y r s _ _ Hx Hy H. unfold bsriv in *.
  destruct (riv_slice_uniq _ _ _ _ _ _ I I Hx Hy H) as [E' ->]. apply min_be_inj in E'. auto.
Qed.
