(** Properties C07-C11: currency amounts. *)
From Verif Require Import Base Encoders Currency Spec_Currency CurrencyFacts2.

(** C07: exact arithmetic below 10^28 smallest units (10^19 TFT). *)
Theorem C07_add_exact_partial : forall a b m n, is_currency a -> is_currency b -> amount a m -> amount b n ->
  m + n < 10 ^ 28 -> exists c, cadd a (COCur b) = Ok c /\ is_currency c /\ amount c (m + n).
Proof. exact add_amount. Qed.
Print Assumptions C07_add_exact_partial.
Theorem C07_sub_exact_partial : forall a b m n, is_currency a -> is_currency b -> amount a m -> amount b n ->
  m < 10 ^ 28 -> n <= m -> exists c, csub a (COCur b) = Ok c /\ is_currency c /\ amount c (m - n).
Proof. exact sub_amount. Qed.
Print Assumptions C07_sub_exact_partial.
Theorem C07_sub_negative_refused : forall a b m n, is_currency a -> is_currency b -> amount a m -> amount b n ->
  m < n -> exists e, csub a (COCur b) = Err e.
Proof. exact sub_amount_neg. Qed.
Print Assumptions C07_sub_negative_refused.
Theorem C07_mul_exact_partial : forall a b m n c, is_currency a -> is_currency b -> amount a m -> amount b n ->
  m * n < 10 ^ 28 -> cmul a (COCur b) = Ok c -> exists k, amount c k /\ k * 10 ^ 9 = m * n.
Proof. exact mul_amount. Qed.
Print Assumptions C07_mul_exact_partial.
Theorem C07_mul_int_exact_partial : forall a m z, is_currency a -> amount a m -> (0 <= z)%Z ->
  m * Z.to_N z < 10 ^ 28 -> exists c, cmul a (COInt z) = Ok c /\ amount c (m * Z.to_N z).
Proof. exact mul_int_amount. Qed.
Print Assumptions C07_mul_int_exact_partial.
Theorem C07_compare_exact : forall a b m n, is_currency a -> is_currency b -> amount a m -> amount b n ->
  ccmp a (COCur b) = Ok (m ?= n).
Proof. exact cmp_amount. Qed.
Print Assumptions C07_compare_exact.
(** Without the bound it is false: one unit added to 10^19 TFT vanishes silently. *)
Theorem C07_add_exact_refuted : exists a b m n c, is_currency a /\ is_currency b /\ amount a m /\ amount b n /\
  cadd a (COCur b) = Ok c /\ ~ amount c (m + n) /\ amount c m.
Proof. exact add_refuted. Qed.
Print Assumptions C07_add_exact_refuted.
(** Whether a product is accepted depends on how the factor was written, not on its amount. *)
Theorem C07_mul_total_refuted : exists a a' b m n, is_currency a /\ is_currency a' /\ is_currency b /\
  amount a m /\ amount a' m /\ amount b n /\ is_ok (cmul a (COCur b)) = true /\ is_ok (cmul a' (COCur b)) = false.
Proof. exact mul_refuted. Qed.
Print Assumptions C07_mul_total_refuted.
Example C07_ex : exists a b, is_currency a /\ is_currency b /\ amount a 1500000000 /\ amount b 250000000 /\
  1500000000 + 250000000 < 10 ^ 28 /\ 1500000000 * 250000000 < 10 ^ 28.
Proof.
  exists (Some (mkdec false 15 (-1))), (Some (mkdec false 25 (-2))).
  split; [exists [ONew (SStr (s2b "1.5 TFT"))]; vm_compute; auto|].
  split; [exists [ONew (SStr (s2b "0.25"))]; vm_compute; auto|].
  repeat split; vm_compute; auto.
Qed.

(** C08: display string (with or without unit) and JSON string. *)
Theorem C08_str_round_trip : forall c m with_unit, is_currency c -> amount c m ->
  exists c', cset (CIStr (cstr c with_unit)) = Ok c' /\ amount c' m.
Proof. exact str_round_trip. Qed.
Print Assumptions C08_str_round_trip.
Theorem C08_json_round_trip_partial : forall c m, is_currency c -> amount c m -> m < 10 ^ 28 ->
  exists s c', cjson c = Ok s /\ cfrom_json (JStr s) = Ok c' /\ amount c' m.
Proof. exact json_round_trip. Qed.
Print Assumptions C08_json_round_trip_partial.
Theorem C08_json_is_units : forall c m, is_currency c -> amount c m -> cjson c = Ok (dec_str m).
Proof. exact json_is_units. Qed.
Print Assumptions C08_json_is_units.
Theorem C08_json_round_trip_refuted : exists c m s c', is_currency c /\ amount c m /\ cjson c = Ok s /\
  cfrom_json (JStr s) = Ok c' /\ ~ amount c' m.
Proof. exact json_refuted. Qed.
Print Assumptions C08_json_round_trip_refuted.
Example C08_ex : exists c, is_currency c /\ amount c 100500000000 /\ cstr c true = s2b "100.5 TFT" /\
  cjson c = Ok (s2b "100500000000").
Proof.
  exists (Some (mkdec false 10050 (-2))). split; [exists [ONew (SStr (s2b "100.50"))]; vm_compute; auto|].
  repeat split; vm_compute; auto.
Qed.

(** C09: every Currency object always holds a whole, non-negative number of units ... *)
Theorem C09_amount_invariant : forall ops c, In c (crun ops) -> exists k, amount c k.
Proof. exact currency_invariant. Qed.
Print Assumptions C09_amount_invariant.
(** ... a failing operation changes nothing ... *)
Theorem C09_failure_keeps_amounts : forall st op st' e, cstep st op = (st', Some e) -> st' = st.
Proof. exact cstep_failure. Qed.
Print Assumptions C09_failure_keeps_amounts.
(** ... and a decimal is accepted exactly if it is not negative and written with at most nine decimals. *)
Theorem C09_accepts_exactly : forall d, (exists c, cset (CIDec (DFin d)) = Ok c) <-> dneg d = false /\ (-9 <= dexp d)%Z.
Proof. exact set_decimal. Qed.
Print Assumptions C09_accepts_exactly.
(** The documented errors are never raised: a NameError is, because the module does not bind "errors". *)
Theorem C09_error_kind_refuted :
  (exists z, (z < 0)%Z /\ cset (CIInt z) = Err NameError) /\ cset (CIStr (s2b "0.0000000001")) = Err NameError.
Proof. exact set_error_kind_refuted. Qed.
Print Assumptions C09_error_kind_refuted.
Theorem C09_documented_errors_never_raised : forall v,
  cset v <> Err CurrencyNegativeValue /\ cset v <> Err CurrencyPrecisionOverflow.
Proof. exact set_never_documented. Qed.
Print Assumptions C09_documented_errors_never_raised.
(** Whole numbers are whole TFT (the constructor's argument is not in smallest units). *)
Theorem C09_int_is_tft : forall z c, (0 <= z)%Z -> cset (CIInt z) = Ok c -> amount c (Z.to_N z * 10 ^ 9).
Proof. exact int_is_tft. Qed.
Print Assumptions C09_int_is_tft.
Example C09_ex : crun [ONew (SInt 5); ONew (SStr (s2b "0.5")); OInp BSub 0 (SRef 1); OSet 1 (SInt (-3))] =
  [Some (mkdec false 45 (-1)); Some (mkdec false 5 (-1))].
Proof. vm_compute. reflexivity. Qed.

(** C10 is false: n - c is computed as c - n. *)
Theorem C10_rsub_refuted : exists c3 c5, cset (CIInt 3) = Ok c3 /\ cset (CIInt 5) = Ok c5 /\
  (exists e, crsub (COInt 5) c3 = Err e) /\
  (exists c, crsub (COInt 3) c5 = Ok c /\ amount c (2 * 10 ^ 9)).
Proof. exact rsub_refuted. Qed.
Print Assumptions C10_rsub_refuted.
Theorem C10_rsub_is_swapped : forall o a, crsub o a = csub a o.
Proof. exact rsub_computes. Qed.
Print Assumptions C10_rsub_is_swapped.

(** C11: canonical, minimal, injective binary encodings. *)
Theorem C11_sia_encoding_exact : forall c m w, is_currency c -> amount c m -> csia c = Ok w ->
  exists p b, w = p ++ b /\ length p = 8%nat /\ le_dec p = lenN b /\ be_dec b = m /\
    (forall b', wf_bytes b' -> be_dec b' = m -> (length b <= length b')%nat).
Proof. exact sia_encoding_exact. Qed.
Print Assumptions C11_sia_encoding_exact.
Theorem C11_riv_encoding_exact : forall c m w, is_currency c -> amount c m -> criv c = Ok w ->
  exists p b, w = p ++ b /\ riv_len (lenN b) = (p, None) /\ be_dec b = m /\
    (forall b', wf_bytes b' -> be_dec b' = m -> (length b <= length b')%nat).
Proof. exact riv_encoding_exact. Qed.
Print Assumptions C11_riv_encoding_exact.
Theorem C11_encoding_injective : forall a b m n, is_currency a -> is_currency b -> amount a m -> amount b n ->
  (forall x y r s, csia a = Ok x -> csia b = Ok y -> x ++ r = y ++ s -> m = n /\ r = s) /\
  (forall x y r s, criv a = Ok x -> criv b = Ok y -> x ++ r = y ++ s -> m = n /\ r = s).
Proof. exact encoding_injective. Qed.
Print Assumptions C11_encoding_injective.
Theorem C11_encoding_canonical : forall a b m, is_currency a -> is_currency b -> amount a m -> amount b m ->
  csia a = csia b /\ criv a = criv b.
Proof. exact encoding_canonical. Qed.
Print Assumptions C11_encoding_canonical.
Theorem C11_encoding_total : forall c m, is_currency c -> amount c m -> m < 10 ^ 28 ->
  is_ok (csia c) = true /\ is_ok (criv c) = true.
Proof. exact encoding_total. Qed.
Print Assumptions C11_encoding_total.
Example C11_ex : exists c, is_currency c /\ amount c (10 ^ 9) /\ criv c = Ok [8; 59; 154; 202; 0].
Proof.
  exists (Some (mkdec false 1 0)). split; [exists [ONew (SInt 1)]; vm_compute; auto|].
  repeat split; vm_compute; auto.
Qed.
