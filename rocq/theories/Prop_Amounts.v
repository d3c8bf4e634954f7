(** Property C82: amounts and whole numbers written as texts. *)
From Verif Require Import Base BaseFacts Primitive Encoders Types Spec_Currency Spec_Round CurrencyFacts CurrencyFacts2 RoundFacts Currency Spec_Amounts AmountFacts.
From Coq Require Import ZifyBool ZifyNat ZifyN.
Ltac Zify.zify_post_hook ::= Z.div_mod_to_equations.

Lemma check_dec_amount d n : (exists c, check_dec (DFin d) = Ok c /\ amount c n) <-> dneg d = false /\ (-9 <= dexp d)%Z /\ n = dcoef d * 10 ^ Z.to_N (dexp d + 9).
Proof.
  split.
  - intros (c & E & A). apply check_dec_ok in E as (f & X & -> & V). injection X as <-. pose proof V as (V1 & V2). split; [exact V1|]. split; [exact V2|].
    rewrite (amount_units (Some d) n V A). apply (valid_units (Some d) V).
  - intros (A & B & ->). assert (V : valid_dec d) by (split; assumption). exists (Some d). split; [now apply check_dec_valid|]. change (amount (Some d) (dcoef (cvalue (Some d)) * 10 ^ Z.to_N (dexp (cvalue (Some d)) + 9))). rewrite <- (valid_units (Some d) V). now apply valid_amount.
Qed.
(** A text is accepted as an amount exactly when it writes one, and then it is the amount it writes. *)
Theorem C82_text : forall s n, (exists c, cset (CIStr s) = Ok c /\ amount c n) <-> amount_text s n.
Proof.
  intros s n. cbn [cset]. transitivity (exists v e, with_unit s false v e /\ (-9 <= e)%Z /\ n = v * 10 ^ Z.to_N (e + 9)).
  - split.
    + intros (c & E & A). apply bind_ok in E as (d & P & E). destruct d as [[neg v e]|]; [|discriminate]. assert (X : exists c, check_dec (DFin (mkdec neg v e)) = Ok c /\ amount c n) by eauto.
      apply check_dec_amount in X. cbn [dneg dcoef dexp] in X. destruct X as (-> & B & ->). exists v, e. split; [|auto]. apply strip_unit_iff, parse_dec_iff, P.
    + intros (v & e & W & B & ->). apply strip_unit_iff, parse_dec_iff in W. rewrite W. cbn [bind]. apply check_dec_amount. auto.
  - unfold with_unit, amount_text. split.
    + intros (v & e & (l & b & t & d & gap & u & r & E & L & G & R & U & W & Sg & N) & B & C). exists l, b, t, d, gap, u, r, v, e. auto 12.
    + intros (l & b & t & d & gap & u & r & v & e & E & L & G & R & U & W & Sg & N & B & C). exists v, e. split; [|auto]. exists l, b, t, d, gap, u, r. auto 12.
Qed.
Print Assumptions C82_text.
(** So no text writes two amounts. *)
Theorem C82_one_amount : forall s m n, amount_text s m -> amount_text s n -> m = n.
Proof.
  intros s m n M N. apply C82_text in M as (c & E & M). apply C82_text in N as (c' & E' & N). rewrite E in E'. apply ok_inj in E'. subst c'.
  assert (V : valid c) by (apply (cset_valid _ c E); discriminate). now rewrite (amount_units c m V M), (amount_units c n V N).
Qed.
Print Assumptions C82_one_amount.
(** A number with a fraction used as an operand is taken for the number Python prints for it. *)
Theorem C82_float : forall s n, (exists c, as_currency (COFloat s) = Ok c /\ amount c n) <-> exists v e, decimal_text s false v e /\ (-9 <= e)%Z /\ n = v * 10 ^ Z.to_N (e + 9).
Proof.
  intros s n. cbn [as_currency]. split.
  - intros (c & E & A). apply bind_ok in E as (d & P & E). cbn [cset] in E. destruct d as [[neg v e]|]; [|discriminate]. assert (X : exists c, check_dec (DFin (mkdec neg v e)) = Ok c /\ amount c n) by eauto.
    apply check_dec_amount in X. cbn [dneg dcoef dexp] in X. destruct X as (-> & B & ->). exists v, e. split; [|auto]. apply parse_dec_iff, P.
  - intros (v & e & W & B & ->). apply parse_dec_iff in W. rewrite W. cbn [bind cset]. apply check_dec_amount. auto.
Qed.
Print Assumptions C82_float.
(** ** JSON *)
Lemma dfix_bounds d : dcoef (dfix d) < 10 ^ 28 /\ (dexp (dfix d) = dexp d \/ 10 ^ 27 <= dcoef (dfix d)).
Proof.
  unfold dfix. unfold prec. pose proof (ndigits_upper (dcoef d)) as Up. destruct (ndigits (dcoef d) <=? 28) eqn:L.
  - split; [|auto]. apply N.leb_le in L. apply N.lt_le_trans with (1 := Up). now apply N.pow_le_mono_r.
  - apply N.leb_gt in L. set (k := ndigits (dcoef d) - 28). assert (Lo : 10 ^ (ndigits (dcoef d) - 1) <= dcoef d).
    { apply ndigits_lower. intro Z0. rewrite Z0 in L. vm_compute in L. discriminate L. }
    assert (P : 0 < 10 ^ k) by (apply N.neq_0_lt_0, N.pow_nonzero; discriminate).
    assert (Q : 10 ^ 27 <= dcoef d / 10 ^ k < 10 ^ 28).
    { split; [apply N.div_le_lower_bound; [lia|]; rewrite <- N.pow_add_r; replace (k + 27) with (ndigits (dcoef d) - 1) by lia; exact Lo|apply N.div_lt_upper_bound; [lia|]; rewrite <- N.pow_add_r; replace (k + 28) with (ndigits (dcoef d)) by lia; exact Up]. }
    assert (R : rhe (dcoef d) k = dcoef d / 10 ^ k \/ rhe (dcoef d) k = dcoef d / 10 ^ k + 1) by (unfold rhe; destruct (_ || _); auto).
    cbv zeta. destruct (rhe (dcoef d) k =? 10 ^ 28) eqn:Z0.
    + cbn [dcoef dexp]. change (28 - 1) with 27. split; [reflexivity|right; reflexivity].
    + cbn [dcoef dexp]. apply N.eqb_neq in Z0. split; [|right]; destruct R as [R|R]; rewrite R in *; lia.
Qed.
(** A text of JSON is accepted exactly when it writes a number of smallest units that is whole and not negative, or that becomes whole by rounding it to the 28 digits
    Python calculates with; and the amount is that number, rounded. *)
Theorem C82_json : forall s n, (exists c, cfrom_json (JStr s) = Ok c /\ amount c n) <->
  exists v e, decimal_text s false v e /\
    (((0 <= e)%Z /\ rounded (v * 10 ^ Z.to_N e) n) \/ ((e < 0)%Z /\ rounded v (n * 10 ^ Z.to_N (- e)) /\ 10 ^ 27 <= n)).
Proof.
  intros s n.
  assert (J : forall c, cfrom_json (JStr s) = Ok c <-> exists neg v e, decimal_text s neg v e /\ check_dec (DFin (dmul (mkdec neg v e) (mkdec false 1 (-9)))) = Ok c).
  { intro c. split.
    - unfold cfrom_json. destruct s as [|x t] eqn:Es; [discriminate|]. rewrite <- Es. intro E. apply bind_ok in E as (d & P & E). destruct d as [[neg v e]|]; [|discriminate]. exists neg, v, e. split; [apply parse_dec_iff; exact P|exact E].
    - intros (neg & v & e & W & E). apply parse_dec_iff in W. unfold cfrom_json. destruct s as [|x t] eqn:Es; [discriminate W|]. rewrite W. exact E. }
  assert (M : forall neg v e, (exists c, check_dec (DFin (dmul (mkdec neg v e) (mkdec false 1 (-9)))) = Ok c /\ amount c n) <->
    neg = false /\ (((0 <= e)%Z /\ rounded (v * 10 ^ Z.to_N e) n) \/ ((e < 0)%Z /\ rounded v (n * 10 ^ Z.to_N (- e)) /\ 10 ^ 27 <= n))).
  { intros neg v e. rewrite check_dec_amount. unfold dmul. cbn [dneg dcoef dexp]. rewrite N.mul_1_r, xorb_false_r, dfix_neg. cbn [dneg]. set (d := mkdec neg v (e + -9)).
    pose proof (dfix_exp d) as X. unfold d at 1 in X. cbn [dexp] in X. destruct (dfix_bounds d) as (B1 & B2). unfold d at 2 in B2. cbn [dexp] in B2.
    pose proof (dfix_rounded d (e + -9)) as R. unfold d at 1 2 3 in R. cbn [dexp dcoef] in R. specialize (R ltac:(lia)). replace (Z.to_N (e + -9 - (e + -9))) with 0 in R by lia. rewrite N.pow_0_r, N.mul_1_r in R.
    destruct (Z.leb_spec 0 e) as [Pe|Ne].
    - assert (R9 : rounded (v * 10 ^ Z.to_N e) (dcoef (dfix d) * 10 ^ Z.to_N (dexp (dfix d) + 9))).
      { pose proof (dfix_rounded d (-9)) as Q. unfold d at 1 2 3 in Q. cbn [dexp dcoef] in Q. specialize (Q ltac:(lia)). replace (e + -9 - -9)%Z with e in Q by lia. replace (dexp (dfix d) - -9)%Z with (dexp (dfix d) + 9)%Z in Q by lia. exact Q. }
      split; [intros (-> & _ & ->); auto|]. intros (-> & [(_ & Q)|(Q & _)]); [|lia]. split; [reflexivity|]. split; [lia|]. exact (rounded_fun _ _ _ Q R9).
    - split.
      + intros (-> & L & ->). split; [reflexivity|]. right. split; [exact Ne|]. destruct B2 as [B2|B2]; [lia|]. split.
        * rewrite <- N.mul_assoc, <- N.pow_add_r. replace (Z.to_N (dexp (dfix d) + 9) + Z.to_N (- e)) with (Z.to_N (dexp (dfix d) - (e + -9))) by lia. exact R.
        * apply N.le_trans with (1 := B2). pose proof (pow10_pos (Z.to_N (dexp (dfix d) + 9))). nia.
      + intros (-> & [(Q & _)|(_ & Q & L)]); [lia|]. split; [reflexivity|]. pose proof (rounded_fun _ _ _ Q R) as Y.
        assert (K : (-9 <= dexp (dfix d))%Z).
        { destruct (Z.leb_spec (-9) (dexp (dfix d))) as [K|K]; [exact K|exfalso].
          assert (U : dcoef (dfix d) * 10 ^ Z.to_N (dexp (dfix d) - (e + -9)) < 10 ^ 28 * 10 ^ (Z.to_N (- e) - 1)).
          { apply N.lt_le_trans with (10 ^ 28 * 10 ^ Z.to_N (dexp (dfix d) - (e + -9))); [apply N.mul_lt_mono_pos_r; [pose proof (pow10_pos (Z.to_N (dexp (dfix d) - (e + -9)))); lia|exact B1]|]. apply N.mul_le_mono_l, N.pow_le_mono_r; lia. }
          rewrite <- Y in U. replace (10 ^ Z.to_N (- e)) with (10 * 10 ^ (Z.to_N (- e) - 1)) in U by (rewrite <- N.pow_succ_r'; f_equal; lia). pose proof (pow10_pos (Z.to_N (- e) - 1)) as P1. clear - U L P1. revert U L P1. generalize (10 ^ (Z.to_N (- e) - 1)). intros p U L P1.
          replace (10 ^ 28) with (10 * 10 ^ 27) in U by (vm_compute; reflexivity). revert U L. generalize (10 ^ 27). intros q U L.
          apply (N.lt_irrefl (10 * q * p)). apply N.le_lt_trans with (n * (10 * p)); [|exact U]. replace (10 * q * p) with (q * (10 * p)) by ring. apply N.mul_le_mono_r. exact L. }
        split; [exact K|]. apply N.mul_cancel_r with (p := 10 ^ Z.to_N (- e)); [apply N.pow_nonzero; discriminate|]. rewrite Y, <- N.mul_assoc, <- N.pow_add_r. f_equal. f_equal. lia. }
  split.
  - intros (c & E & A). apply J in E as (neg & v & e & W & E). destruct (proj1 (M neg v e)) as (-> & Q); [eauto|]. eauto.
  - intros (v & e & W & Q). destruct (proj2 (M false v e)) as (c & E & A); [auto|]. exists c. split; [|exact A]. apply J. eauto.
Qed.
Print Assumptions C82_json.
(** ** Whole numbers *)
(** Heights, times, counts and types written as texts, and block stakes. *)
Theorem C82_whole : forall s z, jint (JStr s) = Ok z <-> int_text s z.
Proof. intros s z. cbn [jint]. symmetry. apply py_int_iff. Qed.
Print Assumptions C82_whole.
Theorem C82_stakes : forall s n, bsset (BIStr s) = Ok n <-> int_text s (Z.of_N n).
Proof.
  intros s n. cbn [bsset]. rewrite py_int_iff. split.
  - intro E. apply bind_ok in E as (z & E & F). destruct (z <? 0)%Z eqn:L; [discriminate|]. apply ok_inj in F. subst n. rewrite E. f_equal. lia.
  - intro E. rewrite E. cbn [bind]. replace (Z.of_N n <? 0)%Z with false by lia. f_equal. lia.
Qed.
Print Assumptions C82_stakes.
Example C82_ex : amount_text (s2b " 1_0.25 tFT ") 10250000000 /\ amount_text (s2b "+.5e3") 500000000000 /\ amount_text (s2b "7TFT") 7000000000 /\
  (forall n, ~ amount_text (s2b "-0") n) /\ (forall n, ~ amount_text (s2b "1.0000000000") n) /\ (forall n, ~ amount_text (s2b "TFT") n) /\ (forall n, ~ amount_text (s2b "1 0") n) /\
  int_text (s2b " -1_000 ") (-1000) /\ (forall z, ~ int_text (s2b "1__0") z) /\ bsset (BIStr (s2b "12")) = Ok 12.
Proof.
  assert (Y : forall s n c, cset (CIStr s) = Ok c -> valid c -> units c = n -> amount_text s n) by (intros s n c E V <-; apply C82_text; exists c; split; [exact E|now apply valid_amount]).
  assert (X : forall s e, cset (CIStr s) = Err e -> forall n, ~ amount_text s n) by (intros s e E n A; apply C82_text in A as (c & E' & _); congruence).
  split; [eapply Y; [vm_compute; reflexivity|vm_compute; split; [reflexivity|discriminate]|vm_compute; reflexivity]|].
  split; [eapply Y; [vm_compute; reflexivity|vm_compute; split; [reflexivity|discriminate]|vm_compute; reflexivity]|].
  split; [eapply Y; [vm_compute; reflexivity|vm_compute; split; [reflexivity|discriminate]|vm_compute; reflexivity]|].
  split; [apply (X _ NameError); vm_compute; reflexivity|]. split; [apply (X _ NameError); vm_compute; reflexivity|]. split; [apply (X _ DecimalInvalidOperation); vm_compute; reflexivity|]. split; [apply (X _ DecimalInvalidOperation); vm_compute; reflexivity|].
  split; [apply py_int_iff; vm_compute; reflexivity|]. split; [intros z I; apply py_int_iff in I; vm_compute in I; discriminate I|vm_compute; reflexivity].
Qed.
