(** Rounding of decimal results. *)
From Verif Require Import Base BaseFacts Encoders EncodersFacts Currency Spec_Currency Spec_Round CurrencyFacts CurrencyFacts2.
From Coq Require Import ZifyBool ZifyNat ZifyN.
Ltac Zify.zify_post_hook ::= Z.div_mod_to_equations.

Lemma pow_range k l x : 10 ^ k <= x < 10 ^ (1 + k) -> 10 ^ l <= x < 10 ^ (1 + l) -> k = l.
Proof.
  intros (A & B) (C & D). destruct (N.lt_trichotomy k l) as [L|[L|L]]; [|exact L|].
  - assert (10 ^ (1 + k) <= 10 ^ l) by (apply N.pow_le_mono_r; lia). lia.
  - assert (10 ^ (1 + l) <= 10 ^ k) by (apply N.pow_le_mono_r; lia). lia.
Qed.
Lemma rhe_near n k : let q := rhe n k in let P := 10 ^ k in 2 * distance n (q * P) < P \/ (2 * distance n (q * P) = P /\ N.even q = true).
Proof.
  cbv zeta. unfold rhe, distance. pose proof (pow10_pos k) as P. set (p := 10 ^ k) in *. pose proof (N.div_mod n p ltac:(lia)) as D. pose proof (N.mod_lt n p ltac:(lia)) as M.
  set (q := n / p) in *. set (r := n mod p) in *. clearbody q r p.
  destruct ((p <? 2 * r) || ((2 * r =? p) && N.odd q)) eqn:E.
  - apply orb_true_iff in E as [E|E].
    + left. apply N.ltb_lt in E. assert ((q + 1) * p = n + (p - r)) by nia. lia.
    + apply andb_true_iff in E as (E & O). apply N.eqb_eq in E. right. assert ((q + 1) * p = n + (p - r)) by nia. split; [lia|]. rewrite N.even_add. rewrite <- N.negb_odd, O. reflexivity.
  - apply orb_false_iff in E as (E1 & E2). apply N.ltb_ge in E1. assert (q * p = n - r) by nia. destruct (N.eq_dec (2 * r) p) as [Q|Q].
    + right. split; [lia|]. rewrite Q, N.eqb_refl in E2. cbn [andb] in E2. rewrite <- N.negb_odd, E2. reflexivity.
    + left. lia.
Qed.
Lemma distance_scale n m p : distance (n * p) (m * p) = distance n m * p.
Proof. unfold distance. destruct (N.le_gt_cases n m); nia. Qed.
Lemma distance_self x : distance x x = 0.
Proof. unfold distance. lia. Qed.

Lemma digits_rounded x : digits28 x -> rounded x x.
Proof.
  intros (q & j & L & ->). destruct (N.lt_ge_cases (q * 10 ^ j) (10 ^ 28)) as [S|S]; [left; auto|]. right.
  set (x := q * 10 ^ j) in *. pose proof (ndigits_upper x) as U. assert (X0 : x <> 0) by (pose proof (pow10_pos 28); lia). pose proof (ndigits_lower x X0) as Lo.
  assert (ND : 28 < ndigits x) by (destruct (N.lt_ge_cases 28 (ndigits x)) as [G|G]; [exact G|assert (10 ^ ndigits x <= 10 ^ 28) by (apply N.pow_le_mono_r; lia); lia]).
  exists (ndigits x - 29).
  replace (28 + (ndigits x - 29)) with (ndigits x - 1) by lia. replace (29 + (ndigits x - 29)) with (ndigits x) by lia. replace (1 + (ndigits x - 29)) with (ndigits x - 28) by lia.
  assert (J : ndigits x - 28 <= j).
  { destruct (N.le_gt_cases (ndigits x - 28) j) as [G|G]; [exact G|]. exfalso. assert (x < 10 ^ (28 + j)) by (rewrite N.pow_add_r; unfold x; pose proof (pow10_pos j); nia).
    assert (10 ^ (28 + j) <= 10 ^ (ndigits x - 1)) by (apply N.pow_le_mono_r; lia). lia. }
  exists (q * 10 ^ (j - (ndigits x - 28))). split; [lia|]. split.
  - rewrite <- N.mul_assoc, <- N.pow_add_r. unfold x. do 2 f_equal. fold x. lia.
  - left. rewrite distance_self. pose proof (pow10_pos (ndigits x - 28)). lia.
Qed.
(** the rounding of the context is that rounding, at every unit *)
Lemma dfix_rounded d e : (e <= dexp d)%Z -> rounded (dcoef d * 10 ^ Z.to_N (dexp d - e)) (dcoef (dfix d) * 10 ^ Z.to_N (dexp (dfix d) - e)).
Proof.
  intro E. unfold dfix. destruct (ndigits (dcoef d) <=? prec) eqn:L.
  - apply N.leb_le in L. apply digits_rounded. exists (dcoef d), (Z.to_N (dexp d - e)). split; [|reflexivity]. eapply N.lt_le_trans; [apply ndigits_upper|]. apply N.pow_le_mono_r; [lia|exact L].
  - apply N.leb_gt in L. set (z := dcoef d) in *. set (n := ndigits z) in *. set (j := Z.to_N (dexp d - e)). set (k := n - prec).
    assert (Z0 : z <> 0) by (intro Q; unfold n in L; rewrite Q in L; discriminate L). pose proof (ndigits_lower z Z0) as Lo. pose proof (ndigits_upper z) as Up. fold n in Lo, Up. unfold prec in L, k.
    assert (V : forall c x, c * 10 ^ Z.to_N (x - e) = rhe z k * 10 ^ k * 10 ^ j -> rounded (z * 10 ^ j) (c * 10 ^ Z.to_N (x - e))).
    { intros c x ->. right. exists (k - 1 + j). replace (28 + (k - 1 + j)) with ((n - 1) + j) by (unfold k; lia). replace (29 + (k - 1 + j)) with (n + j) by (unfold k; lia). replace (1 + (k - 1 + j)) with (k + j) by (unfold k; lia).
      exists (rhe z k). rewrite !N.pow_add_r. pose proof (pow10_pos j) as Pj. split; [split; [apply N.mul_le_mono_r; exact Lo|apply N.mul_lt_mono_pos_r; [apply N.lt_le_trans with 1; [reflexivity|exact Pj]|exact Up]]|]. split; [symmetry; apply N.mul_assoc|]. rewrite <- (N.mul_assoc (rhe z k)), (N.mul_assoc (rhe z k) (10 ^ k)).
      rewrite distance_scale. destruct (rhe_near z k) as [D|(D & Ev)]; [left; rewrite N.mul_assoc; apply N.mul_lt_mono_pos_r; [apply N.lt_le_trans with 1; [reflexivity|exact Pj]|exact D]|right; split; [rewrite N.mul_assoc, D; reflexivity|exact Ev]]. }
    change prec with 28. fold k. destruct (rhe z k =? 10 ^ 28) eqn:C; apply V; cbn [dcoef dexp].
    + apply N.eqb_eq in C. rewrite C. change (28 - 1) with 27. change (10 ^ 28) with (10 ^ (27 + 1)). rewrite <- !N.pow_add_r. f_equal. unfold j. lia.
    + rewrite <- N.mul_assoc, <- N.pow_add_r. do 2 f_equal. unfold j. lia.
Qed.
Lemma rounded_fun x y z : rounded x y -> rounded x z -> y = z.
Proof.
  assert (B : forall k, 10 ^ 28 <= 10 ^ (28 + k)) by (intro k; apply N.pow_le_mono_r; lia).
  intros [[A ->]|(k & q & R & -> & D)] [[A' ->]|(k' & q' & R' & -> & D')].
  - reflexivity.
  - specialize (B k'). lia.
  - specialize (B k). lia.
  - replace (29 + k) with (1 + (28 + k)) in R by lia. replace (29 + k') with (1 + (28 + k')) in R' by lia. pose proof (pow_range _ _ _ R R') as K. assert (k = k') as <- by lia. f_equal.
    set (p := 10 ^ (1 + k)) in *. assert (P : 1 <= p) by apply pow10_pos. clearbody p. unfold distance in *. clear B R R' K.
    destruct (N.lt_trichotomy q q') as [L|[L|L]]; [exfalso|exact L|exfalso].
    + assert (Q : (q + 1) * p <= q' * p) by (apply N.mul_le_mono_r; lia). destruct D as [D|(D & V)], D' as [D'|(D' & V')]; try lia.
      assert (E : q' * p = (q + 1) * p) by lia. apply N.mul_cancel_r in E; [|lia]. subst q'. rewrite N.even_add, V in V'. discriminate.
    + assert (Q : (q' + 1) * p <= q * p) by (apply N.mul_le_mono_r; lia). destruct D as [D|(D & V)], D' as [D'|(D' & V')]; try lia.
      assert (E : q * p = (q' + 1) * p) by lia. apply N.mul_cancel_r in E; [|lia]. subst q. rewrite N.even_add, V' in V. discriminate.
Qed.
Lemma rounded_digits x y : rounded x y -> digits28 y.
Proof.
  intros [[A ->]|(k & q & (A & B) & -> & D)]; [exists x, 0; split; [exact A|cbn; lia]|].
  set (p := 10 ^ (1 + k)) in *. assert (P : 1 <= p) by apply pow10_pos.
  assert (X : 10 ^ (29 + k) = 10 ^ 28 * p) by (unfold p; rewrite <- N.pow_add_r; f_equal; lia). rewrite X in B.
  assert (Q : q <= 10 ^ 28) by (unfold distance in D; destruct (N.le_gt_cases q (10 ^ 28)) as [G|G]; [exact G|exfalso; assert ((10 ^ 28 + 1) * p <= q * p) by (apply N.mul_le_mono_r; lia); destruct D as [D|(D & _)]; lia]).
  destruct (N.eq_dec q (10 ^ 28)) as [E|E].
  - exists (10 ^ 27), (1 + (1 + k)). split; [reflexivity|]. rewrite E, (N.pow_add_r 10 1 (1 + k)). fold p. change (10 ^ 1) with 10. change (10 ^ 28) with (10 ^ 27 * 10). lia.
  - exists q, (1 + k). split; [lia|reflexivity].
Qed.
Lemma rounded_exact x : rounded x x <-> digits28 x.
Proof. split; [apply rounded_digits | apply digits_rounded]. Qed.

(** ** the operations *)
Lemma scaled_at d : valid_dec d -> scaled9 d = dcoef d * 10 ^ Z.to_N (dexp d - -9).
Proof. intros (_ & E). unfold scaled9. replace (-9 <=? dexp d)%Z with true by lia. reflexivity. Qed.
Lemma dadd_rounded a b : valid_dec a -> valid_dec b -> valid_dec (dadd a b) /\ rounded (scaled9 a + scaled9 b) (scaled9 (dadd a b)).
Proof.
  intros Ha Hb. assert (V : valid_dec (dadd a b)).
  { destruct (cadd_total (Some a) (Some b) Ha Hb) as (c & E & Vc). unfold cadd in E. cbn [as_currency bind cset cvalue] in E. apply check_dec_ok in E as (f & Ef & -> & Vf). injection Ef as <-. exact Vf. }
  split; [exact V|]. rewrite (scaled_at _ V). unfold dadd in *. set (e := Z.min (dexp a) (dexp b)) in *.
  assert (He : (-9 <= e)%Z) by (destruct Ha, Hb; unfold e; lia).
  destruct (signed_units a e Ha) as [Pa Ea]; [unfold e; lia|]. destruct (signed_units b e Hb) as [Pb Eb]; [unfold e; lia|].
  match goal with |- rounded _ (dcoef (dfix ?d) * _) => pose proof (dfix_rounded d (-9) He) as R end. cbn [dcoef dexp] in R.
  rewrite <- Ea, <- Eb, <- N.mul_add_distr_r. replace (Z.to_N (signed a e) + Z.to_N (signed b e)) with (Z.to_N (Z.abs (signed a e + signed b e))) by lia.
  replace (Z.to_N (e + 9)) with (Z.to_N (e - -9)) by lia. exact R.
Qed.
Lemma dsub_rounded a b : valid_dec a -> valid_dec b -> scaled9 b <= scaled9 a -> valid_dec (dsub a b) /\ rounded (scaled9 a - scaled9 b) (scaled9 (dsub a b)).
Proof.
  intros Ha Hb Hle. unfold dsub, dadd. cbn [dexp dopp]. set (e := Z.min (dexp a) (dexp b)) in *.
  assert (He : (-9 <= e)%Z) by (destruct Ha, Hb; unfold e; lia).
  destruct (signed_units a e Ha) as [Pa Ea]; [unfold e; lia|]. destruct (signed_units b e Hb) as [Pb Eb]; [unfold e; lia|].
  rewrite signed_opp. rewrite <- Ea, <- Eb in *. rewrite <- N.mul_sub_distr_r in *. pose proof (pow10_pos (Z.to_N (e + 9))) as HP.
  assert (HS : (signed b e <= signed a e)%Z) by nia.
  match goal with |- valid_dec (dfix ?d) /\ _ => pose proof (dfix_rounded d (-9) He) as R; pose proof (dfix_neg d) as Ng; pose proof (dfix_exp d) as Ex end. cbn [dcoef dexp dneg dopp] in R, Ng, Ex.
  assert (V : valid_dec (dfix (mkdec (if (signed a e + - signed b e =? 0)%Z then dneg a && dneg (dopp b) else (signed a e + - signed b e <? 0)%Z) (Z.to_N (Z.abs (signed a e + - signed b e))) e))).
  { split; [|eapply Z.le_trans; [exact He|apply (dfix_exp (mkdec _ _ e))]]. rewrite dfix_neg. cbn [dneg dopp]. destruct Ha as [-> _]. cbn [andb]. destruct (signed a e + - signed b e =? 0)%Z; lia. }
  split; [exact V|]. rewrite (scaled_at _ V). replace (Z.to_N (signed a e) - Z.to_N (signed b e)) with (Z.to_N (Z.abs (signed a e + - signed b e))) by lia.
  replace (Z.to_N (e + 9)) with (Z.to_N (e - -9)) by lia. exact R.
Qed.
