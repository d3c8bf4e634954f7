(** Properties C07 and C08 without a bound: arithmetic and reading round to 28 significant digits, and what that means for exactness. *)
From Verif Require Import Base BaseFacts Encoders Currency Spec_Currency Spec_Round CurrencyFacts CurrencyFacts2 RoundFacts.
From Coq Require Import ZifyBool ZifyNat ZifyN.
Ltac Zify.zify_post_hook ::= Z.div_mod_to_equations.

(** ** C07 *)
(** A sum always exists, and is the exact one rounded. *)
Theorem C07_add_rounds : forall a b m n, is_currency a -> is_currency b -> amount a m -> amount b n ->
  exists c r, cadd a (COCur b) = Ok c /\ is_currency c /\ amount c r /\ rounded (m + n) r.
Proof.
  intros a b m n Ha Hb Hm Hn. apply is_currency_valid in Ha, Hb. rewrite (amount_units _ _ Ha Hm), (amount_units _ _ Hb Hn) in *.
  destruct (dadd_rounded _ _ Ha Hb) as (V & R). exists (Some (dadd (cvalue a) (cvalue b))), (scaled9 (dadd (cvalue a) (cvalue b))).
  unfold cadd; cbn [as_currency bind cset]. rewrite check_dec_valid by exact V. split; [reflexivity|]. split; [apply is_currency_valid; exact V|]. split; [apply (valid_amount (Some _)); exact V|exact R].
Qed.
Print Assumptions C07_add_rounds.
(** A difference exists exactly if it is not negative, and is the exact one rounded. *)
Theorem C07_sub_rounds : forall a b m n, is_currency a -> is_currency b -> amount a m -> amount b n ->
  (n <= m -> exists c r, csub a (COCur b) = Ok c /\ is_currency c /\ amount c r /\ rounded (m - n) r) /\ (m < n -> exists e, csub a (COCur b) = Err e).
Proof.
  intros a b m n Ha Hb Hm Hn. split; [|apply sub_amount_neg; assumption]. intro Le. apply is_currency_valid in Ha, Hb. rewrite (amount_units _ _ Ha Hm), (amount_units _ _ Hb Hn) in *.
  destruct (dsub_rounded _ _ Ha Hb Le) as (V & R). exists (Some (dsub (cvalue a) (cvalue b))), (scaled9 (dsub (cvalue a) (cvalue b))).
  unfold csub; cbn [as_currency bind cset]. rewrite check_dec_valid by exact V. split; [reflexivity|]. split; [apply is_currency_valid; exact V|]. split; [apply (valid_amount (Some _)); exact V|exact R].
Qed.
Print Assumptions C07_sub_rounds.
(** A product of two amounts, if accepted, is the exact one rounded (in billionths of a unit); one with a whole number is always accepted. *)
Theorem C07_mul_rounds : forall a b m n c, is_currency a -> is_currency b -> amount a m -> amount b n -> cmul a (COCur b) = Ok c ->
  exists k, is_currency c /\ amount c k /\ rounded (m * n) (k * 10 ^ 9).
Proof.
  intros a b m n c Ha Hb Hm Hn E. apply is_currency_valid in Ha, Hb. rewrite (amount_units _ _ Ha Hm), (amount_units _ _ Hb Hn) in *.
  unfold cmul in E; cbn [as_currency bind cset] in E. apply check_dec_ok in E as (f & Ef & -> & V). injection Ef as <-.
  exists (scaled9 (dmul (cvalue a) (cvalue b))). split; [apply is_currency_valid; exact V|]. split; [apply (valid_amount (Some _)); exact V|].
  rewrite (scaled_at _ V). unfold units. rewrite (scaled_at _ Ha), (scaled_at _ Hb). destruct Ha as [_ Ea], Hb as [_ Eb]. unfold dmul in *.
  match goal with |- rounded _ (dcoef (dfix ?d) * _ * _) => pose proof (dfix_rounded d (-18)) as R end. cbn [dcoef dexp] in R. specialize (R ltac:(lia)).
  destruct V as [_ Ev]. match type of R with rounded ?x ?y => match goal with |- rounded ?u ?v => replace u with x; [replace v with y; [exact R|]|] end end.
  - rewrite <- N.mul_assoc, <- N.pow_add_r. do 2 f_equal. lia.
  - replace (Z.to_N (dexp (cvalue a) + dexp (cvalue b) - -18)) with (Z.to_N (dexp (cvalue a) - -9) + Z.to_N (dexp (cvalue b) - -9)) by lia. rewrite N.pow_add_r. lia.
Qed.
Print Assumptions C07_mul_rounds.
Theorem C07_mul_int_rounds : forall a m z, is_currency a -> amount a m -> (0 <= z)%Z ->
  exists c r, cmul a (COInt z) = Ok c /\ is_currency c /\ amount c r /\ rounded (m * Z.to_N z) r.
Proof.
  intros a m z Ha Hm Hz. apply is_currency_valid in Ha. rewrite (amount_units _ _ Ha Hm) in *. unfold cmul; cbn [as_currency].
  assert (V : valid_dec (dec_of_Z z)) by (split; cbn; lia). cbn [cset]. rewrite check_dec_valid by exact V. cbn [bind cvalue].
  unfold units. rewrite (scaled_at _ Ha). destruct Ha as [Na Ea]. set (d := dmul (cvalue a) (dec_of_Z z)).
  assert (V2 : valid_dec d). { split; [unfold d, dmul; rewrite dfix_neg; cbn [dneg dec_of_Z]; rewrite Na, xorb_false_l; lia|]. unfold d, dmul. match goal with |- context [dfix ?x] => pose proof (dfix_exp x) as X end. cbn [dexp dec_of_Z] in X |- *. lia. }
  rewrite check_dec_valid by exact V2. exists (Some d), (scaled9 d). split; [reflexivity|]. split; [apply is_currency_valid; exact V2|]. split; [apply (valid_amount (Some _)); exact V2|].
  rewrite (scaled_at _ V2). unfold d, dmul. match goal with |- rounded _ (dcoef (dfix ?x) * _) => pose proof (dfix_rounded x (-9)) as R end. cbn [dcoef dexp dec_of_Z] in R. specialize (R ltac:(lia)).
  match type of R with rounded ?x ?y => match goal with |- rounded ?u ?v => replace u with x; [exact R|] end end. replace (Z.abs z) with z by lia. rewrite Z.add_0_r. lia.
Qed.
Print Assumptions C07_mul_int_rounds.
(** So a sum is exact precisely if it has at most 28 significant digits. *)
Theorem C07_exact_iff : forall a b m n c, is_currency a -> is_currency b -> amount a m -> amount b n -> cadd a (COCur b) = Ok c ->
  (amount c (m + n) <-> digits28 (m + n)).
Proof.
  intros a b m n c Ha Hb Hm Hn E. destruct (C07_add_rounds a b m n Ha Hb Hm Hn) as (c' & r & E' & Vc & A & R). rewrite E in E'. apply ok_inj in E'. subst c'. apply is_currency_valid in Vc. split.
  - intro A'. assert (r = m + n) as -> by (rewrite (amount_units _ _ Vc A), (amount_units _ _ Vc A'); reflexivity). exact (rounded_digits _ _ R).
  - intro D. apply digits_rounded in D. assert (r = m + n) as <- by exact (rounded_fun _ _ _ R D). exact A.
Qed.
Print Assumptions C07_exact_iff.
(** ** C08 *)
(** What is read from the JSON of an amount is the amount rounded; the same amount precisely if it has at most 28 significant digits. *)
Theorem C08_json_rounds : forall c m, is_currency c -> amount c m ->
  exists s c' r, cjson c = Ok s /\ cfrom_json (JStr s) = Ok c' /\ is_currency c' /\ amount c' r /\ rounded m r /\ (amount c' m <-> digits28 m).
Proof.
  intros c m Vc Hm. pose proof (json_is_units c m Vc Hm) as J. exists (dec_str m). destruct (dec_str_spec m) as (H1 & H2 & _).
  unfold cfrom_json. destruct (dec_str m) as [|x t] eqn:E; [congruence|]. rewrite <- E in *. rewrite (parse_int_digits _ _ H2 H1). cbn [bind].
  unfold dmul; cbn [dneg dcoef dexp xorb]. rewrite N.mul_1_r. change (0 + -9)%Z with (-9)%Z. set (d := dfix (mkdec false m (-9))). cbn [cset].
  assert (V : valid_dec d) by (split; [unfold d; rewrite dfix_neg; reflexivity|unfold d; pose proof (dfix_exp (mkdec false m (-9))) as X; cbn [dexp] in X; exact X]).
  rewrite check_dec_valid by exact V. exists (Some d), (scaled9 d). split; [exact J|]. split; [reflexivity|]. split; [apply is_currency_valid; exact V|]. pose proof (valid_amount (Some d) V) as A. split; [exact A|].
  assert (R : rounded m (scaled9 d)). { rewrite (scaled_at _ V). pose proof (dfix_rounded (mkdec false m (-9)) (-9) ltac:(cbn; lia)) as R. cbn [dcoef dexp] in R. change (10 ^ Z.to_N (-9 - -9)) with 1 in R. rewrite N.mul_1_r in R. exact R. }
  split; [exact R|]. split.
  - intro A'. assert (Q : m = scaled9 d) by exact (amount_units (Some d) m V A'). rewrite Q. exact (rounded_digits _ _ R).
  - intro D. apply digits_rounded in D. rewrite <- (rounded_fun _ _ _ R D). exact A.
Qed.
Print Assumptions C08_json_rounds.
(** 28 nines and 28 digits with a five behind. *)
Example C07_ex_round : rounded (10 ^ 28 + 5) (10 ^ 28) /\ rounded (10 ^ 28 + 15) (10 ^ 28 + 20) /\ ~ digits28 (10 ^ 28 + 5) /\ digits28 (10 ^ 40).
Proof.
  split; [|split; [|split]].
  - right. exists 0, (10 ^ 27). vm_compute. repeat split; try discriminate. right. auto.
  - right. exists 0, (10 ^ 27 + 2). vm_compute. repeat split; try discriminate. right. auto.
  - intro D. apply digits_rounded in D. assert (R : rounded (10 ^ 28 + 5) (10 ^ 28)) by (right; exists 0, (10 ^ 27); vm_compute; repeat split; try discriminate; right; auto).
    pose proof (rounded_fun _ _ _ D R) as X. discriminate X.
  - exists 1, 40. split; vm_compute; reflexivity.
Qed.
