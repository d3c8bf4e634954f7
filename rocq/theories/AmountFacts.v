(** Amounts and whole numbers written as texts: what the parsers accept. *)
From Verif Require Import Base BaseFacts Primitive Spec_Currency CurrencyFacts DateFacts DateFacts2 HexFacts Currency Spec_Amounts.
From Coq Require Import ZifyBool ZifyNat ZifyN.

(** ** Digits *)
Lemma digit_b c : is_digit_b c = true <-> digit c.
Proof. unfold is_digit_b, digit. lia. Qed.
Lemma decimal_iff ds v : decimal ds v <-> digits_val 0 ds = Some v.
Proof.
  split.
  - induction 1 as [|ds v c D IH C]; [reflexivity|]. rewrite digits_val_app, IH. cbn [digits_val]. apply digit_b in C. unfold is_digit_b in C. rewrite C. reflexivity.
  - revert v. induction ds as [|c ds IH] using rev_ind; intros v E; [injection E as <-; constructor|].
    rewrite digits_val_app in E. destruct (digits_val 0 ds) as [w|]; [|discriminate]. cbn [digits_val] in E. destruct ((48 <=? c) && (c <=? 57)) eqn:C; [|discriminate]. injection E as <-.
    apply decimal_digit; [now apply IH|unfold digit; lia].
Qed.
Lemma decimal_digits ds v : decimal ds v -> Forall digit ds.
Proof. induction 1 as [|ds v c D IH C]; [constructor|]. apply Forall_app. auto. Qed.
Lemma digits_decimal ds : Forall digit ds -> exists v, decimal ds v.
Proof.
  induction ds as [|c ds IH] using rev_ind; intro F; [eexists; constructor|]. apply Forall_app in F as (F & C). inversion C; subst. destruct (IH F) as (v & D). eexists. apply decimal_digit; [exact D|assumption].
Qed.
Lemma span_iff s a b : span_digits s = (a, b) <-> s = a ++ b /\ Forall digit a /\ (forall c t, b = c :: t -> ~ digit c).
Proof.
  revert a b. induction s as [|c s IH]; intros a b; cbn [span_digits].
  - split; [intro E; injection E as <- <-; split; [reflexivity|]; split; [constructor|discriminate]|]. intros (E & _). symmetry in E. apply app_eq_nil in E as (-> & ->). reflexivity.
  - destruct (is_digit_b c) eqn:C.
    + destruct (span_digits s) as (a' & b') eqn:Sp. destruct (proj1 (IH a' b') eq_refl) as (E & F & G). split.
      * intro X. injection X as <- <-. split; [cbn [app]; now rewrite E|]. split; [constructor; [now apply digit_b|exact F]|exact G].
      * intros (X & F' & G'). destruct a as [|x a]; [cbn [app] in X; subst b; exfalso; apply (G' c s eq_refl); now apply digit_b|].
        injection X as <- X. inversion F'; subst. assert (Y : (a', b') = (a, b)) by (apply IH; auto). injection Y as -> ->. reflexivity.
    + split.
      * intro X. injection X as <- <-. split; [reflexivity|]. split; [constructor|]. intros c' t E. injection E as -> ->. rewrite <- digit_b. congruence.
      * intros (X & F & G). destruct a as [|x a]; [cbn [app] in X; now subst b|]. injection X as <- X. inversion F as [|? ? D]; subst. apply digit_b in D. congruence.
Qed.
Lemma wu_iff b t : without_underscores b t <-> filter (fun c => negb (c =? 95)) b = t.
Proof.
  split.
  - induction 1 as [|b t W IH|c b t C W IH]; [reflexivity|exact IH|]. cbn [filter]. replace (c =? 95) with false by lia. cbn [negb]. now rewrite IH.
  - intros <-. induction b as [|c b IH]; [constructor|]. cbn [filter]. destruct (c =? 95) eqn:C; cbn [negb]; [apply N.eqb_eq in C as ->; now constructor|constructor; [lia|exact IH]].
Qed.
(** ** Numerals *)
Lemma sign_iff t b neg : (forall c q, b = c :: q -> c <> 43 /\ c <> 45) -> (signed_by t b neg <-> split_sign t = (neg, b)).
Proof.
  intro N. unfold signed_by. split.
  - intros [(-> & ->)|[(-> & ->)|(-> & ->)]]; [|reflexivity|reflexivity]. destruct b as [|c q]; [reflexivity|]. destruct (N c q eq_refl). cbn [split_sign]. replace (c =? 45) with false by lia. replace (c =? 43) with false by lia. reflexivity.
  - destruct t as [|c q]; cbn [split_sign]; [intro E; injection E as <- <-; auto|]. destruct (c =? 45) eqn:A; [apply N.eqb_eq in A as ->; intro E; injection E as <- <-; auto|].
    destruct (c =? 43) eqn:B; [apply N.eqb_eq in B as ->; intro E; injection E as <- <-; auto|]. intro E. injection E as <- <-. auto.
Qed.
Lemma digits_nosign ds : Forall digit ds -> forall c q, ds = c :: q -> c <> 43 /\ c <> 45.
Proof. intros F c q ->. inversion F as [|? ? D]; subst. unfold digit in D. lia. Qed.
Lemma exponent_iff x k : exponent x k <-> parse_exp x = Some k.
Proof.
  unfold exponent. split.
  - intros [(-> & ->)|(c & t & ds & neg & v & -> & C & Sg & N & D & ->)]; [reflexivity|]. cbn [parse_exp]. replace ((c =? 69) || (c =? 101)) with true by lia.
    apply (proj1 (sign_iff t ds neg (digits_nosign ds (decimal_digits ds v D)))) in Sg. rewrite Sg. apply decimal_iff in D. rewrite D. destruct ds; [congruence|reflexivity].
  - destruct x as [|c t]; cbn [parse_exp]; [intro E; injection E as <-; auto|]. destruct ((c =? 69) || (c =? 101)) eqn:C; [|discriminate]. destruct (split_sign t) as (neg & ds) eqn:Sg.
    destruct ds as [|x ds]; [discriminate|]. destruct (digits_val 0 (x :: ds)) as [v|] eqn:D; [|discriminate]. intro E. injection E as <-. right. apply decimal_iff in D.
    exists c, t, (x :: ds), neg, v. split; [reflexivity|]. split; [lia|]. split; [|split; [discriminate|auto]]. apply sign_iff; [exact (digits_nosign _ (decimal_digits _ v D))|exact Sg].
Qed.
Lemma exponent_head x k : exponent x k -> forall c q, x = c :: q -> ~ digit c /\ c <> 46.
Proof. intros [(-> & _)|(c & t & ds & neg & v & -> & C & _)] c' q E; [discriminate|]. injection E as <- <-. unfold digit. lia. Qed.
Lemma numeral_iff neg t v e : numeral t v e <-> parse_number neg t = Some (DFin (mkdec neg v e)).
Proof.
  unfold numeral, parse_number. split.
  - intros (ip & f & fp & x & k & -> & F & N & D & X & ->).
    pose proof (decimal_digits _ _ D) as G. apply Forall_app in G as (Gi & Gf). pose proof (exponent_head x k X) as HX.
    assert (Sp : span_digits (ip ++ f ++ x) = (ip, f ++ x)).
    { apply span_iff. split; [reflexivity|]. split; [exact Gi|]. destruct F as [(-> & ->)| ->]; [intros c q E; apply (HX c q E)|]. intros c q E. injection E as <- _. unfold digit. lia. }
    rewrite Sp. apply decimal_iff in D. apply exponent_iff in X.
    destruct F as [(-> & ->)| ->].
    + cbn [app]. rewrite app_nil_r in *. destruct x as [|c q].
      * rewrite app_nil_r. destruct ip; [congruence|]. rewrite D, X. reflexivity.
      * destruct (HX c q eq_refl) as (_ & C). replace (c =? 46) with false by lia. rewrite app_nil_r. destruct ip; [congruence|]. rewrite D, X. reflexivity.
    + cbn [app]. change (46 =? 46) with true. cbv iota.
      assert (Sq : span_digits (fp ++ x) = (fp, x)) by (apply span_iff; split; [reflexivity|]; split; [exact Gf|]; intros c q E; apply (HX c q E)).
      rewrite Sq. destruct (ip ++ fp); [congruence|]. rewrite D, X. reflexivity.
  - destruct (span_digits t) as (ip & r) eqn:Sp. apply span_iff in Sp as (-> & Gi & Hr).
    assert (Q : exists f fp x, r = f ++ x /\ ((f = [] /\ fp = []) \/ f = 46 :: fp) /\ (match r with c :: t => if c =? 46 then span_digits t else ([], r) | [] => ([], r) end) = (fp, x)).
    { destruct r as [|c q]; [exists [], [], []; auto|]. destruct (c =? 46) eqn:C; [|exists [], [], (c :: q); auto]. apply N.eqb_eq in C as ->. destruct (span_digits q) as (fp & x) eqn:Sq. apply span_iff in Sq as (-> & _ & _). exists (46 :: fp), fp, x. auto. }
    destruct Q as (f & fp & x & -> & F & ->). destruct (ip ++ fp) as [|c q] eqn:N; [discriminate|]. destruct (digits_val 0 (c :: q)) as [w|] eqn:D; [|discriminate]. destruct (parse_exp x) as [k|] eqn:X; [|discriminate].
    intro E. injection E as -> <-. exists ip, f, fp, x, k. rewrite N. split; [reflexivity|]. split; [exact F|]. split; [discriminate|]. split; [now apply decimal_iff|]. split; [now apply exponent_iff|reflexivity].
Qed.
(** The characters of a numeral. *)
Definition numc (c : N) : Prop := digit c \/ c = 43 \/ c = 45 \/ c = 46 \/ c = 69 \/ c = 101.
Lemma digits_numc ds : Forall digit ds -> Forall numc ds. Proof. apply Forall_impl. intros c D. left. exact D. Qed.
Lemma signed_numc t b neg : signed_by t b neg -> Forall numc b -> Forall numc t.
Proof. intros [(-> & _)|[(-> & _)|(-> & _)]] F; [exact F| |]; constructor; unfold numc; auto. Qed.
Lemma numeral_numc t v e : numeral t v e -> Forall numc t /\ exists c q, t = c :: q /\ (digit c \/ c = 46).
Proof.
  intros (ip & f & fp & x & k & -> & F & N & D & X & _). pose proof (decimal_digits _ _ D) as G. apply Forall_app in G as (Gi & Gf). split.
  - apply Forall_app. split; [now apply digits_numc|]. apply Forall_app. split; [destruct F as [(-> & ->)| ->]; [constructor|constructor; [unfold numc; auto|now apply digits_numc]]|].
    destruct X as [(-> & _)|(c & t & ds & neg & w & -> & C & Sg & _ & D' & _)]; [constructor|]. constructor; [unfold numc; lia|]. apply (signed_numc t ds neg Sg), digits_numc, (decimal_digits ds w D').
  - destruct ip as [|c ip]; [|inversion Gi; subst; exists c, (ip ++ f ++ x); auto]. destruct F as [(-> & ->)| ->]; [cbn in N; congruence|]. exists 46, (fp ++ x). auto.
Qed.
Lemma numeral_nosign t v e : numeral t v e -> forall c q, t = c :: q -> c <> 43 /\ c <> 45.
Proof. intro N. destruct (numeral_numc t v e N) as (_ & c & q & -> & C). intros c' q' E. injection E as <- <-. unfold digit in C. lia. Qed.
Lemma numeral_notspecial t v e : numeral t v e -> special_name t = false.
Proof.
  intro N. destruct (numeral_numc t v e N) as (_ & c & q & -> & C).
  assert (L : lower_c c = c) by (unfold lower_c, digit in *; destruct ((65 <=? c) && (c <=? 90)) eqn:E; [lia|reflexivity]).
  unfold special_name, lower. cbn [map]. rewrite L. cbn [firstn s2b map list_ascii_of_string listN_eqb].
  change (N_of_ascii "i") with 105. change (N_of_ascii "n") with 110. change (N_of_ascii "s") with 115.
  replace (c =? 105) with false by (unfold digit in C; lia). replace (c =? 110) with false by (unfold digit in C; lia). replace (c =? 115) with false by (unfold digit in C; lia). reflexivity.
Qed.
(** ** Decimal(text) *)
Notation written := decimal_text.
Lemma strip_parts s : exists l r, s = l ++ strip s ++ r /\ Forall space l /\ Forall space r.
Proof.
  destruct (lstrip_split is_pyspace s) as (l & L & FL & _). destruct (rstrip_split is_pyspace (lstrip is_pyspace s)) as (r & R & FR & _).
  exists l, r. split; [unfold strip; rewrite <- R; exact L|]. split; [eapply Forall_impl; [|exact FL]|eapply Forall_impl; [|exact FR]]; intros c; apply blank_iff.
Qed.
Lemma wu_chars b t (P : N -> Prop) : without_underscores b t -> Forall P t -> Forall (fun c => P c \/ c = 95) b.
Proof. induction 1 as [|b t W IH|c b t C W IH]; intro F; [constructor|constructor; auto|]. inversion F; subst. constructor; auto. Qed.
Lemma wu_nonempty b t : without_underscores b t -> t <> [] -> b <> [].
Proof. intros W N ->. inversion W. congruence. Qed.
Lemma numc_nospace c : numc c \/ c = 95 -> is_pyspace c = false.
Proof. unfold numc, digit, is_pyspace, is_space. lia. Qed.
Lemma body_chars b t d neg v e : without_underscores b t -> signed_by t d neg -> numeral d v e -> Forall (fun c => numc c \/ c = 95) b /\ b <> [].
Proof.
  intros W Sg N. destruct (numeral_numc d v e N) as (F & c & q & -> & _). split; [eapply wu_chars; [exact W|exact (signed_numc t _ neg Sg F)]|].
  apply (wu_nonempty b t W). destruct Sg as [(-> & _)|[(-> & _)|(-> & _)]]; discriminate.
Qed.
Lemma strip_body l b r : Forall space l -> Forall space r -> Forall (fun c => numc c \/ c = 95) b -> b <> [] -> strip (l ++ b ++ r) = b.
Proof.
  intros L R F N. apply strip_surround; [exact L|exact R| | |exact N].
  - intros c q ->. inversion F; subst. now apply numc_nospace.
  - intros c q ->. apply Forall_app in F as (_ & F). inversion F; subst. now apply numc_nospace.
Qed.
Lemma parse_dec_iff s neg v e : written s neg v e <-> parse_dec s = Ok (DFin (mkdec neg v e)).
Proof.
  unfold parse_dec. split.
  - intros (l & b & t & d & r & -> & L & R & W & Sg & N). destruct (body_chars b t d neg v e W Sg N) as (F & NE). rewrite (strip_body l b r L R F NE).
    apply wu_iff in W. rewrite W. apply (proj1 (sign_iff t d neg (numeral_nosign d v e N))) in Sg. rewrite Sg, (numeral_notspecial d v e N). apply (numeral_iff neg) in N. now rewrite N.
  - destruct (split_sign _) as (n & d) eqn:Sg. destruct (special_name d); [discriminate|]. destruct (parse_number n d) as [q|] eqn:P; [|discriminate]. intro E. apply ok_inj in E. subst q.
    assert (n = neg) as -> by (unfold parse_number in P; destruct (span_digits d) as (? & ?); destruct (match _ with [] => _ | _ :: _ => _ end) as (? & ?); destruct (_ ++ _); [discriminate|]; destruct (digits_val _ _); [|discriminate]; destruct (parse_exp _); [|discriminate]; congruence).
    apply numeral_iff in P. destruct (strip_parts s) as (l & r & E & L & R). exists l, (strip s), (filter (fun c => negb (c =? 95)) (strip s)), d, r.
    split; [exact E|]. split; [exact L|]. split; [exact R|]. split; [now apply wu_iff|]. split; [|exact P]. apply sign_iff; [exact (numeral_nosign d v e P)|exact Sg].
Qed.
(** ** Upper case *)
Lemma upper_numc c : numc (upper_c c) <-> numc c.
Proof. unfold numc, digit, upper_c. destruct ((97 <=? c) && (c <=? 122)) eqn:E; lia. Qed.
Lemma upper_space c : space (upper_c c) <-> space c.
Proof. unfold space, upper_c. destruct ((97 <=? c) && (c <=? 122)) eqn:E; lia. Qed.
Lemma upper_fix c x : (x < 65 \/ 90 < x < 97 \/ 122 < x) -> (upper_c c = x <-> c = x).
Proof. intro X. unfold upper_c. destruct ((97 <=? c) && (c <=? 122)) eqn:E; lia. Qed.
Lemma upper_letter c x : 65 <= x <= 90 -> (upper_c c = x <-> c = x \/ c = x + 32).
Proof. intro X. unfold upper_c. destruct ((97 <=? c) && (c <=? 122)) eqn:E; lia. Qed.
Lemma upper_space_all l : Forall space (upper l) <-> Forall space l.
Proof. unfold upper. rewrite Forall_map. split; apply Forall_impl; intro c; apply upper_space. Qed.
Lemma upper_digits ds : Forall digit ds -> upper ds = ds.
Proof. induction 1 as [|c ds C F IH]; [reflexivity|]. unfold upper in *. cbn [map]. rewrite IH. f_equal. unfold upper_c, digit in *. destruct ((97 <=? c) && (c <=? 122)) eqn:E; lia. Qed.
Lemma upper_digits_inv ds : Forall digit (upper ds) -> Forall digit ds.
Proof. unfold upper. rewrite Forall_map. apply Forall_impl. intros c. unfold digit, upper_c. destruct ((97 <=? c) && (c <=? 122)) eqn:E; lia. Qed.
Lemma wu_upper b t' : without_underscores (upper b) t' <-> exists t, without_underscores b t /\ t' = upper t.
Proof.
  rewrite wu_iff. assert (C : filter (fun c => negb (c =? 95)) (upper b) = upper (filter (fun c => negb (c =? 95)) b)).
  { unfold upper. induction b as [|c b IH]; [reflexivity|]. cbn [map filter]. assert (E : (upper_c c =? 95) = (c =? 95)) by (pose proof (upper_fix c 95); lia). rewrite E. destruct (c =? 95); cbn [negb]; [exact IH|]. cbn [map]. now rewrite IH. }
  rewrite C. split; [intros <-; eexists; split; [now apply wu_iff|reflexivity]|]. intros (t & W & ->). apply wu_iff in W. now rewrite W.
Qed.
Lemma upper_app a b : upper (a ++ b) = upper a ++ upper b. Proof. apply map_app. Qed.
Lemma upper_split s a b : upper s = a ++ b -> exists a' b', s = a' ++ b' /\ upper a' = a /\ upper b' = b.
Proof. unfold upper. intro E. apply map_eq_app in E as (a' & b' & -> & <- & <-). eauto. Qed.
Lemma signed_upper t d' neg : signed_by (upper t) d' neg <-> exists d, signed_by t d neg /\ d' = upper d.
Proof.
  unfold signed_by. split.
  - intros [(E & ->)|[(E & ->)|(E & ->)]]; [exists t; auto| |].
    + destruct t as [|c t]; [discriminate|]. unfold upper in E. cbn [map] in E. injection E as C E. apply (proj1 (upper_fix c 43 ltac:(lia))) in C. subst. exists t. split; [auto|reflexivity].
    + destruct t as [|c t]; [discriminate|]. unfold upper in E. cbn [map] in E. injection E as C E. apply (proj1 (upper_fix c 45 ltac:(lia))) in C. subst. exists t. split; [auto|reflexivity].
  - intros (d & [(-> & ->)|[(-> & ->)|(-> & ->)]] & ->); auto.
Qed.
Lemma exponent_upper x k : exponent (upper x) k <-> exponent x k.
Proof.
  unfold exponent. split.
  - intros [(E & ->)|(c & t & ds & neg & v & E & C & Sg & N & D & ->)]; [destruct x; [auto|discriminate]|]. destruct x as [|c' t']; [discriminate|]. unfold upper in E. cbn [map] in E. injection E as Ec E. fold (upper t') in E. subst t.
    apply signed_upper in Sg as (ds' & Sg & ->). pose proof (decimal_digits _ _ D) as F. pose proof (upper_digits_inv ds' F) as F'. rewrite (upper_digits ds' F') in *. right. exists c', t', ds', neg, v. split; [reflexivity|].
    split; [|auto]. subst c. destruct C as [C|C]; [apply (proj1 (upper_letter c' 69 ltac:(lia))) in C; lia|]. unfold upper_c in C. destruct ((97 <=? c') && (c' <=? 122)) eqn:X; lia.
  - intros [(-> & ->)|(c & t & ds & neg & v & -> & C & Sg & N & D & ->)]; [auto|]. right. exists (upper_c c), (upper t), ds, neg, v. split; [reflexivity|]. split; [left; apply upper_letter; lia|].
    split; [|auto]. apply signed_upper. exists ds. split; [exact Sg|]. symmetry. apply upper_digits, (decimal_digits ds v D).
Qed.
Lemma numeral_upper t v e : numeral (upper t) v e <-> numeral t v e.
Proof.
  unfold numeral. split.
  - intros (ip & f & fp & x & k & E & F & N & D & X & ->). apply upper_split in E as (ip' & q & -> & <- & E). apply upper_split in E as (f' & x' & -> & <- & <-).
    assert (Y : exists fp', fp = upper fp' /\ ((f' = [] /\ fp' = []) \/ f' = 46 :: fp')).
    { destruct F as [(E & ->)|E]; [exists []; destruct f'; [auto|discriminate]|]. destruct f' as [|c f']; [discriminate|]. unfold upper in E. cbn [map] in E. injection E as C E. apply (proj1 (upper_fix c 46 ltac:(lia))) in C. subst c. exists f'. split; [symmetry; exact E|auto]. }
    destruct Y as (fp' & -> & F'). rewrite <- upper_app in *. pose proof (upper_digits_inv _ (decimal_digits _ _ D)) as G. rewrite (upper_digits _ G) in *. exists ip', f', fp', x', k.
    split; [reflexivity|]. split; [exact F'|]. split; [exact N|]. split; [exact D|]. split; [now apply exponent_upper|]. unfold upper. now rewrite map_length.
  - intros (ip & f & fp & x & k & -> & F & N & D & X & ->). pose proof (decimal_digits _ _ D) as G. apply Forall_app in G as (Gi & Gf). exists ip, f, fp, (upper x), k.
    split; [rewrite !upper_app, (upper_digits ip Gi); f_equal; f_equal; destruct F as [(-> & ->)| ->]; [reflexivity|]; unfold upper; cbn [map]; f_equal; apply (upper_digits fp Gf)|].
    split; [exact F|]. split; [exact N|]. split; [exact D|]. split; [now apply exponent_upper|reflexivity].
Qed.
Lemma written_upper s neg v e : written (upper s) neg v e <-> written s neg v e.
Proof.
  unfold decimal_text. split.
  - intros (l & b & t & d & r & E & L & R & W & Sg & N). apply upper_split in E as (l' & q & -> & <- & E). apply upper_split in E as (b' & r' & -> & <- & <-).
    apply wu_upper in W as (t' & W & ->). apply signed_upper in Sg as (d' & Sg & ->). apply (proj1 (numeral_upper _ _ _)) in N. exists l', b', t', d', r'. split; [reflexivity|]. split; [now apply upper_space_all|]. split; [now apply upper_space_all|]. auto.
  - intros (l & b & t & d & r & -> & L & R & W & Sg & N). exists (upper l), (upper b), (upper t), (upper d), (upper r). rewrite !upper_app. split; [reflexivity|]. split; [now apply upper_space_all|]. split; [now apply upper_space_all|].
    split; [apply wu_upper; eauto|]. split; [apply signed_upper; eauto|]. now apply numeral_upper.
Qed.
(** ** The unit *)
Lemma tft_upper u : tft u <-> upper u = s2b "TFT".
Proof.
  unfold tft. split.
  - intros (a & b & c & -> & A & B & C). unfold upper. cbn [map]. assert (upper_c a = 84) as -> by (apply upper_letter; lia). assert (upper_c b = 70) as -> by (apply upper_letter; lia). assert (upper_c c = 84) as -> by (apply upper_letter; lia). reflexivity.
  - destruct u as [|a [|b [|c [|d u]]]]; try discriminate. unfold upper. cbn [map]. intro E. injection E as A B C. exists a, b, c. split; [reflexivity|]. apply (proj1 (upper_letter a 84 ltac:(lia))) in A. apply (proj1 (upper_letter b 70 ltac:(lia))) in B. apply (proj1 (upper_letter c 84 ltac:(lia))) in C. lia.
Qed.
Definition with_unit (s : pystr) (neg : bool) (v : N) (e : Z) : Prop :=
  exists l b t d gap u r, s = l ++ b ++ gap ++ u ++ r /\ Forall space l /\ Forall space gap /\ Forall space r /\ (u = [] \/ tft u) /\ without_underscores b t /\ signed_by t d neg /\ numeral d v e.
Lemma strip_unit_iff s neg v e : with_unit s neg v e <-> written (strip_unit s) neg v e.
Proof.
  split.
  - intros (l & b & t & d & gap & u & r & -> & L & G & R & U & W & Sg & N). destruct (body_chars b t d neg v e W Sg N) as (F & NE).
    assert (F' : Forall (fun c => numc c \/ c = 95) (upper b)) by (unfold upper; rewrite Forall_map; eapply Forall_impl; [|exact F]; intros c [C|C]; [left; now apply upper_numc|right; apply upper_fix; [lia|exact C]]).
    assert (NE' : upper b <> []) by (destruct b; [congruence|discriminate]).
    assert (Wr : written (upper b) neg v e). { apply written_upper. exists [], b, t, d, []. rewrite app_nil_r. split; [reflexivity|]. split; [constructor|]. split; [constructor|]. auto. }
    assert (Ls : exists q x, upper b = q ++ [x] /\ (numc x \/ x = 95)). { destruct (exists_last NE') as (q & x & E). exists q, x. split; [exact E|]. rewrite E in F'. apply Forall_app in F' as (_ & F'). inversion F'; auto. }
    destruct Ls as (q & x & Eb & X). pose proof (numc_nospace x X) as NX.
    unfold strip_unit. cbv zeta. rewrite !upper_app. destruct U as [->|U].
    + change (upper []) with (@nil BinNums.N). cbn [app]. rewrite (strip_body (upper l) (upper b) (upper gap ++ upper r)); [|now apply upper_space_all|apply Forall_app; split; now apply upper_space_all|exact F'|exact NE'].
      replace ((4 <=? length (upper b))%nat && listN_eqb (skipn (length (upper b) - 3) (upper b)) (s2b "TFT")) with false; [exact Wr|]. symmetry. apply andb_false_iff.
      destruct (Nat.leb_spec 4 (length (upper b))) as [Le|]; [right|left; reflexivity]. destruct (listN_eqb _ _) eqn:Q; [|reflexivity]. apply listN_eqb_eq in Q. exfalso.
      assert (Z : upper b = (firstn (length (upper b) - 3) (upper b) ++ [84; 70]) ++ [84]) by (rewrite <- app_assoc; cbn [app]; change [84; 70; 84] with (s2b "TFT"); rewrite <- Q; symmetry; apply firstn_skipn).
      rewrite Eb in Z at 1. apply app_inj_tail in Z as (_ & ->). unfold numc, digit in X. lia.
    + apply (proj1 (tft_upper _)) in U. rewrite U.
      assert (E : strip (upper l ++ upper b ++ upper gap ++ s2b "TFT" ++ upper r) = upper b ++ upper gap ++ s2b "TFT").
      { replace (upper b ++ upper gap ++ s2b "TFT" ++ upper r) with ((upper b ++ upper gap ++ s2b "TFT") ++ upper r) by (rewrite <- !app_assoc; reflexivity).
        apply strip_surround; [now apply upper_space_all|now apply upper_space_all| | |destruct (upper b); [congruence|discriminate]].
        - intros c z Y. destruct (upper b) as [|c' z']; [congruence|]. injection Y as -> _. inversion F'; subst. now apply numc_nospace.
        - intros c z Y. change (s2b "TFT") with ([84; 70] ++ [84]) in Y. rewrite !app_assoc in Y. apply app_inj_tail in Y as (_ & <-). reflexivity. }
      rewrite E. set (k := length (upper b ++ upper gap)). assert (Len : length (upper b ++ upper gap ++ s2b "TFT") = (k + 3)%nat) by (rewrite app_assoc, app_length; reflexivity).
      rewrite Len. replace (k + 3 - 3)%nat with k by lia. rewrite app_assoc.
      assert (SK : skipn k ((upper b ++ upper gap) ++ s2b "TFT") = s2b "TFT") by (unfold k; rewrite skipn_app, skipn_all, Nat.sub_diag; reflexivity).
      assert (FK : firstn k ((upper b ++ upper gap) ++ s2b "TFT") = upper b ++ upper gap) by (unfold k; rewrite firstn_app, Nat.sub_diag, firstn_all; cbn [firstn]; apply app_nil_r).
      rewrite SK, FK, listN_eqb_refl.
      assert (K : (4 <=? k + 3)%nat = true). { apply Nat.leb_le. unfold k. rewrite app_length. destruct (upper b); [congruence|cbn; lia]. }
      rewrite K. cbn [andb]. rewrite Eb, <- app_assoc. cbn [app]. rewrite rstrip_stop by exact NX.
      assert (Z : rstrip is_pyspace (upper gap) = []).
      { unfold rstrip. apply (proj2 (upper_space_all _)) in G. apply Forall_rev in G. induction G as [|y z Y Z IH]; [reflexivity|]. cbn [lstrip]. apply blank_iff in Y. rewrite Y. exact IH. }
      rewrite Z, <- Eb. exact Wr.
  - intro Wr.
    assert (S0 : exists a g u r, upper s = a ++ strip_unit s ++ g ++ u ++ r /\ Forall space a /\ Forall space g /\ Forall space r /\ (u = [] \/ u = s2b "TFT")).
    { destruct (strip_parts (upper s)) as (a & r & E & A & R). unfold strip_unit in *. cbv zeta in *. destruct ((4 <=? length (strip (upper s)))%nat && listN_eqb (skipn (length (strip (upper s)) - 3) (strip (upper s))) (s2b "TFT")) eqn:Q.
      - apply andb_true_iff in Q as (Le & Q). apply listN_eqb_eq in Q. destruct (rstrip_split is_pyspace (firstn (length (strip (upper s)) - 3) (strip (upper s)))) as (g & Eg & G & _).
        exists a, g, (s2b "TFT"), r. split; [|split; [exact A|]; split; [eapply Forall_impl; [|exact G]; intro c; apply blank_iff|auto]].
        rewrite E at 1. f_equal. rewrite <- (firstn_skipn (length (strip (upper s)) - 3) (strip (upper s))) at 1. rewrite Q, Eg at 1. rewrite <- !app_assoc. reflexivity.
      - exists a, [], [], r. split; [exact E|]. split; [exact A|]. split; [constructor|]. split; [exact R|]. left. reflexivity. }
    destruct S0 as (a & g & u & r & E & A & G & R & U). destruct Wr as (l & b & t & d & r0 & Eu & L & R0 & W & Sg & N). rewrite Eu in E.
    apply upper_split in E as (a' & q & -> & <- & E). rewrite <- !app_assoc in E. apply upper_split in E as (l' & q1 & -> & <- & E). apply upper_split in E as (b' & q2 & -> & <- & E). apply upper_split in E as (r0' & q3 & -> & <- & E). apply upper_split in E as (g' & q4 & -> & <- & E). apply upper_split in E as (u' & r' & -> & <- & <-).
    apply wu_upper in W as (t' & W & ->). apply signed_upper in Sg as (d' & Sg & ->). apply (proj1 (numeral_upper _ _ _)) in N.
    exists (a' ++ l'), b', t', d', (r0' ++ g'), u', r'. split; [rewrite <- !app_assoc; reflexivity|]. split; [apply Forall_app; split; now apply upper_space_all|]. split; [apply Forall_app; split; now apply upper_space_all|]. split; [now apply upper_space_all|].
    split; [destruct U as [U|U]; [left; destruct u'; [reflexivity|discriminate]|right; now apply tft_upper]|auto].
Qed.
(** ** int(text) *)
Lemma int_digits_iff s : (forall acc n, int_digits false acc s = Some n <-> exists ds, grouped s ds /\ digits_val acc ds = Some n) /\
  (forall acc n, int_digits true acc s = Some n <-> (s = [] /\ n = acc) \/ (exists g ds, s = 95 :: g /\ grouped g ds /\ digits_val acc ds = Some n) \/ (exists ds, grouped s ds /\ digits_val acc ds = Some n)).
Proof.
  assert (U : forall c s ds, grouped (c :: s) ds -> exists q, ds = c :: q /\ digit c /\ ((s = [] /\ q = []) \/ (exists g, s = 95 :: g /\ grouped g q) \/ grouped s q)).
  { intros c t ds G. inversion G as [d N F E1 E2|d g q N F G' E1 E2]; subst.
    - inversion F; subst. exists t. split; [reflexivity|]. split; [assumption|]. destruct t; [auto|]. right. right. apply one_group; [discriminate|assumption].
    - destruct d as [|c' d]; [congruence|]. injection E1 as -> <-. inversion F; subst. exists (d ++ q). split; [reflexivity|]. split; [assumption|]. destruct d as [|x d]; [right; left; cbn [app]; eauto|]. right. right. apply next_group; [discriminate|assumption|assumption]. }
  assert (V : forall c s q, digit c -> (s = [] /\ q = []) \/ (exists g, s = 95 :: g /\ grouped g q) \/ grouped s q -> grouped (c :: s) (c :: q)).
  { intros c t q C [(-> & ->)|[(g & -> & G)|G]].
    - apply one_group; [discriminate|auto].
    - apply (next_group [c] g q); [discriminate|auto|exact G].
    - destruct G as [d N F|d g q N F G]; [apply one_group; [discriminate|auto]|]. apply (next_group (c :: d) g q); [discriminate|auto|exact G]. }
  induction s as [|c s (IF & IT)]; cbn [int_digits].
  - split; intros acc n.
    + split; [discriminate|]. intros (ds & G & _). inversion G as [d N F E1 E2|d g q N F G' E1 E2]; subst; [congruence|]. destruct d; discriminate.
    + split; [intro E; injection E as <-; auto|]. intros [(_ & ->)|[(g & ds & E & _)|(ds & G & _)]]; [reflexivity|discriminate|]. inversion G as [d N F E1 E2|d g q N F G' E1 E2]; subst; [congruence|]. destruct d; discriminate.
  - destruct ((48 <=? c) && (c <=? 57)) eqn:C.
    + assert (D : digit c) by (unfold digit; lia).
      assert (K : forall acc n, int_digits true (10 * acc + (c - 48)) s = Some n <-> exists ds, grouped (c :: s) ds /\ digits_val acc ds = Some n).
      { intros acc n. rewrite IT. split.
        - intros [(-> & ->)|[(g & ds & -> & G & E)|(ds & G & E)]]; [exists [c]|exists (c :: ds)|exists (c :: ds)]; (split; [apply V; [exact D|eauto]|cbn [digits_val]; rewrite C; first [exact E|reflexivity]]).
        - intros (ds & G & E). destruct (U c s ds G) as (q & -> & _ & K). cbn [digits_val] in E. rewrite C in E. destruct K as [(-> & ->)|[(g & -> & K)|K]]; [left; injection E as <-; auto|right; left; eauto|right; right; eauto]. }
      split; intros acc n; [apply K|]. rewrite K. split; [eauto|]. intros [(E & _)|[(g & ds & E & _)|Q]]; [discriminate|injection E as -> _; discriminate C|exact Q].
    + assert (ND : forall ds, ~ grouped (c :: s) ds) by (intros ds G; destruct (U c s ds G) as (q & _ & D & _); unfold digit in D; lia). split; intros acc n.
      * rewrite andb_false_r. split; [discriminate|]. intros (ds & G & _). destruct (ND ds G).
      * rewrite andb_true_r. destruct (c =? 95) eqn:Un.
        -- apply N.eqb_eq in Un as ->. rewrite IF. split; [intros (ds & G & E); right; left; eauto|]. intros [(E & _)|[(g & ds & E & G & X)|(ds & G & _)]]; [discriminate|injection E as <-; eauto|destruct (ND ds G)].
        -- split; [discriminate|]. intros [(E & _)|[(g & ds & E & G & X)|(ds & G & _)]]; [discriminate|injection E as -> ->; discriminate Un|destruct (ND ds G)].
Qed.
Lemma grouped_shape g ds : grouped g ds -> g <> [] /\ Forall (fun c => numc c \/ c = 95) g /\ (forall c q, g = c :: q -> digit c).
Proof.
  induction 1 as [d N F|d g ds N F G (_ & A & _)].
  - split; [exact N|]. split; [eapply Forall_impl; [|exact F]; intros c D; left; left; exact D|]. intros c q ->. inversion F; assumption.
  - split; [destruct d; [congruence|discriminate]|]. split; [apply Forall_app; split; [eapply Forall_impl; [|exact F]; intros c D; left; left; exact D|constructor; [auto|exact A]]|]. intros c q E. destruct d as [|x d]; [congruence|]. injection E as -> _. inversion F; assumption.
Qed.
Lemma py_int_iff s z : int_text s z <-> py_int s = Ok z.
Proof.
  unfold int_text. split.
  - intros (l & b & g & ds & neg & r & v & -> & L & R & Sg & G & D & ->). destruct (grouped_shape g ds G) as (N & F & Hd).
    assert (NE : b <> []) by (destruct Sg as [(-> & _)|[(-> & _)|(-> & _)]]; [exact N|discriminate|discriminate]).
    assert (FB : Forall (fun c => numc c \/ c = 95) b) by (destruct Sg as [(-> & _)|[(-> & _)|(-> & _)]]; [exact F|constructor; [unfold numc; auto|exact F]|constructor; [unfold numc; auto|exact F]]).
    unfold py_int. rewrite (strip_body l b r L R FB NE). apply decimal_iff in D.
    assert (I : int_digits false 0 g = Some v) by (apply int_digits_iff; eauto).
    destruct Sg as [(-> & ->)|[(-> & ->)|(-> & ->)]].
    + destruct g as [|c q]; [congruence|]. pose proof (Hd c q eq_refl) as C. unfold digit in C. replace (c =? 45) with false by lia. replace (c =? 43) with false by lia. rewrite I. reflexivity.
    + change (43 =? 45) with false. change (43 =? 43) with true. cbv iota. rewrite I. reflexivity.
    + change (45 =? 45) with true. cbv iota. rewrite I. reflexivity.
  - unfold py_int. destruct (strip_parts s) as (l & r & E & L & R). destruct (strip s) as [|c q] eqn:St; [discriminate|].
    assert (K : forall g neg v, signed_by (c :: q) g neg -> int_digits false 0 g = Some v -> int_text s (if neg : bool then - Z.of_N v else Z.of_N v)%Z).
    { intros g neg v Sg I. apply int_digits_iff in I as (ds & G & D). exists l, (c :: q), g, ds, neg, r, v. apply decimal_iff in D. split; [exact E|]. auto 8. }
    fold (int_text s z). unfold signed_by in K. destruct (c =? 45) eqn:A; [|destruct (c =? 43) eqn:B]; destruct (int_digits false 0 _) as [v|] eqn:I; try discriminate; intro X; apply ok_inj in X; subst z.
    + apply N.eqb_eq in A as ->. apply (K q true v); auto.
    + apply N.eqb_eq in B as ->. apply (K q false v); auto.
    + apply (K (c :: q) false v); auto.
Qed.
