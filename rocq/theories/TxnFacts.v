(** Facts about transaction encodings. *)
From Verif Require Import Base BaseFacts Encoders EncodersFacts Currency CurrencyFacts CurrencyFacts2 Primitive Types Conditions
  Fulfillments ThreeBotTypes Txn Spec_Types Spec_Fulfil Spec_Txn TypesFacts TypesFacts2 ConditionFacts.
From Coq Require Import ZifyBool ZifyNat ZifyN.
Ltac Zify.zify_post_hook ::= Z.div_mod_to_equations.

(** ** Amounts: the model's integers against the Currency model *)
Lemma coin_amount_sia c : valid c -> csia c = amt_sia (units c).
Proof. exact (csia_spec c). Qed.
Lemma coin_amount_riv c : valid c -> criv c = amt_riv (units c).
Proof. exact (criv_spec c). Qed.
Lemma coin_amount_json c : valid c -> cjson c = Ok (dec_str (units c)).
Proof. exact (cjson_units c). Qed.
Lemma amt_sia_uniq : uniq (fun _ : N => True) amt_sia.
Proof.
  intros a b x y r s _ _ Ha Hb E. destruct (sia_slice_uniq _ _ _ _ _ _ I I Ha Hb E) as [E1 E2].
  apply min_be_inj in E1. auto.
Qed.
Lemma amt_riv_uniq : uniq (fun _ : N => True) amt_riv.
Proof.
  intros a b x y r s _ _ Ha Hb E. destruct (riv_slice_uniq _ _ _ _ _ _ I I Ha Hb E) as [E1 E2].
  apply min_be_inj in E1. auto.
Qed.

(** ** Peeling one field off two equal encodings *)
Lemma peel {A} (P : A -> Prop) enc : uniq P enc -> forall a b ra rb x y (r s : bytes), P a -> P b ->
  enc a +++ ra = Ok x -> enc b +++ rb = Ok y -> x ++ r = y ++ s ->
  a = b /\ exists x' y', ra = Ok x' /\ rb = Ok y' /\ x' ++ r = y' ++ s.
Proof.
  intros U a b ra rb x y r s Pa Pb Ea Eb E.
  apply rapp_ok in Ea as (a1 & a2 & E1 & E2 & ->). apply rapp_ok in Eb as (b1 & b2 & E3 & E4 & ->).
  rewrite <- !app_assoc in E. destruct (U _ _ _ _ _ _ Pa Pb E1 E3 E) as [-> E5]. eauto 8.
Qed.
Lemma arr_uniq n : uniq (fun b : bytes => length b = n) arr.
Proof. apply uniq_fixed with (n := n); unfold arr; intros; congruence. Qed.
Lemma uniq_map {A B} (f : A -> B) (P : B -> Prop) (enc : B -> res bytes) : uniq P enc ->
  forall a b x y r s, P (f a) -> P (f b) -> enc (f a) = Ok x -> enc (f b) = Ok y -> x ++ r = y ++ s -> f a = f b /\ r = s.
Proof. intros U a b x y r s Pa Pb Ea Eb E. exact (U _ _ _ _ _ _ Pa Pb Ea Eb E). Qed.

(** Two-field codes *)
Lemma uniq_pair {A B} (P : A -> Prop) (Q : B -> Prop) ea eb : uniq P ea -> uniq Q eb ->
  uniq (fun p : A * B => P (fst p) /\ Q (snd p)) (fun p => ea (fst p) +++ eb (snd p)).
Proof.
  intros U V [a b] [a' b'] x y r s [Pa Qb] [Pa' Qb'] E1 E2 E. cbn [fst snd] in *.
  destruct (peel _ _ U _ _ _ _ _ _ _ _ Pa Pa' E1 E2 E) as (-> & x' & y' & F1 & F2 & F).
  destruct (V _ _ _ _ _ _ Qb Qb' F1 F2 F) as [-> ->]. auto.
Qed.

Definition pay_sia (p : N * cond) : res bytes := amt_sia (fst p) +++ cond_sia (snd p).
Definition pay_riv (p : N * cond) : res bytes := amt_riv (fst p) +++ cond_riv (snd p).
Definition pay_ok (p : N * cond) : Prop := full_cond (snd p).
Lemma pay_sia_uniq : uniq pay_ok pay_sia.
Proof.
  apply uniq_weaken with (P := fun p : N * cond => True /\ full_cond (snd p)); [unfold pay_ok; tauto|].
  exact (uniq_pair _ _ _ _ amt_sia_uniq cond_sia_uniq).
Qed.
Lemma pay_riv_uniq : uniq pay_ok pay_riv.
Proof.
  apply uniq_weaken with (P := fun p : N * cond => True /\ full_cond (snd p)); [unfold pay_ok; tauto|].
  exact (uniq_pair _ _ _ _ amt_riv_uniq cond_riv_uniq).
Qed.
Lemma sia_list_map {A B} (f : A -> B) enc l : sia_list (fun a => enc (f a)) l = sia_list enc (map f l).
Proof. unfold sia_list. rewrite map_length, map_map. reflexivity. Qed.
Lemma riv_list_map {A B} (f : A -> B) enc l : riv_list (fun a => enc (f a)) l = riv_list enc (map f l).
Proof. unfold riv_list, lenN. rewrite map_length, map_map. reflexivity. Qed.
Lemma outs_sia os : sia_list out_sia os = sia_list pay_sia (map pay os).
Proof. exact (sia_list_map pay pay_sia os). Qed.
Lemma out_pay_riv o : out_riv o = pay_riv (pay o).
Proof. reflexivity. Qed.
Lemma outs_ok os : Forall out_ok os -> Forall pay_ok (map pay os).
Proof. intros F. apply Forall_map. exact F. Qed.
Lemma pays_uniq : uniq (Forall pay_ok) (sia_list pay_sia).
Proof. exact (sia_list_uniq _ _ pay_sia_uniq). Qed.
Lemma fees_uniq : uniq (fun _ : list N => True) (sia_list amt_sia).
Proof.
  apply uniq_weaken with (P := Forall (fun _ : N => True)); [intros a _; apply Forall_forall; auto|].
  exact (sia_list_uniq _ _ amt_sia_uniq).
Qed.

(** ids *)
Definition ids_sia' (l : list bytes) : res bytes := sia_list arr l.
Definition ids_riv' (l : list bytes) : res bytes := riv_int 8 (Z.of_nat (length l)) +++ rconcat (map arr l).
Lemma ids_sia_eq is : ids_sia is = ids_sia' (spends is).
Proof. reflexivity. Qed.
Lemma ids_riv_eq is : ids_riv is = ids_riv' (spends is).
Proof. unfold ids_riv, ids_riv', spends. rewrite map_length. reflexivity. Qed.
Definition len32 (b : bytes) : Prop := length b = 32%nat.
Lemma ids_ok is : Forall in_ok is -> Forall len32 (spends is).
Proof. intros F. apply Forall_map. eapply Forall_impl; [|exact F]. intros i [L _]. exact L. Qed.
Lemma ids_sia_uniq : uniq (Forall len32) ids_sia'.
Proof. exact (sia_list_uniq _ _ (arr_uniq 32)). Qed.
Lemma ids_riv_uniq : uniq (Forall len32) ids_riv'.
Proof.
  intros a b x y r s Fa Fb Ea Eb E. unfold ids_riv' in *.
  destruct (peel _ _ (riv_int_uniq 8) _ _ _ _ _ _ _ _ I I Ea Eb E) as (L & x' & y' & F1 & F2 & F).
  eapply (uniq_concat (arr_uniq 32)); [exact Fa | exact Fb | lia | exact F1 | exact F2 | exact F].
Qed.

Definition refund_riv' (p : option (N * cond)) : res bytes :=
  match p with None => riv_int 1 0 | Some x => riv_int 1 1 +++ pay_riv x end.
Lemma refund_eq o : refund_riv o = refund_riv' (option_map pay o).
Proof. destruct o; reflexivity. Qed.
Definition rpay_ok (p : option (N * cond)) : Prop := forall x, p = Some x -> pay_ok x.
Lemma refund_pay_ok o : refund_ok o -> rpay_ok (option_map pay o).
Proof. intros R x E. destruct o as [o|]; [|discriminate]. injection E as <-. exact (R o eq_refl). Qed.
Lemma refund_uniq : uniq rpay_ok refund_riv'.
Proof.
  intros a b x y r s Pa Pb Ea Eb E.
  set (f := fun p : option (N * cond) => match p with None => Ok [] | Some x => pay_riv x end).
  assert (G : forall p, refund_riv' p = riv_int 1 (match p with None => 0 | Some _ => 1 end) +++ f p).
  { intros [p|]; reflexivity. }
  rewrite G in Ea, Eb.
  destruct (peel _ _ (riv_int_uniq 1) _ _ _ _ _ _ _ _ I I Ea Eb E) as (L & x' & y' & F1 & F2 & F).
  destruct a as [a|], b as [b|]; try (cbn in L; lia); cbn [f] in F1, F2.
  - destruct (pay_riv_uniq _ _ _ _ _ _ (Pa a eq_refl) (Pb b eq_refl) F1 F2 F) as [-> ->]. auto.
  - apply ok_inj in F1. apply ok_inj in F2. subst. auto.
Qed.

(** network addresses and names *)
Lemma na_byte a : na_ok a -> N.lor (na_type a) (N.shiftl (lenN (na_bytes a)) 2) = na_type a + 4 * lenN (na_bytes a).
Proof. intros [T L]. rewrite lor_low by (change (2 ^ 2) with 4; lia). change (2 ^ 2) with 4. lia. Qed.
Lemma na_riv_uniq : uniq na_ok na_riv.
Proof.
  intros a b x y r s Pa Pb Ea Eb E. unfold na_riv in *. rewrite na_byte in Ea, Eb by assumption.
  apply rapp_ok in Ea as (a1 & a2 & E1 & E2 & ->). apply rapp_ok in Eb as (b1 & b2 & E3 & E4 & ->).
  apply ok_inj in E2. apply ok_inj in E4. subst. rewrite <- !app_assoc in E.
  destruct (riv_int_uniq 1 _ _ _ _ _ _ I I E1 E3 E) as [L F].
  destruct a as [ta ba], b as [tb bb]. unfold na_ok, lenN in *. cbn [na_type na_bytes] in *.
  assert (T : ta = tb /\ length ba = length bb) by lia. destruct T as [-> T].
  apply app_inj_len in F as [-> ->]; [|exact T]. auto.
Qed.
Lemma bn_riv_slice s : ascii_str s -> bn_riv s = riv_slice s.
Proof.
  intros A. unfold bn_riv, riv_slice, r_of_w, riv_add_slice. rewrite (utf8_ascii A).
  unfold w_of_res, wok, wseq. destruct (riv_len (lenN s)) as [w [e|]]; reflexivity.
Qed.
Lemma bn_riv_uniq : uniq ascii_str bn_riv.
Proof.
  intros a b x y r s Pa Pb Ea Eb E. rewrite bn_riv_slice in Ea, Eb by assumption.
  exact (riv_slice_uniq _ _ _ _ _ _ I I Ea Eb E).
Qed.

(** ** Extra objects *)
Definition x_ok (x : extra) : Prop := match x with XKey p => key32 p | _ => True end.
Definition same_x (x y : extra) : Prop :=
  match x, y with
  | XInt _, XInt _ | XKey _, XKey _ => True
  | XSecret a, XSecret b | XBytes a, XBytes b => length a = length b
  | _, _ => False
  end.
Lemma x_sia_inj a b x y r s : same_x a b -> x_sia a = Ok x -> x_sia b = Ok y -> x ++ r = y ++ s -> a = b /\ r = s.
Proof.
  destruct a, b; cbn [same_x x_sia]; intros S0 Ea Eb E; try contradiction.
  - destruct (sia_int_uniq _ _ _ _ _ _ I I Ea Eb E) as [-> ->]; auto.
  - destruct (pk_sia_uniq _ _ _ _ _ _ I I Ea Eb E) as [-> ->]; auto.
  - apply ok_inj in Ea. apply ok_inj in Eb. subst. apply app_inj_len in E as [-> ->]; auto.
  - apply ok_inj in Ea. apply ok_inj in Eb. subst. apply app_inj_len in E as [-> ->]; auto.
Qed.
Lemma x_riv_inj a b x y r s : same_x a b -> x_ok a -> x_ok b -> x_riv a = Ok x -> x_riv b = Ok y -> x ++ r = y ++ s -> a = b /\ r = s.
Proof.
  destruct a, b; cbn [same_x x_riv x_ok]; intros S0 Oa Ob Ea Eb E; try contradiction.
  - destruct (riv_int_uniq 8 _ _ _ _ _ _ I I Ea Eb E) as [-> ->]; auto.
  - destruct (pk_riv_uniq _ _ _ _ _ _ Oa Ob Ea Eb E) as [-> ->]; auto.
  - apply ok_inj in Ea. apply ok_inj in Eb. subst. apply app_inj_len in E as [-> ->]; auto.
  - apply ok_inj in Ea. apply ok_inj in Eb. subst. apply app_inj_len in E as [-> ->]; auto.
Qed.
Lemma xs_sia_inj xs : forall ys x y r s, Forall2 same_x xs ys -> xs_sia xs = Ok x -> xs_sia ys = Ok y -> x ++ r = y ++ s -> xs = ys /\ r = s.
Proof.
  unfold xs_sia. induction xs as [|a xs IH]; intros ys x y r s F Ea Eb E; inversion F; subst; cbn [map rconcat] in *.
  - apply ok_inj in Ea. apply ok_inj in Eb. subst. auto.
  - apply rapp_ok in Ea as (a1 & a2 & E1 & E2 & ->). apply rapp_ok in Eb as (b1 & b2 & E3 & E4 & ->).
    rewrite <- !app_assoc in E. destruct (x_sia_inj _ _ _ _ _ _ H1 E1 E3 E) as [-> E'].
    destruct (IH _ _ _ _ _ H3 E2 E4 E') as [-> ->]. auto.
Qed.
Lemma xs_riv_inj xs : forall ys x y r s, Forall2 same_x xs ys -> Forall x_ok xs -> Forall x_ok ys ->
  xs_riv xs = Ok x -> xs_riv ys = Ok y -> x ++ r = y ++ s -> xs = ys /\ r = s.
Proof.
  unfold xs_riv. induction xs as [|a xs IH]; intros ys x y r s F Oa Ob Ea Eb E; inversion F; subst; cbn [map rconcat] in *.
  - apply ok_inj in Ea. apply ok_inj in Eb. subst. auto.
  - inversion Oa; inversion Ob; subst.
    apply rapp_ok in Ea as (a1 & a2 & E1 & E2 & ->). apply rapp_ok in Eb as (b1 & b2 & E3 & E4 & ->).
    rewrite <- !app_assoc in E. destruct (x_riv_inj a y0 a1 b1 (a2 ++ r) (b2 ++ s)) as [-> E']; auto.
    destruct (IH l' a2 b2 r s) as [-> ->]; auto.
Qed.
Lemma peel_xs_sia xs ys ra rb x y r s : Forall2 same_x xs ys -> xs_sia xs +++ ra = Ok x -> xs_sia ys +++ rb = Ok y ->
  x ++ r = y ++ s -> xs = ys /\ exists x' y', ra = Ok x' /\ rb = Ok y' /\ x' ++ r = y' ++ s.
Proof.
  intros F Ea Eb E. apply rapp_ok in Ea as (a1 & a2 & E1 & E2 & ->). apply rapp_ok in Eb as (b1 & b2 & E3 & E4 & ->).
  rewrite <- !app_assoc in E. destruct (xs_sia_inj _ _ _ _ _ _ F E1 E3 E) as [-> E5]. eauto 8.
Qed.
Lemma peel_xs_riv xs ys ra rb x y r s : Forall2 same_x xs ys -> Forall x_ok xs -> Forall x_ok ys ->
  xs_riv xs +++ ra = Ok x -> xs_riv ys +++ rb = Ok y ->
  x ++ r = y ++ s -> xs = ys /\ exists x' y', ra = Ok x' /\ rb = Ok y' /\ x' ++ r = y' ++ s.
Proof.
  intros F Oa Ob Ea Eb E. apply rapp_ok in Ea as (a1 & a2 & E1 & E2 & ->). apply rapp_ok in Eb as (b1 & b2 & E3 & E4 & ->).
  rewrite <- !app_assoc in E. destruct (xs_riv_inj _ _ _ _ _ _ F Oa Ob E1 E3 E) as [-> E5]. eauto 8.
Qed.
Lemma place_extras p q : same_kind p q -> place_ok p -> place_ok q ->
  Forall2 same_x (extras_of p) (extras_of q) /\ Forall x_ok (extras_of p) /\ Forall x_ok (extras_of q).
Proof.
  destruct p, q; cbn [same_kind extras_of place_ok]; intros K Op Oq; try contradiction;
    (split; [|split]); repeat (apply Forall_cons || apply Forall2_cons || apply Forall_nil || apply Forall2_nil);
    cbn [same_x x_ok]; try tauto.
  destruct Op as [_ [L _]], Oq as [_ [M _]]. congruence.
Qed.
Lemma extras_inj p q : extras_of p = extras_of q -> p = q.
Proof.
  destruct p, q; cbn [extras_of]; intros E; try discriminate; try reflexivity; injection E; intros; subst; f_equal; try lia; reflexivity.
Qed.

(** ** The signature data determine everything *)
Ltac step U := match goal with
  | E1 : _ +++ _ = Ok ?x, E2 : _ +++ _ = Ok ?y, E : ?x ++ _ = ?y ++ _ |- _ =>
      let a := fresh in let b := fresh in
      let X := fresh "x" in let Y := fresh "y" in let Q := fresh "Q" in
      pose proof (fun a b => peel _ _ U _ _ _ _ _ _ _ _ a b E1 E2 E) as Q; clear E1 E2 E;
      match type of Q with ?A -> ?B -> _ =>
        let HA := fresh in let HB := fresh in
        assert (HA : A) by solve [auto | exact I]; assert (HB : B) by solve [auto | exact I]; specialize (Q HA HB); clear HA HB
      end;
      destruct Q as (Q & X & Y & E1 & E2 & E)
  end.
Ltac last U := match goal with
  | E1 : _ = Ok ?x, E2 : _ = Ok ?y, E : ?x ++ _ = ?y ++ _ |- _ =>
      let Q := fresh "Q" in
      pose proof (fun a b => U _ _ _ _ _ _ a b E1 E2 E) as Q; clear E1 E2 E;
      match type of Q with ?A -> ?B -> _ =>
        let HA := fresh in let HB := fresh in
        assert (HA : A) by solve [auto | exact I]; assert (HB : B) by solve [auto | exact I]; specialize (Q HA HB); clear HA HB
      end;
      destruct Q as [Q _]
  end.

Lemma sig_input_head H t xs d : is_legacy t = false -> sig_input H t xs = Ok d ->
  exists r, d = Z.to_N (version t) :: r.
Proof.
  destruct t as [t|t|t|t|t|t|t|t]; cbn [is_legacy]; intros L E; cbn [sig_input] in E.
  - rewrite L in E. apply rapp_ok in E as (a & b & E1 & _ & ->). apply sia_byte_inv in E1 as [_ ->]. eexists; reflexivity.
  - apply rapp_ok in E as (a & b & E1 & _ & ->). apply sia_byte_inv in E1 as [_ ->]. eexists; reflexivity.
  - apply rapp_ok in E as (a & b & E1 & _ & ->). apply riv_int1_inv in E1 as [_ ->]. eexists; reflexivity.
  - apply rapp_ok in E as (a & b & E1 & _ & ->). apply sia_byte_inv in E1 as [_ ->]. eexists; reflexivity.
  - apply bind_ok in E as (c & _ & E). apply rapp_ok in E as (a & b & E1 & _ & ->). apply riv_int1_inv in E1 as [_ ->]. eexists; reflexivity.
  - apply rapp_ok in E as (a & b & E1 & _ & ->). apply riv_int1_inv in E1 as [_ ->]. eexists; reflexivity.
  - apply rapp_ok in E as (a & b & E1 & _ & ->). apply riv_int1_inv in E1 as [_ ->]. eexists; reflexivity.
  - apply bind_ok in E as (c & _ & E). apply rapp_ok in E as (a & b & E1 & _ & ->). apply riv_int1_inv in E1 as [_ ->]. eexists; reflexivity.
Qed.
Lemma version_range t : (0 < version t < 256)%Z.
Proof. destruct t as [t|t|t|t|t|t|t|t]; cbn [version]; try lia. destruct (m_new t); lia. Qed.
Lemma sig_input_version H t u xs ys d : is_legacy t = false -> is_legacy u = false ->
  sig_input H t xs = Ok d -> sig_input H u ys = Ok d -> version t = version u.
Proof.
  intros Lt Lu Et Eu. destruct (sig_input_head _ _ _ _ Lt Et) as (r & ->). destruct (sig_input_head _ _ _ _ Lu Eu) as (s & E).
  injection E as E _. pose proof (version_range t). pose proof (version_range u). lia.
Qed.
Lemma got_ok {A} (o : option A) x : got o = Ok x -> o = Some x.
Proof. destruct o; cbn; intros E; [apply ok_inj in E; congruence | discriminate]. Qed.


Lemma riv_addrs_uniq : uniq (Forall na_ok) (riv_list na_riv).
Proof. exact (riv_list_uniq _ _ na_riv_uniq). Qed.
Lemma riv_names_uniq : uniq (Forall ascii_str) (riv_list bn_riv).
Proof. exact (riv_list_uniq _ _ bn_riv_uniq). Qed.
Lemma spec_uniq : uniq (fun b : bytes => length b = 16%nat) arr.
Proof. exact (arr_uniq 16). Qed.
Lemma arr_ok32 b : hash32 b -> len32 b.
Proof. intros [L _]; exact L. Qed.

Lemma sig_input_commits H t u xs ys x y r s : is_legacy t = false -> is_legacy u = false -> version t = version u ->
  sized t -> sized u ->
  Forall2 same_x xs ys -> Forall x_ok xs -> Forall x_ok ys ->
  sig_input H t xs = Ok x -> sig_input H u ys = Ok y -> x ++ r = y ++ s -> content_of t = content_of u /\ xs = ys.
Proof.
  intros Lt Lu V St Su SX OX OY Et Eu E.
  destruct t as [t|t|t|t|t|t|t|t], u as [u|u|u|u|u|u|u|u];
    try (exfalso; cbn [version] in V; try destruct (m_new t); try destruct (m_new u); discriminate V);
    cbn [is_legacy sized] in *; cbn [sig_input] in Et, Eu; cbn [content_of].
  - rewrite Lt in Et. rewrite Lu in Eu. destruct St as (A1 & A2 & A3 & A4), Su as (B1 & B2 & B3 & B4).
    rewrite !outs_sia, !ids_sia_eq in Et, Eu.
    apply ids_ok in A1, A3, B1, B3. apply outs_ok in A2, A4, B2, B4.
    step sia_byte_uniq. destruct (peel_xs_sia _ _ _ _ _ _ _ _ SX Et Eu E) as (QX & x' & y' & F1 & F2 & F). clear Et Eu E.
    step ids_sia_uniq. step pays_uniq. step ids_sia_uniq. step pays_uniq. step fees_uniq. last sia_slice_uniq.
    split; [|assumption]. congruence.
  - destruct St as (A1 & A2), Su as (B1 & B2). cbn [version specifier] in *.
    destruct (m_new t) as [c|os], (m_new u) as [c'|os']; try discriminate V.
    + step sia_byte_uniq. step spec_uniq. step (arr_uniq 8).
      destruct (peel_xs_sia _ _ _ _ _ _ _ _ SX Et Eu E) as (QX & x' & y' & F1 & F2 & F). clear Et Eu E.
      step cond_sia_uniq. step fees_uniq. last sia_slice_uniq. split; [|assumption]. congruence.
    + rewrite !outs_sia in Et, Eu. apply outs_ok in A2, B2.
      step sia_byte_uniq. step spec_uniq. step (arr_uniq 8).
      destruct (peel_xs_sia _ _ _ _ _ _ _ _ SX Et Eu E) as (QX & x' & y' & F1 & F2 & F). clear Et Eu E.
      step pays_uniq. step fees_uniq. last sia_slice_uniq. split; [|assumption]. congruence.
  - destruct St as (A1 & A2 & A3), Su as (B1 & B2 & B3). rewrite ids_riv_eq, refund_eq in Et, Eu.
    apply ids_ok in A2, B2. apply refund_pay_ok in A3, B3.
    step (riv_int_uniq 1). step spec_uniq. step (arr_uniq 20). step amt_riv_uniq.
    destruct (peel_xs_riv _ _ _ _ _ _ _ _ SX OX OY Et Eu E) as (QX & x' & y' & F1 & F2 & F). clear Et Eu E.
    step ids_riv_uniq. step amt_riv_uniq. last refund_uniq. split; [|assumption]. congruence.
  - destruct St as (A1 & A2 & A3), Su as (B1 & B2 & B3). apply arr_ok32 in A2, A3, B2, B3.
    step sia_byte_uniq. step spec_uniq.
    destruct (peel_xs_sia _ _ _ _ _ _ _ _ SX Et Eu E) as (QX & x' & y' & F1 & F2 & F). clear Et Eu E.
    step uh_sia_uniq. step amt_sia_uniq. step amt_sia_uniq. step (arr_uniq 32). last (arr_uniq 32). split; [|assumption]. congruence.
  - destruct St as (A1 & A2 & A3), Su as (B1 & B2 & B3).
    apply bind_ok in Et as (ci & C1 & Et). apply bind_ok in Eu as (cj & C2 & Eu). apply got_ok in C1, C2. rewrite C1 in *. rewrite C2 in *.
    cbn [olist] in *. rewrite ids_riv_eq, refund_eq in Et, Eu.
    apply ids_ok in A2, B2. apply refund_pay_ok in A3, B3.
    step (riv_int_uniq 1). step spec_uniq. step pk_riv_uniq.
    destruct (peel_xs_riv _ _ _ _ _ _ _ _ SX OX OY Et Eu E) as (QX & x' & y' & F1 & F2 & F). clear Et Eu E.
    step ids_riv_uniq. step amt_riv_uniq. step amt_riv_uniq. last refund_uniq. split; [|assumption]. congruence.
  - destruct St as (A1 & A2 & A3 & A4 & A5), Su as (B1 & B2 & B3 & B4 & B5). rewrite ids_riv_eq, refund_eq in Et, Eu.
    apply ids_ok in A3, B3. apply refund_pay_ok in A4, B4.
    step (riv_int_uniq 1). step spec_uniq.
    destruct (peel_xs_riv _ _ _ _ _ _ _ _ SX OX OY Et Eu E) as (QX & x' & y' & F1 & F2 & F). clear Et Eu E.
    step riv_addrs_uniq. step riv_names_uniq. step (riv_int_uniq 1). step ids_riv_uniq. step amt_riv_uniq. step refund_uniq.
    last pk_riv_uniq. split; [|assumption]. congruence.
  - destruct St as (A1 & A2 & A3 & A4 & A5 & A6), Su as (B1 & B2 & B3 & B4 & B5 & B6). rewrite ids_riv_eq, refund_eq in Et, Eu.
    apply ids_ok in A5, B5. apply refund_pay_ok in A6, B6.
    step (riv_int_uniq 1). step spec_uniq. step (riv_int_uniq 4).
    destruct (peel_xs_riv _ _ _ _ _ _ _ _ SX OX OY Et Eu E) as (QX & x' & y' & F1 & F2 & F). clear Et Eu E.
    step riv_addrs_uniq. step riv_addrs_uniq. step riv_names_uniq. step riv_names_uniq. step (riv_int_uniq 1). step ids_riv_uniq.
    step amt_riv_uniq. last refund_uniq. split; [|assumption]. congruence.
  - destruct St as (A1 & A2 & A3), Su as (B1 & B2 & B3).
    apply bind_ok in Et as (ci & C1 & Et). apply bind_ok in Eu as (cj & C2 & Eu). apply got_ok in C1, C2. rewrite C1 in *. rewrite C2 in *.
    cbn [olist] in *. rewrite ids_riv_eq, refund_eq in Et, Eu.
    apply ids_ok in A2, B2. apply refund_pay_ok in A3, B3.
    step (riv_int_uniq 1). step spec_uniq. step (riv_int_uniq 4). step (riv_int_uniq 4).
    destruct (peel_xs_riv _ _ _ _ _ _ _ _ SX OX OY Et Eu E) as (QX & x' & y' & F1 & F2 & F). clear Et Eu E.
    step riv_names_uniq. step ids_riv_uniq. step amt_riv_uniq. last refund_uniq. split; [|assumption]. congruence.
Qed.

Theorem signature_commits H t u p q d : is_legacy t = false -> is_legacy u = false -> sized t -> sized u ->
  same_kind p q -> place_ok p -> place_ok q ->
  sig_input H t (extras_of p) = Ok d -> sig_input H u (extras_of q) = Ok d -> content_of t = content_of u /\ p = q.
Proof.
  intros Lt Lu St Su K Op Oq Et Eu. destruct (place_extras _ _ K Op Oq) as (SX & OX & OY).
  destruct (sig_input_commits H t u _ _ d d [] [] Lt Lu (sig_input_version _ _ _ _ _ _ Lt Lu Et Eu) St Su SX OX OY Et Eu eq_refl) as [C X].
  apply extras_inj in X. auto.
Qed.
