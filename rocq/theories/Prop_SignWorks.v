(** C53: signing does not fail, without a hypothesis about encodings. *)
From Verif Require Import Base BaseFacts Encoders EncodersFacts Primitive Types TypesFacts Conditions ConditionFacts Fulfillments ThreeBotTypes Txn TxnSign
  Spec_Types Spec_Fulfil Spec_Txn Spec_Sign Spec_Ops Spec_Fits SignFacts SignFacts2 SignFacts3 SignFacts4 SigTotal Prop_Types Prop_Fulfil Prop_Txn Prop_Sign.
From Coq Require Import ZifyBool ZifyNat ZifyN.
Ltac Zify.zify_post_hook ::= Z.div_mod_to_equations.

(** *** Lemmas *)
Lemma attach_few known l : few l -> few (attach known l).
Proof. unfold few, attach. rewrite map_length. auto. Qed.
Lemma set_cin_fits g t : (forall l, few l -> few (g l)) -> fits t -> fits (set_cin t g).
Proof.
  intros G F. destruct t as [t|t|t|t|t|t|t|t]; cbn [fits set_cin] in *; try exact F.
  - cbn [s_legacy s_cin s_bin s_cout s_bout s_fees s_data]. intuition.
  - cbn [c_value c_cin c_fee c_refund]. intuition.
  - cbn [r_pk r_cin r_fee r_refund]. destruct F as (A & (l & E & L) & B). split; [exact A|]. split; [|exact B]. rewrite E. cbn. exists (g l). auto.
  - cbn [b_cin b_fee b_refund b_pk]. destruct F as (A & B & C & D). split; [exact A|]. split; [exact B|]. auto.
  - cbn [u_id u_cin u_fee u_refund]. destruct F as (A & B & C & D & E). split; [exact A|]. split; [exact B|]. auto.
  - cbn [n_sender n_receiver n_cin n_fee n_refund]. destruct F as (A & B & C & D & (l & E & L) & I). split; [exact A|]. split; [exact B|]. split; [exact C|]. split; [exact D|]. split; [|exact I]. rewrite E. cbn. exists (g l). auto.
Qed.
Lemma prepared_fits known mc t : fits t -> fits (prepared known mc t).
Proof.
  intro F. unfold prepared. apply (set_cin_fits (attach known)) in F; [|apply attach_few]. destruct (set_cin t (attach known)) as [u|u|u|u|u|u|u|u]; cbn [mint_prepare fst]; try exact F.
  destruct mc as [c|]; [|exact F]. destruct (m_ff u); [exact F|]. destruct (from_condition c); exact F.
Qed.
Lemma fits_cin t l : fits t -> coin_inputs t = Ok l -> few l.
Proof.
  intros F E. destruct t as [t|t|t|t|t|t|t|t]; cbn [fits coin_inputs] in *; try (apply ok_inj in E; subst l); try (unfold few; cbn; lia); try (destruct F as (? & ? & ?); assumption).
  - destruct F as (_ & (l' & E' & L) & _). rewrite E' in E. apply ok_inj in E. subst. exact L.
  - destruct F as (_ & _ & L & _). exact L.
  - destruct F as (_ & _ & _ & L & _). exact L.
  - destruct F as (_ & _ & _ & _ & (l' & E' & L) & _). rewrite E' in E. apply ok_inj in E. subst. exact L.
Qed.
Lemma fits_bin t : fits t -> few (blockstake_inputs t).
Proof. intro F. destruct t as [t|t|t|t|t|t|t|t]; cbn [fits blockstake_inputs] in *; try (unfold few; cbn; lia). destruct F as (_ & _ & L & _). exact L. Qed.
Lemma in_requests_lt H mk l : forall i qs q, in_requests H mk i l = Ok qs -> In q qs -> exists j, (j < i + length l)%nat /\ q_cb q = mk j.
Proof.
  induction l as [|x l IH]; intros i qs q E I; cbn in E.
  - apply ok_inj in E. subst qs. destruct I.
  - apply bind_ok in E as (a & _ & E). apply bind_ok in E as (r & Er & E). apply ok_inj in E. subst qs. cbn [length].
    apply in_app_iff in I as [I|I].
    + apply in_map_iff in I as (y & <- & _). exists i. split; [lia | reflexivity].
    + destruct (IH _ _ _ Er I) as (j & J & Q). exists j. split; [lia | exact Q].
Qed.
Lemma key_in H primary ks u k : wallet_key H primary ks u = Some k -> exists a, In (a, k) ks.
Proof.
  unfold wallet_key. destruct (uh_str H u) as [a|]; [|discriminate]. unfold key_pair_get.
  assert (G : forall a, kfind a ks = Some k -> exists b, In (b, k) ks).
  { clear. intro a. induction ks as [|[b x] l IH]; [easy|]. cbn. destruct (listN_eqb a b); [intro K; injection K as <-; exists b; now left|intro K; destruct (IH K) as (c & C); exists c; now right]. }
  destruct (listN_eqb (firstn 2 a) (s2b "00")); apply G.
Qed.
Lemma ff_extras_fit f k : small_key k -> Forall fits_extra (ff_extras f k).
Proof. intro S. unfold ff_extras. destruct f; try match goal with |- context [match ?o with Some _ => _ | None => _ end] => destruct o end; repeat (apply Forall_cons; [first [exact S | exact I]|]); apply Forall_nil. Qed.

(** Signing a transaction that fits into its encoding does not fail. *)
Theorem C53_works_partial : forall H sign primary ks, (forall k h, length (sign k h) = 64%nat) -> hash_ok H -> wallet_ok H primary ks -> Forall (fun k => small_key (snd k)) ks ->
  forall known mc submit t, fits t -> is_legacy t = false -> snd (mint_prepare mc (set_cin t (attach known))) = Ok tt ->
  let p := prepared known mc t in
  is_ok (requests H p) = true -> own_keys_ok H p -> no_clash H primary ks p ->
  exists t' r, transaction_sign H sign primary ks known mc submit t = (t', Ok r).
Proof.
  intros H sign primary ks S64 HH WO SK known mc submit t F LG MP p RQ OK NC.
  apply (C53_does_not_fail_partial H sign primary ks S64 HH WO known mc submit t LG MP); [|exact RQ|exact OK|exact NC|].
  - destruct t as [t|t|t|t|t|t|t|t]; try reflexivity; cbn [fits coin_inputs] in *; [destruct F as (_ & (l & -> & _) & _)|destruct F as (_ & _ & _ & _ & (l & -> & _) & _)]; reflexivity.
  - intros qs q k E I K. fold p. assert (Fp : fits p) by apply (prepared_fits known mc t F). apply sig_input_there; [exact Fp|].
    destruct (key_in _ _ _ _ _ K) as (a & Ik). rewrite Forall_forall in SK. specialize (SK _ Ik). cbn [snd] in SK.
    assert (X : Forall fits_extra (match get_ff p (q_cb q) with Some f => ff_extras f k | None => [] end)) by (destruct (get_ff p (q_cb q)); [apply ff_extras_fit; exact SK|constructor]).
    apply requests_inv in E as (l & ra & rb & rc & El & Ea & Eb & Ec & ->). pose proof (fits_cin _ _ Fp El) as Fl. pose proof (fits_bin _ Fp) as Fb. unfold few in Fl, Fb.
    unfold q_extras. apply in_app_or in I as [I|I]; [|apply in_app_or in I as [I|I]].
    + destruct (in_requests_lt _ _ _ _ _ _ Ea I) as (j & J & Q). rewrite Q in *. constructor; [unfold fits_extra, u64; lia|exact X].
    + destruct (in_requests_lt _ _ _ _ _ _ Eb I) as (j & J & Q). rewrite map_length in J. rewrite Q in *. constructor; [unfold fits_extra, u64; fold p in J; lia|exact X].
    + destruct (own_requests_cb _ _ _ _ Ec I) as [Q|Q]; rewrite Q in *; [exact X|]. constructor; [exact Logic.I|constructor].
Qed.
Print Assumptions C53_works_partial.
Example C53_ex_works : fits ex_three /\ Forall (fun k => small_key (snd k)) ex_ks.
Proof.
  split; [|repeat (constructor; [vm_compute; repeat constructor|]); constructor]. unfold ex_three. cbn [fits].
  assert (F : forall A (l : list A), (length l <= 83)%nat -> few l) by (intros A l X; unfold few; lia).
  split; [reflexivity|]. split; [apply F; vm_compute; repeat constructor|]. split; [apply F; vm_compute; repeat constructor|]. split; [apply F; vm_compute; repeat constructor|]. split; [apply F; vm_compute; repeat constructor|].
  split; [repeat constructor|]. split; [repeat constructor|]. split; [apply F; vm_compute; repeat constructor|]. split; [repeat constructor|]. apply F; vm_compute; repeat constructor.
Qed.
