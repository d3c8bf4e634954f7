(** More about the JSON form: signatures lost, serialisation, dispatch, limits. *)
From Verif Require Import Base BaseFacts Encoders EncodersFacts Currency Primitive Types Conditions Spec_Types TypesFacts TypesFacts2 ConditionFacts ConditionFacts2
  Fulfillments Spec_Fulfil FulfilFacts FulfilFacts2 ThreeBotTypes Txn Spec_Txn TxnJson Spec_Json JsonFacts JsonFacts2 JsonFacts3.
From Coq Require Import ZifyBool ZifyNat ZifyN.
Ltac Zify.zify_post_hook ::= Z.div_mod_to_equations.

(** ** Signatures of the transaction itself come back with a length prefix *)
Lemma sig_lost s : array64 s -> exists b x, bsig_riv s = Ok b /\ bsig_riv (read_sig s) = Ok (x :: b).
Proof.
  intros (b & -> & L & W). exists b, 128. split; [reflexivity|]. unfold read_sig, sig_bytes, bsig_riv.
  rewrite riv_slice_spec. unfold lenN. rewrite L. reflexivity.
Qed.
Lemma data_lost H ip t d d' : printable ip t -> all_signed t -> loses_signature t = true ->
  data_bytes H t = Ok d -> data_bytes H (read_back t) = Ok d' -> (length d < length d')%nat.
Proof.
  intros P S0 X E E'. destruct t as [t|t|t|t|t|t|t|t]; try discriminate X; cbn [printable all_signed] in *; cbn [read_back data_bytes] in *.
  - cbn [r_pk r_sig r_fee r_cin r_refund opk read_fee fee] in E'. destruct P as (_ & _ & _ & N & P & _), S0 as [S1 S2].
    destruct (sig_lost _ S2) as (b & x & Eb & Ex). rewrite Eb in E. rewrite Ex in E'.
    destruct (r_cin t) as [ci|]; [|congruence]. cbn [olist ins_riv] in *. rewrite out_riv_read in E'. rewrite (proj2 (cin_enc _ S1 P)) in E'.
    apply rapp_ok in E as (d1 & d2 & E1 & E & ->). apply rapp_ok in E as (d3 & d4 & E2 & E & ->). apply ok_inj in E2. subst d3.
    apply rapp_ok in E' as (d1' & d2' & E1' & E' & ->). apply rapp_ok in E' as (d3' & d4' & E2' & E' & ->). apply ok_inj in E2'. subst d3'.
    rewrite E1 in E1'. apply ok_inj in E1'. subst d1'. rewrite E in E'. apply ok_inj in E'. subst d4'. rewrite !app_length. cbn [length]. lia.
  - cbn [u_id u_addr_add u_addr_del u_name_add u_name_del u_months u_cin u_fee u_refund u_sig read_fee fee] in E'.
    destruct P as (_ & _ & _ & _ & _ & P & _), S0 as [S1 S2].
    destruct (sig_lost _ S2) as (b & x & Eb & Ex). rewrite Eb in E. rewrite Ex in E'.
    rewrite (proj2 (cin_enc _ S1 P)), maybe_read, is_some_map in E'.
    rewrite <- !rapp_assoc in E, E'.
    apply rapp_ok in E as (d1 & d2 & E1 & E & ->). apply ok_inj in E. subst d2.
    apply rapp_ok in E' as (d1' & d2' & E1' & E' & ->). apply ok_inj in E'. subst d2'.
    rewrite E1 in E1'. apply ok_inj in E1'. subst d1'. rewrite !app_length. cbn [length]. lia.
  - cbn [n_sender n_receiver n_names n_fee n_cin n_refund n_ssig n_rsig read_fee fee] in E'.
    destruct P as (_ & _ & N & P & _), S0 as (S1 & S2 & S3).
    destruct (sig_lost _ S2) as (b & x & Eb & Ex). destruct (sig_lost _ S3) as (b2 & x2 & Eb2 & Ex2). rewrite Eb, Eb2 in E. rewrite Ex, Ex2 in E'.
    destruct (n_cin t) as [ci|]; [|congruence]. cbn [olist ins_riv] in *. rewrite maybe_read, is_some_map in E'. rewrite (proj2 (cin_enc _ S1 P)) in E'.
    apply rapp_ok in E as (d1 & d2 & E1 & E & ->). apply rapp_ok in E as (d3 & d4 & E2 & E & ->). apply ok_inj in E2. subst d3.
    apply rapp_ok in E as (d5 & d6 & E3 & E & ->). apply rapp_ok in E as (d7 & d8 & E4 & E & ->). apply ok_inj in E4. subst d7.
    apply rapp_ok in E' as (d1' & d2' & E1' & E' & ->). apply rapp_ok in E' as (d3' & d4' & E2' & E' & ->). apply ok_inj in E2'. subst d3'.
    apply rapp_ok in E' as (d5' & d6' & E3' & E' & ->). apply rapp_ok in E' as (d7' & d8' & E4' & E' & ->). apply ok_inj in E4'. subst d7'.
    rewrite E1 in E1'. apply ok_inj in E1'. subst d1'. rewrite E3 in E3'. apply ok_inj in E3'. subst d5'. rewrite E in E'. apply ok_inj in E'. subst d8'.
    rewrite !app_length. cbn [length]. lia.
Qed.
Lemma encode_lost H ip t e : printable ip t -> all_signed t -> loses_signature t = true ->
  (binary_encode H t = Ok e -> binary_encode H (read_back t) <> Ok e) /\ (id_input H t = Ok e -> id_input H (read_back t) <> Ok e).
Proof.
  intros P S0 X.
  assert (A : forall h, Ok h +++ data_bytes H t = Ok e -> Ok h +++ data_bytes H (read_back t) <> Ok e).
  { intros h E E'. apply rapp_ok in E as (a & d & Ea & E & ->). apply ok_inj in Ea. subst a.
    apply rapp_ok in E' as (a & d' & Ea & E' & F). apply ok_inj in Ea. subst a.
    pose proof (data_lost H ip t d d' P S0 X E E'). apply app_inv_head in F. subst. lia. }
  destruct t as [t|t|t|t|t|t|t|t]; try discriminate X; split; apply A.
Qed.

(** ** Serialisation *)
Lemma jser_ff f : jserialisable (ff_json f) = true.
Proof.
  destruct f as [p s|p s [x|]|ps]; try reflexivity. cbn. rewrite !andb_true_r.
  apply forallb_forall. intros j I. apply in_map_iff in I as (q & <- & _). reflexivity.
Qed.
Lemma jser_in i : jserialisable (in_json i) = true.
Proof. unfold in_json. cbn [jserialisable forallb snd]. rewrite jser_ff. reflexivity. Qed.
Lemma jser_ins l : jserialisable (JArr (map in_json l)) = true.
Proof. cbn [jserialisable]. apply forallb_forall. intros j I. apply in_map_iff in I as (q & <- & _). apply jser_in. Qed.
Lemma jser_map {A} (f : A -> json) l : (forall a, jserialisable (f a) = true) -> jserialisable (JArr (map f l)) = true.
Proof. intro G. cbn [jserialisable]. apply forallb_forall. intros j I. apply in_map_iff in I as (q & <- & _). apply G. Qed.
Lemma jser_cond H c : forall j, cond_json H c = Ok j -> jserialisable j = true.
Proof.
  induction c as [|u|se re h l|l c IH|us n]; intros j E; cbn [cond_json] in E;
  repeat match type of E with bind _ _ = _ => apply bind_ok in E as (? & ? & E) end; apply ok_inj in E; subst j; try reflexivity.
  - cbn [jserialisable forallb snd andb]. rewrite (IH _ H0). reflexivity.
  - cbn [jserialisable forallb snd andb]. rewrite !andb_true_r. apply forallb_forall. intros j I. apply in_map_iff in I as (q & <- & _). reflexivity.
Qed.
Lemma jser_out H o j : out_json H o = Ok j -> jserialisable j = true.
Proof.
  unfold out_json. intro E. apply bind_ok in E as (c & Ec & E). apply ok_inj in E. subst j. cbn [jserialisable forallb snd amt_json andb].
  rewrite (jser_cond _ _ _ Ec). reflexivity.
Qed.
Lemma jser_outs H l j : outs_json H l = Ok j -> jserialisable j = true.
Proof.
  unfold outs_json. intro E. apply bind_ok in E as (js & Ec & E). apply ok_inj in E. subst j. cbn [jserialisable]. apply forallb_forall.
  revert js Ec. induction l as [|o l IH]; intros js Ec; cbn in Ec.
  - apply ok_inj in Ec. subst. intros x [].
  - apply bind_ok in Ec as (y & Ey & Ec). apply bind_ok in Ec as (ys & Eys & Ec). apply ok_inj in Ec. subst js. intros x [<-|I]; [exact (jser_out _ _ _ Ey) | exact (IH _ Eys _ I)].
Qed.
Definition jkeys_ok (l : list (string * json)) : bool := forallb (fun kv => jserialisable (snd kv)) l.
Lemma jkeys_app a b : jkeys_ok (a ++ b) = jkeys_ok a && jkeys_ok b.
Proof. apply forallb_app. Qed.
Lemma jser_refund H o l : refund_json H o = Ok l -> jkeys_ok l = true.
Proof.
  destruct o as [x|]; cbn [refund_json]; intro E; [|apply ok_inj in E; subst; reflexivity].
  apply bind_ok in E as (j & Ej & E). apply ok_inj in E. subst. cbn. rewrite (jser_out _ _ _ Ej). reflexivity.
Qed.
Lemma jser_drop l : jkeys_ok l = true -> jkeys_ok (drop_empty l) = true.
Proof. unfold jkeys_ok, drop_empty. rewrite !forallb_forall. intros G x I. apply filter_In in I as [I _]. auto. Qed.
Lemma jser_opt_list {A} k (f : A -> json) l : (forall a, jserialisable (f a) = true) -> jkeys_ok (opt_list k (map f l)) = true.
Proof. intro G. destruct l as [|a l]; [reflexivity|]. cbn [map opt_list jkeys_ok forallb snd]. rewrite andb_true_r. exact (jser_map f (a :: l) G). Qed.
Lemma jser_opt_dict k l : jkeys_ok l = true -> jkeys_ok (opt_dict k l) = true.
Proof. intro G. destruct l as [|a l]; [reflexivity|]. cbn [opt_dict jkeys_ok forallb snd]. rewrite andb_true_r. exact G. Qed.
Lemma data_ser H ip_str t d : data_json H ip_str t = Ok d -> jserialisable d = true.
Proof.
  destruct t as [t|t|t|t|t|t|t|t]; cbn [data_json]; intro E;
  repeat match type of E with bind _ _ = _ => let a := fresh "a" in let A := fresh "A" in apply bind_ok in E as (a & A & E) end; apply ok_inj in E; subst d;
  match goal with |- jserialisable (JObj ?l) = true => change (jkeys_ok l = true) end.
  - apply jser_drop. cbn [jkeys_ok forallb snd]. rewrite !jser_ins, (jser_outs _ _ _ A), (jser_outs _ _ _ A0), (jser_map amt_json) by reflexivity. reflexivity.
  - cbn [jkeys_ok forallb snd]. rewrite jser_ff, (jser_map amt_json) by reflexivity.
    assert (G : jserialisable (snd a) = true).
    { destruct (m_new t); apply bind_ok in A as (j & Ej & A); apply ok_inj in A; subst a; cbn [snd]; [exact (jser_cond _ _ _ Ej) | exact (jser_outs _ _ _ Ej)]. }
    rewrite G. reflexivity.
  - rewrite jkeys_app, (jser_refund _ _ _ A). cbn [jkeys_ok forallb snd]. rewrite jser_ins. reflexivity.
  - reflexivity.
  - rewrite jkeys_app, (jser_refund _ _ _ A3). cbn [jkeys_ok forallb snd]. rewrite jser_ins. reflexivity.
  - rewrite !jkeys_app, (jser_refund _ _ _ A1), !jser_opt_list by reflexivity. cbn [jkeys_ok forallb snd]. rewrite jser_ins. reflexivity.
  - rewrite !jkeys_app, (jser_refund _ _ _ A), !jser_opt_dict by (rewrite jkeys_app, !jser_opt_list by reflexivity; reflexivity).
    cbn [jkeys_ok forallb snd]. rewrite jser_ins. reflexivity.
  - rewrite jkeys_app, (jser_refund _ _ _ A0). cbn [jkeys_ok forallb snd]. rewrite jser_ins, (jser_map bn_json) by reflexivity. reflexivity.
Qed.
Lemma txn_not_ser H ip_str t j : txn_json H ip_str t = Ok j -> jserialisable j = false.
Proof. unfold txn_json. intro E. apply bind_ok in E as (d & _ & E). apply ok_inj in E. subst j. reflexivity. Qed.

(** ** Dispatch *)
Lemma rmap_ok {A B} (f : A -> B) r y : rmap f r = Ok y -> exists x, r = Ok x /\ y = f x.
Proof. destruct r; cbn; intro E; [apply ok_inj in E; subst; eauto | discriminate]. Qed.
Lemma mintdef_kind H now d m : mintdef_from_json H now d = Ok m -> exists c, m_new m = MCond c.
Proof. unfold mintdef_from_json. intro E. repeat match type of E with bind _ _ = _ => apply bind_ok in E as (? & ? & E) end. apply ok_inj in E. subst. cbn. eauto. Qed.
Lemma mintcoins_kind H now d m : mintcoins_from_json H now d = Ok m -> exists c, m_new m = MCoins c.
Proof. unfold mintcoins_from_json. intro E. repeat match type of E with bind _ _ = _ => apply bind_ok in E as (? & ? & E) end. apply ok_inj in E. subst. cbn. eauto. Qed.
Lemma std_kind H now d m : std_from_json H now d = Ok m -> s_legacy m = false.
Proof. unfold std_from_json. intro E. repeat match type of E with bind _ _ = _ => apply bind_ok in E as (? & ? & E) end. apply ok_inj in E. subst. reflexivity. Qed.
Lemma of_version H ip now v d r : txn_of_version H ip now v d = Some r -> In v known_versions /\ v <> 0%Z /\
  forall t, r = Ok t -> version t = v /\ is_legacy t = false.
Proof.
  unfold txn_of_version. intro E.
  repeat match type of E with (if (v =? ?k)%Z then _ else _) = _ => let V := fresh "V" in destruct (v =? k)%Z eqn:V;
    [apply Z.eqb_eq in V; subst v; apply (f_equal (fun o => match o with Some x => x | None => r end)) in E; cbn iota in E; subst r;
     split; [cbn; tauto | split; [lia |]]; intros t E; apply rmap_ok in E as (x & E & ->) |] end; try discriminate; try (split; reflexivity).
  - split; [reflexivity|]. exact (std_kind _ _ _ _ E).
  - destruct (mintdef_kind _ _ _ _ E) as [c C]. cbn. rewrite C. auto.
  - destruct (mintcoins_kind _ _ _ _ E) as [c C]. cbn. rewrite C. auto.
Qed.
Lemma of_version_none H ip now v d : ~ In v known_versions -> txn_of_version H ip now v d = None.
Proof. intro N. destruct (txn_of_version H ip now v d) eqn:E; [|reflexivity]. apply of_version in E as [I _]. contradiction. Qed.
Lemma legacy_kind H now d t : legacy_from_json H now d = Ok t -> version t = 1%Z /\ is_legacy t = true.
Proof. unfold legacy_from_json. intro E. repeat match type of E with bind _ _ = _ => apply bind_ok in E as (? & ? & E) end. apply ok_inj in E. subst. auto. Qed.
