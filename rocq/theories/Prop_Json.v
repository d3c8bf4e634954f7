(** Theorems about the JSON form of transactions: C28 (round trips), C29 (serialisation), C52 (dispatch), C54 (arbitrary data),
    the parsing half of C42 and C41, and C58 (equality). *)
From Verif Require Import Base BaseFacts Encoders Currency Primitive Types Conditions Fulfillments ThreeBotTypes Txn TxnSign TxnJson
  Spec_Types Spec_Fulfil Spec_Txn Spec_Sign Spec_ThreeBot Spec_Json TypesFacts TypesFacts2 ConditionFacts ConditionFacts2 FulfilFacts TxnFacts3 TxnFacts7 JsonFacts JsonFacts2 JsonFacts3 JsonFacts4
  Prop_Fulfil Prop_Txn Prop_Sign Prop_ThreeBot.

(** ** C28 *)
(** What a printed transaction is parsed to: [read_back] in Spec_Json.v says what is kept and what is lost. *)
Theorem C28_read_back : forall H ip_parse ip_str now, hash_ok H -> ip_library ip_parse ip_str ->
  forall t, printable ip_parse t -> exists j, txn_json H ip_str t = Ok j /\ txn_from_json H ip_parse now j = Ok (read_back t).
Proof. intros H ip is_ now HH L. exact (read_back_ok H ip is_ now HH L). Qed.
Print Assumptions C28_read_back.
(** The version and the content (what is spent, what is paid to whom, fees, data, records, ...) are kept. *)
Theorem C28_content : forall H ip_parse ip_str now, hash_ok H -> ip_library ip_parse ip_str ->
  forall t j u, printable ip_parse t -> txn_json H ip_str t = Ok j -> txn_from_json H ip_parse now j = Ok u ->
  version u = version t /\ content_of u = content_of t.
Proof.
  intros H ip is_ now HH L t j u P E F. destruct (C28_read_back H ip is_ now HH L t P) as (j' & E' & F').
  rewrite E in E'. apply ok_inj in E'. subst j'. rewrite F in F'. apply ok_inj in F'. subst u. split; [apply version_read_back | apply content_read_back].
Qed.
Print Assumptions C28_content.
(** The data to sign are kept, in any state of signing, for every input and key. *)
Theorem C28_signature_data : forall H ip_parse ip_str now, hash_ok H -> ip_library ip_parse ip_str ->
  forall t j u xs, printable ip_parse t -> is_legacy t = false -> txn_json H ip_str t = Ok j -> txn_from_json H ip_parse now j = Ok u ->
  sig_input H u xs = sig_input H t xs.
Proof.
  intros H ip is_ now HH L t j u xs P G E F. destruct (C28_read_back H ip is_ now HH L t P) as (j' & E' & F').
  rewrite E in E'. apply ok_inj in E'. subst j'. rewrite F in F'. apply ok_inj in F'. subst u. exact (sig_input_read_back H ip t xs P G).
Qed.
Print Assumptions C28_signature_data.
(** A completely signed transaction keeps its binary encoding and its identifier, except for the versions which keep signatures
    of their own that come back differently. *)
Theorem C28_identity_partial : forall H ip_parse ip_str now, hash_ok H -> ip_library ip_parse ip_str ->
  forall t j u, printable ip_parse t -> all_signed t -> is_legacy t = false -> loses_signature t = false ->
  txn_json H ip_str t = Ok j -> txn_from_json H ip_parse now j = Ok u ->
  binary_encode H u = binary_encode H t /\ id_input H u = id_input H t.
Proof.
  intros H ip is_ now HH L t j u P A G X E F. destruct (C28_read_back H ip is_ now HH L t P) as (j' & E' & F').
  rewrite E in E'. apply ok_inj in E'. subst j'. rewrite F in F'. apply ok_inj in F'. subst u. exact (encode_read_back H ip t P A G X).
Qed.
Print Assumptions C28_identity_partial.
(** Those versions (record update, name transfer, address registration) never keep them, once signed. *)
Theorem C28_own_signature_refuted : forall H ip_parse ip_str now, hash_ok H -> ip_library ip_parse ip_str ->
  forall t j u e, printable ip_parse t -> all_signed t -> loses_signature t = true ->
  txn_json H ip_str t = Ok j -> txn_from_json H ip_parse now j = Ok u ->
  (binary_encode H t = Ok e -> binary_encode H u <> Ok e) /\ (id_input H t = Ok e -> id_input H u <> Ok e).
Proof.
  intros H ip is_ now HH L t j u e P A X E F. destruct (C28_read_back H ip is_ now HH L t P) as (j' & E' & F').
  rewrite E in E'. apply ok_inj in E'. subst j'. rewrite F in F'. apply ok_inj in F'. subst u. exact (encode_lost H ip t e P A X).
Qed.
Print Assumptions C28_own_signature_refuted.

(** The example transactions of Prop_Txn.v meet the hypotheses. *)
Lemma ex_print_in : print_in ex_i.
Proof. split; [apply hash32_b; reflexivity|]. split; [left; apply hash32_b; reflexivity | left; split; [reflexivity | repeat constructor]]. Qed.
Lemma ex_signed_in : signed_in ex_i.
Proof. split; [apply hash32_b; reflexivity | split; [reflexivity | repeat constructor]]. Qed.
Lemma ex_print_uh x : x < 256 -> network_cond (CUnlockHash (mkuh 1 (repeat x 32))).
Proof.
  intro X. split; [cbn; tauto|]. split; [|intro D; discriminate D]. split; [reflexivity|]. cbn [uh_hash]. apply Forall_forall. intros y I. apply repeat_spec in I. subst. exact X.
Qed.
Lemma ex_print_out : print_out ex_o.
Proof. split; [reflexivity | apply ex_print_uh; reflexivity]. Qed.
Lemma ex_print_refund : print_refund (Some ex_o).
Proof. intros x E. injection E as <-. apply ex_print_out. Qed.
Definition exj_name : pystr := s2b "threebot.example".
Definition exj_bot : txn := T144 (mkbot [mkna 1 [192; 168; 0; 1]] [exj_name] 12 (Some 100) [ex_i] None (Some (ex_key 7)) (Some (true, repeat 1 64))).
Definition exj_upd : txn := T145 (mkupd 3 [] [mkna 1 [192; 168; 0; 1]] [exj_name] [] 2 (Some 100) [ex_i] (Some ex_o) (Some (true, repeat 1 64)) None).
Definition exj_name_txn : txn := T146 (mkname 3 4 [exj_name] (Some 100) (Some [ex_i]) (Some ex_o) (Some (true, repeat 1 64)) (Some (true, repeat 2 64)) None None).
Definition ex_json_txns : list txn := [ex_std; ex_mdef; ex_mcoin; ex_conv; ex_gen; ex_reg; exj_bot; exj_upd; exj_name_txn].
Ltac printable_tac := repeat match goal with
  | |- Forall signed_in _ => repeat (constructor; try apply ex_signed_in)
  | |- Forall _ _ => constructor
  | |- print_in ex_i => apply ex_print_in
  | |- print_refund (Some ex_o) => apply ex_print_refund
  | |- print_refund None => intros ? ?; discriminate
  | |- print_amount _ => reflexivity
  | |- print_out ex_o => apply ex_print_out
  | |- network_cond (CUnlockHash (mkuh 1 (repeat _ 32))) => apply ex_print_uh; reflexivity
  | |- network_cond (o_cond ex_o) => apply ex_print_uh; reflexivity
  | |- wf_bytes _ => repeat constructor
  | |- key32 _ => apply hash32_b; reflexivity
  | |- hash32 _ => apply hash32_b; reflexivity
  | |- array64 _ => eexists; split; [reflexivity | split; [reflexivity | repeat constructor]]
  | |- print_sig _ => left; split; [reflexivity | repeat constructor]
  | |- sig64 _ => split; [reflexivity | repeat constructor]
  | |- address _ => split; [cbn; tauto | split; [apply hash32_b; reflexivity | let D := fresh in intro D; discriminate D]]
  | |- accepted_name _ => exists (Some exj_name); vm_compute; reflexivity
  | |- Some _ <> None => discriminate
  | |- _ /\ _ => split
  | |- True => exact I
  end.
Lemma ex_accepted : accepted_address ex_ip_parse (mkna 1 [192; 168; 0; 1]).
Proof. exists (Some (s2b "192.168.0.1")). vm_compute. reflexivity. Qed.
Example C28_ex_hypotheses : Forall (fun t => printable ex_ip_parse t /\ all_signed t /\ is_legacy t = false) ex_json_txns.
Proof.
  repeat apply Forall_cons; try apply Forall_nil; (split; [|split; [|reflexivity]]);
  cbn [printable all_signed ex_std ex_mdef ex_mcoin ex_conv ex_gen ex_reg exj_bot exj_upd exj_name_txn s_cin s_cout s_bin s_bout s_fees s_data m_nonce m_ff m_new m_fees m_data c_addr c_value c_fee c_cin c_refund
    g_addr g_value g_fee g_block g_txid r_pk r_sig r_fee r_cin r_refund b_addrs b_names b_fee b_cin b_refund b_pk b_sig u_addr_add u_addr_del u_name_add u_name_del u_fee u_cin u_refund u_sig
    n_names n_fee n_cin n_refund n_ssig n_rsig olist opk fee]; printable_tac.
  all: try reflexivity; try apply ex_accepted; try (cbn; lia).
  - split; [reflexivity|]. split; [lia|]. apply (ex_print_uh 2). reflexivity.
  - intros f E. injection E as <-. split; [left; apply hash32_b; reflexivity | left; split; [reflexivity | repeat constructor]].
  - eexists. split; [reflexivity|]. split; [apply hash32_b; reflexivity | split; [reflexivity | repeat constructor]].
  - intros f E. injection E as <-. constructor; [|constructor]. split; [left; apply hash32_b; reflexivity | left; split; [reflexivity | repeat constructor]].
  - eexists. split; [reflexivity|]. constructor; [|constructor]. split; [apply hash32_b; reflexivity | left; split; [reflexivity | repeat constructor]].
  - eexists. eexists. split; [reflexivity|]. left. split; [reflexivity | repeat constructor].
Qed.
(** They all print, and come back with the content they had; the ones with signatures of their own encode differently. *)
Example C28_ex : forallb (fun t => match txn_json ex_H2 ex_ip_str t with
  | Ok j => match txn_from_json ex_H2 ex_ip_parse 0 j with
            | Ok u => match binary_encode ex_H2 t, binary_encode ex_H2 u with Ok a, Ok b => Bool.eqb (listN_eqb a b) (negb (loses_signature t)) | _, _ => false end
            | Err _ => false end
  | Err _ => false end) ex_json_txns = true.
Proof. vm_compute. reflexivity. Qed.

Lemma ex_print_unsigned : print_in (ex_inp 0 (CUnlockHash (ex_key_uh 7))).
Proof. split; [apply hash32_b; reflexivity | split; right; reflexivity]. Qed.
(** The signing state is not kept: an input nobody has signed comes back as one with a signature, so that the transaction
    counts as completely signed; and its encoding changes. *)
Theorem C28_unsigned_refuted : exists t j u a b, is_legacy t = false /\ printable ex_ip_parse t /\
  txn_json ex_H2 ex_ip_str t = Ok j /\ txn_from_json ex_H2 ex_ip_parse 0 j = Ok u /\
  let o := fun _ : bytes => Some (mkout 5 (CUnlockHash (ex_key_uh 7)) []) in
  t_is_fulfilled (set_cin t (attach o)) = Ok false /\ t_is_fulfilled (set_cin u (attach o)) = Ok true /\
  binary_encode ex_H2 t = Ok a /\ binary_encode ex_H2 u = Ok b /\ a <> b.
Proof.
  exists (T1 (mkstd false [ex_inp 0 (CUnlockHash (ex_key_uh 7))] [] [] [] [1] [])). do 4 eexists.
  split; [reflexivity|]. split.
  { cbn [printable s_cin s_cout s_bin s_bout s_fees s_data]. printable_tac; try apply ex_print_unsigned; repeat constructor. }
  split; [vm_compute; reflexivity|]. split; [vm_compute; reflexivity|].
  split; [vm_compute; reflexivity|]. split; [vm_compute; reflexivity|].
  split; [vm_compute; reflexivity|]. split; [vm_compute; reflexivity|]. vm_compute. discriminate.
Qed.
Print Assumptions C28_unsigned_refuted.
(** With consequences: a record update which its 3Bot has yet to sign, exchanged as JSON, is submitted by the wallet that signs
    its inputs, without the 3Bot's signature; the one not exchanged as JSON is not. *)
Theorem C28_submitted_unsigned_refuted : exists t j u u', printable ex_ip_parse (T145 t) /\ u_sig t = None /\
  txn_json ex_H2 ex_ip_str (T145 t) = Ok j /\ txn_from_json ex_H2 ex_ip_parse 0 j = Ok u /\
  let o := fun _ : bytes => Some (mkout 5 (CUnlockHash (ex_key_uh 7)) []) in
  snd (transaction_sign ex_H2 ex_sign (ex_addr 7) ex_ks o (Err RuntimeError) true (T145 t)) = Ok (true, false) /\
  transaction_sign ex_H2 ex_sign (ex_addr 7) ex_ks o (Err RuntimeError) true u = (T145 u', Ok (true, true)) /\ sig_bytes (u_sig u') = [].
Proof.
  exists (mkupd 3 [] [] [exj_name] [] 2 (Some 100) [ex_inp 0 (CUnlockHash (ex_key_uh 7))] None None None). do 3 eexists.
  split.
  { cbn [printable u_addr_add u_addr_del u_name_add u_name_del u_fee u_cin u_refund u_sig fee]. printable_tac; try apply ex_print_unsigned; try (right; reflexivity). }
  split; [reflexivity|].
  split; [vm_compute; reflexivity|]. split; [vm_compute; reflexivity|]. split; [vm_compute; reflexivity|]. split; vm_compute; reflexivity.
Qed.
Print Assumptions C28_submitted_unsigned_refuted.
(** A 3Bot registration without its key or without its signature has no JSON at all. *)
Theorem C28_registration_refuted : forall H ip_str b, b_pk b = None \/ b_sig b = None -> txn_json H ip_str (T144 b) = Err AttributeError.
Proof.
  intros H is_ b [E|E]; unfold txn_json; cbn [data_json]; rewrite E; [reflexivity|]. destruct (b_pk b); reflexivity.
Qed.
Print Assumptions C28_registration_refuted.
(** A legacy transaction comes back as one of version 1: with the same content, but another encoding. *)
Theorem C28_legacy_refuted : forall H ip_parse ip_str now, hash_ok H -> ip_library ip_parse ip_str ->
  forall t j u, printable ip_parse t -> is_legacy t = true -> txn_json H ip_str t = Ok j -> txn_from_json H ip_parse now j = Ok u ->
  is_legacy u = false /\ forall e, binary_encode H t = Ok e -> binary_encode H u <> Ok e.
Proof.
  intros H ip is_ now HH L t j u P G E F. destruct (C28_read_back H ip is_ now HH L t P) as (j' & E' & F').
  rewrite E in E'. apply ok_inj in E'. subst j'. rewrite F in F'. apply ok_inj in F'. subst u.
  destruct t as [t|t|t|t|t|t|t|t]; try discriminate G. cbn [is_legacy read_back s_legacy] in *. split; [reflexivity|].
  intros e X Y. unfold binary_encode in X, Y. rewrite G in X. cbn [s_legacy] in Y.
  apply rapp_ok in X as (a & d & Ea & _ & ->). apply ok_inj in Ea. subst a.
  apply rapp_ok in Y as (a & d' & Ea & _ & Z). apply ok_inj in Ea. subst a. discriminate Z.
Qed.
Print Assumptions C28_legacy_refuted.

(** ** C29 *)
(** The fields of every transaction are plain JSON values ... *)
Theorem C29_data : forall H ip_str t d, data_json H ip_str t = Ok d -> jserialisable d = true.
Proof. exact data_ser. Qed.
Print Assumptions C29_data.
(** ... but the version is not: the JSON of no transaction can be serialised. *)
Theorem C29_refuted : forall H ip_str t j, txn_json H ip_str t = Ok j -> jserialisable j = false.
Proof. exact txn_not_ser. Qed.
Print Assumptions C29_refuted.
Example C29_ex : forallb (fun t => is_ok (txn_json ex_H2 ex_ip_str t) && is_ok (data_json ex_H2 ex_ip_str t)) ex_json_txns = true.
Proof. vm_compute. reflexivity. Qed.
(** Replaced by its number, nothing else stands in the way. *)
Theorem C29_version_is_all : forall H ip_str t j, txn_json H ip_str t = Ok j ->
  exists l, j = JObj (("version"%string, JVersion (version t)) :: l) /\ jserialisable (JObj (("version"%string, JNum (version t)) :: l)) = true.
Proof.
  intros H is_ t j E. unfold txn_json in E. apply bind_ok in E as (d & Ed & E). apply ok_inj in E. subst j. eexists. split; [reflexivity|].
  cbn [jserialisable forallb snd andb]. destruct (jtruthy d); [|reflexivity]. cbn [forallb snd]. rewrite (data_ser _ _ _ _ Ed). reflexivity.
Qed.
Print Assumptions C29_version_is_all.

(** ** C52 *)
(** A transaction is parsed to the type of its version. *)
Theorem C52_dispatch : forall H ip_parse now l t, txn_from_json H ip_parse now (JObj l) = Ok t ->
  exists w v, jfind "version" l = Some w /\ version_of w = Some v /\ In v known_versions /\
  if is_legacy t then v = 0%Z /\ version t = 1%Z else version t = v.
Proof.
  intros H ip now l t E. unfold txn_from_json in E. cbn [jget_d bind] in E.
  destruct (jfind "version" l) as [w|]; cbn [bind] in E; [|destruct (jfind "data" l); discriminate E].
  exists w. destruct (version_of w) as [v|]; [|discriminate E]. exists v. split; [reflexivity|]. split; [reflexivity|].
  destruct (v =? 0)%Z eqn:Z.
  - apply Z.eqb_eq in Z. subst v. apply legacy_kind in E as [V G]. rewrite G. split; [cbn; tauto | auto].
  - apply bind_ok in E as (d & _ & E). destruct (txn_of_version H ip now v d) as [r|] eqn:R; [|discriminate E].
    apply of_version in R as (I & _ & R). destruct (R t E) as [V G]. rewrite G. auto.
Qed.
Print Assumptions C52_dispatch.
(** Every other version number is rejected, and so is a missing version. *)
Theorem C52_unknown : forall H ip_parse now l, (forall w v, jfind "version" l = Some w -> version_of w = Some v -> ~ In v known_versions) ->
  match txn_from_json H ip_parse now (JObj l) with Ok _ => False | Err e => e = UnknownTransactionVersion end.
Proof.
  intros H ip now l N. unfold txn_from_json. cbn [jget_d bind].
  assert (A : forall v, ~ In v known_versions -> (if (v =? 0)%Z then legacy_from_json H now (JObj l)
    else do data <- (match jfind "data" l with Some d => Ok d | None => Ok (JObj []) end);
         match txn_of_version H ip now v data with Some r => r | None => Err UnknownTransactionVersion end) = Err UnknownTransactionVersion).
  { intros v U. destruct (v =? 0)%Z eqn:Z; [apply Z.eqb_eq in Z; subst; exfalso; apply U; cbn; tauto|].
    destruct (jfind "data" l); cbn [bind]; rewrite of_version_none by exact U; reflexivity. }
  destruct (jfind "version" l) as [w|]; cbn [bind].
  - destruct (version_of w) as [v|] eqn:V; [|reflexivity]. specialize (N w v eq_refl V). pose proof (A v N) as B. 
    destruct (jfind "data" l); cbn [bind] in *; rewrite B; reflexivity.
  - change (version_of (JNum (-1))) with (Some (-1)%Z). assert (N1 : ~ In (-1)%Z known_versions) by (cbn; lia). pose proof (A _ N1) as B.
    destruct (jfind "data" l); cbn [bind] in *; rewrite B; reflexivity.
Qed.
Print Assumptions C52_unknown.
(** Each of the versions is one for which some JSON is parsed. *)
Theorem C52_all_known : forall v, In v known_versions -> exists l t, jfind "version" l = Some (JNum v) /\
  txn_from_json ex_H2 ex_ip_parse 0 (JObj l) = Ok t /\ (if is_legacy t then 0 else version t)%Z = v.
Proof.
  assert (A : forall t, In t ex_json_txns -> exists l t', jfind "version" l = Some (JNum (version t)) /\
    txn_from_json ex_H2 ex_ip_parse 0 (JObj l) = Ok t' /\ (if is_legacy t' then 0 else version t')%Z = version t).
  { intros t I. exists [("version"%string, JNum (version t)); ("data"%string, match data_json ex_H2 ex_ip_str t with Ok d => d | Err _ => JNull end)].
    cbn in I. repeat destruct I as [<-|I]; try contradiction; eexists; (split; [reflexivity | split; [vm_compute; reflexivity | reflexivity]]). }
  intros v I. cbn [known_versions In] in I.
  destruct I as [<-|[<-|[<-|[<-|[<-|[<-|[<-|[<-|[<-|[<-|[]]]]]]]]]]].
  - exists [("version"%string, JNum 0); ("data"%string, JObj [])]. eexists. split; [reflexivity|]. split; [vm_compute; reflexivity | reflexivity].
  - apply (A ex_std). cbn. tauto.
  - apply (A ex_mdef). cbn. tauto.
  - apply (A ex_mcoin). cbn. tauto.
  - apply (A exj_bot). cbn. tauto.
  - apply (A exj_upd). cbn. tauto.
  - apply (A exj_name_txn). cbn. tauto.
  - apply (A ex_conv). cbn. tauto.
  - apply (A ex_gen). cbn. tauto.
  - apply (A ex_reg). cbn. tauto.
Qed.
Print Assumptions C52_all_known.
Theorem C52_not_a_dictionary : forall H ip_parse now j, (forall l, j <> JObj l) -> txn_from_json H ip_parse now j = Err TypeError.
Proof. intros H ip now j N. destruct j; try reflexivity. destruct (N _ eq_refl). Qed.
Print Assumptions C52_not_a_dictionary.

(** ** C54 *)
(** Assigning data: accepted exactly up to 83 bytes, and kept as given. *)
Theorem C54_setter : forall v b, data_set v = Ok b ->
  (length b <= 83)%nat /\ match v with BVNone => b = [] | BVBytes x => b = x | BVStr s => utf8 s = Ok b | BVData d => b = bd_val d | BVOther => False end.
Proof.
  intros v b E. assert (G : forall x, (do _ <- guard (lenN x <=? 83) ValueError; Ok x) = Ok b -> (length b <= 83)%nat /\ b = x).
  { intros x X. apply bind_ok in X as (u & Gd & X). apply ok_inj in X. subst b. apply guard_ok in Gd. unfold lenN in Gd. split; [apply N.leb_le in Gd; lia | reflexivity]. }
  destruct v as [|s|x|d|]; cbn [data_set] in E.
  - apply ok_inj in E. subst. split; [cbn; lia | reflexivity].
  - apply bind_ok in E as (x & U & E). apply G in E as [L ->]. auto.
  - apply G in E. exact E.
  - apply G in E. exact E.
  - discriminate.
Qed.
Print Assumptions C54_setter.
Theorem C54_setter_accepts : forall b, (length b <= 83)%nat -> data_set (BVBytes b) = Ok b.
Proof. intros b L. unfold data_set, lenN. replace (N.of_nat (length b) <=? 83) with true by (symmetry; apply N.leb_le; lia). reflexivity. Qed.
Print Assumptions C54_setter_accepts.
Theorem C54_setter_refuses : forall b, (83 < length b)%nat -> data_set (BVBytes b) = Err ValueError.
Proof. intros b L. unfold data_set, lenN. replace (N.of_nat (length b) <=? 83) with false by (symmetry; apply N.leb_gt; lia). reflexivity. Qed.
Print Assumptions C54_setter_refuses.
Example C54_ex : data_set (BVStr (s2b "hello")) = Ok (s2b "hello") /\ data_set (BVBytes (repeat 0 84)) = Err ValueError.
Proof. split; reflexivity. Qed.
(** Parsing has no limit. *)
Theorem C54_parsing_refuted : forall n, exists j t, txn_from_json ex_H2 ex_ip_parse 0 j = Ok (T1 t) /\ length (s_data t) = n.
Proof.
  intro n. assert (P : printable ex_ip_parse (T1 (mkstd false [] [] [] [] [] (repeat 7 n)))).
  { cbn. repeat split; try constructor. apply Forall_forall. intros x I. apply repeat_spec in I. subst. reflexivity. }
  destruct (C28_read_back ex_H2 ex_ip_parse ex_ip_str 0%Z ex_H2_ok C43_library _ P) as (j & _ & F). exists j. eexists. split; [exact F|]. cbn. apply repeat_length.
Qed.
Print Assumptions C54_parsing_refuted.

(** ** C42: the limits of 3Bot records do not bind parsed transactions either *)
Theorem C42_parsing_refuted : forall n, exists j t, txn_from_json ex_H2 ex_ip_parse 0 j = Ok (T144 t) /\
  length (b_names t) = n /\ length (b_addrs t) = n /\ b_months t = Z.of_nat n.
Proof.
  intro n. assert (P : printable ex_ip_parse (T144 (mkbot (repeat (mkna 1 [192; 168; 0; 1]) n) (repeat exj_name n) (Z.of_nat n) None [] None (Some (ex_key 7)) (Some (true, repeat 1 64))))).
  { cbn [printable b_addrs b_names b_fee b_cin b_refund b_pk b_sig opk fee]. split; [|split; [|split; [|split; [|split; [|split]]]]].
    - apply Forall_forall. intros x I. apply repeat_spec in I. subst. apply ex_accepted.
    - apply Forall_forall. intros x I. apply repeat_spec in I. subst. exists (Some exj_name). vm_compute. reflexivity.
    - reflexivity.
    - constructor.
    - intros ? ?. discriminate.
    - apply hash32_b. reflexivity.
    - exists true, (repeat 1 64). split; [reflexivity|]. left. split; [reflexivity | repeat constructor]. }
  destruct (C28_read_back ex_H2 ex_ip_parse ex_ip_str 0%Z ex_H2_ok C43_library _ P) as (j & _ & F). exists j. eexists. split; [exact F|].
  cbn [b_names b_addrs b_months]. rewrite !repeat_length. auto.
Qed.
Print Assumptions C42_parsing_refuted.

(** ** C58: equality of transactions *)
(** With identifiers, equality is that of the identifiers (if Python's hashes of the texts do not collide). *)
Theorem C58_ids : forall shash t u a b, (forall x y, shash x = shash y -> x = y) -> hash32 a -> hash32 b ->
  txn_eq shash (t, Some a) (u, Some b) = Ok true <-> a = b.
Proof.
  intros sh t u a b I A B. unfold txn_eq, txn_hash. cbn [snd bind]. split.
  - intro E. apply ok_inj in E. apply Z.eqb_eq in E. apply I in E. rewrite !hash_str_full in E by assumption. apply hex_inj in E; [exact E | apply A | apply B].
  - intros ->. rewrite Z.eqb_refl. reflexivity.
Qed.
Print Assumptions C58_ids.
(** Without, comparing raises NameError. *)
Theorem C58_no_id_refuted : forall shash t y, txn_eq shash (t, None) y = Err NameError.
Proof. reflexivity. Qed.
Print Assumptions C58_no_id_refuted.
(** Any two transactions parsed without identifier are equal, and hash to the same value: collected in a set, only the first
    is kept. *)
Theorem C58_parsed_refuted : forall H ip_parse now shash i j x y, txn_parse H ip_parse now i BVNone = Ok x -> txn_parse H ip_parse now j BVNone = Ok y ->
  txn_eq shash x y = Ok true /\ txn_hash shash x = txn_hash shash y.
Proof.
  intros H ip now sh i j x y E F. unfold txn_parse, id_set in *. 
  apply bind_ok in E as (t & _ & E). apply bind_ok in F as (u & _ & F). cbn in E, F. apply ok_inj in E, F. subst.
  unfold txn_eq, txn_hash. cbn [snd bind]. rewrite Z.eqb_refl. auto.
Qed.
Print Assumptions C58_parsed_refuted.
Example C58_ex : match txn_parse ex_H2 ex_ip_parse 0 (JObj [("version"%string, JNum 1)]) BVNone, 
  txn_json ex_H2 ex_ip_str ex_conv with
  | Ok x, Ok j => match txn_parse ex_H2 ex_ip_parse 0 j BVNone with Ok y => fst x <> fst y | _ => False end | _, _ => False end.
Proof. vm_compute. discriminate. Qed.
