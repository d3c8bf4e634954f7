(** What printing and parsing keeps and loses. *)
From Verif Require Import Base BaseFacts Encoders EncodersFacts Currency Primitive Types Conditions Spec_Types TypesFacts TypesFacts2 ConditionFacts ConditionFacts2
  Fulfillments Spec_Fulfil FulfilFacts FulfilFacts2 ThreeBotTypes Txn Spec_Txn TxnJson Spec_Json JsonFacts JsonFacts2.
From Coq Require Import ZifyBool ZifyNat ZifyN.
Ltac Zify.zify_post_hook ::= Z.div_mod_to_equations.

Lemma spends_cin l : spends (map read_cin l) = spends l.
Proof. unfold spends. rewrite map_map. reflexivity. Qed.
Lemma spends_bin l : spends (map read_bin l) = spends l.
Proof. unfold spends. rewrite map_map. reflexivity. Qed.
Lemma pays_out l : map pay (map read_out l) = map pay l.
Proof. rewrite map_map. reflexivity. Qed.
Lemma pay_refund o : option_map pay (option_map read_out o) = option_map pay o.
Proof. destruct o; reflexivity. Qed.
Lemma content_read_back t : content_of (read_back t) = content_of t.
Proof.
  destruct t as [t|t|t|t|t|t|t|t]; cbn [read_back content_of s_cin s_cout s_bin s_bout s_fees s_data m_new m_nonce m_fees m_data c_addr c_value c_cin c_fee c_refund g_addr g_value g_fee g_block g_txid
    r_pk r_cin r_fee r_refund b_addrs b_names b_months b_cin b_fee b_refund b_pk u_id u_addr_add u_addr_del u_name_add u_name_del u_months u_cin u_fee u_refund n_sender n_receiver n_names n_cin n_fee n_refund olist opk];
    rewrite ?spends_cin, ?spends_bin, ?pays_out, ?pay_refund; try reflexivity.
  destruct (m_new t); cbn; rewrite ?pays_out; reflexivity.
Qed.

(** encodings of outputs and input ids *)
Lemma out_sia_read l : map out_sia (map read_out l) = map out_sia l.
Proof. rewrite map_map. reflexivity. Qed.
Lemma out_riv_read o : refund_riv (option_map read_out o) = refund_riv o.
Proof. destruct o; reflexivity. Qed.
Lemma maybe_read o : maybe_out_riv (option_map read_out o) = maybe_out_riv o.
Proof. destruct o; reflexivity. Qed.
Lemma is_some_map {A B} (f : A -> B) o : is_some (option_map f o) = is_some o.
Proof. destruct o; reflexivity. Qed.
Lemma sia_list_map {A B} (w : B -> res bytes) (f : A -> B) l : sia_list w (map f l) = sia_list (fun a => w (f a)) l.
Proof. unfold sia_list. rewrite map_length, map_map. reflexivity. Qed.
Lemma riv_list_map {A B} (w : B -> res bytes) (f : A -> B) l : riv_list w (map f l) = riv_list (fun a => w (f a)) l.
Proof. unfold riv_list, lenN. rewrite map_length, map_map. reflexivity. Qed.
Lemma sia_outs l : sia_list out_sia (map read_out l) = sia_list out_sia l.
Proof. rewrite sia_list_map. reflexivity. Qed.
Lemma parents_cin l : map i_parent (map read_cin l) = map i_parent l.
Proof. exact (spends_cin l). Qed.
Lemma parents_bin l : map i_parent (map read_bin l) = map i_parent l.
Proof. exact (spends_bin l). Qed.
Lemma ids_sia_cin l : ids_sia (map read_cin l) = ids_sia l.
Proof. unfold ids_sia. rewrite parents_cin. reflexivity. Qed.
Lemma ids_sia_bin l : ids_sia (map read_bin l) = ids_sia l.
Proof. unfold ids_sia. rewrite parents_bin. reflexivity. Qed.
Lemma ids_riv_cin l : ids_riv (map read_cin l) = ids_riv l.
Proof. unfold ids_riv. rewrite parents_cin, map_length. reflexivity. Qed.

Lemma sig_input_read_back H ip t xs : printable ip t -> is_legacy t = false -> sig_input H (read_back t) xs = sig_input H t xs.
Proof.
  intros P L. destruct t as [t|t|t|t|t|t|t|t]; cbn [read_back sig_input version specifier].
  - cbn [is_legacy] in L. cbn [s_legacy s_cin s_cout s_bin s_bout s_fees s_data]. rewrite L, ids_sia_cin, ids_sia_bin, !sia_outs. reflexivity.
  - destruct (m_new t); cbn; rewrite ?sia_outs; reflexivity.
  - cbn [c_addr c_value c_cin c_fee c_refund read_fee fee]. rewrite ids_riv_cin, out_riv_read. reflexivity.
  - reflexivity.
  - cbn [printable] in P. cbn [r_cin r_pk r_fee r_refund]. destruct (r_cin t) as [ci|] eqn:E; [|destruct P as (_ & _ & _ & X & _); congruence].
    cbn [got bind olist opk read_fee fee]. rewrite ids_riv_cin, out_riv_read. reflexivity.
  - cbn [b_addrs b_names b_months b_cin b_fee b_refund b_pk read_fee fee]. rewrite ids_riv_cin, out_riv_read. reflexivity.
  - cbn [u_id u_addr_add u_addr_del u_name_add u_name_del u_months u_cin u_fee u_refund read_fee fee]. rewrite ids_riv_cin, out_riv_read. reflexivity.
  - cbn [printable] in P. cbn [n_cin n_sender n_receiver n_names n_fee n_refund]. destruct (n_cin t) as [ci|] eqn:E; [|destruct P as (_ & _ & X & _); congruence].
    cbn [got bind olist read_fee fee]. rewrite ids_riv_cin, out_riv_read. reflexivity.
Qed.

(** ** signed parts *)
Lemma read_ff_signed f : signed_ff f -> print_ff f -> read_ff f = f.
Proof.
  destruct f as [p [s|]|p [s|] se|ps]; cbn [signed_ff read_ff odef]; try contradiction.
  - intros [K _] _. rewrite (read_key_id _ K). reflexivity.
  - intros [K _] _. rewrite (read_key_id _ K). reflexivity.
  - intros F _. f_equal. induction F as [|[p s] ps [K _] F IH]; [reflexivity|]. cbn [map fst snd]. cbn [fst] in K. rewrite (read_key_id _ K). f_equal. exact IH.
Qed.
Lemma read_in_sia l g : (forall i, In i l -> i_parent (g i) = i_parent i /\ i_ff (g i) = read_ff (i_ff i)) -> Forall signed_in l -> Forall print_in l ->
  sia_list in_sia (map g l) = sia_list in_sia l /\ riv_list in_riv (map g l) = riv_list in_riv l.
Proof.
  intros G F P. rewrite sia_list_map, riv_list_map. unfold sia_list, riv_list, lenN.
  assert (A : forall i, In i l -> in_sia (g i) = in_sia i /\ in_riv (g i) = in_riv i).
  { intros i I. destruct (G i I) as [E1 E2]. unfold in_sia, in_riv. rewrite E1, E2, read_ff_signed; [auto | |].
    - rewrite Forall_forall in F. apply F, I.
    - rewrite Forall_forall in P. apply P, I. }
  split; f_equal; f_equal; apply map_ext_in; intros i I; apply A, I.
Qed.
Lemma cin_enc l : Forall signed_in l -> Forall print_in l -> sia_list in_sia (map read_cin l) = sia_list in_sia l /\ riv_list in_riv (map read_cin l) = riv_list in_riv l.
Proof. apply read_in_sia. intros i _. split; reflexivity. Qed.
Lemma bin_enc l : Forall signed_in l -> Forall print_in l -> sia_list in_sia (map read_bin l) = sia_list in_sia l /\ riv_list in_riv (map read_bin l) = riv_list in_riv l.
Proof. apply read_in_sia. intros i _. split; reflexivity. Qed.

Lemma data_read_back H ip t : printable ip t -> all_signed t -> is_legacy t = false -> loses_signature t = false ->
  data_bytes H (read_back t) = data_bytes H t.
Proof.
  intros P S0 L X. destruct t as [t|t|t|t|t|t|t|t]; cbn [loses_signature] in X; try discriminate; cbn [read_back data_bytes]; cbn [printable all_signed] in *.
  - cbn [is_legacy] in L. cbn [s_legacy s_cin s_cout s_bin s_bout s_fees s_data]. rewrite L.
    destruct P as (P1 & _ & P3 & _), S0 as [S1 S2]. rewrite (proj1 (cin_enc _ S1 P1)), (proj1 (bin_enc _ S2 P3)), !sia_outs. reflexivity.
  - destruct S0 as (f & E & S0). cbn [m_nonce m_ff m_new m_fees m_data]. rewrite E in *. destruct P as (_ & P & _). rewrite (read_ff_signed _ S0 (P _ eq_refl)).
    destruct (m_new t); rewrite ?sia_outs; reflexivity.
  - destruct P as (_ & _ & _ & P & _). cbn [c_addr c_value c_cin c_fee c_refund read_fee fee]. rewrite (proj2 (cin_enc _ S0 P)), out_riv_read. reflexivity.
  - reflexivity.
  - destruct P as (_ & _ & _ & P & _ & K & _), S0 as [S1 (b & E & _)]. cbn [b_addrs b_names b_months b_cin b_fee b_refund b_pk b_sig read_fee fee]. rewrite (proj2 (cin_enc _ S1 P)), maybe_read, is_some_map, E. reflexivity.
Qed.
Lemma version_read_back t : version (read_back t) = version t.
Proof. destruct t as [t|t|t|t|t|t|t|t]; try reflexivity. cbn. destruct (m_new t); reflexivity. Qed.
Lemma specifier_read_back t : specifier (read_back t) = specifier t.
Proof. destruct t as [t|t|t|t|t|t|t|t]; try reflexivity. cbn. destruct (m_new t); reflexivity. Qed.
Lemma encode_read_back H ip t : printable ip t -> all_signed t -> is_legacy t = false -> loses_signature t = false ->
  binary_encode H (read_back t) = binary_encode H t /\ id_input H (read_back t) = id_input H t.
Proof.
  intros P S0 L X. pose proof (data_read_back H ip t P S0 L X) as E.
  assert (B : binary_encode H (read_back t) = binary_encode H t).
  { pose proof (version_read_back t) as V. destruct t as [t|t|t|t|t|t|t|t]; cbn [loses_signature] in X; try discriminate; unfold binary_encode.
    - cbn [is_legacy] in L. rewrite L. change (read_back (T1 t)) with (T1 (mkstd false (map read_cin (s_cin t)) (map read_out (s_cout t)) (map read_bin (s_bin t)) (map read_out (s_bout t)) (s_fees t) (s_data t))) in *.
      cbn [s_legacy]. rewrite E. reflexivity.
    - change (read_back (TMint t)) with (TMint (mkmint (Some (read_ff (match m_ff t with Some f => f | None => FSingle pk_default None end)))
                  (match m_new t with MCond c => MCond c | MCoins os => MCoins (map read_out os) end) (m_fees t) (m_data t) (m_nonce t) None)) in *. rewrite V, E. reflexivity.
    - rewrite <- E, <- V. reflexivity.
    - rewrite <- E, <- V. reflexivity.
    - rewrite <- E, <- V. reflexivity. }
  split; [exact B|]. pose proof (specifier_read_back t) as V. destruct t as [t|t|t|t|t|t|t|t]; cbn [loses_signature] in X; try discriminate; [exact B | ..]; unfold id_input.
  - change (read_back (TMint t)) with (TMint (mkmint (Some (read_ff (match m_ff t with Some f => f | None => FSingle pk_default None end)))
                  (match m_new t with MCond c => MCond c | MCoins os => MCoins (map read_out os) end) (m_fees t) (m_data t) (m_nonce t) None)) in *. rewrite V, E. reflexivity.
  - rewrite <- E, <- V. reflexivity.
  - rewrite <- E, <- V. reflexivity.
  - rewrite <- E, <- V. reflexivity.
Qed.
