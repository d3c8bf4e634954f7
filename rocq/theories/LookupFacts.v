(** Facts about the client's lookups. *)
From Verif Require Import Base BaseFacts Encoders EncodersFacts Currency CurrencyFacts CurrencyFacts2 Primitive Types Conditions Spec_Types TypesFacts TypesFacts2 ConditionFacts
  Fulfillments Spec_Fulfil FulfilFacts FulfilFacts2 ThreeBotTypes Txn Spec_Txn Spec_ThreeBot ThreeBotFacts ThreeBotFacts2 ThreeBotFacts3 TxnJson Spec_Json JsonFacts JsonFacts2 JsonFacts3
  Wallet Explorer Spec_Wallet Spec_Explorer ExplorerFacts ExplorerFacts2 ExplorerFacts3 Lookups Spec_Lookup.
From Coq Require Import ZifyBool ZifyNat ZifyN.
Ltac Zify.zify_post_hook ::= Z.div_mod_to_equations.

Lemma field_get k j v : field k j v -> jget k j = Ok v.
Proof. intros (l & -> & F). cbn [jget]. rewrite F. reflexivity. Qed.
Lemma field_get_d k j v d : field k j v -> jget_d k d j = Ok v.
Proof. intros (l & -> & F). cbn [jget_d]. rewrite F. reflexivity. Qed.
Lemma absent_get_d k j d : absent k j -> jget_d k d j = Ok d.
Proof. intros (l & -> & F). cbn [jget_d]. rewrite F. reflexivity. Qed.
Lemma list_field_of k j l : list_field k j l -> jlist_of k j = Ok l.
Proof.
  unfold jlist_of. intros [F|(-> & [F|F])].
  - rewrite (field_get_d _ _ _ _ F). cbn [bind]. destruct l; reflexivity.
  - rewrite (absent_get_d _ _ _ F). reflexivity.
  - rewrite (field_get_d _ _ _ _ F). reflexivity.
Qed.
Lemma told_ids l is_ : Forall2 told_id l is_ -> Forall hash32 is_ -> mapM hash_from_json l = Ok is_.
Proof.
  induction 1 as [|j h l is_ E F IH]; intro K; [reflexivity|]. inversion K; subst. red in E. subst j. cbn [mapM].
  rewrite hash_str_rt by assumption. cbn [bind]. rewrite IH by assumption. reflexivity.
Qed.
Lemma version_nonzero t : (version t =? 0)%Z = false.
Proof. destruct t as [s|m| | | | | | ]; try reflexivity. unfold version. destruct (m_new m); reflexivity. Qed.
Lemma read_key_idem p : read_key (read_key p) = read_key p.
Proof. unfold read_key. destruct p as [s [|x l]]; reflexivity. Qed.
Lemma read_ff_idem f : read_ff (read_ff f) = read_ff f.
Proof.
  destruct f as [p s|p s se|ps]; cbn [read_ff]; rewrite ?read_key_idem; try (destruct s; reflexivity).
  f_equal. rewrite map_map. apply map_ext. intros [p s]. cbn [fst snd]. rewrite read_key_idem. reflexivity.
Qed.
Lemma read_cin_idem l : map read_cin (map read_cin l) = map read_cin l.
Proof. rewrite map_map. apply map_ext. intro i. unfold read_cin. cbn [i_parent i_ff]. rewrite read_ff_idem. reflexivity. Qed.
Lemma read_bin_idem l : map read_bin (map read_bin l) = map read_bin l.
Proof. rewrite map_map. apply map_ext. intro i. unfold read_bin. cbn [i_parent i_ff]. rewrite read_ff_idem. reflexivity. Qed.
Lemma read_out_idem l : map read_out (map read_out l) = map read_out l.
Proof. rewrite map_map. apply map_ext. reflexivity. Qed.
Lemma read_refund_idem o : option_map read_out (option_map read_out o) = option_map read_out o.
Proof. destruct o; reflexivity. Qed.
Lemma read_sig_idem s : read_sig (read_sig s) = read_sig s.
Proof. reflexivity. Qed.
Lemma read_back_idem t : read_back (read_back t) = read_back t.
Proof.
  destruct t as [s|m|c|g|r|b|u|n]; [|destruct m as [mf [mc|os] m1 m2 m3 m4]|..]; cbn [read_back s_legacy s_cin s_cout s_bin s_bout s_fees s_data m_ff m_new m_fees m_data m_nonce m_parent
    c_addr c_value c_fee c_cin c_refund g_addr g_value g_fee g_block g_txid r_pk r_sig r_fee r_cin r_refund
    b_addrs b_names b_months b_fee b_cin b_refund b_pk b_sig u_id u_addr_add u_addr_del u_name_add u_name_del u_months u_fee u_cin u_refund u_sig u_parent
    n_sender n_receiver n_names n_fee n_cin n_refund n_ssig n_rsig n_spk n_rpk olist opk];
  rewrite ?read_cin_idem, ?read_bin_idem, ?read_out_idem, ?read_refund_idem, ?read_sig_idem, ?read_ff_idem; reflexivity.
Qed.
Lemma read_parents_c l os : map read_cin (set_parents l os) = map read_cin l.
Proof. revert os. induction l as [|i l IH]; intros [|o os]; try reflexivity. cbn [set_parents map]. rewrite IH. reflexivity. Qed.
Lemma read_parents_b l os : map read_bin (set_parents l os) = map read_bin l.
Proof. revert os. induction l as [|i l IH]; intros [|o os]; try reflexivity. cbn [set_parents map]. rewrite IH. reflexivity. Qed.
Lemma read_ids l is_ : map read_out (set_ids l is_) = map read_out l.
Proof. revert is_. induction l as [|i l IH]; intros [|o os]; try reflexivity. cbn [set_ids map]. rewrite IH. reflexivity. Qed.
Lemma read_refund_ids o is_ : option_map read_out (set_refund o is_) = option_map read_out o.
Proof. destruct o, is_; reflexivity. Qed.
Lemma rb_cin t ins os : coin_inputs t = Ok ins -> read_back (put_cin t (set_parents ins os)) = read_back t.
Proof.
  intro E. destruct t as [s|m|c|g|r|b|u|n]; cbn [coin_inputs] in E; try reflexivity;
    try (apply ok_inj in E; subst; cbn [put_cin read_back]; cbn [s_legacy s_cin s_cout s_bin s_bout s_fees s_data
    c_addr c_value c_fee c_cin c_refund b_addrs b_names b_months b_fee b_cin b_refund b_pk b_sig u_id u_addr_add u_addr_del u_name_add u_name_del u_months u_fee u_cin u_refund u_sig u_parent];
    rewrite read_parents_c; reflexivity).
  - destruct (r_cin r) as [l|] eqn:R; [|discriminate E]. cbn [got] in E. apply ok_inj in E. subst. cbn [put_cin read_back r_pk r_sig r_fee r_cin r_refund olist]. rewrite R. cbn [olist]. rewrite read_parents_c. reflexivity.
  - destruct (n_cin n) as [l|] eqn:R; [|discriminate E]. cbn [got] in E. apply ok_inj in E. subst.
    cbn [put_cin read_back n_sender n_receiver n_names n_fee n_cin n_refund n_ssig n_rsig n_spk n_rpk olist]. rewrite R. cbn [olist]. rewrite read_parents_c. reflexivity.
Qed.
Lemma rb_ids t is_ : read_back (set_coin_ids t is_) = read_back t.
Proof.
  destruct t as [s|m|c|g|r|b|u|n]; [|destruct m as [mf [mc|os] m1 m2 m3 m4]|..]; try reflexivity; cbn [set_coin_ids read_back];
  cbn [s_legacy s_cin s_cout s_bin s_bout s_fees s_data m_ff m_new m_fees m_data m_nonce m_parent
    c_addr c_value c_fee c_cin c_refund r_pk r_sig r_fee r_cin r_refund
    b_addrs b_names b_months b_fee b_cin b_refund b_pk b_sig u_id u_addr_add u_addr_del u_name_add u_name_del u_months u_fee u_cin u_refund u_sig u_parent
    n_sender n_receiver n_names n_fee n_cin n_refund n_ssig n_rsig n_spk n_rpk]; rewrite ?read_ids, ?read_refund_ids; reflexivity.
Qed.
Lemma rb_bin t os : read_back (put_bin t (set_parents (blockstake_inputs t) os)) = read_back t.
Proof. destruct t as [s| | | | | | | ]; try reflexivity. cbn [put_bin read_back blockstake_inputs s_legacy s_cin s_cout s_bin s_bout s_fees s_data]. rewrite read_parents_b. reflexivity. Qed.
Lemma rb_stake t is_ : read_back (set_stake_ids t is_) = read_back t.
Proof. destruct t as [s| | | | | | | ]; try reflexivity. cbn [set_stake_ids read_back s_legacy s_cin s_cout s_bin s_bout s_fees s_data]. rewrite read_ids. reflexivity. Qed.
Lemma rb_outputs t : coin_outputs (read_back t) = map read_out (coin_outputs t).
Proof. destruct t as [s|[? [c|os] ? ? ? ?]|c|g|r|b|u|n]; try reflexivity; cbn [read_back coin_outputs c_refund r_refund b_refund u_refund n_refund];
  [destruct (c_refund c)|destruct (r_refund r)|destruct (b_refund b)|destruct (u_refund u)|destruct (n_refund n)]; reflexivity. Qed.
Lemma rb_stake_inputs t : blockstake_inputs (read_back t) = map read_bin (blockstake_inputs t).
Proof. destruct t; reflexivity. Qed.
Lemma rb_stake_outputs t : blockstake_outputs (read_back t) = map read_out (blockstake_outputs t).
Proof. destruct t; reflexivity. Qed.
Lemma rb_inputs ip t : printable ip t -> coin_inputs (read_back t) = Ok (map read_cin (inputs_of t)).
Proof.
  intro P. destruct t as [s|m|c|g|r|b|u|n]; try reflexivity; cbn [read_back coin_inputs r_cin n_cin got]; unfold inputs_of; cbn [coin_inputs].
  - destruct P as (_ & _ & _ & N & _). destruct (r_cin r); [reflexivity | contradiction].
  - destruct P as (_ & _ & N & _). destruct (n_cin n); [reflexivity | contradiction].
Qed.
Lemma set_parents_give l os : length os = length l -> set_parents l os = give_parents l os.
Proof. revert os. induction l as [|i l IH]; intros [|o os] L; try discriminate L; [reflexivity|]. cbn [set_parents]. rewrite IH by (cbn [length] in L; lia). reflexivity. Qed.
Lemma set_ids_give l os : length os = length l -> set_ids l os = give_ids l os.
Proof. revert os. induction l as [|i l IH]; intros [|o os] L; try discriminate L; [reflexivity|]. cbn [set_ids]. rewrite IH by (cbn [length] in L; lia). reflexivity. Qed.
Lemma give_parents_read l ps : give_parents l (map read_out ps) = give_parents l ps.
Proof. unfold give_parents. revert ps. induction l as [|i l IH]; intros [|p ps]; try reflexivity. cbn [map combine fst snd read_out o_value o_cond]. rewrite IH. reflexivity. Qed.
Lemma give_ids_read l ids : give_ids (map read_out l) ids = give_ids l ids.
Proof. unfold give_ids. revert ids. induction l as [|i l IH]; intros [|p ps]; try reflexivity. cbn [map combine fst snd read_out o_value o_cond]. rewrite IH. reflexivity. Qed.

Section Hash.
Variable H : bytes -> bytes.
Variable ip_parse : pystr -> res bytes.
Variable ip_str : bytes -> pystr.
Variable now : Z.
Hypothesis HH : hash_ok H.
Hypothesis IP : ip_library ip_parse ip_str.

Lemma data_rt t : printable ip_parse t ->
  exists l, data_json H ip_str t = Ok (JObj l) /\ txn_of_version H ip_parse now (version t) (JObj l) = Some (Ok (read_back t)).
Proof.
  intro P. destruct t as [s|m|c|g|r|b|u|n].
  - destruct (std_rt H ip_parse ip_str now HH s P) as (l & E & R). exists l. split; [exact E|]. unfold txn_of_version. cbn [version]. change (1 =? 1)%Z with true. cbn iota. rewrite R. reflexivity.
  - destruct (mint_rt H ip_parse ip_str now HH m P) as (l & E & R). exists l. split; [exact E|]. cbn [version]. destruct (m_new m); rewrite <- R; reflexivity.
  - destruct (conv_rt H ip_parse ip_str now HH c P) as (l & E & R). exists l. split; [exact E|]. rewrite <- R. reflexivity.
  - destruct (gen_rt H ip_parse ip_str HH g P) as (l & E & R). exists l. split; [exact E|]. rewrite <- R. reflexivity.
  - destruct (reg_rt H ip_parse ip_str now HH r P) as (l & E & R). exists l. split; [exact E|]. rewrite <- R. reflexivity.
  - destruct (bot_rt H ip_parse ip_str now HH IP b P) as (l & E & R). exists l. split; [exact E|]. rewrite <- R. reflexivity.
  - destruct (upd_rt H ip_parse ip_str now HH IP u P) as (l & E & R). exists l. split; [exact E|]. rewrite <- R. reflexivity.
  - destruct (name_rt H ip_parse ip_str now HH n P) as (l & E & R). exists l. split; [exact E|]. rewrite <- R. reflexivity.
Qed.
Lemma raw_read t j : printable ip_parse t -> raw_form H ip_str t j -> txn_from_json H ip_parse now j = Ok (read_back t).
Proof.
  intros P (d & Ed & Fv & Fd). destruct (data_rt t P) as (l & E & R). rewrite E in Ed. apply ok_inj in Ed. subst d.
  assert (D : jget_d "data" (JObj []) j = Ok (JObj l)).
  { destruct Fd as [F|(Fz & F)]; [exact (field_get_d _ _ _ _ F)|]. rewrite (absent_get_d _ _ _ F). destruct l; [reflexivity | discriminate Fz]. }
  pose proof (field_get_d _ _ _ (JNum (-1)) Fv) as Ev. destruct Fv as (l0 & -> & Fv).
  unfold txn_from_json. rewrite Ev. cbn [bind version_of]. rewrite version_nonzero, D. cbn [bind]. rewrite R. reflexivity.
Qed.
Lemma told_outs (f : json -> res output) js os : Forall (fun o => exists j, out_json H o = Ok j /\ f j = Ok (read_out o)) os ->
  Forall2 (told_output H) js os -> mapM f js = Ok (map read_out os).
Proof.
  intros F T. induction T as [|j o js os E T IH]; [reflexivity|]. inversion F as [|? ? (j' & E' & R) F']; subst. red in E. rewrite E in E'. apply ok_inj in E'. subst j'.
  cbn [mapM map]. rewrite R. cbn [bind]. rewrite (IH F'). reflexivity.
Qed.
Lemma told_read e t id ps sps is_ sis h : told_txn H ip_str e t id ps sps is_ sis h -> sensible ip_parse t id ps sps is_ sis h ->
  exists x, explorer_txn H ip_parse now e = Ok x /\ as_told x t id ps sps is_ sis h.
Proof.
  intros [(raw & Fr & Rf) Fi (l1 & L1 & M1) (l2 & L2 & M2) (l3 & L3 & M3) (l4 & L4 & M4) Ht] [P Pid (P1 & N1) (P2 & N2) (P3 & N3) (P4 & N4) Ph].
  assert (Eid : hash_new (BVStr (hash_str id)) = Ok id) by (rewrite hash_str_full by exact Pid; apply hash_new_hex; exact Pid).
  assert (Q1 : mapM (cout_from_json H now) l1 = Ok (map read_out ps)) by (apply told_outs; [eapply Forall_impl; [|exact P1]; intros o; apply (cout_rt H now HH) | exact M1]).
  assert (Q3 : mapM (bout_from_json H now) l3 = Ok (map read_out sps)) by (apply told_outs; [eapply Forall_impl; [|exact P3]; intros o; apply (bout_rt H now HH) | exact M3]).
  pose proof (told_ids _ _ M2 P2) as Q2. pose proof (told_ids _ _ M4 P4) as Q4.
  apply Forall2_length in M1, M2, M3, M4.
  set (tp := read_back t) in *. pose proof (rb_inputs ip_parse t P) as Ri. fold tp in Ri.
  set (t1 := put_cin tp (set_parents (map read_cin (inputs_of t)) (map read_out ps))).
  set (t2 := set_coin_ids t1 is_).
  set (t3 := put_bin t2 (set_parents (blockstake_inputs t2) (map read_out sps))).
  destruct (put_cin_outs tp (set_parents (map read_cin (inputs_of t)) (map read_out ps))) as (O1 & O2 & O3). fold t1 in O1, O2, O3.
  destruct (coin_ids_same t1 is_) as (C1 & C2 & C3). fold t2 in C1, C2, C3.
  destruct (put_bin_same t2 (set_parents (blockstake_inputs t2) (map read_out sps))) as (B1 & B2 & B3). fold t3 in B1, B2, B3.
  destruct (stake_ids_same t3 sis) as (S1 & S2 & S3).
  assert (Len1 : length (map read_cin (inputs_of t)) = length l1) by (rewrite map_length; congruence).
  exists (mketx (set_stake_ids t3 sis) id (match h with None => true | Some _ => false end) (match h with None => (-1)%Z | Some z => z end)). split.
  - unfold explorer_txn. rewrite (field_get _ _ _ Fr). cbn [bind]. rewrite (field_get _ _ _ Fi). cbn [bind jbval].
    unfold txn_parse. rewrite (raw_read t raw P Rf). fold tp. cbn [bind]. unfold id_set. rewrite Eid. cbn [bind fst snd].
    rewrite (list_field_of _ _ _ L1). cbn [bind]. rewrite Ri. cbn [bind]. unfold same_length at 1. rewrite Len1, Nat.eqb_refl. cbn [guard bind].
    rewrite Q1. cbn [bind]. fold t1. rewrite (list_field_of _ _ _ L2). cbn [bind]. unfold same_length at 1.
    assert (Len2 : length (coin_outputs t1) = length l2) by (rewrite O1; unfold tp; rewrite rb_outputs, map_length; congruence).
    rewrite Len2, Nat.eqb_refl. cbn [guard bind]. rewrite Q2. cbn [bind]. fold t2.
    rewrite (list_field_of _ _ _ L3). cbn [bind]. unfold same_length at 1.
    assert (Len3 : length (blockstake_inputs t2) = length l3) by (rewrite C2, O2; unfold tp; rewrite rb_stake_inputs, map_length; congruence).
    rewrite Len3, Nat.eqb_refl. cbn [guard bind]. rewrite Q3. cbn [bind]. fold t3.
    rewrite (list_field_of _ _ _ L4). cbn [bind]. unfold same_length at 1.
    assert (Len4 : length (blockstake_outputs t3) = length l4) by (rewrite B3, C3, O3; unfold tp; rewrite rb_stake_outputs, map_length; congruence).
    rewrite Len4, Nat.eqb_refl. cbn [guard bind]. rewrite Q4. cbn [bind].
    destruct h as [z|].
    + destruct Ht as (Hu & Hh). assert (jget_d "unconfirmed" (JBool false) e = Ok (JBool false)) as -> by (destruct Hu as [F|F]; [exact (field_get_d _ _ _ _ F) | exact (absent_get_d _ _ _ F)]).
      cbn [bind]. rewrite (field_get_d _ _ _ _ Hh). cbn [bind jint]. assert ((0 <=? z)%Z = true) as -> by (specialize (Ph z eq_refl); lia). reflexivity.
    + rewrite (field_get_d _ _ _ _ Ht). reflexivity.
  - split; cbn [e_txn e_id e_unconfirmed e_height].
    + rewrite rb_stake. unfold t3. rewrite rb_bin. unfold t2. rewrite rb_ids. unfold t1. rewrite (rb_cin _ _ _ Ri). apply read_back_idem.
    + reflexivity.
    + unfold inputs_of at 1. rewrite S1, B2, C1. unfold t1. rewrite (put_cin_ins _ _ _ Ri (set_parents_length _ _)).
      fold tp. assert (inputs_of tp = map read_cin (inputs_of t)) as -> by (unfold inputs_of at 1; rewrite Ri; reflexivity).
      rewrite set_parents_give by (rewrite !map_length; congruence). apply give_parents_read.
    + intro G. rewrite S3, B1. unfold t2. rewrite coin_ids_outs.
      * rewrite O1. unfold tp. rewrite rb_outputs, set_ids_give by (rewrite map_length; congruence). apply give_ids_read.
      * intros g D. unfold t1, tp in D. destruct t; try discriminate D. apply (G _ eq_refl).
      * rewrite O1. unfold tp. rewrite rb_outputs, map_length. congruence.
    + rewrite S2. unfold t3. rewrite put_bin_ins by apply set_parents_length. rewrite C2, O2. unfold tp. rewrite rb_stake_inputs.
      rewrite set_parents_give by (rewrite !map_length; congruence). apply give_parents_read.
    + rewrite stake_ids_outs.
      * rewrite B3, C3, O3. unfold tp. rewrite rb_stake_outputs, set_ids_give by (rewrite map_length; congruence). apply give_ids_read.
      * rewrite B3, C3, O3. unfold tp. rewrite rb_stake_outputs, map_length. congruence.
    + destruct h; auto.
Qed.
End Hash.

(** ** Blocks *)
Section Block.
Variable H : bytes -> bytes.
Variable ip_parse : pystr -> res bytes.
Variable now : Z.
Lemma mapM_F2 {A B} (f : A -> res B) l r : Forall2 (fun a b => f a = Ok b) l r -> mapM f l = Ok r.
Proof. induction 1 as [|a b l r E F IH]; [reflexivity|]. cbn [mapM]. rewrite E. cbn [bind]. rewrite IH. reflexivity. Qed.
Lemma F2_mapM {A B} (f : A -> res B) l r : mapM f l = Ok r -> Forall2 (fun a b => f a = Ok b) l r.
Proof.
  revert r. induction l as [|a l IH]; intros r E; cbn [mapM] in E.
  - apply ok_inj in E. subst. constructor.
  - apply bind_ok in E as (b & Eb & E). apply bind_ok in E as (bs & Ebs & E). apply ok_inj in E. subst. constructor; auto.
Qed.
Lemma payout_ids_arr l : payout_ids (jor (JArr l) (JArr [])) = Ok l.
Proof. destruct l; reflexivity. Qed.
Lemma list_field_ids k j l : list_field k j l -> exists v, jget_d k JNull j = Ok v /\ payout_ids (jor v (JArr [])) = Ok l.
Proof.
  intros [F|(-> & [F|F])].
  - exists (JArr l). split; [exact (field_get_d _ _ _ _ F)|]. apply payout_ids_arr.
  - exists JNull. split; [exact (absent_get_d _ _ _ F)|]. reflexivity.
  - exists JNull. split; [exact (field_get_d _ _ _ _ F)|]. reflexivity.
Qed.
Lemma payout_read i p x : hash_ok H -> payout_ok x -> told_payout H i p x -> read_payout H (i, p) = Ok x.
Proof.
  intros HH (Ph & Pa & Pu) (-> & Fv & s & Es & Fu). unfold read_payout. cbn [fst snd]. rewrite hash_str_rt by exact Ph. cbn [bind].
  rewrite (field_get _ _ _ Fv). cbn [bind]. change (JStr (dec_str (p_value x))) with (amt_json (p_value x)). rewrite (amt_rt _ Pa). cbn [bind].
  rewrite (field_get _ _ _ Fu). cbn [bind]. destruct (address_json H (p_uh x) HH Pu) as (s' & Es' & R). rewrite Es in Es'. apply ok_inj in Es'. subst s'.
  rewrite R. cbn [bind]. destruct x; reflexivity.
Qed.
Lemma block_read r b : hash_ok H -> told_block H (fun j x => explorer_txn H ip_parse now j = Ok x) r b -> block_ok b -> block_of H ip_parse now r = Ok b.
Proof.
  intros HH [(l & Fl & Ml) (raw & Fr & Fp & Ft & ids & ps & Li & Lp & Ni & Np & T) Fh Fb] (Pb & Pp & Po). unfold block_of.
  rewrite (field_get _ _ _ Fl). cbn [bind jelems]. rewrite (mapM_F2 _ _ _ Ml). cbn [bind]. rewrite (field_get _ _ _ Fr). cbn [bind].
  rewrite (field_get _ _ _ Fp). cbn [bind]. rewrite (hash_str_rt _ Pp). cbn [bind].
  destruct (list_field_ids _ _ _ Li) as (v & Ev & Ei). rewrite Ev. cbn [bind]. rewrite (list_field_of _ _ _ Lp). cbn [bind]. rewrite Ei. cbn [bind].
  unfold same_length. assert ((length ps =? length ids)%nat = true) as -> by lia. cbn [guard bind].
  assert (M : mapM (read_payout H) (combine ids ps) = Ok (k_payouts b)).
  { clear - HH Ni Np T Po. revert ids ps Ni Np T. induction (k_payouts b) as [|x xs IH]; intros ids ps Ni Np T; destruct ids as [|i ids], ps as [|p ps]; try discriminate; [reflexivity|].
    inversion Po as [|? ? Px Pxs]; subst. cbn [combine mapM]. rewrite (payout_read i p x HH Px (T 0%nat i p x eq_refl eq_refl eq_refl)). cbn [bind].
    rewrite (IH Pxs ids ps); [reflexivity| | |].
    - cbn [length] in Ni. lia.
    - cbn [length] in Np. lia.
    - intros n i' p' x' E1 E2 E3. exact (T (S n) i' p' x' E1 E2 E3). }
  rewrite M. cbn [bind]. rewrite (field_get _ _ _ Fh). cbn [bind jint]. rewrite (field_get _ _ _ Ft). cbn [bind jint].
  rewrite (field_get _ _ _ Fb). cbn [bind]. rewrite (hash_str_rt _ Pb). cbn [bind]. destruct b; reflexivity.
Qed.
Lemma combine_nth {A B} (l : list A) (m : list B) n : length l = length m ->
  nth_error (combine l m) n = match nth_error l n, nth_error m n with Some a, Some b => Some (a, b) | _, _ => None end.
Proof.
  revert m n. induction l as [|a l IH]; intros [|b m] n L; try discriminate L; destruct n; try reflexivity. cbn [combine nth_error]. apply IH. cbn [length] in L. lia.
Qed.
Lemma payout_ids_elems j l : payout_ids (jor j (JArr [])) = Ok l -> if jtruthy j then jelems j = Ok l else l = [].
Proof.
  unfold jor. destruct (jtruthy j) eqn:T; [|intro E; cbn [payout_ids jelems] in E; apply ok_inj in E; now subst].
  unfold payout_ids. destruct j as [| | | | |[|kv o]|]; intro E; try discriminate E; try exact E.
Qed.
Lemma block_inv r b : block_of H ip_parse now r = Ok b ->
  exists l raw ids ps ts pj hj tj ij, jget "transactions" r = Ok l /\ jelems l = Ok ts /\ Forall2 (fun j x => explorer_txn H ip_parse now j = Ok x) ts (k_txns b) /\
    jget "rawblock" r = Ok raw /\ jget "parentid" raw = Ok pj /\ hash_from_json pj = Ok (k_parent b) /\
    listed "minerpayoutids" r ids /\ listed "minerpayouts" raw ps /\ length ids = length (k_payouts b) /\ length ps = length (k_payouts b) /\
    (forall n x, nth_error (k_payouts b) n = Some x -> exists i p vj uj, nth_error ids n = Some i /\ nth_error ps n = Some p /\
       hash_from_json i = Ok (p_id x) /\ jget "value" p = Ok vj /\ amt_from_json vj = Ok (p_value x) /\ jget "unlockhash" p = Ok uj /\ uh_from_json H uj = Ok (p_uh x)) /\
    jget "height" r = Ok hj /\ jint hj = Ok (k_bheight b) /\ jget "timestamp" raw = Ok tj /\ jint tj = Ok (k_btime b) /\
    jget "blockid" r = Ok ij /\ hash_from_json ij = Ok (k_bid b).
Proof.
  unfold block_of. intro E. apply bind_ok in E as (l & E1 & E). apply bind_ok in E as (ts & E2 & E). apply bind_ok in E as (xs & E3 & E).
  apply bind_ok in E as (raw & E4 & E). apply bind_ok in E as (par & E5 & E). apply bind_ok in E5 as (pj & E5 & E5').
  apply bind_ok in E as (iv & E6 & E). apply bind_ok in E as (ps & E7 & E). apply bind_ok in E as (ids & E8 & E). apply bind_ok in E as (u & E9 & E).
  apply bind_ok in E as (pos & E10 & E). apply bind_ok in E as (h & E11 & E). apply bind_ok in E11 as (hj & E11 & E11').
  apply bind_ok in E as (t & E12 & E). apply bind_ok in E12 as (tj & E12 & E12'). apply bind_ok in E as (id & E13 & E). apply bind_ok in E13 as (ij & E13 & E13').
  apply ok_inj in E. subst b. cbn [k_txns k_parent k_payouts k_bheight k_btime k_bid].
  apply same_length_ok in E9. pose proof (mapM_ok_length _ _ E10) as L. rewrite combine_length in L.
  exists l, raw, ids, ps, ts, pj, hj, tj, ij. repeat match goal with |- _ /\ _ => split end; auto.
  - exact (F2_mapM _ _ _ E3).
  - exists iv. split; [exact E6|]. exact (payout_ids_elems _ _ E8).
  - exact (jlist_of_listed _ _ _ E7).
  - lia.
  - lia.
  - intros n x N. destruct (mapM_nth _ _ _ _ _ E10 N) as ([i p] & Nc & R). rewrite combine_nth in Nc by lia.
    destruct (nth_error ids n) as [i'|] eqn:Ni; [|discriminate Nc]. destruct (nth_error ps n) as [p'|] eqn:Np; [|discriminate Nc]. injection Nc as -> ->.
    unfold read_payout in R. cbn [fst snd] in R. apply bind_ok in R as (h0 & R1 & R). apply bind_ok in R as (v & R2 & R). apply bind_ok in R2 as (vj & R2 & R2').
    apply bind_ok in R as (u0 & R3 & R). apply bind_ok in R3 as (uj & R3 & R3'). apply ok_inj in R. subst x. cbn [p_id p_value p_uh]. exists i, p, vj, uj. repeat split; auto.
Qed.
End Block.
Lemma hash_new_shape v h : hash_new v = Ok h -> h = [] \/ length h = 32%nat.
Proof. intro E. apply hash_new_ok in E. tauto. Qed.
Lemma hash_text_back h g : hash32 h \/ h = [] -> hash_from_json (JStr (hash_str h)) = Ok g -> hash_str g = hash_str h.
Proof.
  intros [K|K] E; [rewrite hash_str_rt in E by exact K; apply ok_inj in E; now subst|]. subst h. apply hash_from_json_ok in E as (E & _).
  change (hash_str []) with (repeatN 48 64) in *. vm_compute in E. apply ok_inj in E. subst g. reflexivity.
Qed.
Lemma text_is_eq j s : text_is j s = true -> j = JStr s.
Proof. destruct j; try discriminate. cbn [text_is]. intro E. apply listN_eqb_eq in E. now subst. Qed.
Lemma get_field k j v : jget k j = Ok v -> field k j v.
Proof. destruct j as [| | | | | l|]; try discriminate. cbn [jget]. intro E. exists l. split; [reflexivity|]. destruct (jfind k l); [|discriminate E]. now apply ok_inj in E; subst. Qed.
Lemma hashtype_field k j : field "hashtype" j (JStr (s2b k)) -> hashtype_is k j = Ok tt.
Proof. intro F. unfold hashtype_is. rewrite (field_get _ _ _ F). cbn [bind]. rewrite listN_eqb_refl. reflexivity. Qed.
Lemma hashtype_inv k j u : hashtype_is k j = Ok u -> field "hashtype" j (JStr (s2b k)).
Proof.
  unfold hashtype_is. intro E. apply bind_ok in E as (x & E & G). apply guard_ok in G. apply get_field in E.
  destruct x; try discriminate G. apply listN_eqb_eq in G. now subst.
Qed.
Lemma normalize_hash h : hash32 h -> normalize (BVBytes h) = Ok (hash_str h) /\ normalize (BVStr (hash_str h)) = Ok (hash_str h) /\ normalize (BVData (hash_bd h)) = Ok (hash_str h).
Proof.
  intro K. unfold normalize. assert (A : hash_new (BVBytes h) = Ok h) by (apply hash_new_ok; split; [reflexivity | right; apply K]).
  assert (B : hash_new (BVData (hash_bd h)) = Ok h) by (apply hash_new_ok; split; [reflexivity | right; apply K]).
  rewrite A, B. rewrite hash_str_full by exact K. rewrite (hash_new_hex _ K). cbn [bind]. rewrite hash_str_full by exact K. auto.
Qed.
Lemma key_error_not {A} (r : res A) : key_error r <> Err KeyError.
Proof. destruct r as [a|[]]; discriminate. Qed.
Lemma key_error_err {A} (r : res A) e : e <> KeyError -> r = Err e -> key_error r = Err e.
Proof. intros N ->. destruct e; try reflexivity. contradiction. Qed.

(** the exceptions of reading single values, none of which is a KeyError *)
Definition no_key {A} (r : res A) : Prop := r <> Err KeyError.
Lemma nk_ok {A} (a : A) : no_key (Ok a). Proof. discriminate. Qed.
Lemma nk_bind {A B} (r : res A) (f : A -> res B) : no_key r -> (forall a, r = Ok a -> no_key (f a)) -> no_key (bind r f).
Proof. intros N F. destruct r as [a|e]; [apply (F a eq_refl)|]. cbn [bind]. intro E. apply N. injection E as ->. reflexivity. Qed.
Lemma nk_guard b e : e <> KeyError -> no_key (guard b e).
Proof. intros N. destruct b; [discriminate|]. cbn [guard]. intro E. injection E as E. contradiction. Qed.
Lemma unhex_nk : forall n s, (length s <= n)%nat -> no_key (unhex s).
Proof.
  induction n as [|n IH]; intros s L; destruct s as [|c s]; try discriminate; [cbn [length] in L; lia|]. cbn [unhex]. cbn [length] in L.
  destruct (is_space c); [apply IH; lia|]. destruct s as [|d s]; [discriminate|]. destruct (unhexdig c); [|discriminate]. destruct (unhexdig d); [|discriminate].
  apply nk_bind; [apply IH; cbn [length] in L; lia|]. discriminate.
Qed.
Lemma hash_new_nk v : no_key (hash_new v).
Proof.
  rewrite hash_new_eq. apply nk_bind.
  - destruct v as [|s| | |]; try discriminate. exact (unhex_nk _ s (le_n _)).
  - intros b _. apply nk_bind; [apply nk_guard; discriminate|]. discriminate.
Qed.
Lemma normalize_nk v : no_key (normalize v).
Proof. apply nk_bind; [apply hash_new_nk | discriminate]. Qed.
Lemma py_int_nk s : no_key (py_int s).
Proof. unfold py_int. destruct (strip s); [discriminate|]. repeat match goal with |- no_key (if ?b then _ else _) => destruct b end; destruct int_digits; discriminate. Qed.
Lemma hash_from_json_nk j : no_key (hash_from_json j).
Proof. destruct j as [| | |s| | |]; try discriminate; apply hash_new_nk. Qed.
Lemma riv_int_nk w z : no_key (riv_int w z).
Proof. rewrite riv_int_spec. repeat match goal with |- no_key (if ?b then _ else _) => destruct b end; discriminate. Qed.
Lemma nk_app a b : no_key a -> no_key b -> no_key (a +++ b).
Proof. intros A B. apply nk_bind; [exact A|]. intros x _. apply nk_bind; [exact B | discriminate]. Qed.
Section NoKey.
Variable H : bytes -> bytes.
Lemma uh_checksum_nk u : no_key (uh_checksum H u).
Proof. unfold uh_checksum. destruct (uh_type u =? 0)%Z; [discriminate|]. apply nk_bind; [|discriminate]. apply nk_app; [apply riv_int_nk | discriminate]. Qed.
Lemma uh_str_nk u : no_key (uh_str H u).
Proof. apply nk_bind; [apply uh_checksum_nk|]. intros c _. apply nk_bind; [apply nk_guard; discriminate | discriminate]. Qed.
Lemma uh_from_json_nk j : no_key (uh_from_json H j).
Proof.
  destruct j as [| | |s| | |]; try discriminate. cbn [uh_from_json]. apply nk_bind; [apply nk_guard; discriminate|]. intros _ _. apply nk_bind; [apply py_int_nk|]. intros t _.
  apply nk_bind; [apply hash_new_nk|]. intros h _. destruct (t =? 0)%Z; [apply nk_bind; [apply nk_guard; discriminate | discriminate]|].
  apply nk_bind; [apply uh_checksum_nk|]. intros c _. apply nk_bind; [apply nk_guard; discriminate | discriminate].
Qed.
Lemma pk_from_json_nk j : no_key (pk_from_json j).
Proof.
  unfold pk_from_json. destruct (jtruthy j); [|discriminate]. destruct j as [| | |s| | |]; try discriminate. destruct (splitn 58 2 [] s) as [|a [|b [|]]]; try discriminate.
  apply nk_bind.
  - unfold pkspec_from_str. destruct a; [discriminate|]. destruct listN_eqb; discriminate.
  - intros sp _. apply nk_bind; [apply hash_from_json_nk | discriminate].
Qed.
Lemma bot_endpoint_nk b : no_key (bot_endpoint b).
Proof.
  destruct b; try discriminate. cbn [bot_endpoint]. destruct (re_match botname_re s); [discriminate|]. apply nk_bind; [apply pk_from_json_nk | discriminate].
Qed.
End NoKey.

Lemma key_text_ok s : key_text s <-> exists p, pk_from_json (JStr s) = Ok p.
Proof.
  split.
  - intros [->|(k & t & b & -> & F & U & L)]; [exists (mkpk PKNil []); reflexivity|]. exists (mkpk k b). apply pk_accepts. right. exists t. cbn [pk_spec pk_hash]. auto.
  - intros (p & E). apply pk_accepts in E as [(-> & _)|(t & -> & F & U & L)]; [now left|]. right. exists (pk_spec p), t, (pk_hash p). auto.
Qed.
Lemma no_colon s : maybe_newline bot_name s -> Forall (fun c => c <> 58) s.
Proof.
  intro M. assert (P : forall n p, name_part n p -> Forall (fun c => c <> 58) p).
  { intros n p (a & m & z & -> & A & Z & F & _). constructor; [unfold letter in A; lia|]. apply Forall_app. split; [|constructor; [unfold letter_digit, letter, digit in Z; lia | constructor]].
    eapply Forall_impl; [|exact F]. intros c C. unfold letter_digit, letter, digit, dash in C. lia. }
  assert (B : forall x, bot_name x -> Forall (fun c => c <> 58) x).
  { intros x (p & ps & -> & A & F). apply Forall_app. split; [exact (P _ _ A)|]. induction F as [|q ps Q F IH]; [constructor|]. cbn [flat_map app]. constructor; [unfold DOT; lia|].
    apply Forall_app. split; [exact (P _ _ Q) | exact IH]. }
  destruct M as [M|(t & -> & M)]; [exact (B _ M)|]. apply Forall_app. split; [exact (B _ M)|]. repeat constructor. lia.
Qed.
Lemma name_nonempty s : maybe_newline bot_name s -> s <> [].
Proof. intros [(p & ps & -> & (a & m & z & -> & _) & _)|(t & -> & _)]; [discriminate | destruct t; discriminate]. Qed.
Lemma name_not_key s : maybe_newline bot_name s -> key_text s -> False.
Proof.
  intros M [->|(k & t & b & -> & _)]; [exact (name_nonempty _ M eq_refl)|]. apply no_colon in M. apply Forall_app in M as (_ & M). inversion M. congruence.
Qed.
Lemma bot_endpoint_ok b e : bot_endpoint b = Ok e <-> bot_asks b e.
Proof.
  split.
  - destruct b as [z|b|s|p|s|]; cbn [bot_endpoint]; intro E; try discriminate E; try (apply ok_inj in E; subst e; constructor).
    destruct (re_match botname_re s) eqn:M; [apply ok_inj in E; subst e; constructor; now apply name_match|].
    apply bind_ok in E as (p & K & E). apply ok_inj in E. subst e. constructor. apply key_text_ok. exists p. exact K.
  - intros [z|b'|s|p|s M|s K]; try reflexivity; cbn [bot_endpoint].
    + apply name_match in M. rewrite M. reflexivity.
    + destruct (re_match botname_re s) eqn:M; [apply name_match in M; destruct (name_not_key _ M K)|]. apply key_text_ok in K as (p & K). rewrite K. reflexivity.
Qed.
Lemma pk_text_err s e : pk_from_json (JStr s) = Err e -> e = ValueError \/ e = InvalidPublicKeySpecifier.
Proof.
  unfold pk_from_json. destruct (jtruthy (JStr s)); [|discriminate]. destruct (splitn 58 2 [] s) as [|a [|b [|]]]; try (intro E; injection E as <-; now left).
  intro E. apply bind_err in E as [E|(sp & _ & E)].
  - right. unfold pkspec_from_str in E. destruct a; [discriminate|]. destruct (listN_eqb _ _); [discriminate|]. now injection E as <-.
  - left. apply bind_err in E as [E|(h & _ & E)]; [|discriminate].
    cbn [hash_from_json] in E. rewrite hash_new_eq in E. apply bind_err in E as [E|(u & _ & E)].
    + revert E. assert (G : forall n s, (length s <= n)%nat -> forall e, unhex s = Err e -> e = ValueError).
      { clear. induction n as [|n IH]; intros s L e E; destruct s as [|c s]; try discriminate; [cbn [length] in L; lia|]. cbn [unhex] in E. cbn [length] in L.
        destruct (is_space c); [apply (IH s ltac:(lia) e E)|]. destruct s as [|d s]; [now injection E as <-|]. destruct (unhexdig c); [|now injection E as <-]. destruct (unhexdig d); [|now injection E as <-].
        apply bind_err in E as [E|(r & _ & E)]; [|discriminate]. apply (IH s) in E; [exact E|]. cbn [length] in L. lia. }
      intro E. destruct b as [|c b]; [discriminate E|]. exact (G _ (c :: b) (le_n _) _ E).
    + apply bind_err in E as [E|(? & _ & E)]; [|discriminate]. unfold guard in E. destruct (_ : bool) in E; [discriminate|]. now injection E as <-.
Qed.
Lemma mint_endpoint_ok h e : mint_endpoint h = Ok e <-> mint_asks h e.
Proof.
  split.
  - destruct h as [|z|s|]; cbn [mint_endpoint]; intro E; try discriminate E.
    + apply ok_inj in E. subst. constructor.
    + apply ok_inj in E. subst. exact (MA_int z).
    + apply bind_ok in E as (z & Z & E). apply ok_inj in E. subst. exact (MA_str s z Z).
  - intros [|z|s z Z]; try reflexivity. cbn [mint_endpoint]. rewrite Z. reflexivity.
Qed.
Lemma mint_endpoint_nk h : no_key (mint_endpoint h).
Proof. destruct h; try discriminate. apply nk_bind; [apply py_int_nk | discriminate]. Qed.
Lemma key_error_absent {A} (f : json -> res A) k j : absent k j -> key_error (do x <- jget k j; f x) = Err ExplorerInvalidResponse.
Proof. intros (l & -> & F). cbn [jget]. rewrite F. reflexivity. Qed.
Lemma told_erc20_read H resp u a c : hash_ok H -> address u -> length a = 20%nat -> wf_bytes a -> told_erc20 H resp u a c -> hashtype_is "unlockhash" resp = Ok tt /\ erc20info H resp = Ok (Some (u, a, c)).
Proof.
  intros HH Au La Wa (Fh & i & s & Fi & Es & Ft & Fe & Fc). split; [exact (hashtype_field _ _ Fh)|]. unfold erc20info.
  assert (jin "erc20info" resp = Ok true) as -> by (destruct Fi as (l & -> & Fi); unfold jin, jhas; rewrite Fi; reflexivity). cbn [bind].
  rewrite (field_get _ _ _ Fi). cbn [bind]. rewrite (field_get _ _ _ Ft). cbn [bind]. destruct (address_json H u HH Au) as (s' & Es' & R). rewrite Es in Es'. apply ok_inj in Es'. subst s'.
  rewrite R. cbn [bind]. rewrite (field_get _ _ _ Fe). cbn [bind]. rewrite (eaddr_rt a La Wa). cbn [bind]. rewrite (field_get _ _ _ Fc). reflexivity.
Qed.
