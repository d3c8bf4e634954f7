(** Facts about wallet operations (C36). *)
From Verif Require Import Base BaseFacts Encoders EncodersFacts Currency CurrencyFacts Primitive Types Conditions Fulfillments ThreeBotTypes Txn TxnSign Wallet Ops
  Spec_Types Spec_Fulfil Spec_Txn Spec_Sign FulfilFacts TxnFacts TxnFacts2 TxnFacts4 SignFacts SignFacts2 SignFacts3 Spec_Wallet WalletFacts WalletFacts2 FundFacts FundFacts2 FundFacts3
  BuildFacts Spec_Ops OpsFacts OpsFacts2.
From Coq Require Import ZifyBool ZifyNat ZifyN.
Ltac Zify.zify_post_hook ::= Z.div_mod_to_equations.

Section Hash.
Variables (H : bytes -> bytes) (sign : pubkey -> bytes -> bytes).

Lemma send_funded w fee primary pays source given data t : send_build H w fee primary pays source given data = Ok t ->
  funded H w primary source given fee (map (fun p => mkout (snd p) (fst p) []) pays) 0 t /\
  exists a, t = T1 a /\ s_legacy a = false /\ s_bin a = [] /\ s_bout a = [] /\ s_data a = data /\ (length data <= 83)%nat.
Proof.
  intro E. apply send_ok in E as (C & ins & used & rem & -> & F & P & L & D). split.
  - split; [exact C|]. split; [reflexivity|]. exists ins, used, rem. repeat split; auto using F2_takes.
  - eexists. split; [reflexivity|]. cbn. auto.
Qed.
Lemma contract_funded now w fee primary receiver amount sh lock source given data t :
  create_contract H now w fee primary receiver amount sh lock source given data = Ok t ->
  fee < amount /\ (500000000 <= lock)%Z /\
  exists sender, sender = (match refund_to w primary source given with CUnlockHash u => u | _ => primary end) /\
  funded H w primary source given fee [mkout amount (CSwap sender receiver (Some sh) lock) []] 0 t /\
  exists a, t = T1 a /\ s_legacy a = false /\ s_bin a = [] /\ s_bout a = [] /\ s_data a = data /\ (length data <= 83)%nat.
Proof.
  intro E. apply contract_ok in E as (C & A & ins & used & rem & sender & -> & S & L & _ & _ & F & P & N & D). split; [exact A|]. split; [exact L|]. exists sender. split; [exact S|]. split.
  - split; [exact C|]. split; [reflexivity|]. exists ins, used, rem. repeat split; auto using F2_takes.
  - eexists. split; [reflexivity|]. cbn. auto.
Qed.
Lemma special_funded w fee cost primary t source given t' : special_build H w fee cost primary t source given = Ok t' ->
  funded H w primary source given fee [] cost t' /\ exists ins refund, set_funding t (ins, refund, fee) = Ok t'.
Proof.
  intro E. pose proof E as E'. apply special_ok in E as (C & _ & M & ins & used & rem & I & O & F & P & L). split.
  - split; [exact C|]. split; [exact M|]. exists ins, used, rem. repeat split; auto using F2_takes.
  - unfold special_build, fund_txn in E'. apply bind_ok in E' as (f & Ef & E'). apply bind_ok in Ef as ([[i r] s] & _ & Ef). apply ok_inj in Ef. subst f. eauto.
Qed.
(** edits *)
Lemma edits_cons ip t e es t' : edits ip t (e :: es) = Ok t' -> exists u, edit_txn ip t e = (u, Ok tt) /\ edits ip u es = Ok t'.
Proof. cbn [edits]. destruct (edit_txn ip t e) as [u [[]|x]]; [eauto | discriminate]. Qed.
Lemma bot_months ip b n t' : edit_txn ip (T144 b) (EMonths n) = (t', Ok tt) -> (1 <= n <= 24)%Z /\ t' = T144 (mkbot (b_addrs b) (b_names b) n (b_fee b) (b_cin b) (b_refund b) (b_pk b) (b_sig b)).
Proof. cbn [edit_txn edit_bot]. destruct ((n <? 1) || (24 <? n))%Z eqn:E; intro X; injection X as <-; [discriminate|]. split; [lia | reflexivity]. Qed.
Lemma bot_names ip b o t' : edit_txn ip (T144 b) (ENames o) = (t', Ok tt) -> exists l, mapM bn_new (given_all o) = Ok l /\
  t' = T144 (mkbot (b_addrs b) l (b_months b) (b_fee b) (b_cin b) (b_refund b) (b_pk b) (b_sig b)).
Proof. cbn [edit_txn edit_bot]. destruct (add_all _ _ _ _) as [l r] eqn:E. intro X. injection X as <- ->. apply add_all_ok in E as (r & -> & E). eauto. Qed.
Lemma bot_addrs ip b o t' : edit_txn ip (T144 b) (EAddrs o) = (t', Ok tt) -> exists l, mapM (na_new ip) (given_all o) = Ok l /\
  t' = T144 (mkbot l (b_names b) (b_months b) (b_fee b) (b_cin b) (b_refund b) (b_pk b) (b_sig b)).
Proof. cbn [edit_txn edit_bot]. destruct (add_all _ _ _ _) as [l r] eqn:E. intro X. injection X as <- ->. apply add_all_ok in E as (r & -> & E). eauto. Qed.
Lemma plain_worth t c n : worth_of (required_bot_fees t) n -> required_bot_fees t = Ok c -> in_units c = n.
Proof. intros (d & E & _ & U) F. rewrite E in F. apply ok_inj in F. subst d. exact U. Qed.

Lemma bot_signed b t' : unsigned t' = unsigned (T144 b) -> exists b', t' = T144 b' /\ b_addrs b' = b_addrs b /\ b_names b' = b_names b /\ b_months b' = b_months b /\ b_pk b' = b_pk b.
Proof. intro U. destruct t' as [t'|t'|t'|t'|t'|t'|t'|t']; try discriminate. cbn in U. injection U as U1 U2 U3 U4 U5 U6 U7. exists t'. auto. Qed.
Lemma upd_signed b t' : unsigned t' = unsigned (T145 b) -> exists b', t' = T145 b' /\ u_id b' = u_id b /\ u_addr_add b' = u_addr_add b /\ u_addr_del b' = u_addr_del b /\
  u_name_add b' = u_name_add b /\ u_name_del b' = u_name_del b /\ u_months b' = u_months b /\ u_parent b' = u_parent b.
Proof. intro U. destruct t' as [t'|t'|t'|t'|t'|t'|t'|t']; try discriminate. cbn in U. injection U as U1 U2 U3 U4 U5 U6 U7 U8 U9 U10. exists t'. repeat split; auto. Qed.
Lemma name_signed b t' : unsigned t' = unsigned (T146 b) -> exists b', t' = T146 b' /\ n_sender b' = n_sender b /\ n_receiver b' = n_receiver b /\ n_names b' = n_names b /\
  n_spk b' = n_spk b /\ n_rpk b' = n_rpk b.
Proof. intro U. destruct t' as [t'|t'|t'|t'|t'|t'|t'|t']; try discriminate. cbn in U. injection U as U1 U2 U3 U4 U5 U6 U7 U8. exists t'. repeat split; auto. Qed.
Lemma conv_signed b t' : unsigned t' = unsigned (T208 b) -> exists b', t' = T208 b' /\ c_addr b' = c_addr b /\ c_value b' = c_value b.
Proof. intro U. destruct t' as [t'|t'|t'|t'|t'|t'|t'|t']; try discriminate. cbn in U. injection U as U1 U2 U3 U4 U5. exists t'. repeat split; auto. Qed.
Lemma reg_signed b t' : unsigned t' = unsigned (T210 b) -> exists b', t' = T210 b' /\ r_pk b' = r_pk b.
Proof. intro U. destruct t' as [t'|t'|t'|t'|t'|t'|t'|t']; try discriminate. cbn in U. injection U as U1 U2 U3 U4. exists t'. repeat split; auto. Qed.
Lemma mint_signed b t' : unsigned t' = unsigned (TMint b) -> exists b', t' = TMint b' /\ m_new b' = m_new b /\ m_fees b' = m_fees b /\ m_data b' = m_data b /\ m_nonce b' = m_nonce b /\ m_parent b' = m_parent b.
Proof. intro U. destruct t' as [t'|t'|t'|t'|t'|t'|t'|t']; try discriminate. cbn in U. injection U as U1 U2 U3 U4 U5 U6. exists t'. repeat split; auto. Qed.

Lemma record_new_inv ip x months names addrs key f t' sub : record_new H sign ip x months names addrs key f = Ok (t', sub) ->
  exists b k, t' = T144 b /\ key = Ok k /\ b_pk b = Some k /\ b_months b = months /\ (1 <= months <= 24)%Z /\
    mapM bn_new (given_all names) = Ok (b_names b) /\ mapM (na_new ip) (given_all addrs) = Ok (b_addrs b) /\ limits t' /\
    funded H (x_bal x) (x_address x) (f_source f) (f_refund f) (x_fee x) [] (price t') t' /\ (sub = true <-> complete t').
Proof.
  unfold record_new. intro E. apply bind_ok in E as (t0 & E0 & E). apply bind_ok in E as (? & _ & E). apply bind_ok in E as (t1 & E1 & E).
  apply bind_ok in E as (c & C & E). apply bind_ok in E as (t2 & S & E). apply bind_ok in E as (k & K & E).
  assert (L0 : limits t0) by (eapply edits_limits; [|exact E0]; apply new_limits). assert (L1 : limits t1) by (eapply edits_limits; [exact L0|exact E1]).
  apply edits_cons in E0 as (u & U & X). apply ok_inj in X. subst u. apply bot_months in U as [M ->].
  apply edits_cons in E1 as (u & U & E1). apply bot_names in U as (ln & N & ->). apply edits_cons in E1 as (u & U & X). apply ok_inj in X. subst u. apply bot_addrs in U as (la & A & ->).
  cbn [b_addrs b_names b_months b_fee b_cin b_refund b_pk b_sig] in *.
  rewrite (plain_worth _ _ _ (fees_ok _ (limits_moderate _ L1)) C) in S. apply special_funded in S as (F & ins & r & G). cbn [set_funding] in G. apply ok_inj in G. subst t2.
  cbn [b_addrs b_names b_months b_fee b_cin b_refund b_pk b_sig] in *. apply finish_inv in E as [U B].
  destruct (bot_signed _ _ U) as (b' & -> & P1 & P2 & P3 & P4). cbn [b_addrs b_names b_months b_pk] in *.
  exists b', k. rewrite P1, P2, P3, P4. repeat (split; [first [reflexivity | assumption | lia]|]).
  split; [cbn [limits] in L1 |- *; cbn [b_addrs b_names b_months] in L1; rewrite P1, P2, P3; exact L1|]. split; [|exact B].
  destruct (unsigned_outs _ _ U) as (_ & _ & _ & PP). rewrite PP. eapply funded_signed; [exact U|].
  destruct F as ((l & I & W) & Mi & ins' & used & rem & I' & Fo & Se & Le & O). split; [exists l; auto|]. split; [exact Mi|]. exists ins', used, rem. auto.
Qed.

(** update *)
Lemma upd_months ip u n t' : edit_txn ip (T145 u) (EMonths n) = (t', Ok tt) -> (0 <= n <= 24)%Z /\
  t' = T145 (mkupd (u_id u) (u_addr_add u) (u_addr_del u) (u_name_add u) (u_name_del u) n (u_fee u) (u_cin u) (u_refund u) (u_sig u) (u_parent u)).
Proof. cbn [edit_txn edit_upd]. destruct ((n <? 0) || (24 <? n))%Z eqn:E; intro X; injection X as <-; [discriminate|]. split; [lia | reflexivity]. Qed.
Lemma upd_id ip u i t' : edit_txn ip (T145 u) (EBotId (Some i)) = (t', Ok tt) -> (1 <= i)%Z /\
  t' = T145 (mkupd i (u_addr_add u) (u_addr_del u) (u_name_add u) (u_name_del u) (u_months u) (u_fee u) (u_cin u) (u_refund u) (u_sig u) (u_parent u)).
Proof. cbn [edit_txn edit_upd bot_id]. destruct (1 <=? i)%Z eqn:E; cbn; intro X; injection X as <-; [split; [lia | reflexivity] | discriminate]. Qed.
Lemma upd_l1 ip u o t' : edit_txn ip (T145 u) (ENames o) = (t', Ok tt) -> exists l, mapM bn_new (given_all o) = Ok l /\
  t' = T145 (mkupd (u_id u) (u_addr_add u) (u_addr_del u) l (u_name_del u) (u_months u) (u_fee u) (u_cin u) (u_refund u) (u_sig u) (u_parent u)).
Proof. cbn [edit_txn edit_upd]. destruct (add_all _ _ _ _) as [l r] eqn:E. intro X. injection X as <- ->. apply add_all_ok in E as (r & -> & E). eauto. Qed.
Lemma upd_l2 ip u o t' : edit_txn ip (T145 u) (ENamesDel o) = (t', Ok tt) -> exists l, mapM bn_new (given_all o) = Ok l /\
  t' = T145 (mkupd (u_id u) (u_addr_add u) (u_addr_del u) (u_name_add u) l (u_months u) (u_fee u) (u_cin u) (u_refund u) (u_sig u) (u_parent u)).
Proof. cbn [edit_txn edit_upd]. destruct (add_all _ _ _ _) as [l r] eqn:E. intro X. injection X as <- ->. apply add_all_ok in E as (r & -> & E). eauto. Qed.
Lemma upd_l3 ip u o t' : edit_txn ip (T145 u) (EAddrs o) = (t', Ok tt) -> exists l, mapM (na_new ip) (given_all o) = Ok l /\
  t' = T145 (mkupd (u_id u) l (u_addr_del u) (u_name_add u) (u_name_del u) (u_months u) (u_fee u) (u_cin u) (u_refund u) (u_sig u) (u_parent u)).
Proof. cbn [edit_txn edit_upd]. destruct (add_all _ _ _ _) as [l r] eqn:E. intro X. injection X as <- ->. apply add_all_ok in E as (r & -> & E). eauto. Qed.
Lemma upd_l4 ip u o t' : edit_txn ip (T145 u) (EAddrsDel o) = (t', Ok tt) -> exists l, mapM (na_new ip) (given_all o) = Ok l /\
  t' = T145 (mkupd (u_id u) (u_addr_add u) l (u_name_add u) (u_name_del u) (u_months u) (u_fee u) (u_cin u) (u_refund u) (u_sig u) (u_parent u)).
Proof. cbn [edit_txn edit_upd]. destruct (add_all _ _ _ _) as [l r] eqn:E. intro X. injection X as <- ->. apply add_all_ok in E as (r & -> & E). eauto. Qed.
Lemma record_update_inv ip now rec x id months na nd aa ad f t' sub : record_update H sign ip now rec x id months na nd aa ad f = Ok (t', sub) ->
  exists u r, t' = T145 u /\ rec id = Ok r /\ u_parent u = Some (br_key r) /\ (now < br_expiration r \/ months <> 0)%Z /\ u_id u = id /\ (1 <= id)%Z /\ u_months u = months /\
    mapM bn_new (given_all na) = Ok (u_name_add u) /\ mapM bn_new (given_all nd) = Ok (u_name_del u) /\
    mapM (na_new ip) (given_all aa) = Ok (u_addr_add u) /\ mapM (na_new ip) (given_all ad) = Ok (u_addr_del u) /\ limits t' /\
    funded H (x_bal x) (x_address x) (f_source f) (f_refund f) (x_fee x) [] (price t') t' /\ (sub = true <-> complete t').
Proof.
  unfold record_update. intro E. apply bind_ok in E as (? & _ & E). apply bind_ok in E as (t1 & E1 & E). apply bind_ok in E as (r & R & E). apply bind_ok in E as (? & G & E). apply guard_ok in G.
  assert (L1 : limits t1) by (eapply edits_limits; [|exact E1]; apply new_limits).
  apply edits_cons in E1 as (v & V & E1). apply upd_id in V as [I ->]. cbn [u_id u_addr_add u_addr_del u_name_add u_name_del u_months u_fee u_cin u_refund u_sig u_parent] in E1. apply edits_cons in E1 as (v & V & E1). apply upd_months in V as [M ->]. cbn [u_id u_addr_add u_addr_del u_name_add u_name_del u_months u_fee u_cin u_refund u_sig u_parent] in E1.
  apply edits_cons in E1 as (v & V & E1). apply upd_l1 in V as (l1 & A1 & ->). cbn [u_id u_addr_add u_addr_del u_name_add u_name_del u_months u_fee u_cin u_refund u_sig u_parent] in E1. apply edits_cons in E1 as (v & V & E1). apply upd_l2 in V as (l2 & A2 & ->). cbn [u_id u_addr_add u_addr_del u_name_add u_name_del u_months u_fee u_cin u_refund u_sig u_parent] in E1.
  apply edits_cons in E1 as (v & V & E1). apply upd_l3 in V as (l3 & A3 & ->). cbn [u_id u_addr_add u_addr_del u_name_add u_name_del u_months u_fee u_cin u_refund u_sig u_parent] in E1. apply edits_cons in E1 as (v & V & E1). apply upd_l4 in V as (l4 & A4 & ->). cbn [u_id u_addr_add u_addr_del u_name_add u_name_del u_months u_fee u_cin u_refund u_sig u_parent] in E1. apply ok_inj in E1. subst t1.
  cbn [u_id u_addr_add u_addr_del u_name_add u_name_del u_months u_fee u_cin u_refund u_sig u_parent] in *.
  set (T := T145 _) in E. assert (LT : limits T) by exact L1. apply bind_ok in E as (c & C & E). apply bind_ok in E as (t2 & S & E).
  rewrite (plain_worth _ _ _ (fees_ok _ (limits_moderate _ LT)) C) in S. apply special_funded in S as (F & ins & rf & W). cbn [set_funding T] in W. apply ok_inj in W. subst t2.
  cbn [u_id u_addr_add u_addr_del u_name_add u_name_del u_months u_fee u_cin u_refund u_sig u_parent] in *. apply finish_inv in E as [U B].
  destruct (upd_signed _ _ U) as (b' & -> & P0 & P1 & P2 & P3 & P4 & P5 & P6). cbn [u_id u_addr_add u_addr_del u_name_add u_name_del u_months u_parent] in *.
  exists b', r. rewrite P0, P1, P2, P3, P4, P5, P6. split; [reflexivity|]. split; [exact R|]. split; [reflexivity|]. split; [lia|]. repeat (split; [first [reflexivity | assumption]|]).
  split; [cbn [limits T] in LT |- *; cbn [u_id u_addr_add u_addr_del u_name_add u_name_del u_months] in LT; rewrite P0, P1, P2, P3, P4, P5; exact LT|]. split; [|exact B].
  destruct (unsigned_outs _ _ U) as (_ & _ & _ & PP). rewrite PP. eapply funded_signed; [exact U | exact F].
Qed.

(** name transfer *)
Lemma nt_ids ip n i t' : edit_txn ip (T146 n) (EBotId (Some i)) = (t', Ok tt) -> (1 <= i)%Z /\
  t' = T146 (mkname i (n_receiver n) (n_names n) (n_fee n) (n_cin n) (n_refund n) (n_ssig n) (n_rsig n) (n_spk n) (n_rpk n)).
Proof. cbn [edit_txn edit_name bot_id]. destruct (1 <=? i)%Z eqn:E; cbn; intro X; injection X as <-; [split; [lia | reflexivity] | discriminate]. Qed.
Lemma nt_idr ip n i t' : edit_txn ip (T146 n) (EReceiver (Some i)) = (t', Ok tt) -> (1 <= i)%Z /\
  t' = T146 (mkname (n_sender n) i (n_names n) (n_fee n) (n_cin n) (n_refund n) (n_ssig n) (n_rsig n) (n_spk n) (n_rpk n)).
Proof. cbn [edit_txn edit_name bot_id]. destruct (1 <=? i)%Z eqn:E; cbn; intro X; injection X as <-; [split; [lia | reflexivity] | discriminate]. Qed.
Lemma nt_names ip n o t' : edit_txn ip (T146 n) (ENames o) = (t', Ok tt) -> exists l, mapM bn_new (given_all o) = Ok l /\
  t' = T146 (mkname (n_sender n) (n_receiver n) (n_names n ++ l) (n_fee n) (n_cin n) (n_refund n) (n_ssig n) (n_rsig n) (n_spk n) (n_rpk n)).
Proof. cbn [edit_txn edit_name]. destruct (add_all _ _ _ _) as [l r] eqn:E. intro X. injection X as <- ->. apply add_all_ok in E as (r & -> & E). eauto. Qed.
Lemma name_transfer_inv ip now rec x sender receiver names f t' sub : name_transfer H sign ip now rec x sender receiver names f = Ok (t', sub) ->
  exists n rs rr, t' = T146 n /\ rec sender = Ok rs /\ rec receiver = Ok rr /\ n_spk n = Some (br_key rs) /\ n_rpk n = Some (br_key rr) /\
    (now < br_expiration rs)%Z /\ (now < br_expiration rr)%Z /\ n_sender n = sender /\ n_receiver n = receiver /\
    mapM bn_new (given_all names) = Ok (n_names n) /\ n_names n <> [] /\ limits t' /\
    funded H (x_bal x) (x_address x) (f_source f) (f_refund f) (x_fee x) [] (price t') t' /\ (sub = true <-> complete t').
Proof.
  unfold name_transfer. intro E. apply bind_ok in E as (t1 & E1 & E).
  assert (L1 : limits t1) by (eapply edits_limits; [|exact E1]; apply new_limits).
  apply edits_cons in E1 as (v & V & E1). apply nt_ids in V as [I ->]. apply edits_cons in E1 as (v & V & E1). apply nt_idr in V as [M ->].
  apply edits_cons in E1 as (v & V & E1). apply nt_names in V as (l1 & A1 & ->). apply ok_inj in E1. subst t1.
  cbn [n_sender n_receiver n_names n_fee n_cin n_refund n_ssig n_rsig n_spk n_rpk app] in *.
  apply bind_ok in E as (? & G & E). apply guard_ok in G. apply bind_ok in E as (rs & Rs & E). apply bind_ok in E as (? & G1 & E). apply guard_ok in G1.
  apply bind_ok in E as (rr & Rr & E). apply bind_ok in E as (? & G2 & E). apply guard_ok in G2.
  set (T := T146 _) in E. assert (LT : limits T) by exact L1. apply bind_ok in E as (c & C & E). apply bind_ok in E as (t2 & S & E).
  rewrite (plain_worth _ _ _ (fees_ok _ (limits_moderate _ LT)) C) in S. apply special_funded in S as (F & ins & rf & W). cbn [set_funding T] in W. apply ok_inj in W. subst t2.
  cbn [n_sender n_receiver n_names n_fee n_cin n_refund n_ssig n_rsig n_spk n_rpk] in *. apply finish_inv in E as [U B].
  destruct (name_signed _ _ U) as (b' & -> & P0 & P1 & P2 & P3 & P4). cbn [n_sender n_receiver n_names n_spk n_rpk] in *.
  exists b', rs, rr. rewrite P0, P1, P2, P3, P4. repeat (split; [first [reflexivity | assumption | lia]|]).
  split; [intros ->; discriminate|].
  split; [cbn [limits T] in LT |- *; cbn [n_sender n_receiver n_names] in LT; rewrite P0, P1, P2; exact LT|]. split; [|exact B].
  destruct (unsigned_outs _ _ U) as (_ & _ & _ & PP). rewrite PP. eapply funded_signed; [exact U | exact F].
Qed.
Lemma erc20_send_inv x address amount f t' sub : erc20_send H sign x address amount f = Ok (t', sub) ->
  exists c, t' = T208 c /\ eaddr_new address = Ok (c_addr c) /\ c_value c = amount /\ 0 < amount /\
    funded H (x_bal x) (x_address x) (f_source f) (f_refund f) (x_fee x) [] amount t' /\ (sub = true <-> complete t').
Proof.
  unfold erc20_send. intro E. apply bind_ok in E as (? & G & E). apply guard_ok in G. apply bind_ok in E as (a & A & E). apply bind_ok in E as (t2 & S & E).
  apply special_funded in S as (F & ins & rf & W). cbn [set_funding] in W. apply ok_inj in W. subst t2. cbn [c_addr c_value] in *. apply finish_inv in E as [U B].
  destruct (conv_signed _ _ U) as (c & -> & P0 & P1). cbn [c_addr c_value] in *. exists c. rewrite P0, P1. repeat (split; [first [reflexivity | assumption | lia]|]). split; [|exact B].
  eapply funded_signed; [exact U | exact F].
Qed.
Lemma erc20_register_inv x key f t' sub : erc20_register H sign x key f = Ok (t', sub) ->
  exists r k, t' = T210 r /\ key = Ok k /\ r_pk r = Some k /\
    funded H (x_bal x) (x_address x) (f_source f) (f_refund f) (x_fee x) [] (10 * TFT) t' /\ (sub = true <-> complete t').
Proof.
  unfold erc20_register. intro E. apply bind_ok in E as (k & K & E). apply bind_ok in E as (t2 & S & E).
  apply special_funded in S as (F & ins & rf & W). cbn [set_funding] in W. apply ok_inj in W. subst t2. cbn [r_pk] in *. apply finish_inv in E as [U B].
  destruct (reg_signed _ _ U) as (c & -> & P0). cbn [r_pk] in *. exists c, k. rewrite P0. repeat (split; [first [reflexivity | assumption | lia]|]). split; [|exact B].
  eapply funded_signed; [exact U | exact F].
Qed.
Lemma std_signed a t' : unsigned t' = unsigned (T1 a) -> s_bin a = [] -> exists b, t' = T1 b /\ s_legacy b = s_legacy a /\ s_bin b = [] /\ s_bout b = s_bout a /\ s_data b = s_data a.
Proof. intros U B. destruct (t1_signed _ _ U B) as (ins & _ & ->). eexists. split; [reflexivity|]. cbn. auto. Qed.
Lemma wallet_send_many_inv x pays f data t' sub : wallet_send_many H sign x pays f data = Ok (t', sub) ->
  funded H (x_bal x) (x_address x) (f_source f) (f_refund f) (x_fee x) (map (fun p => mkout (snd p) (fst p) []) pays) 0 t' /\
  (exists a, t' = T1 a /\ s_legacy a = false /\ s_bin a = [] /\ s_bout a = [] /\ s_data a = data /\ (length data <= 83)%nat) /\ (sub = true <-> complete t').
Proof.
  unfold wallet_send_many. intro E. apply bind_ok in E as (t & S & E). apply send_funded in S as (F & a & -> & A1 & A2 & A3 & A4 & A5). apply finish_inv in E as [U B].
  split; [eapply funded_signed; [exact U | exact F]|]. split; [|exact B]. destruct (std_signed _ _ U A2) as (b & -> & B1 & B2 & B3 & B4). exists b. repeat split; congruence.
Qed.
Lemma wallet_send_inv x recipient amount f data t' sub : wallet_send H sign x recipient amount f data = Ok (t', sub) ->
  0 < amount /\ wallet_send_many H sign x [(recipient, amount)] f data = Ok (t', sub).
Proof.
  unfold wallet_send, wallet_send_many, coins_send. intro E. apply bind_ok in E as (t & S & E). apply bind_ok in S as (? & G & S). apply guard_ok in G. rewrite S. cbn [bind]. split; [lia | exact E].
Qed.
(** contracts *)
Lemma with_ids_inv t l : forall i os, with_ids H t i l = Ok os ->
  map (fun o => mkout (o_value o) (o_cond o) []) os = map (fun o => mkout (o_value o) (o_cond o) []) l /\ length os = length l /\
  forall j o, nth_error os j = Some o -> coin_outputid H t (Z.of_nat (i + j)) = Ok (o_id o).
Proof.
  induction l as [|o l IH]; intros i os E; cbn [with_ids] in E; [apply ok_inj in E; subst os; split; [reflexivity|]; split; [reflexivity|]; intros [|j] ? X; discriminate|].
  apply bind_ok in E as (d & D & E). apply bind_ok in E as (r & R & E). apply ok_inj in E. subst os. destruct (IH _ _ R) as (A & B & C). cbn [map length o_value o_cond]. rewrite A, B.
  split; [reflexivity|]. split; [reflexivity|]. intros [|j] o' X.
  - cbn in X. injection X as <-. rewrite Nat.add_0_r. exact D.
  - cbn in X. replace (i + S j)%nat with (S i + j)%nat by lia. apply C. exact X.
Qed.
Lemma worth_drop l l' : map (fun o => mkout (o_value o) (o_cond o) []) l = map (fun o => mkout (o_value o) (o_cond o) []) l' -> worth l = worth l'.
Proof. intro E. apply (f_equal (map o_value)) in E. rewrite !map_map in E. unfold worth. f_equal. exact E. Qed.
Lemma map_drop {B} (f : output -> B) (Hf : forall o, f o = f (mkout (o_value o) (o_cond o) [])) l l' :
  map (fun o => mkout (o_value o) (o_cond o) []) l = map (fun o => mkout (o_value o) (o_cond o) []) l' -> map f l = map f l'.
Proof. intro E. apply (f_equal (map f)) in E. rewrite !map_map in E. rewrite (map_ext _ _ Hf l), (map_ext _ _ Hf l'). exact E. Qed.
Lemma ids_free a os i : map (fun o => mkout (o_value o) (o_cond o) []) os = map (fun o => mkout (o_value o) (o_cond o) []) (s_cout a) -> length os = length (s_cout a) ->
  coin_outputid H (set_cout (T1 a) os) i = coin_outputid H (T1 a) i.
Proof.
  intros E L. unfold coin_outputid. cbn [set_cout coin_outputs s_cout]. rewrite L. unfold outputid_input. replace (coin_spec _) with (coin_spec (T1 a)) by reflexivity.
  replace (id_input H (T1 (mkstd _ _ _ _ _ _ _))) with (id_input H (T1 a)); [reflexivity|].
  assert (S1 : sia_list out_sia os = sia_list out_sia (s_cout a)) by (unfold sia_list; now rewrite L, (map_drop out_sia (fun _ => eq_refl) _ _ E)).
  assert (S2 : sia_list (legacy_out H) os = sia_list (legacy_out H) (s_cout a)) by (unfold sia_list; now rewrite L, (map_drop (legacy_out H) (fun _ => eq_refl) _ _ E)).
  cbn [id_input binary_encode data_bytes s_legacy s_cin s_cout s_bin s_bout s_fees s_data]. rewrite S1, S2. reflexivity.
Qed.
Lemma funded_nameless w p s r fee pays cost a os : map (fun o => mkout (o_value o) (o_cond o) []) os = s_cout a ->
  funded H w p s r fee pays cost (T1 a) -> funded H w p s r fee pays cost (nameless (set_cout (T1 a) os)).
Proof.
  intros E F. cbn [nameless set_cout s_cout s_legacy s_cin s_bin s_bout s_fees s_data]. rewrite E. destruct a as [a1 a2 a3 a4 a5 a6 a7]. exact F.
Qed.
Lemma change_nameless r c : map (fun o => mkout (o_value o) (o_cond o) []) (change r c) = change r c.
Proof. unfold change. destruct (r =? 0); reflexivity. Qed.
Lemma wallet_contract_inv now x receiver amount sh lock f data submit t' sub : wallet_contract H sign now x receiver amount sh lock f data submit = Ok (t', sub) ->
  x_fee x < amount /\ (500000000 <= lock)%Z /\
  funded H (x_bal x) (x_address x) (f_source f) (f_refund f) (x_fee x)
    [mkout amount (CSwap (match refund_to (x_bal x) (x_address x) (f_source f) (f_refund f) with CUnlockHash u => u | _ => x_address x end) receiver (Some sh) lock) []] 0 (nameless t') /\
  (exists a, t' = T1 a /\ s_legacy a = false /\ s_bin a = [] /\ s_bout a = [] /\ s_data a = data /\ (length data <= 83)%nat) /\
  (forall j o, nth_error (coin_outputs t') j = Some o -> coin_outputid H t' (Z.of_nat j) = Ok (o_id o)) /\
  (sub = true <-> submit = true /\ complete t').
Proof.
  unfold wallet_contract. intro E. apply bind_ok in E as (t & S & E). apply contract_funded in S as (A & L & sender & -> & F & a & -> & A1 & A2 & A3 & A4 & A5).
  apply bind_ok in E as ([t1 b] & Fi & E). apply finish_inv in Fi as [U B]. apply bind_ok in E as (os & W & E). apply ok_inj in E. injection E as <- <-.
  eapply funded_signed in F; [|exact U]. destruct (std_signed _ _ U A2) as (c & -> & B1 & B2 & B3 & B4).
  destruct (with_ids_inv _ _ _ _ W) as (D & DL & DI). cbn [coin_outputs] in *. split; [exact A|]. split; [exact L|]. split; [|split; [|split]].
  - apply funded_nameless; [|exact F]. rewrite D. destruct F as (_ & _ & ins & used & rem & _ & _ & _ & _ & O). cbn [coin_outputs] in O. rewrite O, map_app, change_nameless. reflexivity.
  - eexists. cbn [set_cout]. split; [reflexivity|]. cbn [s_legacy s_bin s_bout s_data]. repeat split; congruence.
  - intros j o X. cbn [set_cout coin_outputs s_cout] in X. change (T1 (mkstd _ _ os _ _ _ _)) with (set_cout (T1 c) os).
    rewrite ids_free; [apply DI; exact X | exact D | exact DL].
  - rewrite andb_true_iff, B. unfold complete. cbn [set_cout coin_inputs s_cin own_slots]. reflexivity.
Qed.
(** minting *)
Lemma mint_inv x mc new nonce data t' sub : mint H sign x mc new nonce data = Ok (t', sub) ->
  exists m c, t' = TMint m /\ mc = Ok c /\ m_parent m = Some c /\ m_new m = new /\ m_fees m = [x_fee x] /\ m_nonce m = nonce /\ m_data m = match data with Some d => d | None => [] end /\ (length (m_data m) <= 83)%nat /\ (sub = true <-> complete t').
Proof.
  unfold mint. intro E. apply bind_ok in E as (d & D & E). apply bind_ok in E as (c & C & E). apply bind_ok in E as (f & F & E). apply finish_inv in E as [U B].
  destruct (mint_signed _ _ U) as (m & -> & P1 & P2 & P3 & P4 & P5). cbn [m_new m_fees m_data m_nonce m_parent] in *. exists m, c. rewrite P1, P2, P3, P4, P5.
  assert (DD : d = match data with Some d => d | None => [] end /\ (length d <= 83)%nat).
  { destruct data as [y|]; cbn [opt_data] in D.
    - unfold data_new in D. apply bind_ok in D as (? & G & D). apply guard_ok in G. apply ok_inj in D. subst. split; [reflexivity | lia].
    - apply ok_inj in D. subst d. split; [reflexivity | cbn; lia]. }
  destruct DD as [-> DL]. repeat (split; [first [reflexivity | assumption]|]). exact B.
Qed.
End Hash.
