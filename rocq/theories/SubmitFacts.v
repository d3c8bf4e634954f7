(** Facts about submitting transactions (Submit.v). *)
From Verif Require Import Base BaseFacts Encoders Currency Primitive Types Conditions Fulfillments ThreeBotTypes Txn TxnSign Wallet AtomicSwap Ops Submit
  Spec_Types Spec_Fulfil Spec_Txn Spec_Sign Spec_Wallet Spec_Explorer Spec_Ops Spec_Submit WalletFacts OpsFacts OpsFacts2 OpsFacts4.
From Coq Require Import ZifyBool ZifyNat ZifyN.
Ltac Zify.zify_post_hook ::= Z.div_mod_to_equations.

Section Hash.
Variable H : bytes -> bytes.
Variable S256 : bytes -> bytes.
Variable sign : pubkey -> bytes -> bytes.
Variable ip_parse : pystr -> res bytes.

(** ** Ids *)
Lemma out_enc_anon l l' : map anon l = map anon l' -> length l = length l' /\ map out_sia l = map out_sia l' /\ map out_riv l = map out_riv l' /\ map (legacy_out H) l = map (legacy_out H) l'.
Proof.
  intro E. split; [apply (f_equal (@length _)) in E; now rewrite !map_length in E|].
  repeat split; apply map_drop; try reflexivity; exact E.
Qed.
Lemma set_outs_anon t l : map anon l = map anon (coin_outputs t) -> anonymous (set_outs t l) = anonymous t.
Proof.
  assert (R : forall o, map anon l = map anon (match o with Some o => [o] | None => [] end) -> option_map anon (match l with o :: _ => Some o | [] => None end) = option_map anon o).
  { intros [o|] E; destruct l as [|a [|b l]]; cbn [map option_map] in E |- *; try discriminate; try reflexivity. congruence. }
  destruct t as [t|t|t|t|t|t|t|t]; cbn [coin_outputs set_outs anonymous]; intro E.
  - cbn [s_cout]. rewrite E. reflexivity.
  - cbn [m_new]. destruct (m_new t) as [c|os]; [reflexivity|]. rewrite E. reflexivity.
  - cbn [c_refund]. rewrite (R _ E). reflexivity.
  - reflexivity.
  - cbn [r_refund]. rewrite (R _ E). reflexivity.
  - cbn [b_refund]. rewrite (R _ E). reflexivity.
  - cbn [u_refund]. rewrite (R _ E). reflexivity.
  - cbn [n_refund]. rewrite (R _ E). reflexivity.
Qed.
Lemma anon_idem o : anon (anon o) = anon o. Proof. reflexivity. Qed.
Lemma map_anon_idem l : map anon (map anon l) = map anon l.
Proof. rewrite map_map. reflexivity. Qed.
Lemma anonymous_outputs t : map anon (coin_outputs (anonymous t)) = map anon (coin_outputs t).
Proof.
  destruct t as [t|t|t|t|t|t|t|t]; cbn [coin_outputs anonymous s_cout m_new c_refund r_refund b_refund u_refund n_refund]; rewrite ?map_anon_idem; try reflexivity.
  - destruct (m_new t); [reflexivity | apply map_anon_idem].
  - destruct (c_refund t); reflexivity.
  - destruct (r_refund t); reflexivity.
  - destruct (b_refund t); reflexivity.
  - destruct (u_refund t); reflexivity.
  - destruct (n_refund t); reflexivity.
Qed.
Lemma anonymous_length t u : anonymous t = anonymous u -> length (coin_outputs t) = length (coin_outputs u).
Proof. intro E. pose proof (anonymous_outputs t) as A. pose proof (anonymous_outputs u) as B. rewrite E in A. rewrite A in B. apply (f_equal (@length _)) in B. now rewrite !map_length in B. Qed.
Lemma anonymous_encode t : data_bytes H (anonymous t) = data_bytes H t.
Proof.
  destruct t as [t|t|t|t|t|t|t|t]; cbn [anonymous]; try reflexivity.
  - pose proof (out_enc_anon (map anon (s_cout t)) (s_cout t) (map_anon_idem _)) as (L & A & B & C).
    cbn [data_bytes s_legacy s_cin s_cout s_bin s_bout s_fees s_data]. unfold sia_list. rewrite L, A, C. reflexivity.
  - cbn [data_bytes m_ff m_new m_fees m_data m_nonce m_parent]. destruct (m_new t) as [c|l]; [reflexivity|].
    pose proof (out_enc_anon (map anon l) l (map_anon_idem _)) as (L & A & B & C). unfold riv_list, sia_list. rewrite ?L, ?A, ?B. reflexivity.
  - cbn [data_bytes c_addr c_value c_fee c_cin c_refund]. destruct (c_refund t); reflexivity.
  - cbn [data_bytes r_pk r_sig r_fee r_cin r_refund]. destruct (r_refund t); reflexivity.
  - cbn [data_bytes b_addrs b_names b_months b_fee b_cin b_refund b_pk b_sig]. destruct (b_refund t); reflexivity.
  - cbn [data_bytes u_id u_addr_add u_addr_del u_name_add u_name_del u_months u_fee u_cin u_refund u_sig u_parent]. destruct (u_refund t); reflexivity.
  - cbn [data_bytes n_sender n_receiver n_names n_fee n_cin n_refund n_ssig n_rsig n_spk n_rpk]. destruct (n_refund t); reflexivity.
Qed.
Lemma anonymous_binary t : binary_encode H (anonymous t) = binary_encode H t.
Proof.
  pose proof (anonymous_encode t) as E. destruct t as [t|t|t|t|t|t|t|t]; cbn [anonymous] in *; unfold binary_encode; try rewrite E; try reflexivity.
  cbn [version m_new]. destruct (m_new t); reflexivity.
Qed.
Lemma anonymous_idin t : id_input H (anonymous t) = id_input H t.
Proof.
  pose proof (anonymous_encode t) as E. destruct t as [t|t|t|t|t|t|t|t]; try (cbn [anonymous] in *; cbn [id_input specifier]; try rewrite E; reflexivity).
  - exact (anonymous_binary (T1 t)).
  - cbn [anonymous] in *. cbn [id_input]. rewrite E. cbn [specifier m_new]. destruct (m_new t); reflexivity.
Qed.
Lemma anonymous_outputid t u j : anonymous t = anonymous u -> coin_outputid H t j = coin_outputid H u j.
Proof.
  intro E. unfold coin_outputid, outputid_input. rewrite (anonymous_length t u E), <- (anonymous_idin t), <- (anonymous_idin u), E.
  replace (coin_spec t) with (coin_spec u); [reflexivity|]. unfold coin_spec, is_legacy.
  destruct t, u; cbn [anonymous] in E; try discriminate; try reflexivity. injection E as E1. rewrite E1. reflexivity.
Qed.

(** ** Tracking *)
Lemma is_own_inv addrs o b : is_own H addrs o = Ok b -> (b = true <-> pays_any H addrs o) /\ addressed H o.
Proof.
  unfold is_own. intro E. apply bind_ok in E as (u & U & E). apply bind_ok in E as (s & S & E). apply ok_inj in E. subst b. split; [|exists s, u; auto].
  rewrite existsb_exists. unfold pays_any, pays. rewrite U, S. split.
  - intros (a & I & Q). exists a. split; [exact I|]. exact Q.
  - intros (a & I & Q). exists a. auto.
Qed.
Lemma track_inv t addrs assign : forall outs i w r, track H t addrs assign i outs w = Ok r ->
  map anon (fst r) = map anon outs /\
  (forall j o, nth_error (fst r) j = Some o -> pays_any H addrs o -> if assign then coin_outputid H t (Z.of_nat (i + j)) = Ok (o_id o) else nth_error outs j = Some o) /\
  (forall j o, nth_error (fst r) j = Some o -> ~ pays_any H addrs o -> nth_error outs j = Some o).
Proof.
  induction outs as [|o outs IH]; intros i w r E; cbn [track] in E.
  - apply ok_inj in E. subst r. cbn [fst]. split; [reflexivity|]. split; intros [|j] o X; discriminate.
  - apply bind_ok in E as (b & B & E). apply bind_ok in E as ([o' w'] & O & E). apply bind_ok in E as ([os w2] & T & E). apply ok_inj in E. subst r. cbn [fst snd] in *.
    apply IH in T as (T1 & T2 & T3). cbn [fst] in *. apply is_own_inv in B as [B _].
    assert (A : anon o' = anon o /\ (if b then (if assign then coin_outputid H t (Z.of_nat i) = Ok (o_id o') else o' = o) else o' = o)).
    { destruct b; [|apply ok_inj in O; injection O as <- _; auto]. apply bind_ok in O as (q & Q & O). apply bind_ok in O as (w3 & _ & O). apply ok_inj in O. injection O as <- _.
      destruct assign; [apply bind_ok in Q as (d & D & Q); apply ok_inj in Q; subst q; auto | apply ok_inj in Q; subst q; auto]. }
    destruct A as [A1 A2]. split; [cbn [map]; congruence|].
    assert (P : pays_any H addrs o' <-> b = true).
    { rewrite B. unfold pays_any, pays. injection A1 as _ ->. reflexivity. }
    split; intros [|j] q X; cbn in X.
    + injection X as <-. intro Y. apply P in Y. subst b. destruct assign; [rewrite Nat.add_0_r; exact A2 | cbn; congruence].
    + intro Y. specialize (T2 j q X Y). destruct assign; [replace (i + S j)%nat with (S i + j)%nat by lia; exact T2 | exact T2].
    + injection X as <-. intro Y. destruct b; [exfalso; apply Y, P; reflexivity|]. cbn. congruence.
    + intro Y. exact (T3 j q X Y).
Qed.

(** ** Preparing *)
Notation prepare := (prepare H S256 sign ip_parse).
Lemma claim_complete primary ks fee k as_sender secret data t : claim H sign primary ks fee k as_sender secret data = Ok t -> complete t.
Proof.
  unfold claim. intro E. apply bind_ok in E as (d & _ & E). apply bind_ok in E as (? & _ & E). cbv zeta in E.
  apply bind_ok in E as (qs & _ & E). apply bind_ok in E as (? & _ & E).
  destruct (sign_loop H sign primary ks qs _ 0) as [t1 [m|]]; [|discriminate]. apply bind_ok in E as (b & B & E). apply bind_ok in E as (? & G & E). apply guard_ok in G. apply ok_inj in E. subst.
  apply (proj1 (fulfilled_complete _ _ B)). reflexivity.
Qed.
Lemma redeem_claim primary ks get fee id secret data t : redeem H S256 sign primary ks get fee id secret data = Ok t ->
  exists k s, claim H sign primary ks fee k false s data = Ok t.
Proof.
  unfold redeem. intro E. apply bind_ok in E as ([o sp] & _ & E). apply bind_ok in E as (k & _ & E). apply bind_ok in E as (? & _ & E).
  apply bind_ok in E as (b & _ & E). apply bind_ok in E as (? & _ & E). apply bind_ok in E as (b' & _ & E). apply bind_ok in E as (? & _ & E). apply bind_ok in E as (s & _ & E). eauto.
Qed.
Lemma refund_claim now primary ks get fee id data t : AtomicSwap.refund H sign now primary ks get fee id data = Ok t ->
  exists k, claim H sign primary ks fee k true None data = Ok t.
Proof.
  unfold AtomicSwap.refund. intro E. apply bind_ok in E as ([o sp] & _ & E). apply bind_ok in E as (k & _ & E). apply bind_ok in E as (? & _ & E).
  apply bind_ok in E as (? & _ & E). apply bind_ok in E as (b' & _ & E). apply bind_ok in E as (? & _ & E). eauto.
Qed.
Lemma sign_complete primary ks known mc s t t' b : transaction_sign H sign primary ks known mc s t = (t', Ok (b, true)) ->
  complete t' /\ exists qs, requests H (fst (mint_prepare mc (set_cin t (attach known)))) = Ok qs /\ qs <> [].
Proof.
  unfold transaction_sign. destruct (coin_inputs t); [|discriminate]. destruct (mint_prepare mc (set_cin t (attach known))) as [t1 [[]|]]; [|discriminate]. cbn [fst].
  destruct (requests H t1) as [qs|]; [|discriminate]. destruct qs as [|q qs]; [discriminate|].
  destruct (sign_loop H sign primary ks (q :: qs) t1 0) as [t2 [n|]]; [|discriminate]. intro E. injection E as <- E. apply bind_ok in E as (c & C & E). apply ok_inj in E. injection E as _ E.
  apply andb_true_iff in E as [_ ->]. split; [apply (proj1 (fulfilled_complete _ _ C)); reflexivity|]. exists (q :: qs). split; [reflexivity|discriminate].
Qed.
Lemma prepare_complete x o t : prepare x o = Ok (t, true) -> complete t.
Proof.
  destruct o; cbn [Submit.prepare]; intro E.
  - apply wallet_send_inv in E as [_ E]. apply wallet_send_many_inv in E. tauto.
  - apply wallet_send_many_inv in E. tauto.
  - apply wallet_contract_inv in E as (_ & _ & _ & _ & _ & E). tauto.
  - apply bind_ok in E as (t' & E & X). apply ok_inj in X. injection X as ->. apply redeem_claim in E as (k & s & E). exact (claim_complete _ _ _ _ _ _ _ _ E).
  - apply bind_ok in E as (t' & E & X). apply ok_inj in X. injection X as ->. apply refund_claim in E as (k & E). exact (claim_complete _ _ _ _ _ _ _ _ E).
  - apply record_new_inv in E as (b & k & _ & _ & _ & _ & _ & _ & _ & _ & _ & E). tauto.
  - apply record_update_inv in E as (b & k & _ & _ & _ & _ & _ & _ & _ & _ & _ & _ & _ & _ & _ & E). tauto.
  - apply name_transfer_inv in E as (b & k & r & _ & _ & _ & _ & _ & _ & _ & _ & _ & _ & _ & _ & _ & E). tauto.
  - apply erc20_send_inv in E as (c & _ & _ & _ & _ & _ & E). tauto.
  - apply erc20_register_inv in E as (c & k & _ & _ & _ & _ & E). tauto.
  - unfold definition_set in E. apply bind_ok in E as (? & _ & E). apply bind_ok in E as (? & _ & E). apply mint_inv in E as (m & c & _ & _ & _ & _ & _ & _ & _ & _ & E). tauto.
  - unfold coins_new in E. apply bind_ok in E as (? & _ & E). apply mint_inv in E as (m & c & _ & _ & _ & _ & _ & _ & _ & _ & E). tauto.
  - destruct (transaction_sign H sign (x_primary x) (x_keys x) (known_outputs (x_bal x)) mc submit t0) as [t' [[b sb]|]] eqn:T; [|discriminate]. apply ok_inj in E. injection E as -> ->.
    exact (proj1 (sign_complete _ _ _ _ _ _ _ _ T)).
Qed.

Definition is_conv (t : txn) : bool := match t with T209 _ => true | _ => false end.
Lemma unsigned_conv t t' : unsigned t' = unsigned t -> is_conv t' = is_conv t.
Proof. destruct t, t'; cbn [unsigned is_conv]; intro E; try reflexivity; discriminate. Qed.
Lemma claim_t1 primary ks fee k as_sender secret data t : claim H sign primary ks fee k as_sender secret data = Ok t -> is_conv t = false.
Proof.
  unfold claim. intro E. apply bind_ok in E as (d & _ & E). apply bind_ok in E as (? & _ & E). cbv zeta in E.
  apply bind_ok in E as (qs & _ & E). apply bind_ok in E as (? & _ & E).
  destruct (sign_loop H sign primary ks qs _ 0) as [t1 [m|]] eqn:L; [|discriminate]. apply bind_ok in E as (b & B & E). apply bind_ok in E as (? & G & E). apply guard_ok in G. apply ok_inj in E. subst.
  apply loop_unsigned in L. rewrite (unsigned_conv _ _ L). reflexivity.
Qed.
Lemma sign_conv primary ks known mc s t t' b : transaction_sign H sign primary ks known mc s t = (t', Ok (b, true)) -> is_conv t' = false.
Proof.
  unfold transaction_sign. destruct (coin_inputs t); [|discriminate]. destruct (mint_prepare mc (set_cin t (attach known))) as [t1 [[]|]] eqn:M; [|discriminate].
  destruct (requests H t1) as [qs|] eqn:R; [|discriminate]. destruct qs as [|q qs]; [discriminate|].
  destruct (sign_loop H sign primary ks (q :: qs) t1 0) as [t2 [n|]] eqn:L; [|discriminate]. intro E. injection E as <- _.
  apply loop_unsigned in L. rewrite (unsigned_conv _ _ L). destruct t1; try reflexivity. vm_compute in R. discriminate.
Qed.
Lemma prepare_conv x o t : prepare x o = Ok (t, true) -> is_conv t = false.
Proof.
  destruct o; cbn [Submit.prepare]; intro E.
  - apply wallet_send_inv in E as [_ E]. apply wallet_send_many_inv in E as (_ & (a & -> & _) & _). reflexivity.
  - apply wallet_send_many_inv in E as (_ & (a & -> & _) & _). reflexivity.
  - apply wallet_contract_inv in E as (_ & _ & _ & (a & -> & _) & _). reflexivity.
  - apply bind_ok in E as (t' & E & X). apply ok_inj in X. injection X as ->. apply redeem_claim in E as (k & s & E). exact (claim_t1 _ _ _ _ _ _ _ _ E).
  - apply bind_ok in E as (t' & E & X). apply ok_inj in X. injection X as ->. apply refund_claim in E as (k & E). exact (claim_t1 _ _ _ _ _ _ _ _ E).
  - apply record_new_inv in E as (b & k & -> & _). reflexivity.
  - apply record_update_inv in E as (b & k & -> & _). reflexivity.
  - apply name_transfer_inv in E as (b & k & r & -> & _). reflexivity.
  - apply erc20_send_inv in E as (c & -> & _). reflexivity.
  - apply erc20_register_inv in E as (c & k & -> & _). reflexivity.
  - unfold definition_set in E. apply bind_ok in E as (? & _ & E). apply bind_ok in E as (? & _ & E). apply mint_inv in E as (m & c & -> & _). reflexivity.
  - unfold coins_new in E. apply bind_ok in E as (? & _ & E). apply mint_inv in E as (m & c & -> & _). reflexivity.
  - destruct (transaction_sign H sign (x_primary x) (x_keys x) (known_outputs (x_bal x)) mc submit t0) as [t' [[b sb]|]] eqn:T; [|discriminate]. apply ok_inj in E. injection E as -> ->.
    exact (sign_conv _ _ _ _ _ _ _ _ T).
Qed.

(** ** After the submission *)
Lemma set_outs_outputs t l : is_conv t = false -> length l = length (coin_outputs t) -> coin_outputs (set_outs t l) = l.
Proof.
  assert (R : forall o : option output, length l = length (match o with Some o => [o] | None => [] end) -> match (match l with o :: _ => Some o | [] => None end) with Some o => [o] | None => [] end = l).
  { intros [o|] E; destruct l as [|a [|b l]]; cbn in E |- *; try discriminate; reflexivity. }
  destruct t as [t|t|t|t|t|t|t|t]; cbn [coin_outputs set_outs is_conv]; intros C E; try discriminate.
  - reflexivity.
  - cbn [m_new]. destruct (m_new t) as [c|os]; [|reflexivity]. destruct l; [reflexivity|discriminate].
  - exact (R _ E).
  - exact (R _ E).
  - exact (R _ E).
  - exact (R _ E).
  - exact (R _ E).
Qed.
Lemma pays_any_app a m o : pays_any H a o -> pays_any H (a ++ m) o.
Proof. intros (x & I & P). exists x. split; [apply in_or_app; now left | exact P]. Qed.
Lemma track_done t addrs assign w r : is_conv t = false -> track H t addrs assign 0 (coin_outputs t) w = Ok r ->
  (assign = false -> forall j o, nth_error (coin_outputs t) j = Some o -> coin_outputid H t (Z.of_nat j) = Ok (o_id o)) ->
  anonymous (set_outs t (fst r)) = anonymous t /\
  forall j o, nth_error (coin_outputs (set_outs t (fst r))) j = Some o -> pays_any H addrs o -> coin_outputid H (set_outs t (fst r)) (Z.of_nat j) = Ok (o_id o).
Proof.
  intros C T A. apply track_inv in T as (T1 & T2 & _). assert (An : anonymous (set_outs t (fst r)) = anonymous t) by (apply set_outs_anon; exact T1). split; [exact An|].
  intros j o X P. rewrite set_outs_outputs in X; [|exact C | apply (f_equal (@length _)) in T1; now rewrite !map_length in T1]. rewrite (anonymous_outputid _ _ _ An). specialize (T2 j o X P).
  destruct assign; [exact T2 | apply A; [reflexivity | exact T2]].
Qed.
Notation after := (after H).
Lemma after_inv own rebal x o t t' : prepare x o = Ok (t, true) -> after own rebal x o t = Ok t' ->
  anonymous t' = anonymous t /\
  forall a, own = Ok a -> forall j q, nth_error (coin_outputs t') j = Some q -> pays_any H a q -> coin_outputid H t' (Z.of_nat j) = Ok (o_id q).
Proof.
  intros P E. pose proof (prepare_conv _ _ _ P) as C.
  assert (G : forall addrs w r, track H t addrs true 0 (coin_outputs t) w = Ok r -> Ok (set_outs t (fst r)) = Ok t' ->
    anonymous t' = anonymous t /\ forall j q, nth_error (coin_outputs t') j = Some q -> pays_any H addrs q -> coin_outputid H t' (Z.of_nat j) = Ok (o_id q)).
  { intros addrs w r T X. apply ok_inj in X. subst t'. apply (track_done t addrs true w r C T). discriminate. }
  assert (D : forall (mk : res wbal) w2, (do ins <- coin_inputs t; do w <- w2 ins; do a <- own; do m <- multisig_texts H w; do r <- track H t (a ++ m) true 0 (coin_outputs t) w; Ok (set_outs t (fst r))) = Ok t' ->
    anonymous t' = anonymous t /\ forall a, own = Ok a -> forall j q, nth_error (coin_outputs t') j = Some q -> pays_any H a q -> coin_outputid H t' (Z.of_nat j) = Ok (o_id q)).
  { intros _ w2 X. apply bind_ok in X as (ins & _ & X). apply bind_ok in X as (w & _ & X). apply bind_ok in X as (a & A & X). apply bind_ok in X as (m & _ & X). apply bind_ok in X as (r & T & X).
    destruct (G _ _ _ T X) as [G1 G2]. split; [exact G1|]. intros a' A' j q N Q. rewrite A in A'. apply ok_inj in A'. subst a'. apply G2; [exact N | apply pays_any_app; exact Q]. }
  destruct o; cbn [Submit.after] in E; try exact (D (Ok (x_bal x)) _ E).
  - (* contract *)
    apply bind_ok in E as (ins & _ & E). apply bind_ok in E as (w & _ & E). apply bind_ok in E as (a & A & E). apply bind_ok in E as (m & _ & E). apply bind_ok in E as (r & T & E). apply ok_inj in E. subst t'.
    cbn [Submit.prepare] in P. apply wallet_contract_inv in P as (_ & _ & _ & _ & I & _).
    destruct (track_done t _ _ _ r C T (fun _ => I)) as [G1 G2]. split; [exact G1|]. intros a' A' j q N Q. rewrite A in A'. apply ok_inj in A'. subst a'. apply G2; [exact N | apply pays_any_app; exact Q].
  - apply bind_ok in E as (w & _ & E). apply bind_ok in E as (a & A & E). apply bind_ok in E as (r & T & E). destruct (G _ _ _ T E) as [G1 G2]. split; [exact G1|].
    intros a' A' j q N Q. rewrite A in A'. apply ok_inj in A'. subst a'. apply G2; assumption.
  - apply bind_ok in E as (w & _ & E). apply bind_ok in E as (a & A & E). apply bind_ok in E as (r & T & E). destruct (G _ _ _ T E) as [G1 G2]. split; [exact G1|].
    intros a' A' j q N Q. rewrite A in A'. apply ok_inj in A'. subst a'. apply G2; assumption.
  - apply ok_inj in E. subst t'. split; [reflexivity|]. intros a A j q N Q. cbn [Submit.prepare] in P. unfold definition_set in P.
    apply bind_ok in P as (? & _ & P). apply bind_ok in P as (? & _ & P). apply mint_inv in P as (mm & c & -> & _ & _ & M & _). cbn [coin_outputs] in N. rewrite M in N. destruct j; discriminate.
  - apply bind_ok in E as (a & A & E). apply bind_ok in E as (m & _ & E). apply bind_ok in E as (r & T & E). destruct (G _ _ _ T E) as [G1 G2]. split; [exact G1|].
    intros a' A' j q N Q. rewrite A in A'. apply ok_inj in A'. subst a'. apply G2; [exact N | apply pays_any_app; exact Q].
  - apply bind_ok in E as (a & A & E). apply bind_ok in E as (m & _ & E). apply bind_ok in E as (ins & _ & E). apply bind_ok in E as (w & _ & E). apply bind_ok in E as (r & T & E).
    destruct (G _ _ _ T E) as [G1 G2]. split; [exact G1|].
    intros a' A' j q N Q. rewrite A in A'. apply ok_inj in A'. subst a'. apply G2; [exact N | apply pays_any_app; exact Q].
Qed.

(** ** Success *)
Definition texts_ok (w : wbal) : Prop := Forall (fun m => exists s, uh_str H (ms_addr m) = Ok s) (wb_ms w).
Lemma output_add_ok b o c sp : addressed H o -> exists b', output_add H b o c sp = Ok b'.
Proof. intros (s & u & U & E). unfold output_add. rewrite U. cbn [bind]. rewrite E. cbn [bind]. eauto. Qed.
Lemma trackable_addressed o : trackable H o -> addressed H o.
Proof. intros (u & s & U & E & _). exists s, u. auto. Qed.
Lemma ms_update_ok f : forall l u, (forall b, exists b', f b = Ok b') ->
  ms_update l u f = None \/ exists l', ms_update l u f = Some (Ok l') /\ map ms_addr l' = map ms_addr l.
Proof.
  induction l as [|m l IH]; intros u F; cbn [ms_update]; [now left|]. destruct (uh_eqb (ms_addr m) u).
  - right. destruct (F (ms_bal m)) as [b' ->]. cbn [bind]. eexists. split; [reflexivity|]. reflexivity.
  - destruct (IH u F) as [->|(l' & -> & M)]; [now left|]. right. cbn [bind]. eexists. split; [reflexivity|]. cbn [map]. now rewrite M.
Qed.
Lemma texts_map w : texts_ok w <-> Forall (fun u => exists s, uh_str H u = Ok s) (map ms_addr (wb_ms w)).
Proof. unfold texts_ok. rewrite Forall_map. reflexivity. Qed.
Lemma wb_output_add_ok w o c sp : texts_ok w -> trackable H o -> exists w', wb_output_add H w o c sp = Ok w' /\ texts_ok w'.
Proof.
  intros T (u & s & U & E & M). assert (A : addressed H o) by (exists s, u; auto). unfold wb_output_add. rewrite U. cbn [bind].
  destruct (uh_type u =? UH_MULTI_SIG)%Z eqn:Q.
  - destruct M as (us & n & C & B); [unfold UH_MULTI_SIG in Q; lia|]. unfold multisig_output_add. rewrite C. cbn [cond_unwrap].
    destruct (ms_update_ok (fun b => output_add H b o c sp) (wb_ms w) u) as [->|(l' & -> & L)]; [intro b; apply output_add_ok; exact A| |].
    + unfold guard. destruct (1 <=? n)%Z eqn:Q1; [|lia]. destruct (n <=? Z.of_nat (length us))%Z eqn:Q2; [|lia]. cbn [bind].
      destruct (output_add_ok bal_new o c sp A) as [b ->]. cbn [bind]. eexists. split; [reflexivity|]. unfold texts_ok in *. cbn [wb_ms]. apply Forall_app. split; [exact T|].
      constructor; [cbn [ms_addr]; eauto|constructor].
    + cbn [bind]. eexists. split; [reflexivity|]. apply texts_map. cbn [wb_ms]. rewrite L. apply texts_map. exact T.
  - destruct (output_add_ok (wb_own w) o c sp A) as [b ->]. cbn [bind]. eexists. split; [reflexivity|]. exact T.
Qed.
Lemma spend_all_ok : forall ins w, texts_ok w -> Forall (fun i => trackable H (parent_output i)) ins -> exists w', spend_all H w ins = Ok w' /\ texts_ok w'.
Proof.
  induction ins as [|i ins IH]; intros w T F; cbn [spend_all]; [eauto|]. inversion F as [|? ? F1 F2]; subst.
  destruct (wb_output_add_ok w (parent_output i) false true T F1) as (w1 & -> & T1). cbn [bind]. exact (IH w1 T1 F2).
Qed.
Lemma is_own_ok a o : addressed H o -> exists b, is_own H a o = Ok b.
Proof. intros (s & u & U & E). unfold is_own. rewrite U. cbn [bind]. rewrite E. cbn [bind]. eauto. Qed.
Lemma spend_own_ok a : forall ins w, texts_ok w -> Forall (fun i => trackable H (parent_output i)) ins -> exists w', spend_own H a w ins = Ok w' /\ texts_ok w'.
Proof.
  induction ins as [|i ins IH]; intros w T F; cbn [spend_own]; [eauto|]. inversion F as [|? ? F1 F2]; subst.
  destruct (is_own_ok a _ (trackable_addressed _ F1)) as [b ->]. cbn [bind]. destruct b.
  - destruct (wb_output_add_ok w (parent_output i) false true T F1) as (w1 & -> & T1). cbn [bind]. exact (IH w1 T1 F2).
  - cbn [bind]. exact (IH w T F2).
Qed.
Lemma trackable_anon o id : trackable H o -> trackable H (mkout (o_value o) (o_cond o) id).
Proof. exact (fun x => x). Qed.
Lemma track_ok t a assign : forall outs i w, texts_ok w -> Forall (trackable H) outs ->
  (forall j, (i <= j < i + length outs)%nat -> is_ok (coin_outputid H t (Z.of_nat j)) = true) -> exists r, track H t a assign i outs w = Ok r.
Proof.
  induction outs as [|o outs IH]; intros i w T F D; cbn [track]; [eauto|]. inversion F as [|? ? F1 F2]; subst. cbn [length] in D.
  destruct (is_own_ok a _ (trackable_addressed _ F1)) as [b ->]. cbn [bind].
  assert (N : forall w1, texts_ok w1 -> exists r, track H t a assign (S i) outs w1 = Ok r).
  { intros w1 T1. apply IH; [exact T1|exact F2|]. intros j J. apply D. lia. }
  destruct b.
  - assert (A : exists o', (if assign then do id <- coin_outputid H t (Z.of_nat i); Ok (mkout (o_value o) (o_cond o) id) else Ok o) = Ok o' /\ trackable H o').
    { destruct assign; [|eauto]. pose proof (D i ltac:(lia)) as Di. destruct (coin_outputid H t (Z.of_nat i)) as [d|]; [|discriminate]. cbn [bind]. eexists. split; [reflexivity|]. exact (trackable_anon o d F1). }
    destruct A as (o' & -> & To). cbn [bind]. destruct (wb_output_add_ok w o' false false T To) as (w1 & -> & T1). cbn [bind snd fst].
    destruct (N w1 T1) as [r ->]. cbn [bind]. eauto.
  - cbn [bind snd fst]. destruct (N w T) as [r ->]. cbn [bind]. eauto.
Qed.
Lemma multisig_texts_ok w : texts_ok w -> exists m, multisig_texts H w = Ok m.
Proof.
  unfold texts_ok, multisig_texts. induction (wb_ms w) as [|m l IH]; intro F; [cbn [mapM]; eauto|]. inversion F as [|? ? [s S] F2]; subst.
  destruct (IH F2) as [r R]. exists (s :: r). cbn [mapM]. rewrite S. cbn [bind]. rewrite R. reflexivity.
Qed.
Lemma after_ok a w x o t : prepare x o = Ok (t, true) -> texts_ok (x_bal x) -> texts_ok w -> Forall (trackable H) (touched t) ->
  (forall j, (j < length (coin_outputs t))%nat -> is_ok (coin_outputid H t (Z.of_nat j)) = true) ->
  exists t', after (Ok a) (Ok w) x o t = Ok t'.
Proof.
  intros P Tx Tw F D. pose proof (prepare_complete _ _ _ P) as ((ins & I & _) & _ & _). apply Forall_app in F as [F1 F2].
  assert (F1' : Forall (fun i => trackable H (parent_output i)) ins). { unfold spent_by, inputs_of in F1. rewrite I in F1. rewrite Forall_map in F1. exact F1. }
  assert (K : forall l b w0, texts_ok w0 -> exists r, track H t l b 0 (coin_outputs t) w0 = Ok r). { intros l b w0 T0. apply track_ok; [exact T0|exact F2|]. intros j J. apply D. lia. }
  assert (C : forall assign, exists t', (do ins <- coin_inputs t; do w <- spend_all H (x_bal x) ins; do a <- Ok a; do m <- multisig_texts H w; do r <- track H t (a ++ m) assign 0 (coin_outputs t) w; Ok (set_outs t (fst r))) = Ok t').
  { intro assign. rewrite I. cbn [bind]. destruct (spend_all_ok ins (x_bal x) Tx F1') as (w1 & -> & T1). cbn [bind]. destruct (multisig_texts_ok w1 T1) as [m ->]. cbn [bind].
    destruct (K (a ++ m) assign w1 T1) as [r ->]. cbn [bind]. eauto. }
  destruct o; cbn [Submit.after]; cbv zeta; try exact (C _).
  - cbn [bind]. destruct (K a true w Tw) as [r ->]. cbn [bind]. eauto.
  - cbn [bind]. destruct (K a true w Tw) as [r ->]. cbn [bind]. eauto.
  - eauto.
  - cbn [bind]. destruct (multisig_texts_ok _ Tx) as [m ->]. cbn [bind]. destruct (K (a ++ m) true _ Tx) as [r ->]. cbn [bind]. eauto.
  - cbn [bind]. destruct (multisig_texts_ok _ Tx) as [m ->]. cbn [bind]. rewrite I. cbn [bind]. destruct (spend_own_ok (a ++ m) ins (x_bal x) Tx F1') as (w1 & -> & T1). cbn [bind].
    destruct (K (a ++ m) true w1 T1) as [r ->]. cbn [bind]. eauto.
Qed.
End Hash.
