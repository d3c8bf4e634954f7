(** A multi-signature wallet's payments: what its owners' wallets know. *)
From Coq Require Import Permutation.
From Verif Require Import Base BaseFacts Encoders Currency Primitive Types Conditions Fulfillments ThreeBotTypes Txn TxnJson TxnSign Wallet Explorer Ops WalletLoad Submit Session
  Spec_Types Spec_Txn Spec_Fulfil Spec_Wallet Spec_Ops Spec_Sign Spec_Swap Spec_Fits Spec_Explorer Spec_Load Spec_Session TypesFacts ConditionFacts WalletFacts WalletFacts2 FundFacts FundFacts2 FundFacts3 BuildFacts AffordFacts3
  Spec_Json Spec_ThreeBot ThreeBotFacts LoadFacts Prop_Load Prop_Sign Prop_Together Spec_Ledger LedgerFacts Prop_Ledger Spec_Shared SharedFacts Prop_Shared Spec_Together TogetherFacts SharedFundFacts Spec_Jointly.
From Coq Require Import ZifyBool ZifyNat ZifyN.
Ltac Zify.zify_post_hook ::= Z.div_mod_to_equations.

Lemma asks_unwrap c us n : asks_for c us n -> cond_unwrap c = CMulti us n.
Proof. intros [->|(k & ->)]; reflexivity. Qed.
Lemma asks_from c us n : asks_for c us n -> from_condition c = Ok (FMulti []).
Proof. intros [->|(k & ->)]; reflexivity. Qed.
Lemma asks_same c us n us' n' : asks_for c us n -> asks_for c us' n' -> us = us' /\ n = n'.
Proof. intros A B. apply asks_unwrap in A, B. rewrite A in B. injection B as -> ->. auto. Qed.
Lemma owners_perm us us' : Permutation us' us -> owners us -> owners us'.
Proof.
  intros P (N & F). split; [exact (Permutation_NoDup (Permutation_sym P) N)|]. rewrite Forall_forall in *. intros u I. apply F. exact (Permutation_in _ P I).
Qed.
Lemma quorum_perm H ws us us' n : Permutation us' us -> (quorum H ws us' n <-> quorum H ws us n).
Proof.
  intro P. split; intros (held & N & J & Q); exists held; (split; [exact N|]); (split; [|exact Q]); intros u I; destruct (J u I) as (A & B); (split; [|exact B]).
  - exact (Permutation_in _ P A).
  - exact (Permutation_in _ (Permutation_sym P) A).
Qed.
Lemma at_ledger_in l o : consistent_ledger l -> In o (unspent l) -> at_ledger l (o_id o) = Some o.
Proof.
  intros C I. unfold at_ledger. destruct (find _ _) as [p|] eqn:E.
  - apply find_some in E as (J & Q). apply listN_eqb_eq in Q. f_equal. exact (unspent_one l C p o J I Q).
  - exfalso. pose proof (find_none _ _ E o I) as X. cbn beta in X. rewrite listN_eqb_refl in X. discriminate X.
Qed.
Lemma at_ledger_some l id o : at_ledger l id = Some o -> In o (unspent l) /\ o_id o = id.
Proof. unfold at_ledger. intro E. apply find_some in E as (J & Q). apply listN_eqb_eq in Q. auto. Qed.
Lemma unspent_made l o : In o (unspent l) -> exists e, In e l /\ In o (makes e).
Proof. intro I. apply not_spent in I as (I & _). apply in_flat_map in I as (e & A & B). eauto. Qed.

Section Facts.
Variables (H : bytes -> bytes) (ip_parse : pystr -> res bytes) (ip_str : bytes -> pystr).
Hypothesis HH : hash_ok H.
Hypothesis L : ip_library ip_parse ip_str.

Lemma wallet_asks l u us n o : wallet_of H l u us n -> In o (unspent l) -> cond_unlockhash H (o_cond o) = Ok u -> exists us', asks_for (o_cond o) us' n /\ Permutation us' us.
Proof using. intros (_ & _ & _ & W) I E. exact (W o u I E eq_refl). Qed.
Lemma wallet_text l u us n o b : wallet_of H l u us n -> In o (unspent l) -> uh_str H u = Ok b -> Spec_Explorer.pays H b o = true -> cond_unlockhash H (o_cond o) = Ok u.
Proof using HH.
  intros (A & _ & _ & W) I Eb P. unfold Spec_Explorer.pays in P. destruct (cond_unlockhash H (o_cond o)) as [v|] eqn:Ev; [|discriminate P]. destruct (uh_str H v) as [s|] eqn:Es; [|discriminate P]. apply listN_eqb_eq in P. subst s.
  destruct (W o v I Ev ltac:(congruence)) as (us' & As & _). destruct (asks_address H _ _ _ v HH As Ev) as (_ & Av & _). f_equal. exact (one_text H v u b HH Av A Es Eb).
Qed.
Section Party.
Variables (l : ledger) (h t : Z) (x : wctx) (u : uh) (us : list uh) (n : Z).
Hypothesis So : sound ip_parse l.
Hypothesis Pa : party H ip_parse ip_str l h t x.
Hypothesis Wo : wallet_of H l u us n.
(** the outputs it knows are unspent outputs of the ledger *)
Lemma party_known id p : known_outputs (x_bal x) id = Some p -> In p (unspent l) /\ o_id p = id.
Proof using HH L So Pa.
  destruct So as (F & C & D). destruct Pa as (Ph & Pt & now & net & k & v & T & Fr & Op & WO & K & Ka). unfold opened in Op. apply bind_ok in Op as (w & Ew & Op). apply ok_inj in Op. subst x. cbn [x_bal].
  intro E. unfold known_outputs in E. apply find_some in E as (I & Q). apply listN_eqb_eq in Q. split; [|exact Q]. apply in_rev in I. rewrite app_assoc in I. apply in_app_or in I as [I|I].
  - exact (proj1 (own_spendable H ip_parse ip_str now HH L net l _ _ w F C T Fr Ew p I)).
  - apply in_flat_map in I as (m & Im & I). exact (proj1 (multi_spendable H ip_parse ip_str now HH L net l _ _ w F C D T Fr Ew m p Im I)).
Qed.
Lemma party_wallets : NoDup (map ms_addr (wb_ms (x_bal x))) /\ forall m, In m (wb_ms (x_bal x)) -> cond_unlockhash H (CMulti (ms_owners m) (ms_count m)) = Ok (ms_addr m).
Proof using HH L So Pa.
  destruct So as (F & C & D). destruct Pa as (Ph & Pt & now & net & k & v & T & Fr & Op & WO & K & Ka). unfold opened in Op. apply bind_ok in Op as (w & Ew & Op). apply ok_inj in Op. subst x. cbn [x_bal].
  destruct (shared_lists H ip_parse ip_str now HH L net l F _ _ w C D T Fr Ew) as (ND & _ & Ls). split; [exact ND|]. intros m Im. exact (proj1 (Ls m Im)).
Qed.
(** a co-owner knows what its wallet can spend *)
Lemma party_has o : co_owns H us x -> In o (unspent l) -> cond_unlockhash H (o_cond o) = Ok u -> open_at h t o ->
  exists m, In m (wb_ms (x_bal x)) /\ ms_addr m = u /\ In o (spendable (ms_bal m)).
Proof using HH L So Pa Wo.
  intros (a & Ia & Hk) Io Eo Oo. destruct So as (F & C & D). destruct Pa as (Ph & Pt & now & net & k & v & T & Fr & Op & WO & K & Ka). unfold opened in Op. apply bind_ok in Op as (w & Ew & Op). apply ok_inj in Op. subst x. cbn [x_bal x_keys] in *.
  destruct (shared_lists H ip_parse ip_str now HH L net l F _ _ w C D T Fr Ew) as (ND & Iff & Ls).
  destruct (wallet_asks _ _ _ _ o Wo Io Eo) as (us' & As & Pm).
  assert (Im : In u (map ms_addr (wb_ms w))).
  { apply Iff. destruct Hk as (s & p & Ip & Ep). exists s. split; [exact (Ka s p Ip)|]. pose proof WO as WW. unfold wallet_ok in WW. rewrite Forall_forall in WW. specialize (WW _ Ip). cbn [fst snd] in WW.
    unfold pk_address in WW. rewrite Ep in WW. cbn [bind] in WW. destruct (unspent_made l o Io) as (e & Ie & Im). exists e, o, us', n, a. split; [exact Ie|]. split; [apply in_or_app; now left|]. split; [exact As|]. split; [exact Eo|].
    split; [exact (Permutation_in _ (Permutation_sym Pm) Ia)|exact WW]. }
  apply in_map_iff in Im as (m & Em & Im). exists m. split; [exact Im|]. split; [exact Em|]. destruct (Ls m Im) as (Eu & b & Eb & P1 & P2).
  destruct (C62_lookups H ip_parse now net h t k _ w HH T Ew) as (_ & _ & _ & own & multi & _ & _ & Ctx). destruct (Ctx m Im) as (Hm & Tm & _).
  assert (Pb : Spec_Explorer.pays H b o = true) by (unfold Spec_Explorer.pays; rewrite Eo, <- Em, Eb; apply listN_eqb_refl).
  apply (Permutation_in _ (Permutation_sym (unspent_split l))) in Io. unfold spendable. apply in_or_app.
  apply in_app_or in Io as [Io|Io]; [left; unfold outputs_available|right; unfold outputs_unconfirmed_available]; apply unlocked_in; rewrite ?Hm, ?Tm; try assumption; (split; [|exact Oo]).
  - apply (Permutation_in _ (Permutation_sym P1)). apply filter_In. auto.
  - apply (Permutation_in _ (Permutation_sym P2)). apply filter_In. auto.
Qed.
Lemma party_knows o : co_owns H us x -> In o (unspent l) -> cond_unlockhash H (o_cond o) = Ok u -> open_at h t o -> known_outputs (x_bal x) (o_id o) = Some o.
Proof using HH L So Pa Wo.
  intros Co Io Eo Oo. destruct (party_has o Co Io Eo Oo) as (m & Im & _ & I). destruct (known_outputs (x_bal x) (o_id o)) as [p|] eqn:E.
  - destruct (party_known _ _ E) as (J & Q). f_equal. exact (unspent_one l (proj1 (proj2 So)) p o J Io Q).
  - exfalso. unfold known_outputs in E. enough (In o (rev (outputs_available (wb_own (x_bal x)) ++ outputs_unconfirmed_available (wb_own (x_bal x)) ++ flat_map (fun m => outputs_available (ms_bal m) ++ outputs_unconfirmed_available (ms_bal m)) (wb_ms (x_bal x))))) as X by (apply (find_none _ _ E) in X; cbn beta in X; rewrite listN_eqb_refl in X; discriminate X). apply -> in_rev. rewrite app_assoc. apply in_or_app. right. apply in_flat_map. exists m. split; [exact Im|exact I].
Qed.
Lemma party_keys : wallet_ok H (x_primary x) (x_keys x) /\ Forall (fun k => key32 (snd k)) (x_keys x).
Proof using Pa.
  destruct Pa as (Ph & Pt & now & net & k & v & T & Fr & Op & WO & K & Ka). unfold opened in Op. apply bind_ok in Op as (w & Ew & Op). apply ok_inj in Op. subst x. auto.
Qed.
End Party.

(** it takes part in signing what some other wallet proposed *)
Lemma party_part l h t us u n used outs fee data y : consistent_ledger l -> wallet_of H l u us n -> draws H l u h t used -> could_sign H ip_parse ip_str u us n used y ->
  takes_part H (at_ledger l) (draft used outs fee data) (signer_of y).
Proof using HH L.
  intros C Wl Dr (l2 & h2 & t2 & So & Wo & Dr2 & Pa). destruct (party_keys l2 h2 t2 y Pa) as (WO & K). split; [exact WO|]. split; [exact K|].
  cbn [s_cin draft]. apply Forall_forall. intros i I. apply in_map_iff in I as (o & <- & I). cbn [i_parent]. intros p vs m (E1 & E2).
  destruct Dr as (_ & _ & Dr). rewrite Forall_forall in Dr. destruct (Dr o I) as (Io & _ & _). destruct Dr2 as (_ & _ & Dr2). rewrite Forall_forall in Dr2. destruct (Dr2 o I) as (Io2 & Eo & Oo).
  cbn [i_parent] in E1. rewrite (at_ledger_in l o C Io) in E1. injection E1 as <-. cbn [g_known signer_of g_keys].
  destruct (known_outputs (x_bal y) (o_id o)) as [q|] eqn:E.
  - left. destruct (party_known l2 h2 t2 y So Pa _ _ E) as (J & Q). f_equal. exact (unspent_one l2 (proj1 (proj2 So)) q o J Io2 Q).
  - right. split; [reflexivity|]. intros a Ia Hk. destruct (wallet_asks _ _ _ _ o Wo Io2 Eo) as (us' & As & Pm). apply asks_unwrap in As. rewrite As in E2. injection E2 as <- <-.
    assert (Co : co_owns H us y) by (exists a; split; [exact (Permutation_in _ Pm Ia)|exact Hk]).
    rewrite (party_knows l2 h2 t2 y u us n So Pa Wo o Co Io2 Eo Oo) in E. discriminate E.
Qed.
Lemma draft_shared l h t us u n used outs fee data : consistent_ledger l -> wallet_of H l u us n -> draws H l u h t used -> shared (at_ledger l) (draft used outs fee data).
Proof using.
  intros C Wl (_ & _ & Dr). pose proof Wl as (_ & _ & Ow & _). split; [reflexivity|]. split; [reflexivity|]. cbn [s_cin draft]. apply Forall_forall. intros i I. apply in_map_iff in I as (o & <- & I). rewrite Forall_forall in Dr. destruct (Dr o I) as (Io & Eo & _).
  destruct (wallet_asks _ _ _ _ o Wl Io Eo) as (us' & As & Pm). split; [reflexivity|]. exists o, us', n. split; [split; [exact (at_ledger_in l o C Io)|exact (asks_unwrap _ _ _ As)]|]. split; [exact (owners_perm _ _ Pm Ow)|]. right. reflexivity.
Qed.
(** a quorum for every input *)
Lemma draft_quorum l h t us u n used outs fee data ws : consistent_ledger l -> wallet_of H l u us n -> draws H l u h t used -> used <> [] ->
  (Forall (fun i => forall o vs m, multi (at_ledger l) i o vs m -> quorum H ws vs m) (s_cin (draft used outs fee data)) <-> quorum H ws us n).
Proof using.
  intros C Wl (_ & _ & Dr) NE. rewrite Forall_forall in Dr. cbn [s_cin draft]. split.
  - intro F. destruct used as [|o used]; [contradiction|]. destruct (Dr o (or_introl eq_refl)) as (Io & Eo & _). destruct (wallet_asks _ _ _ _ o Wl Io Eo) as (us' & As & Pm).
    inversion F as [|? ? F1 _]; subst. apply (quorum_perm H ws us us' n Pm). apply (F1 o us' n). split; [exact (at_ledger_in l o C Io)|exact (asks_unwrap _ _ _ As)].
  - intro Q. apply Forall_forall. intros i I. apply in_map_iff in I as (o & <- & I). destruct (Dr o I) as (Io & Eo & _). destruct (wallet_asks _ _ _ _ o Wl Io Eo) as (us' & As & Pm). intros p vs m (E1 & E2).
    cbn [i_parent] in E1. rewrite (at_ledger_in l o C Io) in E1. injection E1 as <-. rewrite (asks_unwrap _ _ _ As) in E2. injection E2 as <- <-. exact (proj2 (quorum_perm H ws us us' n Pm) Q).
Qed.
End Facts.

(** [finish] is signing and submitting *)
Lemma attach_same known ins used : Forall2 Spec_Wallet.spends ins used -> (forall o, In o used -> known (o_id o) = Some o) -> attach known ins = ins.
Proof.
  intros F K. induction F as [|i o ins used (E1 & E2 & E3) F IH]; [reflexivity|]. unfold attach in *. cbn [map]. rewrite IH by (intros p I; apply K; now right). rewrite E1, (K o (or_introl eq_refl)).
  f_equal. destruct i; cbn in *; congruence.
Qed.
Lemma finish_sign H sign x s t b : attach (known_outputs (x_bal x)) (s_cin s) = s_cin s -> finish H sign x (T1 s) = Ok (t, b) ->
  exists sg, transaction_sign H sign (x_primary x) (x_keys x) (known_outputs (x_bal x)) (Err RuntimeError) true (T1 s) = (t, Ok (sg, b)) /\ t_is_fulfilled t = Ok b.
Proof.
  intros A E. unfold finish in E. apply bind_ok in E as (qs & Eq & E). apply bind_ok in E as ([] & G & E). apply guard_ok in G.
  destruct (sign_loop H sign (x_primary x) (x_keys x) qs (T1 s) 0) as [t' [m|e]] eqn:El; [|discriminate E]. apply bind_ok in E as (b' & Eb & E). apply ok_inj in E. apply pair_equal_spec in E as [<- <-].
  exists (0 <? m)%nat. split; [|exact Eb]. unfold transaction_sign. cbn [coin_inputs]. change (set_cin (T1 s) (attach (known_outputs (x_bal x)))) with (T1 (mkstd (s_legacy s) (attach (known_outputs (x_bal x)) (s_cin s)) (s_cout s) (s_bin s) (s_bout s) (s_fees s) (s_data s))).
  rewrite A. assert (T1 (mkstd (s_legacy s) (s_cin s) (s_cout s) (s_bin s) (s_bout s) (s_fees s) (s_data s)) = T1 s) as -> by (destruct s; reflexivity). cbn [mint_prepare]. rewrite Eq.
  destruct qs as [|q qs]; [discriminate G|]. rewrite El, Eb. reflexivity.
Qed.
Lemma finish_total_sign H sign x s t sg b qs : attach (known_outputs (x_bal x)) (s_cin s) = s_cin s -> requests H (T1 s) = Ok qs -> qs <> [] ->
  transaction_sign H sign (x_primary x) (x_keys x) (known_outputs (x_bal x)) (Err RuntimeError) true (T1 s) = (t, Ok (sg, b)) -> finish H sign x (T1 s) = Ok (t, b).
Proof.
  intros A Eq NE E. unfold transaction_sign in E. cbn [coin_inputs] in E. change (set_cin (T1 s) (attach (known_outputs (x_bal x)))) with (T1 (mkstd (s_legacy s) (attach (known_outputs (x_bal x)) (s_cin s)) (s_cout s) (s_bin s) (s_bout s) (s_fees s) (s_data s))) in E.
  rewrite A in E. assert (X : T1 (mkstd (s_legacy s) (s_cin s) (s_cout s) (s_bin s) (s_bout s) (s_fees s) (s_data s)) = T1 s) by (destruct s; reflexivity). rewrite X in E. cbn [mint_prepare] in E. rewrite Eq in E.
  unfold finish. rewrite Eq. cbn [bind]. destruct qs as [|q qs]; [contradiction|]. cbn [length Nat.eqb negb guard bind].
  destruct (sign_loop H sign (x_primary x) (x_keys x) (q :: qs) (T1 s) 0) as [t' [m|e]]; [|discriminate E]. apply pair_equal_spec in E as (<- & E). apply bind_ok in E as (b' & Eb & E). rewrite Eb. cbn [bind].
  apply ok_inj in E. cbn [andb] in E. apply pair_equal_spec in E as (_ & <-). reflexivity.
Qed.
