(** Theorems about payments of multi-signature wallets (C95), and about funding from one (C35). *)
From Coq Require Import Permutation.
From Verif Require Import Base BaseFacts Encoders Currency Primitive Types Conditions Fulfillments ThreeBotTypes Txn TxnJson TxnSign Wallet Explorer Ops WalletLoad Submit Session
  Spec_Types Spec_Txn Spec_Fulfil Spec_Wallet Spec_Ops Spec_Sign Spec_Swap Spec_Fits Spec_Afford Spec_Explorer Spec_Load Spec_Session TypesFacts ConditionFacts WalletFacts WalletFacts2 FundFacts FundFacts2 FundFacts3 BuildFacts SigTotal SignFacts SignFacts2 AffordFacts2 AffordFacts3
  TxnFacts3 Prop_Fulfil Prop_Txn Prop_ThreeBot Prop_Json Prop_Wallet Prop_Explorer Prop_Sign Prop_Ops Prop_Lookup Prop_Submit Prop_Front Prop_Session Prop_Wire
  Spec_Json Spec_ThreeBot ThreeBotFacts Spec_Front LoadFacts Prop_Load Prop_Sign Spec_Together TogetherFacts Prop_Together Spec_Ledger LedgerFacts Prop_Ledger Spec_Shared SharedFacts Prop_Shared SharedFundFacts Spec_Jointly JointlyFacts.
From Coq Require Import ZifyBool ZifyNat ZifyN.
Ltac Zify.zify_post_hook ::= Z.div_mod_to_equations.

(** ** C35, for a single multi-signature wallet as source: the coins are found if and only if 99 of its spendable outputs are worth enough. *)
Theorem C35_shared_complete : forall H w amount u, uh_type u = 3%Z -> NoDup (map ms_addr (wb_ms w)) ->
  Forall (fun o => is_ok (from_condition (o_cond o)) = true) (pool H w (Some [u])) -> 0 < amount ->
  match fund H w amount (Some [u]) with
  | Ok _ => exists s, selection s (pool H w (Some [u])) /\ (length s <= 99)%nat /\ amount <= worth s
  | Err e => e = InsufficientFunds /\ forall s, selection s (pool H w (Some [u])) -> (length s <= 99)%nat -> worth s < amount
  end.
Proof. exact fund_shared. Qed.
Print Assumptions C35_shared_complete.

Section Lemmas.
Variables (H : bytes -> bytes) (ip_parse : pystr -> res bytes) (ip_str : bytes -> pystr).
Hypothesis HH : hash_ok H.
Hypothesis L : ip_library ip_parse ip_str.
(** *** What a wallet can draw from its multi-signature wallet is what the ledger says *)
Lemma pool_draws l h t x u us n : sound ip_parse l -> party H ip_parse ip_str l h t x -> wallet_of H l u us n ->
  NoDup (ids (pool H (x_bal x) (Some [u]))) /\ (forall o, In o (pool H (x_bal x) (Some [u])) -> In o (unspent l) /\ cond_unlockhash H (o_cond o) = Ok u /\ open_at h t o) /\
  (co_owns H us x -> forall o, In o (unspent l) -> cond_unlockhash H (o_cond o) = Ok u -> open_at h t o -> In o (pool H (x_bal x) (Some [u]))) /\
  (pool H (x_bal x) (Some [u]) <> [] -> exists m, find (fun m => uh_eqb (ms_addr m) u) (wb_ms (x_bal x)) = Some m /\ cond_unlockhash H (CMulti (ms_owners m) (ms_count m)) = Ok u).
Proof using HH L.
  intros So Pa Wo. pose proof (party_wallets H ip_parse ip_str HH L l h t x So Pa) as (ND & Ms). pose proof Wo as (Au & Ty & _).
  assert (Ep : pool H (x_bal x) (Some [u]) = ms_pool [u] (wb_ms (x_bal x))).
  { unfold pool, personal. cbn [filter]. rewrite Ty. change (3 =? 3)%Z with true. cbn [negb]. rewrite filter_none; [reflexivity|]. intros o _. unfold pays_to. destruct (cond_unlockhash H (o_cond o)); reflexivity. }
  assert (In_ : forall o, In o (pool H (x_bal x) (Some [u])) <-> exists m, In m (wb_ms (x_bal x)) /\ ms_addr m = u /\ In o (spendable (ms_bal m))).
  { intro o. rewrite Ep. unfold ms_pool. rewrite in_flat_map. split.
    - intros (m & Im & I). destruct (existsb (uh_eqb (ms_addr m)) [u]) eqn:X; [|destruct I]. apply existsb_exists in X as (v & [<-|[]] & X). apply uh_eqb_true in X. eauto.
    - intros (m & Im & E & I). exists m. split; [exact Im|]. cbn [existsb]. rewrite E, uh_eqb_refl. exact I. }
  pose proof So as (F & C & D). pose proof Pa as (Ph & Pt & now & net & k & v & T & Fr & Op & _). unfold opened in Op. apply bind_ok in Op as (w & Ew & Op). apply ok_inj in Op.
  assert (Ex : x_bal x = w) by (rewrite <- Op; reflexivity).
  split; [rewrite Ex; exact (proj1 (shared_pool H ip_parse ip_str now HH L net l _ _ w F C D T Fr Ew (Some [u])))|]. split; [|split].
  - intros o I. apply In_ in I as (m & Im & Em & I). rewrite Ex in Im. destruct (multi_spendable H ip_parse ip_str now HH L net l _ _ w F C D T Fr Ew m o Im I) as (Io & _ & _ & b & Eb & Pb). rewrite Em in Eb.
    split; [exact Io|]. split; [exact (wallet_text H HH l u us n o b Wo Io Eb Pb)|].
    destruct (C62_lookups H ip_parse now net h t k _ w HH T Ew) as (_ & _ & _ & own & multi & _ & _ & Ctx). destruct (Ctx m Im) as (Hm & Tm & _).
    unfold spendable in I. apply in_app_or in I as [I|I]; [unfold outputs_available in I|unfold outputs_unconfirmed_available in I]; apply unlocked_in in I; rewrite ?Hm, ?Tm in *; try assumption; exact (proj2 I).
  - intros Co o Io Eo Oo. apply In_. exact (party_has H ip_parse ip_str HH L l h t x u us n So Pa Wo o Co Io Eo Oo).
  - intro NE. destruct (pool H (x_bal x) (Some [u])) as [|o os]; [contradiction|]. destruct (proj1 (In_ o) (or_introl eq_refl)) as (m & Im & Em & _).
    destruct (find (fun m => uh_eqb (ms_addr m) u) (wb_ms (x_bal x))) as [m'|] eqn:Fi.
    + exists m'. split; [reflexivity|]. apply find_some in Fi as (Im' & Q). apply uh_eqb_true in Q. rewrite (Ms m' Im'), Q. reflexivity.
    + pose proof (find_none _ _ Fi m Im) as X. cbn beta in X. rewrite Em, uh_eqb_refl in X. discriminate X.
Qed.
Lemma draft_inputs (ins : list input) used l u us n : wallet_of H l u us n -> Forall2 Spec_Wallet.spends ins used -> (forall o, In o used -> In o (unspent l) /\ cond_unlockhash H (o_cond o) = Ok u) ->
  ins = map (fun o => mkin (o_id o) (FMulti []) (Some o)) used.
Proof using.
  intros Wo S Q. induction S as [|i o ins used (E1 & E2 & E3) S IH]; [reflexivity|]. cbn [map]. rewrite <- IH by (intros p I; apply Q; now right). f_equal.
  destruct (Q o (or_introl eq_refl)) as (Io & Eo). destruct (wallet_asks H l u us n o Wo Io Eo) as (us' & As & _). rewrite (asks_from _ _ _ As) in E3. apply ok_inj in E3. destruct i; cbn in *; congruence.
Qed.
(** the transaction a wallet makes of a payment from its multi-signature wallet, before it signs *)
Lemma draft_made l h t x u us n c a r data tx : sound ip_parse l -> party H ip_parse ip_str l h t x -> wallet_of H l u us n -> 0 < a ->
  coins_send H (x_bal x) (x_fee x) (x_address x) c a (Some [u]) r data = Ok tx ->
  exists used rem back, goes_back H u r back /\ draws H l u h t used /\ used <> [] /\ selection used (pool H (x_bal x) (Some [u])) /\ worth used = a + x_fee x + rem /\ (length data <= 83)%nat /\
    tx = T1 (draft used (mkout a c [] :: change rem back) (x_fee x) data) /\ back = refund_to (x_bal x) (x_address x) (Some [u]) r.
Proof using HH L.
  intros So Pa Wo Pos E. destruct (pool_draws l h t x u us n So Pa Wo) as (ND & P1 & _ & P3). unfold coins_send in E. apply bind_ok in E as ([] & _ & E).
  apply send_ok in E as (Cv & ins & used & rem & -> & Sp & Sel & Lu & Ld).
  assert (Iu : forall o, In o used -> In o (pool H (x_bal x) (Some [u]))) by (intros o I; exact (sel_incl _ _ Sel o I)).
  assert (Wu : worth used = a + x_fee x + rem).
  { destruct Cv as (ins' & Ci & W). cbn [coin_inputs s_cin] in Ci. apply ok_inj in Ci. subst ins'. rewrite (spends_worth _ _ Sp) in W. cbn [coin_outputs miner_fees s_cout s_fees map app] in W.
    unfold worth in W at 2. cbn [map sum o_value fst snd] in W. change (sum (map o_value (change rem (refund_to (x_bal x) (x_address x) (Some [u]) r)))) with (worth (change rem (refund_to (x_bal x) (x_address x) (Some [u]) r))) in W.
    rewrite change_worth in W. lia. }
  assert (NE : used <> []) by (intros ->; change (worth []) with 0 in Wu; lia).
  exists used, rem, (refund_to (x_bal x) (x_address x) (Some [u]) r). split.
  { unfold goes_back, refund_to. destruct r as [c'|]; [now left|]. right. split; [reflexivity|]. pose proof Wo as (_ & Ty & _). rewrite Ty. change (3 =? 1)%Z with false. cbv iota.
    destruct P3 as (m & Fi & Em); [destruct used as [|o used]; [contradiction|]; specialize (Iu o (or_introl eq_refl)); destruct (pool H (x_bal x) (Some [u])); [destruct Iu|discriminate]|].
    rewrite Fi. split; [exact Em|]. eauto. }
  split; [split; [|split; [exact Lu|]]|].
  - apply (NoDup_map_inv o_id). exact (sel_nodup o_id _ _ Sel ND).
  - apply Forall_forall. intros o I. exact (P1 o (Iu o I)).
  - split; [exact NE|]. split; [exact Sel|]. split; [exact Wu|]. split; [exact Ld|]. split; [|reflexivity]. unfold draft. cbn [map app fst snd].
    rewrite (draft_inputs ins used l u us n Wo Sp); [reflexivity|]. intros o I. destruct (P1 o (Iu o I)) as (A & B & _). auto.
Qed.
(** what the proposer knows of its own draft: all of it *)
Lemma draft_attach l h t x u us n used outs fee data : sound ip_parse l -> party H ip_parse ip_str l h t x -> wallet_of H l u us n -> (forall o, In o used -> In o (pool H (x_bal x) (Some [u]))) ->
  attach (known_outputs (x_bal x)) (s_cin (draft used outs fee data)) = s_cin (draft used outs fee data).
Proof using HH L.
  intros So Pa Wo Iu. destruct (pool_draws l h t x u us n So Pa Wo) as (_ & P1 & _ & _). cbn [s_cin draft]. unfold attach. rewrite map_map. apply map_ext_in. intros o I. cbn [i_parent i_ff].
  destruct (known_outputs (x_bal x) (o_id o)) as [p|] eqn:E; [|reflexivity]. destruct (party_known H ip_parse ip_str HH L l h t x So Pa _ _ E) as (J & Q).
  rewrite (unspent_one l (proj1 (proj2 So)) p o J (proj1 (P1 o (Iu o I))) Q). reflexivity.
Qed.
End Lemmas.

(** ** C95 *)
(** Sending from a multi-signature wallet makes a transaction that draws on unspent outputs of it, free to be spent then, worth the amount, the fee and the change;
    it pays the recipient the amount and the change back; and nobody but the caller has signed: what is returned is what signing the draft makes of it.  It is
    complete, and submitted, exactly if the caller has the keys of enough owners. *)
Theorem C95_proposal : forall H ip_parse ip_str (sign : pubkey -> bytes -> bytes) l h t x u us n c a r data tx b, hash_ok H -> ip_library ip_parse ip_str -> (forall k d, length (sign k d) = 64%nat) ->
  sound ip_parse l -> party H ip_parse ip_str l h t x -> wallet_of H l u us n ->
  wallet_send H sign x c a (mkfunding (Some [u]) r) data = Ok (tx, b) ->
  exists used rem back, goes_back H u r back /\ draws H l u h t used /\ used <> [] /\ worth used = a + x_fee x + rem /\
    let s := draft used (mkout a c [] :: change rem back) (x_fee x) data in
    shared (at_ledger l) s /\ in_turn H sign [signer_of x] (T1 s) tx /\ (b = true <-> quorum H [signer_of x] us n).
Proof.
  intros H ip is sign l h t x u us n c a r data tx b HH L S64 So Pa Wo E. unfold wallet_send in E. cbn [f_source f_refund] in E. apply bind_ok in E as (t0 & E0 & E).
  assert (Pos : 0 < a) by (unfold coins_send in E0; apply bind_ok in E0 as ([] & G & _); apply guard_ok in G; lia).
  destruct (draft_made H ip is HH L l h t x u us n c a r data t0 So Pa Wo Pos E0) as (used & rem & back & Gb & Dr & NE & Sel & Wu & _ & -> & _).
  exists used, rem, back. split; [exact Gb|]. split; [exact Dr|]. split; [exact NE|]. split; [exact Wu|]. cbv zeta. set (s := draft used (mkout a c [] :: change rem back) (x_fee x) data) in *.
  pose proof (draft_shared H l h t us u n used (mkout a c [] :: change rem back) (x_fee x) data (proj1 (proj2 So)) Wo Dr) as Sh. fold s in Sh. split; [exact Sh|].
  pose proof (draft_attach H ip is HH L l h t x u us n used (mkout a c [] :: change rem back) (x_fee x) data So Pa Wo (sel_incl _ _ Sel)) as At. fold s in At.
  destruct (finish_sign H sign x s tx b At E) as (sg & Es & Tb).
  assert (Tp : takes_part H (at_ledger l) s (signer_of x)).
  { unfold s. apply (party_part H ip is HH L l h t us u n); [exact (proj1 (proj2 So))|exact Wo|exact Dr|]. exists l, h, t. auto. }
  assert (It : in_turn H sign [signer_of x] (T1 s) tx).
  { eapply it_next; [now left|exact Es|]. apply it_done. }
  split; [exact It|]. destruct Sh as (Ls & Bs & Fs). pose proof (state_start H sign (at_ledger l) s (conj Ls (conj Bs Fs))) as S0.
  pose proof (state_turn H sign S64 HH (at_ledger l) s [signer_of x] [] _ _ Ls Bs (Forall_cons _ Tp (Forall_nil _)) S0 It) as St. cbn [app] in St.
  destruct (state_fulfilled H sign (at_ledger l) s [signer_of x] tx St) as (b' & Tb' & Iff).
  - destruct (sign_shape H sign s (signer_of x) (Err RuntimeError) true (s_cin s) tx (Ok (sg, b)) Es) as (l' & -> & Bl).
    intros m Em. apply ok_inj in Em. subst m. apply Forall_forall. intros i I. cbn [s_cin shape] in I. apply In_nth_error in I as (j & N).
    pose proof (map_nth_error blank _ _ N) as X. cbn [g_known signer_of] in Bl. rewrite Bl, nth_error_map in X. rewrite At in X. destruct (nth_error (s_cin s) j) as [y|] eqn:Y; [|discriminate X]. cbn [option_map] in X. injection X as _ X. rewrite <- X.
    apply nth_error_In in Y. unfold s in Y. cbn [s_cin draft] in Y. apply in_map_iff in Y as (o & <- & _). discriminate.
  - rewrite Tb in Tb'. apply ok_inj in Tb'. subst b'. rewrite Iff. unfold s. apply (draft_quorum H l h t us u n); [exact (proj1 (proj2 So))|exact Wo|exact Dr|exact NE].
Qed.
Print Assumptions C95_proposal.

(** *** Lemmas *)
Lemma in_turn_app H sign ws : forall vs t t1 t2, in_turn H sign ws t t1 -> in_turn H sign vs t1 t2 -> in_turn H sign (ws ++ vs) t t2.
Proof. intros vs t t1 t2 I J. induction I as [|w ws t t0 t1' t' mc sub q Q E I IH]; [exact J|]. cbn [app]. eapply it_next; [exact Q|exact E|exact (IH J)]. Qed.
Lemma all_part H ip is l h t u us n used outs fee data ys : hash_ok H -> ip_library ip is -> consistent_ledger l -> wallet_of H l u us n -> draws H l u h t used ->
  Forall (could_sign H ip is u us n used) ys -> Forall (takes_part H (at_ledger l) (draft used outs fee data)) (map signer_of ys).
Proof.
  intros HH L C Wo Dr F. apply Forall_forall. intros w I. apply in_map_iff in I as (y & <- & I). rewrite Forall_forall in F. exact (party_part H ip is HH L l h t us u n used outs fee data y C Wo Dr (F y I)).
Qed.
(** *** After wallets opened anywhere on the way have signed in turn (the proposer is one of them), the outputs, the fee and the data are as proposed, and it spends the same; and the
    transaction is complete exactly if they have the keys of enough owners, together. *)
Theorem C95_signed : forall H ip_parse ip_str (sign : pubkey -> bytes -> bytes) l h t u us n used outs fee data ys t', hash_ok H -> ip_library ip_parse ip_str -> (forall k d, length (sign k d) = 64%nat) ->
  consistent_ledger l -> wallet_of H l u us n -> draws H l u h t used -> used <> [] -> Forall (could_sign H ip_parse ip_str u us n used) ys ->
  in_turn H sign (map signer_of ys) (T1 (draft used outs fee data)) t' ->
  (exists ins, t' = T1 (mkstd false ins outs [] [] [fee] data) /\ map i_parent ins = ids used) /\
  exists b, t_is_fulfilled (set_cin t' (attach (at_ledger l))) = Ok b /\ (b = true <-> quorum H (map signer_of ys) us n).
Proof.
  intros H ip is sign l h t u us n used outs fee data ys t' HH L S64 C Wo Dr NE F I.
  pose proof (draft_shared H l h t us u n used outs fee data C Wo Dr) as Sh. pose proof (all_part H ip is l h t u us n used outs fee data ys HH L C Wo Dr F) as Tp. split.
  - destruct (C79_signed H sign S64 HH _ _ _ _ Sh Tp I) as (ins & -> & P & _). exists ins. split; [reflexivity|]. rewrite P. cbn [s_cin draft]. rewrite map_map. reflexivity.
  - destruct (C79_complete H sign S64 HH _ _ _ _ Sh Tp I) as (b & E & Iff). exists b. split; [exact E|]. rewrite Iff. exact (draft_quorum H l h t us u n used outs fee data _ C Wo Dr NE).
Qed.
Print Assumptions C95_signed.

(** A co-owner asked to sign and submit does submit exactly if the owners whose keys took part, its own included, are enough, and not all had signed before. *)
Theorem C95_submitted : forall H ip_parse ip_str (sign : pubkey -> bytes -> bytes) l h t u us n used outs fee data ys y t0 t1 mc t2 sg sb, hash_ok H -> ip_library ip_parse ip_str -> (forall k d, length (sign k d) = 64%nat) ->
  consistent_ledger l -> wallet_of H l u us n -> draws H l u h t used -> used <> [] -> Forall (could_sign H ip_parse ip_str u us n used) ys -> could_sign H ip_parse ip_str u us n used y -> co_owns H us y ->
  in_turn H sign (map signer_of ys) (T1 (draft used outs fee data)) t0 -> (t1 = t0 \/ t1 = loose t0) ->
  transaction_sign H sign (x_primary y) (x_keys y) (known_outputs (x_bal y)) mc true t1 = (t2, Ok (sg, sb)) ->
  (sb = true <-> (exists v, In v us /\ ~ holder H (map signer_of ys) v) /\ quorum H (map signer_of (ys ++ [y])) us n).
Proof.
  intros H ip is sign l h t u us n used outs fee data ys y t0 t1 mc t2 sg sb HH L S64 C Wo Dr NE F Fy Co I Q E.
  pose proof (draft_shared H l h t us u n used outs fee data C Wo Dr) as Sh. pose proof (all_part H ip is l h t u us n used outs fee data ys HH L C Wo Dr F) as Tp.
  pose proof (party_part H ip is HH L l h t us u n used outs fee data y C Wo Dr Fy) as Ty.
  assert (Kw : Forall (fun i => g_known (signer_of y) (i_parent i) = at_ledger l (i_parent i)) (s_cin (draft used outs fee data))).
  { destruct Fy as (l2 & h2 & t3 & So & Wo2 & Dr2 & Pa). apply Forall_forall. intros i Ii. cbn [s_cin draft] in Ii. apply in_map_iff in Ii as (o & <- & Io). cbn [i_parent g_known signer_of].
    destruct Dr as (_ & _ & Dr). rewrite Forall_forall in Dr. destruct Dr2 as (_ & _ & Dr2). rewrite Forall_forall in Dr2. destruct (Dr2 o Io) as (I2 & E2 & O2).
    rewrite (party_knows H ip is HH L l2 h2 t3 y u us n So Pa Wo2 o Co I2 E2 O2). symmetry. exact (at_ledger_in l o C (proj1 (Dr o Io))). }
  rewrite (C79_submitted H sign S64 HH _ _ _ (signer_of y) t0 t1 mc t2 sg sb Sh Tp Ty Kw I Q E). rewrite (draft_quorum H l h t us u n used outs fee data _ C Wo Dr NE), map_app.
  assert (X : (exists x o vs m v, In x (s_cin (draft used outs fee data)) /\ multi (at_ledger l) x o vs m /\ In v vs /\ ~ holder H (map signer_of ys) v) <-> exists v, In v us /\ ~ holder H (map signer_of ys) v).
  { destruct Dr as (_ & _ & Dr). rewrite Forall_forall in Dr. split.
    - intros (x & o & vs & m & v & Ix & (M1 & M2) & Iv & Nv). cbn [s_cin draft] in Ix. apply in_map_iff in Ix as (p & <- & Ip). cbn [i_parent] in M1. destruct (Dr p Ip) as (Iu & Eu & _). rewrite (at_ledger_in l p C Iu) in M1. injection M1 as <-.
      destruct (wallet_asks H l u us n p Wo Iu Eu) as (us' & As & Pm). rewrite (asks_unwrap _ _ _ As) in M2. injection M2 as <- <-. exists v. split; [exact (Permutation_in _ Pm Iv)|exact Nv].
    - intros (v & Iv & Nv). destruct used as [|o os]; [contradiction|]. destruct (Dr o (or_introl eq_refl)) as (Iu & Eu & _). destruct (wallet_asks H l u us n o Wo Iu Eu) as (us' & As & Pm).
      exists (mkin (o_id o) (FMulti []) (Some o)), o, us', n, v. split; [now left|]. split; [split; [exact (at_ledger_in l o C Iu)|exact (asks_unwrap _ _ _ As)]|]. split; [exact (Permutation_in _ (Permutation_sym Pm) Iv)|exact Nv]. }
  rewrite X. reflexivity.
Qed.
Print Assumptions C95_submitted.

(** Once the signed transaction is recorded, on a ledger on which its outputs are still unspent (whatever else has been recorded since it was proposed), nothing is spent twice,
    and of what the multi-signature wallet had, exactly the amount and the fee are gone; the amount is the recipient's; and all others have what they had. *)
Theorem C95_settles : forall H ip_parse ip_str (sign : pubkey -> bytes -> bytes) l l3 h t h3 t3 u us n used c a rem back fee data ys t' e b, hash_ok H -> ip_library ip_parse ip_str -> (forall k d, length (sign k d) = 64%nat) ->
  consistent_ledger l -> wallet_of H l u us n -> draws H l u h t used -> Forall (could_sign H ip_parse ip_str u us n used) ys ->
  in_turn H sign (map signer_of ys) (T1 (draft used (mkout a c [] :: change rem back) fee data)) t' -> worth used = a + fee + rem -> goes_back H u None back -> uh_str H u = Ok b ->
  consistent_ledger l3 -> draws H l3 u h3 t3 used -> recorded (set_cin t' (attach (at_ledger l3))) l3 e ->
  consistent_ledger (e :: l3) /\
  fortune H [b] (e :: l3) + (if for_any H [b] (mkout a c []) then 0 else a) + fee = fortune H [b] l3 /\
  forall others, ~ In b others -> fortune H others (e :: l3) = fortune H others l3 + (if for_any H others (mkout a c []) then a else 0).
Proof.
  intros H ip is sign l l3 h t h3 t3 u us n used c a rem back fee data ys t' e b HH L S64 C Wo Dr F I Wu Gb Eb C3 Dr3 R.
  pose proof (draft_shared H l h t us u n used (mkout a c [] :: change rem back) fee data C Wo Dr) as Sh. pose proof (all_part H ip is l h t u us n used (mkout a c [] :: change rem back) fee data ys HH L C Wo Dr F) as Tp.
  destruct (C79_signed H sign S64 HH _ _ _ _ Sh Tp I) as (ins & -> & P & _). cbn [s_cin draft] in P. rewrite map_map in P. cbn [i_parent] in P.
  destruct Dr3 as (N3 & _ & Dr3). rewrite Forall_forall in Dr3.
  cbn [set_cin s_legacy s_cin s_cout s_bin s_bout s_fees s_data draft] in R. set (ins' := attach (at_ledger l3) ins) in *.
  assert (Tk : Forall2 takes ins' used).
  { clear - P Dr3 C3 Wu. subst ins'. revert used P Dr3 Wu. intros used P Dr3 _. revert used P Dr3. induction ins as [|i ins IH]; intros [|o used] P Dr3; try discriminate P; [constructor|]. cbn [map] in P. injection P as P1 P2. unfold attach in *. cbn [map].
    constructor; [|apply IH; [exact P2|intros p Ip; apply Dr3; now right]]. rewrite P1, (at_ledger_in l3 o C3 (proj1 (Dr3 o (or_introl eq_refl)))). split; reflexivity. }
  assert (Sel : exists rest, Permutation (used ++ rest) (unspent l3)) by (apply sel_of; [exact N3|intros o Io; exact (proj1 (Dr3 o Io))]).
  pose proof (recorded_extends _ l3 e ins' used R eq_refl Tk Sel C3) as X. pose proof (recorded_spends _ l3 e ins' used R eq_refl Tk) as Sp.
  split; [exact (extend_ok e l3 C3 X)|].
  assert (Own : forall o, In o used -> Spec_Explorer.pays H b o = true).
  { intros o Io. destruct (Dr3 o Io) as (_ & Eo & _). unfold Spec_Explorer.pays. rewrite Eo, Eb. apply listN_eqb_refl. }
  assert (Bk : forall id, Spec_Explorer.pays H b (mkout rem back id) = true).
  { intro id. destruct Gb as [Gb|(_ & Ebk & _)]; [discriminate Gb|]. unfold Spec_Explorer.pays. cbn [o_cond]. rewrite Ebk, Eb. apply listN_eqb_refl. }
  assert (Mk : forall as_, worth (filter (for_any H as_) (makes e)) = worth (filter (for_any H as_) (mkout a c [] :: change rem back))).
  { intro as_. destruct R as (R1 & _ & R3 & _). unfold makes. rewrite R1 in *. apply give_filter. exact R3. }
  assert (One : forall f, worth (filter f [mkout a c []]) = if f (mkout a c []) then a else 0) by (intro f; cbn [filter]; destruct (f (mkout a c [])); [unfold worth; cbn [map sum o_value]; lia|reflexivity]).
  assert (All : filter (for_any H [b]) used = used).
  { clear - Own. induction used as [|o os IH]; [reflexivity|]. cbn [filter]. assert (for_any H [b] o = true) as -> by (apply for_any_in; exists b; split; [now left|apply Own; now left]). f_equal. apply IH. intros p Ip. apply Own. now right. }
  assert (Ch : filter (for_any H [b]) (change rem back) = change rem back).
  { unfold Spec_Wallet.change. destruct (rem =? 0); [reflexivity|]. cbn [filter]. assert (for_any H [b] (mkout rem back []) = true) as -> by (apply for_any_in; exists b; split; [now left|apply Bk]). reflexivity. }
  split.
  - pose proof (extend_fortune H [b] e l3 C3 X) as Q. rewrite Sp, All, Mk in Q. change (mkout a c [] :: change rem back) with ([mkout a c []] ++ change rem back) in Q. rewrite filter_app, worth_app, One, Ch, change_worth in Q.
    destruct (for_any H [b] (mkout a c [])); lia.
  - intros others Nb. assert (Ex : forall o, Spec_Explorer.pays H b o = true -> for_any H others o = false).
    { intros o Po. destruct (for_any H others o) eqn:K; [|reflexivity]. apply for_any_in in K as (b' & Ib & Pb). exfalso. apply Nb. rewrite (pays_fun H b b' o Po Pb). exact Ib. }
    pose proof (extend_fortune H others e l3 C3 X) as Q. rewrite Sp, Mk in Q. change (mkout a c [] :: change rem back) with ([mkout a c []] ++ change rem back) in Q. rewrite filter_app, worth_app, One in Q.
    assert (filter (for_any H others) used = []) as Z1 by (clear - Own Ex; induction used as [|o os IH]; [reflexivity|]; cbn [filter]; rewrite (Ex o (Own o (or_introl eq_refl))); apply IH; intros p Ip; apply Own; now right).
    assert (filter (for_any H others) (change rem back) = []) as Z2 by (unfold Spec_Wallet.change; destruct (rem =? 0); [reflexivity|]; cbn [filter]; rewrite (Ex _ (Bk [])); reflexivity).
    rewrite Z1, Z2 in Q. change (worth []) with 0 in Q. lia.
Qed.
Print Assumptions C95_settles.

(** A wallet that has the key of an owner can send from the multi-signature wallet exactly if the ledger has at most 99 outputs of it, free to be spent, that are worth the amount and
    the fee; otherwise the complaint is that there is not enough money. *)
Theorem C95_affords : forall H ip_parse ip_str (sign : pubkey -> bytes -> bytes) l h t x u us n c a r data, hash_ok H -> ip_library ip_parse ip_str -> (forall k d, length (sign k d) = 64%nat) ->
  sound ip_parse l -> party H ip_parse ip_str l h t x -> wallet_of H l u us n -> us <> [] -> co_owns H us x -> 0 < a -> (length data <= 83)%nat -> fits_cond c ->
  fits_cond (refund_to (x_bal x) (x_address x) (Some [u]) r) -> modest (worth (unspent l)) ->
  match wallet_send H sign x c a (mkfunding (Some [u]) r) data with
  | Ok _ => exists s, draws H l u h t s /\ a + x_fee x <= worth s
  | Err e => e = InsufficientFunds /\ forall s, draws H l u h t s -> worth s < a + x_fee x
  end.
Proof.
  intros H ip is sign l h t x u us n c a r data HH L S64 So Pa Wo Nu Co Pos Ld Fc Fb Mo.
  destruct (pool_draws H ip is HH L l h t x u us n So Pa Wo) as (ND & P1 & P2 & _). specialize (P2 Co). pose proof (party_wallets H ip is HH L l h t x So Pa) as (Nm & _).
  assert (U : Forall (fun o => is_ok (from_condition (o_cond o)) = true) (pool H (x_bal x) (Some [u]))).
  { apply Forall_forall. intros o I. destruct (P1 o I) as (Io & Eo & _). destruct (wallet_asks H l u us n o Wo Io Eo) as (us' & As & _). rewrite (asks_from _ _ _ As). reflexivity. }
  pose proof (fund_shared H (x_bal x) (a + x_fee x) u (proj1 (proj2 Wo)) Nm U ltac:(lia)) as Fu.
  assert (Cs : exists rs, coins_send H (x_bal x) (x_fee x) (x_address x) c a (Some [u]) r data = rs /\
    match fund H (x_bal x) (a + x_fee x) (Some [u]) with Ok _ => exists tx, rs = Ok tx | Err e => rs = Err e end).
  { eexists. split; [reflexivity|]. unfold coins_send. assert ((0 <? a) = true) as -> by lia. cbn [guard bind]. unfold send_build. cbn [map snd fold_right]. rewrite N.add_0_r.
    destruct (fund H (x_bal x) (a + x_fee x) (Some [u])) as [[[ins rem] sg]|e]; [|reflexivity]. cbn [bind]. unfold data_new. assert ((length data <=? 83)%nat = true) as -> by lia. cbn [guard bind]. eauto. }
  destruct Cs as (rs & Ers & Cs). unfold wallet_send. cbn [f_source f_refund]. rewrite Ers. destruct (fund H (x_bal x) (a + x_fee x) (Some [u])) as [fr|e].
  - destruct Cs as (tx & ->). cbn [bind].
    destruct (draft_made H ip is HH L l h t x u us n c a r data tx So Pa Wo Pos Ers) as (used & rem & back & _ & Dr & NE & Sel & Wu & _ & -> & Ebk).
    set (s := draft used (mkout a c [] :: change rem back) (x_fee x) data).
    pose proof (draft_shared H l h t us u n used (mkout a c [] :: change rem back) (x_fee x) data (proj1 (proj2 So)) Wo Dr) as Sh. fold s in Sh.
    pose proof (draft_attach H ip is HH L l h t x u us n used (mkout a c [] :: change rem back) (x_fee x) data So Pa Wo (sel_incl _ _ Sel)) as At. fold s in At.
    assert (Tp : takes_part H (at_ledger l) s (signer_of x)).
    { unfold s. apply (party_part H ip is HH L l h t us u n); [exact (proj1 (proj2 So))|exact Wo|exact Dr|]. exists l, h, t. auto. }
    assert (Le : worth used <= worth (unspent l)).
    { destruct Dr as (N & _ & D). rewrite Forall_forall in D. apply sel_worth. apply sel_of; [exact N|]. intros o I. exact (proj1 (D o I)). }
    assert (Ft : Spec_Fits.fits (T1 s)).
    { unfold s, draft. cbn [Spec_Fits.fits s_legacy s_cin s_bin s_cout s_bout s_fees s_data]. destruct Dr as (_ & Lu & _).
      split; [reflexivity|]. split; [apply few_small; rewrite map_length; lia|]. split; [apply few_small; cbn; lia|]. split; [apply few_small; cbn [length]; pose proof (change_len rem back); lia|]. split; [apply few_small; cbn; lia|].
      split; [constructor; [split; [cbn [o_value]; apply (modest_le _ _ Mo); lia|exact Fc]|apply change_fits; [apply (modest_le _ _ Mo); lia|rewrite Ebk; exact Fb]]|].
      split; [constructor|]. split; [apply few_small; cbn; lia|]. split; [constructor; [apply (modest_le _ _ Mo); lia|constructor]|]. apply few_small. lia. }
    destruct (C79_works H sign S64 HH (at_ledger l) s [] (signer_of x) (T1 s) (T1 s) (Err RuntimeError) true Sh Ft (Forall_nil _) Tp (it_done H sign (T1 s)) (or_introl eq_refl)) as (t2 & [sg sb] & Es).
    cbn [g_primary g_keys g_known signer_of] in Es.
    assert (Lg : is_legacy (T1 s) = false) by reflexivity. destruct (C53_reported H sign _ _ S64 _ _ _ _ _ _ _ Lg Es) as (qs & Rq & _).
    assert (Ep : prepared (known_outputs (x_bal x)) (Err RuntimeError) (T1 s) = T1 s).
    { unfold prepared. change (set_cin (T1 s) (attach (known_outputs (x_bal x)))) with (T1 (mkstd (s_legacy s) (attach (known_outputs (x_bal x)) (s_cin s)) (s_cout s) (s_bin s) (s_bout s) (s_fees s) (s_data s))). rewrite At. reflexivity. }
    rewrite Ep in Rq.
    assert (NQ : qs <> []).
    { pose proof (requests_slot H _ _ (CbCoin 0) Rq ltac:(discriminate)) as W. destruct used as [|o os]; [contradiction|]. unfold s, draft in W. cbn [slot coin_inputs s_cin map nth_error option_map i_ff i_out] in W.
      destruct Dr as (_ & _ & D). rewrite Forall_forall in D. destruct (D o (or_introl eq_refl)) as (Io & Eo & _). destruct (wallet_asks H l u us n o Wo Io Eo) as (us' & As & Pm).
      destruct (wanted_is H sign S64 HH [] us' n [] o) as (rq & A & Iq & _).
      - exists []. split; [reflexivity|]. split; [constructor|]. intro v. split; [intros []|]. intros (_ & w & [] & _).
      - exact (owners_perm _ _ Pm (proj1 (proj2 (proj2 Wo)))).
      - exact (asks_unwrap _ _ _ As).
      - cbn [wanted option_map] in W, A. rewrite A in W. apply ok_inj in W. intro Q. rewrite Q in W. cbn in W. subst rq. destruct us' as [|v vs]; [apply Nu; symmetry in Pm; apply Permutation_nil; symmetry; exact Pm|].
        apply (proj2 (Iq v)). split; [now left|]. intros (w & [] & _). }
    rewrite (finish_total_sign H sign x s t2 sg sb qs At Rq NQ Es). exists used. split; [exact Dr|]. lia.
  - rewrite Cs. cbn [bind]. destruct Fu as (-> & Fu). split; [reflexivity|]. intros s (N & Ls & D). apply Fu; [|exact Ls]. rewrite Forall_forall in D. apply sel_of; [exact N|]. intros o I. destruct (D o I) as (A & B & C'). exact (P2 o A B C').
Qed.
Print Assumptions C95_affords.

(** So the owners of a multi-signature wallet can pay what the wallet has: if wallets opened on the ledger have the keys of enough owners, one of them sends, and
    the others sign in turn, whatever they pass on, then no one is refused, and the transaction ends complete. *)
Theorem C95_works : forall H ip_parse ip_str (sign : pubkey -> bytes -> bytes) l h t x ys u us n c a r data sel, hash_ok H -> ip_library ip_parse ip_str -> (forall k d, length (sign k d) = 64%nat) ->
  sound ip_parse l -> party H ip_parse ip_str l h t x -> Forall (party H ip_parse ip_str l h t) ys -> wallet_of H l u us n -> us <> [] -> co_owns H us x -> 0 < a -> (length data <= 83)%nat -> fits_cond c ->
  fits_cond (refund_to (x_bal x) (x_address x) (Some [u]) r) -> modest (worth (unspent l)) ->
  draws H l u h t sel -> a + x_fee x <= worth sel -> quorum H (map signer_of (x :: ys)) us n ->
  exists tx b t', wallet_send H sign x c a (mkfunding (Some [u]) r) data = Ok (tx, b) /\ in_turn H sign (map signer_of ys) tx t' /\
    t_is_fulfilled (set_cin t' (attach (at_ledger l))) = Ok true /\ hd_error (coin_outputs t') = Some (mkout a c []) /\ miner_fees t' = [x_fee x].
Proof.
  intros H ip is sign l h t x ys u us n c a r data sel HH L S64 So Pa Py Wo Nu Co Pos Ld Fc Fb Mo Ds Ws Qu.
  pose proof (C95_affords H ip is sign l h t x u us n c a r data HH L S64 So Pa Wo Nu Co Pos Ld Fc Fb Mo) as Af.
  destruct (wallet_send H sign x c a (mkfunding (Some [u]) r) data) as [[tx b]|e] eqn:E; [|exfalso; destruct Af as (_ & Af); specialize (Af sel Ds); lia].
  pose proof E as E'. unfold wallet_send in E'. cbn [f_source f_refund] in E'. apply bind_ok in E' as (t0 & E0 & E').
  destruct (draft_made H ip is HH L l h t x u us n c a r data t0 So Pa Wo Pos E0) as (used & rem & back & _ & Dr & NE & Sel & Wu & _ & -> & Ebk).
  set (s := draft used (mkout a c [] :: change rem back) (x_fee x) data) in *.
  assert (Cs : Forall (could_sign H ip is u us n used) (x :: ys)).
  { constructor; [exists l, h, t; auto|]. apply Forall_forall. intros y Iy. rewrite Forall_forall in Py. exists l, h, t. auto. }
  pose proof (draft_shared H l h t us u n used (mkout a c [] :: change rem back) (x_fee x) data (proj1 (proj2 So)) Wo Dr) as Sh. fold s in Sh.
  pose proof (all_part H ip is l h t u us n used (mkout a c [] :: change rem back) (x_fee x) data _ HH L (proj1 (proj2 So)) Wo Dr Cs) as Tp. fold s in Tp.
  assert (Le : worth used <= worth (unspent l)).
  { destruct Dr as (N & _ & D). rewrite Forall_forall in D. apply sel_worth. apply sel_of; [exact N|]. intros o I. exact (proj1 (D o I)). }
  assert (Ft : Spec_Fits.fits (T1 s)).
  { unfold s, draft. cbn [Spec_Fits.fits s_legacy s_cin s_bin s_cout s_bout s_fees s_data]. pose proof Dr as (_ & Lu & _).
    split; [reflexivity|]. split; [apply few_small; rewrite map_length; lia|]. split; [apply few_small; cbn; lia|]. split; [apply few_small; cbn [length]; pose proof (change_len rem back); lia|]. split; [apply few_small; cbn; lia|].
    split; [constructor; [split; [cbn [o_value]; apply (modest_le _ _ Mo); lia|exact Fc]|apply change_fits; [apply (modest_le _ _ Mo); lia|rewrite Ebk; exact Fb]]|].
    split; [constructor|]. split; [apply few_small; cbn; lia|]. split; [constructor; [apply (modest_le _ _ Mo); lia|constructor]|]. apply few_small. lia. }
  pose proof (draft_attach H ip is HH L l h t x u us n used (mkout a c [] :: change rem back) (x_fee x) data So Pa Wo (sel_incl _ _ Sel)) as At. fold s in At.
  destruct (finish_sign H sign x s tx b At E') as (sg & Es & _).
  assert (It : in_turn H sign [signer_of x] (T1 s) tx) by (eapply it_next; [now left|exact Es|apply it_done]).
  assert (Tn : forall zs done t1, Forall (takes_part H (at_ledger l) s) done -> Forall (takes_part H (at_ledger l) s) zs -> in_turn H sign done (T1 s) t1 -> exists t2, in_turn H sign zs t1 t2).
  { induction zs as [|z zs IH]; intros done t1 F1 F2 I1; [exists t1; apply it_done|]. inversion F2 as [|? ? Fz Fzs]; subst.
    destruct (C79_works H sign S64 HH (at_ledger l) s done z t1 t1 (Err RuntimeError) false Sh Ft F1 Fz I1 (or_introl eq_refl)) as (t2 & rr & Ez).
    destruct (IH (done ++ [z]) t2) as (t3 & I3); [apply Forall_app; auto|exact Fzs|eapply in_turn_app; [exact I1|eapply it_next; [now left|exact Ez|apply it_done]]|].
    exists t3. eapply it_next; [now left|exact Ez|exact I3]. }
  cbn [map] in Tp. inversion Tp as [|? ? Tx Tys]; subst. destruct (Tn (map signer_of ys) [signer_of x] tx (Forall_cons _ Tx (Forall_nil _)) Tys It) as (t' & I').
  assert (Iall : in_turn H sign (map signer_of (x :: ys)) (T1 s) t') by (cbn [map]; exact (in_turn_app H sign [signer_of x] (map signer_of ys) _ _ _ It I')).
  destruct (C95_signed H ip is sign l h t u us n used _ _ _ (x :: ys) t' HH L S64 (proj1 (proj2 So)) Wo Dr NE Cs Iall) as ((ins & Et & _) & b' & Eb & Iff).
  exists tx, b, t'. split; [reflexivity|]. split; [exact I'|]. split; [rewrite Eb; f_equal; apply Iff; exact Qu|]. rewrite Et. split; reflexivity.
Qed.
Print Assumptions C95_works.

(** *** Cases.  A wallet of two owners, both of which have to sign, got 10; each owner has a wallet of its own.  The first sends 4 to somebody; the second signs. *)
Definition exjt_multi : cond := CMulti [ex_key_uh 7; ex_key_uh 9] 2.
Definition exjt_uh : uh := Eval vm_compute in match cond_unlockhash ex_H2 exjt_multi with Ok u => u | Err _ => mkuh 0 [] end.
Definition exjt_e : entry := mkentry (exx_std 5 [mkout 10 exjt_multi []; exx_pay 20]) (repeat 31 32) [exx_pay 31] [] [repeat 21 32; repeat 22 32] [] (Some 7%Z).
Definition exjt_out : output := mkout 10 exjt_multi (repeat 21 32).
Definition exjt_pay : json := exx_answer (exx_std 5 [mkout 10 exjt_multi []; exx_pay 20]) 31 [exx_pay 31] [] [21; 22] [] 7 false.
Definition exjt_net (a : N) (n : nat) (b : pystr) : res json :=
  if listN_eqb b (ex_addr a) then Ok (exl_resp [exjt_pay] [exjt_multi]) else if listN_eqb b (exl_text exjt_multi) then Ok (exl_resp [exjt_pay] []) else Err ExplorerNoContent.
Definition exjt_purse (a : N) : purse := mkpurse (ex_addr a) [(ex_addr a, ex_key a)] (ex_key_uh a) [ex_addr a] 1.
Definition exjt_wallet (a : N) : wctx := match opened ex_H2 ex_ip_parse 0 (exjt_net a) exl_info (exjt_purse a) with Ok x => x | Err _ => mkctx [] [] exjt_uh (mkwb bal_new []) 0 end.

Lemma exjt_ok : Forall (entry_ok ex_ip_parse) [exjt_e].
Proof. repeat apply Forall_cons; try apply Forall_nil; apply exe_entry_ok; vm_compute; reflexivity. Qed.
Lemma exjt_told : tells ex_H2 ex_ip_str exjt_pay exjt_e.
Proof. exsh_told. Qed.
Lemma exjt_sound : sound ex_ip_parse [exjt_e].
Proof.
  split; [exact exjt_ok|]. split; [|intros e [<-|[]]; exact Logic.I]. split.
  - vm_compute. repeat (constructor; [intros I; repeat destruct I as [I|I]; try contradiction; discriminate I|]). constructor.
  - intros o p I J E. exfalso. vm_compute in I, J. repeat destruct I as [<-|I]; try contradiction; repeat destruct J as [<-|J]; try contradiction; discriminate E.
  - vm_compute. constructor; [intros []|constructor].
Qed.
Lemma exjt_multi_uh : cond_unlockhash ex_H2 exjt_multi = Ok exjt_uh.
Proof. vm_compute. reflexivity. Qed.
Lemma exjt_wallet_of : wallet_of ex_H2 [exjt_e] exjt_uh [ex_key_uh 7; ex_key_uh 9] 2.
Proof.
  split; [apply exe_addr_ok; vm_compute; reflexivity|]. split; [reflexivity|]. split.
  - split.
    + constructor; [intros [E|[]]; vm_compute in E; discriminate E|]. constructor; [intros []|constructor].
    + repeat constructor; vm_compute; intuition congruence.
  - intros o v Io Ev Es. assert (Q : o_cond o = exjt_multi \/ o_cond o = CUnlockHash exx_uh).
    { vm_compute in Io. repeat destruct Io as [<-|Io]; try contradiction; cbn [o_cond]; [left; reflexivity|right; reflexivity]. }
    destruct Q as [Q|Q]; rewrite Q in Ev |- *.
    + exists [ex_key_uh 7; ex_key_uh 9]. split; [left; reflexivity|apply Permutation_refl].
    + cbn [cond_unlockhash] in Ev. apply ok_inj in Ev. subst v. vm_compute in Es. discriminate Es.
Qed.
Lemma exjt_draws : draws ex_H2 [exjt_e] exjt_uh 100 1600000000 [exjt_out].
Proof.
  split; [constructor; [intros []|constructor]|]. split; [cbn [length]; lia|]. constructor; [|constructor]. split; [vm_compute; left; reflexivity|]. split; [exact exjt_multi_uh|]. cbn. lia.
Qed.
Lemma exjt_addr a : a = 7 \/ a = 9 -> text_of ex_H2 1 (ex_addr a) /\ uh_str ex_H2 (ex_key_uh a) = Ok (ex_addr a).
Proof. intro Q. split; [exists (ex_key_uh a); split; [apply exe_addr_ok|split]|]; destruct Q as [->| ->]; vm_compute; reflexivity. Qed.
Lemma exjt_shared a u : a = 7 \/ a = 9 -> (shared_with ex_H2 [exjt_e] (ex_addr a) u <-> u = exjt_uh).
Proof.
  intro Qa. split.
  - intros (e & o & us & n & x & Ie & Io & As & E & Ix & Ex). destruct Ie as [<-|[]].
    assert (K : o_cond o = exjt_multi \/ exists v, o_cond o = CUnlockHash v).
    { vm_compute in Io; repeat destruct Io as [<-|Io]; try contradiction; cbn [o_cond]; solve [left; reflexivity|right; eexists; reflexivity]. }
    destruct K as [K|(v & K)]; [|rewrite K in As; destruct As as [As|(k & As)]; discriminate As]. rewrite K, exjt_multi_uh in E. apply ok_inj in E. now symmetry.
  - intros ->. exists exjt_e, exjt_out, [ex_key_uh 7; ex_key_uh 9], 2%Z, (ex_key_uh a).
    split; [now left|]. split; [left; reflexivity|]. split; [left; reflexivity|]. split; [exact exjt_multi_uh|]. split; [destruct Qa as [->| ->]; cbn [In]; auto|exact (proj2 (exjt_addr a Qa))].
Qed.
Lemma exjt_hist ms us : Forall2 (fun c u => c = exjt_multi /\ u = exjt_uh) ms us -> Spec_Lookup.told_history ex_H2 (tells ex_H2 ex_ip_str) (exl_resp [exjt_pay] ms) [exjt_e] us None.
Proof.
  intro Fm. split.
  - eexists. split; reflexivity.
  - exists [exjt_pay]. split; [eexists; split; reflexivity|]. constructor; [exact exjt_told|constructor].
  - exists (map (fun c => JStr (exl_text c)) ms). split; [left; eexists; split; reflexivity|]. induction Fm as [|c u ms us (-> & ->) Fm IH]; [constructor|]. constructor; [|exact IH]. 
    exists (exl_text exjt_multi). split; [vm_compute; reflexivity|reflexivity].
  - eexists. split; reflexivity.
Qed.
Lemma exjt_frank a : a = 7 \/ a = 9 -> frank ex_H2 ex_ip_str [exjt_e] (exjt_net a) [ex_addr a].
Proof.
  intros Qa n. assert (Ad : address exjt_uh) by (apply exe_addr_ok; vm_compute; reflexivity). split.
  - intros b [<-|[]]. exists [exjt_uh]. split; [|split; [constructor; [intros []|constructor]|split]].
    + right. exists (exl_resp [exjt_pay] [exjt_multi]), [exjt_e], [], None. split; [unfold exjt_net; rewrite listN_eqb_refl; reflexivity|]. split; [apply exjt_hist; constructor; [auto|constructor]|].
      split; [split; [constructor; [split; [exact Ad|vm_compute; reflexivity]|constructor]|exact Logic.I]|]. rewrite app_nil_r. split; [apply Permutation_refl|intros e []].
    + intro u. rewrite (exjt_shared a u Qa). split; [intros [<-|[]]; reflexivity|intros ->; now left].
    + unfold exjt_net. rewrite listN_eqb_refl. discriminate.
  - intros b u c [<-|[]] Sw Eb. apply (exjt_shared a u Qa) in Sw as ->. exists []. right. exists (exl_resp [exjt_pay] []), [exjt_e], [], None.
    assert (c = exl_text exjt_multi) as ->.
    { assert (Q : uh_str ex_H2 exjt_uh = Ok (exl_text exjt_multi)) by (vm_compute; reflexivity). rewrite Q in Eb. apply ok_inj in Eb. now symmetry. }
    split; [unfold exjt_net; replace (listN_eqb (exl_text exjt_multi) (ex_addr a)) with false by (destruct Qa as [->| ->]; vm_compute; reflexivity); rewrite listN_eqb_refl; reflexivity|]. split; [apply exjt_hist; constructor|].
    split; [split; [constructor|exact Logic.I]|]. rewrite app_nil_r. split; [apply Permutation_refl|intros e []].
Qed.
Lemma exjt_party a : a = 7 \/ a = 9 -> party ex_H2 ex_ip_parse ex_ip_str [exjt_e] 100 1600000000 (exjt_wallet a) /\ co_owns ex_H2 [ex_key_uh 7; ex_key_uh 9] (exjt_wallet a) /\ x_fee (exjt_wallet a) = 1 /\
  x_keys (exjt_wallet a) = [(ex_addr a, ex_key a)].
Proof.
  intro Qa. assert (Kk : x_keys (exjt_wallet a) = [(ex_addr a, ex_key a)]) by (destruct Qa as [->| ->]; vm_compute; reflexivity). split; [|split; [|split]].
  - split; [lia|]. split; [lia|]. exists 0%Z, (exjt_net a), [], (exjt_purse a).
    split; [apply Forall_cons; [exact (proj1 (exjt_addr a Qa))|apply Forall_nil]|]. split; [exact (exjt_frank a Qa)|]. split; [destruct Qa as [->| ->]; vm_compute; reflexivity|]. cbn [v_primary v_keys v_addrs exjt_purse].
    split; [apply Forall_cons; [destruct Qa as [->| ->]; vm_compute; reflexivity|apply Forall_nil]|]. split; [apply Forall_cons; [apply ext_key32; destruct Qa; lia|apply Forall_nil]|].
    intros b p [E|[]]. injection E as <- _. now left.
  - exists (ex_key_uh a). split; [destruct Qa as [->| ->]; cbn [In]; auto|]. exists (ex_addr a), (ex_key a). rewrite Kk. split; [now left|destruct Qa as [->| ->]; vm_compute; reflexivity].
  - destruct Qa as [->| ->]; vm_compute; reflexivity.
  - exact Kk.
Qed.
Example C95_ex : hash_ok ex_H2 /\ ip_library ex_ip_parse ex_ip_str /\ (forall k d, length (ex_sign k d) = 64%nat) /\ sound ex_ip_parse [exjt_e] /\
  wallet_of ex_H2 [exjt_e] exjt_uh [ex_key_uh 7; ex_key_uh 9] 2 /\ draws ex_H2 [exjt_e] exjt_uh 100 1600000000 [exjt_out] /\
  Forall (party ex_H2 ex_ip_parse ex_ip_str [exjt_e] 100 1600000000) [exjt_wallet 7; exjt_wallet 9] /\ Forall (co_owns ex_H2 [ex_key_uh 7; ex_key_uh 9]) [exjt_wallet 7; exjt_wallet 9] /\
  modest (worth (unspent [exjt_e])) /\ quorum ex_H2 (map signer_of [exjt_wallet 7; exjt_wallet 9]) [ex_key_uh 7; ex_key_uh 9] 2 /\
  let a := wallet_send ex_H2 ex_sign (exjt_wallet 7) (CUnlockHash (ex_key_uh 8)) 4 (mkfunding (Some [exjt_uh]) None) [] in
  let b := do ab <- a; snd (transaction_sign ex_H2 ex_sign (ex_addr 9) [(ex_addr 9, ex_key 9)] (known_outputs (x_bal (exjt_wallet 9))) (Err RuntimeError) true (loose (fst ab))) in
  (do ab <- a; Ok (snd ab)) = Ok false /\ b = Ok (true, true).
Proof.
  split; [exact ex_H2_ok|]. split; [exact C43_library|]. split; [exact ex_sign64|]. split; [exact exjt_sound|]. split; [exact exjt_wallet_of|]. split; [exact exjt_draws|].
  destruct (exjt_party 7 (or_introl eq_refl)) as (P7 & C7 & _ & K7). destruct (exjt_party 9 (or_intror eq_refl)) as (P9 & C9 & _ & K9).
  split; [exact (Forall_cons _ P7 (Forall_cons _ P9 (Forall_nil _)))|]. split; [exact (Forall_cons _ C7 (Forall_cons _ C9 (Forall_nil _)))|]. split; [vm_compute; reflexivity|].
  split.
  { exists [ex_key_uh 7; ex_key_uh 9]. split; [exact (proj1 (proj1 (proj2 (proj2 exjt_wallet_of))))|]. split; [|cbn [length]; lia].
    intros u Iu. split; [exact Iu|]. cbn [map]. unfold holder.
    destruct Iu as [<-|[<-|[]]].
    - exists (signer_of (exjt_wallet 7)). split; [now left|]. cbn [g_keys signer_of]. rewrite K7. exists (ex_addr 7), (ex_key 7). split; [now left|vm_compute; reflexivity].
    - exists (signer_of (exjt_wallet 9)). split; [right; now left|]. cbn [g_keys signer_of]. rewrite K9. exists (ex_addr 9), (ex_key 9). split; [now left|vm_compute; reflexivity]. }
  cbv zeta. split; vm_compute; reflexivity.
Qed.
(** the transaction that both have signed, recorded with the hash that the explorer gives it *)
Definition exjt_signed : res txn := Eval vm_compute in
  do ab <- wallet_send ex_H2 ex_sign (exjt_wallet 7) (CUnlockHash (ex_key_uh 8)) 4 (mkfunding (Some [exjt_uh]) None) [];
  Ok (fst (transaction_sign ex_H2 ex_sign (ex_addr 9) [(ex_addr 9, ex_key 9)] (known_outputs (x_bal (exjt_wallet 9))) (Err RuntimeError) true (fst ab))).
Definition exjt_txn : txn := Eval vm_compute in match exjt_signed with Ok t => set_cin t (attach (at_ledger [exjt_e])) | Err _ => T1 (draft [] [] 0 []) end.
Definition exjt_r : entry := mkentry exjt_txn (repeat 33 32) [exjt_out] [] [repeat 24 32; repeat 25 32] [] None.
Example C95_ex_settles : exists t', exjt_signed = Ok t' /\ in_turn ex_H2 ex_sign (map signer_of [exjt_wallet 7; exjt_wallet 9]) (T1 (draft [exjt_out] (mkout 4 (CUnlockHash (ex_key_uh 8)) [] :: change 5 exjt_multi) 1 [])) t' /\
  recorded (set_cin t' (attach (at_ledger [exjt_e]))) [exjt_e] exjt_r /\ fortune ex_H2 [exl_text exjt_multi] [exjt_e] = 10 /\ fortune ex_H2 [exl_text exjt_multi] [exjt_r; exjt_e] = 5 /\ fortune ex_H2 [ex_addr 8] [exjt_r; exjt_e] = 4.
Proof.
  eexists. split; [reflexivity|]. split.
  { cbn [map]. eapply it_next with (mc := Err RuntimeError) (submit := true); [now left|vm_compute; reflexivity|]. eapply it_next with (mc := Err RuntimeError) (submit := true); [now left|vm_compute; reflexivity|]. apply it_done. }
  split; [|split; [|split]]; [|vm_compute; reflexivity|vm_compute; reflexivity|vm_compute; reflexivity].
  split; [vm_compute; reflexivity|]. split; [vm_compute; reflexivity|]. split; [reflexivity|]. split.
  - repeat (constructor; [intros I; vm_compute in I; repeat destruct I as [I|I]; try contradiction; discriminate I|]). constructor.
  - intros i I. cbn [en_ids exjt_r In] in I. split; intro J; vm_compute in J; repeat destruct J as [<-|J]; try contradiction; vm_compute in I; repeat destruct I as [I|I]; try contradiction; discriminate I.
Qed.
