(** Theorems about several minters signing one minting transaction (C96). *)
From Coq Require Import Permutation.
From Verif Require Import Base BaseFacts Encoders Primitive Types Conditions Fulfillments ThreeBotTypes Txn TxnSign Wallet Ops Submit Spec_Types Spec_Fulfil Spec_Txn Spec_Sign Spec_Swap Spec_Ops Spec_Fits Spec_Together Spec_Shared Spec_Jointly Spec_Minters
  TypesFacts TypesFacts2 ConditionFacts ConditionFacts2 FulfilFacts FulfilFacts2 TxnFacts2 SigTotal SignFacts SignFacts2 SignFacts3 SignFacts4 OpsFacts2 OpsFacts4 SwapFacts Prop_Fulfil Prop_Sign Prop_SwapTwo Prop_SignWorks TogetherFacts Prop_Together Prop_Ops Prop_Mint JointlyFacts MintersFacts.
From Coq Require Import ZifyBool ZifyNat ZifyN.
Ltac Zify.zify_post_hook ::= Z.div_mod_to_equations.

(** *** After the minters have signed in turn, what is minted, the fee, the data and the nonce are as proposed; the signatures are of exactly the minters whose keys took part, each
    once, each over the transaction as proposed and the public key of the one who signs. *)
Theorem C96_signed : forall H (sign : pubkey -> bytes -> bytes), (forall k h, length (sign k h) = 64%nat) -> hash_ok H -> forall m ts t',
  blank_mint m -> ts <> [] -> Forall (proper_turn H) ts -> minted H sign ts (TMint m) t' ->
  exists ps c, t' = TMint (mkmint (Some (FMulti ps)) (m_new m) (m_fees m) (m_data m) (m_nonce m) (Some c)) /\
    (exists as_, mapM (fun p => pk_unlockhash H (fst p)) ps = Ok as_ /\ NoDup as_ /\ forall u, In u as_ <-> has_signed H ts u) /\
    Forall (fun p => exists d, sig_input H (TMint m) [XKey (fst p)] = Ok d /\ snd p = sign (fst p) (H d)) ps.
Proof.
  intros H sign S64 HH m ts t' B NE F T. destruct (exists_last NE) as (l & tn & ->).
  assert (Sp : exists t1, minted H sign l (TMint m) t1 /\ minted H sign [tn] t1 t').
  { clear -T. revert T. generalize (TMint m) as t0. induction l as [|x l IH]; intros t0 T; [exists t0; split; [apply mi_done|exact T]|]. cbn [app] in T. inversion T; subst. destruct (IH _ ltac:(eassumption)) as (t9 & A & C). exists t9. split; [|exact C].
    eapply mi_next; eassumption. }
  destruct Sp as (t1 & A & C). apply Forall_app in F as (Fl & Ft). inversion Ft as [|? ? Pt _]; subst.
  pose proof (mstate_turn H sign S64 HH m l [] _ _ Fl (mstate_start H sign m B) A) as St. cbn [app] in St. inversion C as [|w c ? ? u1 t3 ? submit r Q E R]; subst. inversion R; subst.
  destruct (mstate_step H sign S64 HH m l w c submit _ _ r Pt (mstate_received H sign m _ _ _ Q St) E) as (ps & -> & MS & MG). exists ps, c. split; [reflexivity|]. split; [exact MS|].
  eapply Forall_impl; [|exact MG]. intros p (_ & X). exact X.
Qed.
Print Assumptions C96_signed.
(** *** Nobody is refused on the way. *)
Theorem C96_works : forall H (sign : pubkey -> bytes -> bytes), (forall k h, length (sign k h) = 64%nat) -> hash_ok H -> forall m ts t w c submit t1,
  blank_mint m -> fits (TMint m) -> Forall (proper_turn H) ts -> minted H sign ts (TMint m) t -> (t1 = t \/ t1 = received t) -> proper_turn H (mkturn w c) ->
  exists t' r, transaction_sign H sign (g_primary w) (g_keys w) (g_known w) (Ok c) submit t1 = (t', Ok r).
Proof.
  intros H sign S64 HH m ts t w c submit t1 B Ft F T Q P. pose proof (mstate_turn H sign S64 HH m ts [] _ _ F (mstate_start H sign m B) T) as St. cbn [app] in St.
  exact (mstate_total H sign S64 HH m ts w c submit t1 Ft P (mstate_received H sign m _ _ _ Q St)).
Qed.
Print Assumptions C96_works.
Lemma mstate_under H sign m ts t c : mstate H sign m ts t -> exists f ps, under c t = mshape m f (Some c) /\ (f = Some (FMulti ps) \/ (f = None /\ ps = [])) /\ msigned H ts ps.
Proof. intros (f & p & ps & -> & Ef & MS & _). exists f, ps. auto. Qed.
(** *** Under the mint condition in force, the transaction is complete exactly if as many minters have signed as that asks for. *)
Theorem C96_complete : forall H (sign : pubkey -> bytes -> bytes), (forall k h, length (sign k h) = 64%nat) -> hash_ok H -> forall m ts t c us n,
  blank_mint m -> ts <> [] -> Forall (proper_turn H) ts -> minted H sign ts (TMint m) t -> minters c us n ->
  exists b, t_is_fulfilled (under c t) = Ok b /\ (b = true <-> enough_signed H ts n).
Proof.
  intros H sign S64 HH m ts t c us n B NE F T M. destruct (C96_signed H sign S64 HH m ts t B NE F T) as (ps & c0 & -> & MS & _).
  exact (mcomplete H m ts ps c us n MS M).
Qed.
Print Assumptions C96_complete.
(** *** While the mint condition stays what it is, that is a quorum of its minters; in whatever order they sign, and however often. *)
Theorem C96_quorum : forall H ts c us n k, minters c us n -> Forall (fun tn => exists us' n', minters (tn_rule tn) us' n' /\ (forall u, In u us' <-> In u us)) ts ->
  (enough_signed H ts k <-> quorum H (map tn_who ts) us k).
Proof.
  intros H ts c us n k M F. rewrite Forall_forall in F.
  assert (X : forall u, has_signed H ts u <-> In u us /\ holder H (map tn_who ts) u).
  { intro u. split.
    - intros (tn & us' & n' & I & (A & _) & Iu & K). destruct (F tn I) as (us2 & n2 & (A2 & _) & E). destruct (asks_same _ _ _ _ _ A A2) as (<- & _). split; [apply E, Iu|]. exists (tn_who tn). split; [apply in_map, I|exact K].
    - intros (Iu & w & I & K). apply in_map_iff in I as (tn & <- & I). destruct (F tn I) as (us' & n' & M' & E). exists tn, us', n'. split; [exact I|]. split; [exact M'|]. split; [apply E, Iu|exact K]. }
  unfold enough_signed, quorum. split; intros (held & N & J & Q); exists held; (split; [exact N|]; split; [intros u Iu; apply X, J, Iu|exact Q]).
Qed.
Print Assumptions C96_quorum.
Theorem C96_order : forall H (sign : pubkey -> bytes -> bytes), (forall k h, length (sign k h) = 64%nat) -> hash_ok H -> forall m ts ts2 t t2 c us n,
  blank_mint m -> ts <> [] -> Forall (proper_turn H) ts -> (forall tn, In tn ts <-> In tn ts2) -> minted H sign ts (TMint m) t -> minted H sign ts2 (TMint m) t2 -> minters c us n ->
  t_is_fulfilled (under c t) = t_is_fulfilled (under c t2).
Proof.
  intros H sign S64 HH m ts ts2 t t2 c us n B NE F I T T2 M.
  assert (F2 : Forall (proper_turn H) ts2) by (apply Forall_forall; intros tn It; rewrite Forall_forall in F; apply F, I, It).
  assert (NE2 : ts2 <> []) by (intros ->; destruct ts as [|x ts]; [contradiction|]; exact (proj1 (I x) (or_introl eq_refl))).
  destruct (C96_complete H sign S64 HH m ts t c us n B NE F T M) as (b & Eb & Ib). destruct (C96_complete H sign S64 HH m ts2 t2 c us n B NE2 F2 T2 M) as (b2 & Eb2 & Ib2). rewrite Eb, Eb2. f_equal.
  assert (X : enough_signed H ts n <-> enough_signed H ts2 n).
  { assert (Y : forall u, has_signed H ts u <-> has_signed H ts2 u) by (intro u; unfold has_signed; split; intros (tn & r & k & J & K); exists tn, r, k; (split; [apply I, J|exact K])).
    unfold enough_signed. split; intros (held & N & J & Q); exists held; (split; [exact N|]; split; [intros u Iu; apply Y, J, Iu|exact Q]). }
  rewrite <- Ib, <- Ib2 in X. destruct b, b2; intuition congruence.
Qed.
Print Assumptions C96_order.
(** *** A minter asked to sign and submit does submit exactly if those who have signed then are enough, and some present minter had not signed before. *)
Theorem C96_submitted : forall H (sign : pubkey -> bytes -> bytes), (forall k h, length (sign k h) = 64%nat) -> hash_ok H -> forall m ts t t1 w c us n t2 sg sb,
  blank_mint m -> Forall (proper_turn H) ts -> minted H sign ts (TMint m) t -> (t1 = t \/ t1 = received t) -> proper_turn H (mkturn w c) -> minters c us n ->
  transaction_sign H sign (g_primary w) (g_keys w) (g_known w) (Ok c) true t1 = (t2, Ok (sg, sb)) ->
  (sg = true <-> exists u, In u us /\ ~ has_signed H ts u /\ has_key H (g_keys w) u) /\
  (sb = true <-> (exists u, In u us /\ ~ has_signed H ts u) /\ enough_signed H (ts ++ [mkturn w c]) n).
Proof.
  intros H sign S64 HH m ts t t1 w c us n t2 sg sb B F T Q P M E. pose proof (mstate_turn H sign S64 HH m ts [] _ _ F (mstate_start H sign m B) T) as St. cbn [app] in St.
  apply (mstate_received H sign m _ _ _ Q) in St.
  destruct (mstate_prepared H sign m ts t1 (g_known w) c us n St M) as (ps & Pp & _ & MS & MG). destruct (mwanted H sign S64 HH ts us n c ps MS M) as (rs & A & I & ND & FU).
  assert (Lg : is_legacy t1 = false) by (destruct St as (f & p & ps' & -> & _); reflexivity).
  destruct (C53_reported H sign _ _ S64 _ _ _ _ _ _ _ Lg E) as (qs & R & SG & SB). rewrite Pp in R.
  destruct (mstate_step H sign S64 HH m ts w c true _ _ _ P St E) as (ps2 & -> & MS2 & _). destruct (mcomplete H m _ ps2 c us n MS2 M) as (b & Eb & Ib).
  assert (Rq : forall u, (exists q, In q qs /\ rq_uh (q_rq q) = u) <-> In u rs).
  { unfold requests, mshape in R. cbn [coin_inputs bind in_requests blockstake_inputs map own_requests m_parent m_ff app] in R. unfold ff_requests in R. rewrite A in R. cbn [bind] in R. rewrite ?app_nil_l in R. apply ok_inj in R. subst qs.
    intro u. split.
    - intros (q & Iq & <-). rewrite map_map in Iq. apply in_map_iff in Iq as (v & <- & Iv). exact Iv.
    - intro Iu. rewrite map_map. eexists. split; [apply in_map_iff; exists u; split; [reflexivity|exact Iu]|reflexivity]. }
  destruct P as (WO & K32 & _). cbn [tn_who] in WO, K32. split.
  - rewrite SG. split.
    + intros (q & Iq & K). destruct (wallet_key H (g_primary w) (g_keys w) (rq_uh (q_rq q))) as [k|] eqn:W; [|contradiction]. assert (Iu : In (rq_uh (q_rq q)) rs) by (apply Rq; eauto). exists (rq_uh (q_rq q)). rewrite <- and_assoc, <- I. split; [exact Iu|].
      rewrite Forall_forall in FU. destruct (FU _ Iu) as (Fu & Ty). exact (key_held H sign S64 HH _ _ _ _ WO Fu Ty W).
    + intros (u & Iu & Nu & K). assert (Ir : In u rs) by (apply I; auto). apply Rq in Ir as (q & Iq & <-). exists q. split; [exact Iq|]. intro W.
      assert (X : owned H (g_primary w) (g_keys w) [rq_uh (q_rq q)] = []) by (unfold owned; cbn; rewrite W; reflexivity).
      assert (Ir : In (rq_uh (q_rq q)) rs) by (apply Rq; eauto). rewrite Forall_forall in FU.
      destruct (owned_is H sign S64 HH (fun _ => None) (mksigner (g_primary w) (g_keys w) (g_known w)) [rq_uh (q_rq q)] WO K32 ltac:(constructor; [exact (FU _ Ir)|constructor]) ltac:(constructor; [intros []|constructor])) as (bs & B1 & _ & B3 & _).
      cbn [g_primary g_keys] in *. rewrite X in B1. cbn [mapM] in B1. apply ok_inj in B1. subst bs. exact (proj2 (B3 _) (conj (or_introl eq_refl) K)).
  - rewrite SB, Eb, <- Ib. assert (NEq : qs <> [] <-> exists u, In u us /\ ~ has_signed H ts u).
    { split.
      - intro N. destruct qs as [|q qs]; [contradiction|]. exists (rq_uh (q_rq q)). apply I, Rq. exists q. split; [now left|reflexivity].
      - intros (u & Iu) ->. apply I, Rq in Iu as (q & [] & _). }
    rewrite NEq. split; [intros (_ & X & Y); split; [exact X|now apply ok_inj in Y]|intros (X & ->); auto].
Qed.
Print Assumptions C96_submitted.

(** *** Asked to mint, a wallet makes the transaction it was asked for, signs it as the first minter, and submits it exactly if that is enough. *)
Lemma mint_turn : forall H (sign : pubkey -> bytes -> bytes), (forall k h, length (sign k h) = 64%nat) -> hash_ok H -> forall x c us n new nonce data t b,
  wallet_ok H (x_primary x) (x_keys x) -> Forall (fun k => key32 (snd k)) (x_keys x) -> minters c us n -> mint H sign x (Ok c) new nonce data = Ok (t, b) ->
  let m := mkmint (Some (FMulti [])) new [x_fee x] (match data with Some d => d | None => [] end) nonce (Some c) in
  minted H sign [mkturn (signer_of x) c] (TMint m) t /\ (b = true <-> enough_signed H [mkturn (signer_of x) c] n).
Proof.
  intros H sign S64 HH x c us n new nonce data t b WO K32 M E m. unfold mint in E. apply bind_ok in E as (d & D & E). cbn [bind] in E. rewrite (asks_from _ _ _ (proj1 M)) in E. cbn [bind] in E.
  assert (d = match data with Some d => d | None => [] end) as ->.
  { destruct data as [d'|]; [|cbn in D; now apply ok_inj in D]. unfold opt_data, data_new in D. destruct (length d' <=? 83)%nat; [now apply ok_inj in D|discriminate D]. }
  fold m in E. unfold finish in E. apply bind_ok in E as (qs & Eq & E). apply bind_ok in E as ([] & G & E). apply guard_ok in G.
  destruct (sign_loop H sign (x_primary x) (x_keys x) qs (TMint m) 0) as [t' [k|e]] eqn:El; [|discriminate E]. apply bind_ok in E as (b' & Eb & E). apply ok_inj in E. apply pair_equal_spec in E as [<- <-].
  assert (Sg : transaction_sign H sign (x_primary x) (x_keys x) (known_outputs (x_bal x)) (Ok c) true (TMint m) = (t', Ok ((0 <? k)%nat, b'))).
  { unfold transaction_sign. cbn [coin_inputs]. unfold m. cbn [set_cin mint_prepare m_ff m_new m_fees m_data m_nonce]. fold m. rewrite Eq. destruct qs as [|q qs]; [discriminate G|]. rewrite El, Eb. reflexivity. }
  assert (Mi : minted H sign [mkturn (signer_of x) c] (TMint m) t') by (eapply mi_next with (submit := true); [now left|exact Sg|apply mi_done]).
  split; [exact Mi|]. assert (Pr : proper_turn H (mkturn (signer_of x) c)) by (split; [exact WO|]; split; [exact K32|]; exists us, n; exact M).
  destruct (C96_signed H sign S64 HH m [mkturn (signer_of x) c] t' ltac:(right; reflexivity) ltac:(discriminate) (Forall_cons _ Pr (Forall_nil _)) Mi) as (ps & c' & -> & MS & _).
  assert (c' = c) as ->. { pose proof (mstate_step H sign S64 HH m [] _ c true _ _ _ Pr (mstate_start H sign m ltac:(right; reflexivity)) Sg) as (ps' & X & _). unfold mshape in X. congruence. }
  destruct (mcomplete H m _ ps c us n MS M) as (b & Eb' & Ib). unfold mshape in Eb'. rewrite Eb' in Eb. apply ok_inj in Eb. subst b. exact Ib.
Qed.
Theorem C96_proposal : forall H (sign : pubkey -> bytes -> bytes), (forall k h, length (sign k h) = 64%nat) -> hash_ok H -> forall x c us n nonce data,
  wallet_ok H (x_primary x) (x_keys x) -> Forall (fun k => key32 (snd k)) (x_keys x) -> minters c us n ->
  let draft new := TMint (mkmint (Some (FMulti [])) new [x_fee x] (match data with Some d => d | None => [] end) nonce (Some c)) in
  let me := [mkturn (signer_of x) c] in
  (forall recipient amount t b, coins_new H sign x (Ok c) recipient amount nonce data = Ok (t, b) ->
     minted H sign me (draft (MCoins [mkout amount recipient []])) t /\ (b = true <-> enough_signed H me n)) /\
  (forall minter t b, definition_set H sign x (Ok c) minter nonce data = Ok (t, b) ->
     minted H sign me (draft (MCond minter)) t /\ (b = true <-> enough_signed H me n)).
Proof.
  intros H sign S64 HH x c us n nonce data WO K32 M. cbv zeta. split.
  - intros r a t b E. unfold coins_new in E. apply bind_ok in E as ([] & _ & E). exact (mint_turn H sign S64 HH x c us n _ nonce data t b WO K32 M E).
  - intros mi t b E. unfold definition_set in E. apply bind_ok in E as (u & _ & E). apply bind_ok in E as ([] & _ & E). exact (mint_turn H sign S64 HH x c us n _ nonce data t b WO K32 M E).
Qed.
Print Assumptions C96_proposal.

(** *** Two of three minters: key 9 proposes, and is not enough; keys 7 and 8 sign, and submit *)
Definition exmi_c : cond := CLock 5 (CMulti exmt_us 2).
Definition exmi_draft : tx_mint := mkmint (Some (FMulti [])) (MCoins [mkout 50 (CUnlockHash (ex_key_uh 7)) []]) [10] [] (repeat 1 8) (Some exmi_c).
Definition exmi_turn (w : signer) := mkturn w exmi_c.
Definition exmi_sign (w : signer) (c : cond) (t : txn) := transaction_sign ex_H2 ex_sign (g_primary w) (g_keys w) (g_known w) (Ok c) true t.
Lemma exmi_minters : minters exmi_c exmt_us 2.
Proof.
  split; [right; eexists; reflexivity|].
  destruct ext_shared as (_ & _ & F). inversion F as [|? ? (_ & o & us & n & M & O & _) _]; subst. destruct M as (M1 & M2). vm_compute in M1. injection M1 as <-. cbn [cond_unwrap o_cond] in M2. injection M2 as <- _. exact O.
Qed.
Lemma exmi_proper : Forall (proper_turn ex_H2) [exmi_turn ext_one; exmi_turn ext_two].
Proof.
  destruct ext_part as ((W1 & K1 & _) & (W2 & K2 & _)). constructor; [|constructor; [|constructor]]; (split; [assumption|]; split; [assumption|]; exists exmt_us, 2%Z; exact exmi_minters).
Qed.
Example C96_ex : let a := exmi_sign ext_one exmi_c (TMint exmi_draft) in let b := exmi_sign ext_two exmi_c (received (fst a)) in
  snd a = Ok (true, false) /\ snd b = Ok (true, true) /\ snd (exmi_sign ext_two exmi_c (TMint exmi_draft)) = Ok (true, true) /\ snd (exmi_sign ext_one exmi_c (received (fst b))) = Ok (false, false) /\
  option_map signers (get_ff (fst b) CbMint) = Some [ex_key 9; ex_key 8; ex_key 7].
Proof. vm_compute. repeat split. Qed.
Example C96_ex_minted : blank_mint exmi_draft /\ Forall (proper_turn ex_H2) [exmi_turn ext_one; exmi_turn ext_two] /\ minters exmi_c exmt_us 2 /\ exists t, minted ex_H2 ex_sign [exmi_turn ext_one; exmi_turn ext_two] (TMint exmi_draft) t.
Proof.
  split; [right; reflexivity|]. split; [exact exmi_proper|]. split; [exact exmi_minters|].
  eexists. eapply mi_next with (submit := true); [now left|vm_compute; reflexivity|]. eapply mi_next with (submit := true); [right; reflexivity|vm_compute; reflexivity|]. apply mi_done.
Qed.
Example C96_ex_fits : Spec_Fits.fits (TMint exmi_draft).
Proof.
  assert (M : forall n, n <= 1000 -> modest n) by (intros n L; unfold modest; eapply N.le_lt_trans; [exact L|]; change 1000 with (10 ^ 3) at 1; apply N.pow_lt_mono_r; lia).
  assert (Fw : forall A (l : list A), (length l <= 83)%nat -> few l) by (intros A l X; unfold few; lia).
  unfold exmi_draft. cbn [Spec_Fits.fits m_new m_fees m_data].
  split; [split; [apply Fw; cbn; lia|]|split; [apply Fw; cbn; lia|split; [constructor; [apply M; lia|constructor]|apply Fw; cbn; lia]]].
  constructor; [|constructor]. split; [apply M; cbn; lia|]. cbn [o_cond fits_cond]. split; [split; [vm_compute; discriminate|vm_compute; reflexivity]|]. replace (length (uh_hash (ex_key_uh 7))) with 32%nat by (vm_compute; reflexivity). lia.
Qed.
(** *** That a minter has signed counts on after the mint condition has changed: key 9 signs while it is one of the minters; then keys 7 and 8 are the minters, both of whom must sign. One of them
    does, and the transaction counts as complete here, although it holds no signature of the other (C96_complete: [has_signed] asks what the rule was when they signed). *)
Definition exmi_later : cond := CMulti [ex_key_uh 7; ex_key_uh 8] 2.
Definition exmi_seven : signer := mksigner (ex_addr 7) [(ex_addr 7, ex_key 7)] (fun _ => None).
Theorem C96_former : exists t1 t2, minted ex_H2 ex_sign [mkturn ext_one exmi_c; mkturn exmi_seven exmi_later] (TMint exmi_draft) t2 /\ exmi_sign exmi_seven exmi_later t1 = (t2, Ok (true, true)) /\
  t_is_fulfilled (under exmi_later t2) = Ok true /\ ~ quorum ex_H2 [ext_one; exmi_seven] [ex_key_uh 7; ex_key_uh 8] 2.
Proof.
  exists (received (fst (exmi_sign ext_one exmi_c (TMint exmi_draft)))), (fst (exmi_sign exmi_seven exmi_later (received (fst (exmi_sign ext_one exmi_c (TMint exmi_draft)))))).
  split.
  { eapply mi_next with (submit := true) (t2 := fst (exmi_sign ext_one exmi_c (TMint exmi_draft))) (r := (true, false)); [now left|vm_compute; reflexivity|].
    eapply mi_next with (submit := true) (r := (true, true)); [right; reflexivity|vm_compute; reflexivity|]. apply mi_done. }
  split; [vm_compute; reflexivity|]. split; [vm_compute; reflexivity|].
  intros (held & N & J & L). assert (X : forall u, In u held -> u = ex_key_uh 7).
  { intros u Iu. destruct (J u Iu) as ([<-|[<-|[]]] & w & [<-|[<-|[]]] & a & k & K & E); [reflexivity| | |].
    - reflexivity.
    - exfalso. destruct K as [K|[]]. apply pair_equal_spec in K as [_ <-]. vm_compute in E. discriminate E.
    - exfalso. destruct K as [K|[]]. apply pair_equal_spec in K as [_ <-]. vm_compute in E. discriminate E. }
  destruct held as [|a [|b held]]; [cbn in L; lia|cbn in L; lia|]. inversion N as [|? ? Na _]; subst. apply Na. left. rewrite (X a (or_introl eq_refl)), (X b (or_intror (or_introl eq_refl))). reflexivity.
Qed.
Print Assumptions C96_former.
