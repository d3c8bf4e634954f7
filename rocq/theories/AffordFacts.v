(** Affordable payments go through. *)
From Verif Require Import Base BaseFacts Encoders Currency Primitive Types TypesFacts Conditions ConditionFacts ConditionFacts2 Fulfillments FulfilFacts ThreeBotTypes Txn TxnFacts TxnSign Wallet Ops
  Spec_Types Spec_Fulfil Spec_Txn Spec_Sign Spec_Swap Spec_Wallet Spec_Ops Spec_Fits Spec_Afford SignFacts SignFacts2 SignFacts3 SignFacts4 WalletFacts FundFacts FundFacts2 FundFacts3 BuildFacts
  OpsFacts OpsFacts2 OpsFacts4 SwapFacts SwapFacts2 SigTotal.
From Coq Require Import ZifyBool ZifyNat ZifyN.
Ltac Zify.zify_post_hook ::= Z.div_mod_to_equations.

Lemma F2_nth {A B} (P : A -> B -> Prop) l m : Forall2 P l m -> forall i x, nth_error l i = Some x -> exists y, nth_error m i = Some y /\ P x y.
Proof. induction 1 as [|a b l m Q _ IH]; intros [|i] x E; cbn in *; try discriminate; [injection E as <-; eauto|auto]. Qed.

Section Afford.
Variables (H : bytes -> bytes) (sign : pubkey -> bytes -> bytes).
Hypothesis sign64 : forall k h, length (sign k h) = 64%nat.
Hypothesis HH : hash_ok H.

Lemma mine_cond ks o : mine H ks o -> exists u, cond_unwrap (o_cond o) = CUnlockHash u /\ cond_unlockhash H (o_cond o) = Ok u /\ from_condition (o_cond o) = Ok (FSingle pk_default None) /\ has_key H ks u /\ real_address H u.
Proof. intros (u & [E|(l & E)] & K & R); exists u; rewrite E; cbn; auto. Qed.
Lemma mine_asked ks o : mine H ks o -> exists u, ff_asked H (FSingle pk_default None) (o_cond o) = Ok [u] /\ has_key H ks u /\ cond_unwrap (o_cond o) = CUnlockHash u.
Proof.
  intro M. destruct (mine_cond _ _ M) as (u & C & _ & _ & K & R). exists u. split; [|auto].
  cbn [ff_asked]. rewrite C. cbn [cond_unlockhash bind]. pose proof K as (a & k & _ & U).
  pose proof (pk_uh_full H sign sign64 HH _ _ U) as FU. rewrite (uh_str_total H u HH FU). cbn [bind].
  destruct (pk_address_total H pk_default (or_introl eq_refl)) as (du & DU). destruct (printable_ok H HH du) as (b & B).
  { apply pk_address_fun in DU as (T & _). unfold printable. lia. }
  assert (PB : pk_address H pk_default = Ok b) by (unfold pk_address; rewrite DU; exact B). rewrite PB. cbn [bind].
  rewrite (real_asked H HH u k _ b U R (uh_str_total H u HH FU) PB). reflexivity.
Qed.
Lemma mine_requests ks ins used : Forall2 spends ins used -> Forall (mine H ks) used -> forall i, exists qs, in_requests H CbCoin i ins = Ok qs /\ length qs = length ins.
Proof.
  induction 1 as [|x o ins used (P & O & F) SP IH]; intros M i; [exists []; auto|]. inversion M as [|? ? M1 M2]; subst. cbn [in_requests].
  destruct (IH M2 (S i)) as (qs & Q & L). rewrite O. destruct (mine_cond _ _ M1) as (u0 & _ & _ & FC & _). rewrite FC in F. apply ok_inj in F. rewrite <- F.
  destruct (mine_asked _ _ M1) as (u & A & _). unfold ff_requests. rewrite A. cbn [bind]. rewrite Q. cbn [bind]. eexists. split; [reflexivity|]. cbn. rewrite L. reflexivity.
Qed.
(** the slots of the transaction itself can be signed *)
Definition own_mine (ks : TxnSign.keys) (t : txn) : Prop :=
  Forall (fun s : bytes * option pubkey * bsig => snd s = None /\ exists p u, snd (fst s) = Some p /\ pk_unlockhash H p = Ok u /\ has_key H ks u) (own_slots t) /\
  (forall b, t = T146 b -> pk_unlockhash H (opk (n_spk b)) <> pk_unlockhash H (opk (n_rpk b))).
Lemma own_requests_total ks t : own_mine ks t -> (forall m, t <> TMint m) -> exists qs, own_requests H t = Ok qs.
Proof.
  intros (M & _) N. destruct t as [t|t|t|t|t|t|t|t]; cbn [own_slots own_requests] in *; try (eexists; reflexivity).
  - exfalso. exact (N _ eq_refl).
  - inversion M as [|? ? (S1 & p & u & P & U & _) _]; subst. cbn in S1, P. rewrite S1, P. cbn. rewrite U. eexists; reflexivity.
  - inversion M as [|? ? (S1 & p & u & P & U & _) _]; subst. cbn in S1, P. rewrite S1, P. cbn. rewrite U. eexists; reflexivity.
  - inversion M as [|? ? (S1 & p & u & P & U & _) _]; subst. cbn in S1, P. rewrite S1, P. cbn. rewrite U. eexists; reflexivity.
  - inversion M as [|? ? (S1 & p & u & P & U & _) M']; subst. inversion M' as [|? ? (S2 & p' & u' & P' & U' & _) _]; subst. cbn in S1, P, S2, P'. rewrite S1, P, S2, P'. cbn. rewrite U. cbn. rewrite U'. eexists; reflexivity.
Qed.
Lemma own_requests_extras t qs q k : own_requests H t = Ok qs -> (forall m, t <> TMint m) -> In q qs -> Forall fits_extra (q_extras t q k).
Proof.
  intros E N I. destruct (own_requests_cb _ _ _ _ E I) as [C|C].
  - exfalso. destruct t as [t|t|t|t|t|t|t|t]; try (eapply N; reflexivity); cbn [own_requests] in E; try (apply ok_inj in E; subst; destruct I);
      try (apply own_request_inv in E as [[-> _]|(p & u & _ & _ & U & ->)]; [destruct I|]; destruct I as [<-|[]]; discriminate).
    apply bind_ok in E as (a1 & E1 & E). apply bind_ok in E as (a2 & E2 & E). apply ok_inj in E. subst qs. apply in_app_iff in I as [I|I].
    + apply own_request_inv in E1 as [[-> _]|(p & u & _ & _ & U & ->)]; [destruct I|]; destruct I as [<-|[]]; discriminate.
    + apply own_request_inv in E2 as [[-> _]|(p & u & _ & _ & U & ->)]; [destruct I|]; destruct I as [<-|[]]; discriminate.
  - unfold q_extras. rewrite C. constructor; [exact Logic.I|constructor].
Qed.
Lemma spends_single ks ins used : Forall2 spends ins used -> Forall (mine H ks) used -> Forall (fun i => i_ff i = FSingle pk_default None) ins.
Proof.
  induction 1 as [|x o ins used (P & O & F) SP IH]; intros M; [constructor|]. inversion M as [|? ? M1 M2]; subst. constructor; [|auto].
  destruct (mine_cond _ _ M1) as (u0 & _ & _ & FC & _). rewrite FC in F. apply ok_inj in F. auto.
Qed.
Lemma finish_total x t ins used : wallet_ok H (x_primary x) (x_keys x) -> is_legacy t = false -> coin_inputs t = Ok ins -> blockstake_inputs t = [] ->
  Forall2 spends ins used -> used <> [] -> (length used <= 99)%nat -> Forall (mine H (x_keys x)) used -> fits t -> own_mine (x_keys x) t ->
  exists t' ins', finish H sign x t = Ok (t', true) /\ unsigned t' = unsigned t /\ coin_inputs t' = Ok ins' /\
    Forall (fun i => exists a k s, In (a, k) (x_keys x) /\ i_ff i = FSingle k (Some s) /\ length s = 64%nat) ins'.
Proof.
  intros WO L CI BI S NE L99 M FT OM. set (ks := x_keys x) in *. set (primary := x_primary x) in *.
  assert (NM : forall m, t <> TMint m). { intros m ->. cbn in CI. apply ok_inj in CI. subst ins. inversion S; subst. contradiction. }
  assert (LI : length ins = length used) by (eapply Forall2_length; exact S).
  destruct (mine_requests ks ins used S M 0) as (qa & Qa & La). destruct (own_requests_total ks t OM NM) as (qo & Qo).
  assert (R : requests H t = Ok (qa ++ [] ++ qo)). { unfold requests. rewrite CI. cbn [bind]. rewrite Qa. cbn [bind]. rewrite BI. cbn [map in_requests bind]. rewrite Qo. reflexivity. }
  unfold finish. change (x_primary x) with primary. change (x_keys x) with ks. rewrite R. cbn [bind].
  assert (negb (length (qa ++ [] ++ qo) =? 0)%nat = true) as ->. { rewrite app_length. destruct used; [easy|]. cbn [length] in *. lia. }
  cbn [guard bind]. pose proof (spends_single ks ins used S M) as SF.
  assert (READY : ready H primary ks t (qa ++ [] ++ qo)).
  { apply (requests_ready H sign primary ks sign64 HH WO _ _ R).
    - unfold keys_ok, okeys. destruct OM as (OM & _). apply Forall_map. eapply Forall_impl; [|exact OM]. intros s (_ & p & u & P & U & _). cbn. rewrite P. cbn [opk]. rewrite U. reflexivity.
    - intros c ps p ex us Sl W. exfalso. assert (G : get_ff t c = Some (FMulti ps)).
      { assert (c <> CbSelf) as N by (intros ->; discriminate). rewrite (slot_get _ _ N), Sl. reflexivity. }
      destruct c as [i|i| |]; cbn [get_ff] in G.
      + rewrite CI in G. destruct (nth_error ins i) as [y|] eqn:Y; [|discriminate]. apply nth_error_In in Y. rewrite Forall_forall in SF. cbn in G. rewrite (SF _ Y) in G. discriminate.
      + rewrite BI in G. destruct i; discriminate.
      + destruct t; try discriminate. eapply NM; reflexivity.
      + discriminate.
    - intros q k I _. apply sig_input_there; [exact FT|]. cbn [app] in I. apply in_app_iff in I as [I|I].
      + destruct (in_requests_fresh H sign primary sign64 CbCoin ins 0 qa q Qa I) as (_ & _ & j & C & J). unfold q_extras. rewrite C. constructor; [cbn; unfold u64; lia|].
        cbn [get_ff]. rewrite CI. destruct (nth_error ins j) as [y|] eqn:Y; [|constructor]. apply nth_error_In in Y. rewrite Forall_forall in SF. cbn [option_map]. rewrite (SF _ Y). constructor.
      + exact (own_requests_extras _ _ _ _ Qo NM I). }
  destruct (loop_total H sign primary ks sign64 WO _ t 0 L READY) as (t' & m & LOOP). rewrite LOOP.
  pose proof (fulfilled_ok H sign primary ks sign64 _ _ _ _ _ L R LOOP) as FO. destruct (t_is_fulfilled t') as [b|] eqn:TF; [|discriminate]. cbn [bind].
  pose proof (loop_unsigned H sign primary ks _ _ _ _ _ LOOP) as UN. destruct (unsigned_ins _ _ _ UN CI) as (ins' & CI' & BL).
  assert (SIG : Forall (fun i => (exists a k s, In (a, k) ks /\ i_ff i = FSingle k (Some s) /\ length s = 64%nat) /\ exists o, i_out i = Some o /\ enough (i_ff i) (o_cond o)) ins').
  { apply Forall_forall. intros y I. apply In_nth_error in I as (i & I).
    pose proof (loop_slot H sign primary ks sign64 t _ 0 t' m (CbCoin i) L R LOOP ltac:(discriminate)) as SL. cbn [slot get_ff] in SL. rewrite CI, CI', I in SL.
    pose proof (f_equal (fun z => nth_error z i) BL) as Bi. cbn beta in Bi. rewrite !nth_error_map, I in Bi. destruct (nth_error ins i) as [z|] eqn:Z; [|discriminate].
    cbn [option_map] in Bi, SL. injection Bi as _ Bo. destruct (F2_nth _ _ _ S i z Z) as (o & O & (_ & Io & _)).
    rewrite Io in *. cbn [option_map] in SL. pose proof O as O'. apply nth_error_In in O. rewrite Forall_forall in M. specialize (M _ O).
    destruct (mine_asked _ _ M) as (u & A & K & C). rewrite Forall_forall in SF. apply nth_error_In in Z. rewrite (SF _ Z) in SL.
    destruct SL as (us & f' & W & G & SB). cbn [wanted] in W. rewrite A in W. apply ok_inj in W. subst us. injection G as G.
    apply signed_single in SB. destruct (has_key_wallet H primary ks HH WO u K) as (k & WK & _ & a & IK). rewrite WK in SB. destruct SB as (d & _ & ->).
    split; [exists a, k, (sign k (H d)); rewrite G; split; [exact IK|auto]|]. exists o. split; [exact Bo|]. rewrite G. unfold enough. rewrite C. cbn. discriminate. }
  assert (b = true) as ->; [|exists t', ins'; repeat split; auto; eapply Forall_impl; [|exact SIG]; cbn; tauto]. apply (fulfilled_complete _ _ TF).
  split; [|split].
  - exists ins'. split; [exact CI'|]. eapply Forall_impl; [|exact SIG]. cbn. tauto.
  - destruct OM as (OM & DIS). pose proof (loop_own H sign primary ks sign64 HH t _ 0 t' m L R LOOP DIS) as OS.
    clear -OM OS WO HH. induction OS as [|s s' l l' A OS IH]; [constructor|]. inversion OM as [|? ? (S1 & p & u & P & U & K) M2]; subst. constructor; [|auto].
    destruct s as [[w k0] s0]. cbn in S1, P. subst. destruct (has_key_wallet H primary ks HH WO u K) as (k & WK & _).
    inversion A; subst; [reflexivity|]. congruence.
  - pose proof (loop_unsigned H sign primary ks _ _ _ _ _ LOOP) as U2. destruct t' as [| m' | | | | | |]; try exact Logic.I. exfalso. destruct t; try discriminate U2. eapply NM; reflexivity.
Qed.
End Afford.
