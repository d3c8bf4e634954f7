(** C57: whoever is in charge can mint. *)
From Verif Require Import Base BaseFacts Encoders Primitive Types Conditions Fulfillments ThreeBotTypes Txn TxnSign Wallet Ops TxnBuild Spec_Types Spec_Fulfil Spec_Txn Spec_Sign Spec_Swap Spec_Ops Spec_Fits Spec_Together Spec_Mint
  TypesFacts TypesFacts2 ConditionFacts ConditionFacts2 FulfilFacts FulfilFacts2 TxnFacts2 SignFacts SignFacts2 SignFacts3 SignFacts4 SigTotal OpsFacts2 OpsFacts4 SwapFacts SwapFacts2 Prop_Fulfil Prop_Sign Prop_SwapTwo Prop_SignWorks TogetherFacts Prop_Together Prop_Wallet Prop_Ops.
From Coq Require Import ZifyBool ZifyNat ZifyN.
Ltac Zify.zify_post_hook ::= Z.div_mod_to_equations.

Section Mint.
Variables (H : bytes -> bytes) (sign : pubkey -> bytes -> bytes).
Hypothesis S64 : forall k h, length (sign k h) = 64%nat.
Hypothesis HH : hash_ok H.

Lemma key_held primary ks u k : wallet_ok H primary ks -> full_uh u -> uh_type u <> 0%Z -> wallet_key H primary ks u = Some k -> has_key H ks u.
Proof.
  intros WO Fu Ty W. destruct (key_in _ _ _ _ _ W) as (a & Ia). exists a, k. split; [exact Ia|]. destruct (wallet_key_ok H sign _ _ S64 WO _ _ W) as (b & A & [Z|Ow]); [contradiction|].
  unfold pk_address in A. apply bind_ok in A as (v & V & A). destruct Ow as (c & A1 & A2). unfold pk_address in A1. rewrite V in A1. cbn [bind] in A1. rewrite V. f_equal.
  eapply uh_str_inj; [exact HH|exact (pk_uh_full H sign S64 HH _ _ V)|exact Fu|exact A1|exact A2].
Qed.
(** the fulfilment of a mint rule, and whose signatures it asks for *)
Lemma rule_asked c : mint_rule H c -> exists f us, from_condition c = Ok f /\ ff_asked H f c = Ok us /\ us <> [] /\ NoDup us /\ Forall (fun u => full_uh u /\ uh_type u <> 0%Z) us /\
  ((f = FSingle pk_default None /\ exists u, us = [u] /\ cond_unwrap c = CUnlockHash u) \/ (f = FMulti [] /\ exists n, cond_unwrap c = CMulti us n)).
Proof.
  intros [(u & C & Fu & Ty & R)|(us & n & C & O & NE)].
  - exists (FSingle pk_default None), [u]. assert (FC : from_condition c = Ok (FSingle pk_default None)) by (destruct c; cbn [cond_unwrap] in C; try discriminate; cbn [from_condition cond_unwrap]; rewrite ?C; reflexivity).
    split; [exact FC|]. split.
    + cbn [ff_asked]. rewrite C. cbn [cond_unlockhash bind]. rewrite (uh_str_total H u HH Fu). cbn [bind].
      destruct (pk_address_total H pk_default (or_introl eq_refl)) as (du & DU). pose proof (pk_uh_full H sign S64 HH _ _ DU) as Fd.
      unfold pk_address. rewrite DU. cbn [bind]. rewrite (uh_str_total H du HH Fd). cbn [bind].
      destruct (listN_eqb (ustr H u) (ustr H du)) eqn:E; [|reflexivity]. exfalso. apply listN_eqb_eq in E. apply R. rewrite DU. f_equal.
      eapply uh_str_inj; [exact HH|exact Fd|exact Fu|exact (uh_str_total H du HH Fd)|]. rewrite <- E. exact (uh_str_total H u HH Fu).
    + split; [discriminate|]. split; [constructor; [intros []|constructor]|]. split; [constructor; auto|]. left. eauto.
  - exists (FMulti []), us. assert (FC : from_condition c = Ok (FMulti [])) by (destruct c; cbn [cond_unwrap] in C; try discriminate; cbn [from_condition cond_unwrap]; rewrite ?C; reflexivity).
    split; [exact FC|]. split; [|split; [exact NE|split; [apply O|split; [apply O|right; eauto]]]].
    cbn [ff_asked]. rewrite C. cbn [mapM bind]. pose proof (owners_full _ O) as F. clear -F HH. induction F as [|u us Fu F IH]; [reflexivity|].
    cbn [asked_multi]. rewrite (uh_str_total H u HH Fu). cbn [bind existsb]. rewrite IH. reflexivity.
Qed.
Lemma mint_total x c new nonce data : wallet_ok H (x_primary x) (x_keys x) -> Forall (fun k => key32 (snd k)) (x_keys x) -> mint_rule H c ->
  match new with MCond m => fits_cond m | MCoins os => few os /\ Forall fits_out os end -> modest (x_fee x) -> (forall d, data = Some d -> (length d <= 83)%nat) ->
  exists t sub, mint H sign x (Ok c) new nonce data = Ok (t, sub) /\ (sub = true <-> in_charge H (x_keys x) c).
Proof.
  intros WO K32 MR FN FF DL. set (ks := x_keys x) in *. set (primary := x_primary x) in *.
  destruct (rule_asked c MR) as (f & us & FC & A & NE & ND & FU & SH).
  assert (D : exists d, opt_data data = Ok d /\ (length d <= 83)%nat).
  { destruct data as [d|]; [|exists []; split; [reflexivity|cbn; lia]]. exists d. specialize (DL d eq_refl). split; [|exact DL]. unfold opt_data, data_new. replace (length d <=? 83)%nat with true by lia. reflexivity. }
  destruct D as (d & D & Ld). unfold mint. rewrite D. cbn [bind]. rewrite FC. cbn [bind].
  set (t := TMint (mkmint (Some f) new [x_fee x] d nonce (Some c))).
  assert (R' : exists qs, requests H t = Ok qs /\ length qs = length us).
  { unfold requests, t. cbn [coin_inputs bind in_requests blockstake_inputs map own_requests m_parent m_ff app]. unfold ff_requests. rewrite A. cbn [bind]. eexists. split; [reflexivity|]. rewrite ?app_nil_l, !map_length. reflexivity. }
  destruct R' as (qs & R & Lq). unfold finish. change (x_primary x) with primary. change (x_keys x) with ks. rewrite R. cbn [bind].
  assert (negb (length qs =? 0)%nat = true) as -> by (destruct us; [contradiction|]; cbn [length] in Lq; lia). cbn [guard bind].
  assert (FT : fits t) by (unfold t; cbn [fits m_new m_fees m_data]; split; [exact FN|]; split; [unfold few; cbn; lia|]; split; [constructor; [exact FF|constructor]|unfold few; lia]).
  assert (OW : exists bs, mapM (pk_unlockhash H) (owned H primary ks us) = Ok bs /\ NoDup bs /\ (forall u, In u bs <-> In u us /\ has_key H ks u) /\ Forall key32 (owned H primary ks us))
    by exact (owned_is H sign S64 HH (fun _ => None) (mksigner primary ks (fun _ => None)) us WO K32 FU ND).
  destruct OW as (bs & MB & NB & IB & KB).
  assert (READY : ready H primary ks t qs).
  { apply (requests_ready H sign primary ks S64 HH WO _ _ R).
    - constructor.
    - intros cb ps p ex vs Sl W. destruct cb as [i|i| |]; [destruct i; discriminate|destruct i; discriminate| |discriminate]. cbn [slot t m_ff option_map m_parent] in Sl. injection Sl as E1 E2 _. subst p. cbn [wanted] in W.
      rewrite <- E1, A in W. apply ok_inj in W. subst vs. assert (ps = []) as -> by (destruct SH as [(E & _)|(E & _)]; [congruence|]; rewrite E1 in E; injection E as ->; reflexivity). cbn [map app].
      clear -MB NB KB. revert bs MB NB. induction KB as [|k l K KB IH]; intros bs MB NB; [constructor|]. cbn [mapM] in MB. apply bind_ok in MB as (u & U & MB). apply bind_ok in MB as (r & Rr & MB). apply ok_inj in MB. subst bs.
      inversion NB; subst. cbn [map]. constructor; [|eapply IH; [exact Rr|assumption]]. intro I. apply in_map_iff in I as (k' & E & I). rewrite Forall_forall in KB. assert (k' = k) as -> by (apply pk_str_inj; auto).
      match goal with Q : ~ In u r |- _ => apply Q end. clear -I Rr U. revert r Rr. induction l as [|y l IH]; intros r Rr; [destruct I|]. cbn [mapM] in Rr. apply bind_ok in Rr as (v & V & Rr). apply bind_ok in Rr as (r' & Rr' & Rr). apply ok_inj in Rr. subst r.
      destruct I as [->|I]; [left; congruence|right; auto].
    - intros q k I W. apply sig_input_there; [exact FT|]. destruct (key_in _ _ _ _ _ W) as (a & Ia). rewrite Forall_forall in K32. pose proof (K32 _ Ia) as (K & _). cbn [snd] in K.
      unfold requests, t in R. cbn [coin_inputs bind in_requests blockstake_inputs map own_requests m_parent m_ff app] in R. unfold ff_requests in R. rewrite A in R. cbn [bind] in R. apply ok_inj in R. subst qs.
      rewrite map_map in I. apply in_map_iff in I as (u & <- & _). unfold q_extras, t. cbn [q_cb get_ff m_ff]. apply ff_extras_fit. unfold small_key. lia. }
  destruct (loop_total H sign primary ks S64 WO _ t 0 eq_refl READY) as (t' & m & LOOP). rewrite LOOP.
  pose proof (fulfilled_ok H sign primary ks S64 t _ _ _ _ eq_refl R LOOP) as FO. destruct (t_is_fulfilled t') as [b|] eqn:TF; [|discriminate]. cbn [bind]. exists t', b. split; [reflexivity|].
  rewrite (fulfilled_complete _ _ TF).
  pose proof (loop_unsigned H sign primary ks _ _ _ _ _ LOOP) as UN. destruct (mint_signed _ _ UN) as (m' & -> & P1 & P2 & P3 & P4 & P5).
  pose proof (loop_slot H sign primary ks S64 t _ 0 _ m CbMint eq_refl R LOOP ltac:(discriminate)) as SL. cbn [slot t m_ff option_map m_parent get_ff] in SL.
  destruct SL as (vs & f' & W & G & SB). cbn [wanted] in W. rewrite A in W. apply ok_inj in W. subst vs.
  assert (CE : complete (TMint m') <-> enough f' c).
  { unfold complete. cbn [coin_inputs own_slots]. split.
    - intros (_ & _ & c' & f0 & X & Y & Z). cbn [m_parent] in *. assert (Some c' = Some c) as E by congruence. injection E as ->. assert (Some f0 = Some f') as E by congruence. injection E as ->. exact Z.
    - intro EN. split; [exists []; split; [reflexivity|constructor]|]. split; [constructor|]. exists c, f'. cbn [m_parent] in *. split; [congruence|]. split; [congruence|exact EN]. }
  rewrite CE. unfold enough, in_charge. destruct SH as [(-> & u & -> & C)|(-> & n & C)]; rewrite C.
  - apply signed_single in SB. inversion FU as [|? ? (Fu & Ty) _]; subst. destruct (wallet_key H primary ks u) as [k|] eqn:WK.
    + destruct SB as (dd & _ & ->). split; [intros _|discriminate]. left. exists u. split; [reflexivity|]. exact (key_held _ _ _ _ WO Fu Ty WK).
    + subst f'. split; [intro X; exfalso; apply X; reflexivity|]. intros [(v & Ev & K)|(? & ? & ? & Ev & _)]; [|discriminate]. injection Ev as <-. destruct (has_key_wallet H primary ks HH WO u K) as (k & WK' & _). congruence.
  - apply signed_multi in SB as (ps & -> & MP & _). cbn [app signatures]. assert (LP : length ps = length bs).
    { rewrite <- (map_length fst ps), MP. symmetry. eapply mapM_ok_length. exact MB. }
    rewrite map_length, LP. split.
    + intro L. right. exists us, n, bs. split; [reflexivity|]. split; [exact NB|]. split; [intros v Iv; apply IB; exact Iv|exact L].
    + intros [(v & Ev & _)|(vs & n' & held & Ev & NH & IH & L)]; [discriminate|]. injection Ev as <- <-. assert (length held <= length bs)%nat by (apply NoDup_incl_length; [exact NH|]; intros v Iv; apply IB, IH, Iv). lia.
Qed.
End Mint.

(** Whoever asks for coins gets a transaction, and it is sent exactly if the wallet has the keys the condition in force demands. *)
Theorem C57_mints : forall H (sign : pubkey -> bytes -> bytes), (forall k h, length (sign k h) = 64%nat) -> hash_ok H ->
  forall x c recipient amount nonce data, wallet_ok H (x_primary x) (x_keys x) -> Forall (fun k => key32 (snd k)) (x_keys x) -> mint_rule H c ->
  0 < amount -> modest amount -> fits_cond recipient -> modest (x_fee x) -> (forall d, data = Some d -> (length d <= 83)%nat) ->
  exists t sub, coins_new H sign x (Ok c) recipient amount nonce data = Ok (t, sub) /\ (sub = true <-> in_charge H (x_keys x) c).
Proof.
  intros H sign S64 HH x c recipient amount nonce data WO K32 MR P M F MF DL. unfold coins_new. assert ((0 <? amount) = true) as -> by lia. cbn [guard bind].
  apply (mint_total H sign S64 HH); auto. split; [unfold few; cbn; lia|]. constructor; [split; assumption|constructor].
Qed.
Print Assumptions C57_mints.
(** A new mint condition, which has to be an address with a key or a multi-signature wallet, likewise. *)
Theorem C57_defines : forall H (sign : pubkey -> bytes -> bytes), (forall k h, length (sign k h) = 64%nat) -> hash_ok H ->
  forall x c minter u nonce data, wallet_ok H (x_primary x) (x_keys x) -> Forall (fun k => key32 (snd k)) (x_keys x) -> mint_rule H c ->
  cond_unlockhash H minter = Ok u -> (uh_type u = 1 \/ uh_type u = 3)%Z -> fits_cond minter -> modest (x_fee x) -> (forall d, data = Some d -> (length d <= 83)%nat) ->
  exists t sub, definition_set H sign x (Ok c) minter nonce data = Ok (t, sub) /\ (sub = true <-> in_charge H (x_keys x) c).
Proof.
  intros H sign S64 HH x c minter u nonce data WO K32 MR U T F MF DL. unfold definition_set. rewrite U. cbn [bind]. assert ((uh_type u =? UH_PUBLIC_KEY)%Z || (uh_type u =? UH_MULTI_SIG)%Z = true) as -> by (unfold UH_PUBLIC_KEY, UH_MULTI_SIG; lia).
  cbn [guard bind]. apply (mint_total H sign S64 HH); auto.
Qed.
Print Assumptions C57_defines.
(** Nothing is made of nothing. *)
Theorem C57_none : forall H sign x mc recipient nonce data, coins_new H sign x mc recipient 0 nonce data = Err ValueError.
Proof. reflexivity. Qed.
Print Assumptions C57_none.
(** The hypotheses are met: a condition locked until some time, for one key; and two of three owners, of whom the wallet is two. *)
Definition exmt_us : list uh := [ex_key_uh 9; ex_key_uh 8; ex_key_uh 7].
Example C57_ex_rules : mint_rule ex_H2 (CLock 5 (CUnlockHash (ex_key_uh 7))) /\ in_charge ex_H2 ex_ks (CLock 5 (CUnlockHash (ex_key_uh 7))) /\
  mint_rule ex_H2 (CMulti exmt_us 2) /\ in_charge ex_H2 ex_ks (CMulti exmt_us 2) /\ mint_rule ex_H2 (CUnlockHash (ex_key_uh 9)) /\ ~ in_charge ex_H2 ex_ks (CUnlockHash (ex_key_uh 9)) /\
  wallet_ok ex_H2 (x_primary exo_x) (x_keys exo_x) /\ Forall (fun k => key32 (snd k)) (x_keys exo_x).
Proof.
  assert (O : owners exmt_us). { destruct ext_shared as (_ & _ & F). inversion F as [|? ? (_ & o & us & n & M & O & _) _]; subst. destruct M as (M1 & M2). vm_compute in M1. injection M1 as <-. cbn [cond_unwrap o_cond] in M2. injection M2 as <- _. exact O. }
  pose proof O as (_ & F). inversion F as [|? ? (F9 & T9) F']; subst. inversion F' as [|? ? _ F'']; subst. inversion F'' as [|? ? (F7 & T7) _]; subst.
  assert (K : forall x, In x [7; 8] -> has_key ex_H2 ex_ks (ex_key_uh x)) by (intros x [<-|[<-|[]]]; [exists (ex_addr 7), (ex_key 7)|exists (ex_addr 8), (ex_key 8)]; (split; [vm_compute; tauto|vm_compute; reflexivity])).
  split; [left; exists (ex_key_uh 7); split; [reflexivity|]; split; [exact F7|]; split; [exact T7|unfold real_address; vm_compute; discriminate]|].
  split; [left; exists (ex_key_uh 7); split; [reflexivity|apply K; cbn; auto]|].
  split; [right; exists exmt_us, 2%Z; split; [reflexivity|]; split; [exact O|discriminate]|].
  split; [right; exists exmt_us, 2%Z, [ex_key_uh 8; ex_key_uh 7]; split; [reflexivity|]; split; [|split; [|cbn; lia]]|].
  { apply NoDup_cons_iff. split; [vm_compute; intuition discriminate|]. apply NoDup_cons_iff. split; [intros []|constructor]. }
  { intros u [<-|[<-|[]]]; (split; [cbn [exmt_us In]; auto|apply K; cbn; auto]). }
  split; [left; exists (ex_key_uh 9); split; [reflexivity|]; split; [exact F9|]; split; [exact T9|unfold real_address; vm_compute; discriminate]|].
  split. { intros [(u & E & a & k & I & U)|(us & n & held & E & _)]; [|discriminate]. injection E as <-. destruct I as [I|[I|[]]]; apply pair_equal_spec in I as [_ <-]; vm_compute in U; discriminate. }
  split; [repeat constructor|]. constructor; [apply ext_key32; reflexivity|constructor; [apply ext_key32; reflexivity|constructor]].
Qed.
Example C57_ex_sent : sent (coins_new ex_H2 ex_sign exo_x (Ok (CLock 5 (CUnlockHash (ex_key_uh 7)))) (CUnlockHash exw_uh) 1 (repeat 1 8) None) = Some true /\
  sent (coins_new ex_H2 ex_sign exo_x (Ok (CMulti exmt_us 2)) (CUnlockHash exw_uh) 1 (repeat 1 8) None) = Some true /\
  sent (coins_new ex_H2 ex_sign exo_x (Ok (CUnlockHash (ex_key_uh 9))) (CUnlockHash exw_uh) 1 (repeat 1 8) None) = Some false.
Proof. vm_compute. auto. Qed.

(** ** C85: what the wallet starts from are the new transactions *)
Theorem C85_new : forall nonce, blank_txn nonce 144 = Some registration_new /\ blank_txn nonce 145 = Some update_new /\ blank_txn nonce 146 = Some transfer_new /\ blank_txn nonce 210 = Some address_registration_new.
Proof. intro nonce. repeat split. Qed.
Print Assumptions C85_new.
