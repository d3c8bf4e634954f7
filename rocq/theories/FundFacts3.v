(** Facts about funding, continued: [fund], and the transactions built from it (C34-C37). *)
From Verif Require Import Base BaseFacts Encoders Primitive Types Conditions Fulfillments ThreeBotTypes Txn Wallet Spec_Wallet WalletFacts WalletFacts2 FundFacts FundFacts2.
From Coq Require Import ZifyBool ZifyNat ZifyN Sorted.
Ltac Zify.zify_post_hook ::= Z.div_mod_to_equations.

Lemma inputs_of_ok l ins : mapM input_of l = Ok ins -> Forall2 spends ins l.
Proof.
  intro E. apply mapM_ok_Forall2 in E. induction E as [|x y l ins Hx _ IH]; constructor; auto.
  unfold input_of in Hx. apply bind_ok in Hx as (f & Ef & Hx). apply ok_inj in Hx. subst y. repeat split. exact Ef.
Qed.
Lemma spends_worth ins l : Forall2 spends ins l -> in_worth ins = worth l.
Proof. unfold in_worth, worth. induction 1 as [|i o ins l (_ & E & _) _ IH]; cbn; [reflexivity|]. rewrite E, IH. reflexivity. Qed.
Lemma spends_ids ins l : Forall2 spends ins l -> map i_parent ins = ids l.
Proof. unfold ids. induction 1 as [|i o ins l (E & _) _ IH]; cbn; [reflexivity|]. now rewrite E, IH. Qed.
Lemma spends_length ins l : Forall2 spends ins l -> length ins = length l.
Proof. induction 1; cbn; auto. Qed.
Lemma inputs_total l : Forall (fun o => is_ok (from_condition (o_cond o)) = true) l -> exists ins, mapM input_of l = Ok ins.
Proof.
  induction 1 as [|o l F _ [ins IH]]; cbn; [eauto|]. unfold input_of at 1. destruct (from_condition (o_cond o)); [|easy]. cbn. rewrite IH. cbn. eauto.
Qed.

Section Hash.
Variable H : bytes -> bytes.

Lemma sel_ms s addrs addrs' l : (forall u, existsb (uh_eqb u) addrs = true -> existsb (uh_eqb u) addrs' = true) ->
  selection s (ms_pool addrs l) -> selection s (ms_pool addrs' l).
Proof.
  intros I S. eapply sel_trans; [exact S|]. clear S. unfold ms_pool. induction l as [|m l IH]; cbn; [apply sel_nil|].
  apply sel_app; [|exact IH]. destruct (existsb (uh_eqb (ms_addr m)) addrs) eqn:E; [rewrite (I _ E); apply sel_refl|apply sel_nil].
Qed.
Lemma existsb_filter {A} (f g : A -> bool) l : existsb f (filter g l) = true -> existsb f l = true.
Proof. rewrite !existsb_exists. intros (x & I & E). apply filter_In in I. exists x. tauto. Qed.
Lemma uh_eqb_refl u : uh_eqb u u = true.
Proof. unfold uh_eqb. rewrite listN_eqb_refl, Z.eqb_refl. reflexivity. Qed.

Lemma mapM_uh_own l us : mapM (fun o => cond_unlockhash H (o_cond o)) l = Ok us -> filter (pays_to H us) l = l.
Proof.
  intro E. apply mapM_ok_Forall2 in E.
  assert (G : forall o, In o l -> pays_to H us o = true).
  { induction E as [|o u l us Ho _ IH]; [easy|]. intros x [<-|I].
    - unfold pays_to. rewrite Ho. cbn. now rewrite uh_eqb_refl.
    - specialize (IH x I). unfold pays_to in *. destruct (cond_unlockhash H (o_cond x)); [|easy]. cbn. rewrite IH. apply orb_true_r. }
  clear E. induction l as [|o l IH]; cbn; [reflexivity|]. rewrite (G o) by now left. f_equal. apply IH. intros x I. apply G. now right.
Qed.
Lemma filter_none {A} (l : list A) f : (forall x, In x l -> f x = false) -> filter f l = [].
Proof. induction l as [|x l IH]; cbn; intro F; [reflexivity|]. rewrite (F x) by now left. apply IH. intros; apply F; now right. Qed.

(** the personal part of the pool, and the addresses the loops use *)
Lemma fund_addresses_ok w source addrs ms refund : fund_addresses H w source = Ok (addrs, ms, refund) ->
  (match source with None => addrs = [] -> spendable (wb_own w) = [] | Some s => addrs = personal s end) /\
  pool H w source = filter (pays_to H addrs) (spendable (wb_own w)) ++ match source with None => [] | Some s => ms_pool s (wb_ms w) end /\
  ms = match source with None => [] | Some s => filter (fun u => (uh_type u =? 3)%Z) s end.
Proof.
  destruct source as [s|]; cbn; intro E.
  - apply bind_ok in E as (? & _ & E). apply ok_inj in E. injection E as <- <- _. repeat split.
  - apply bind_ok in E as (us & Eu & E). apply ok_inj in E. injection E as <- <- _.
    pose proof (mapM_ok_length _ _ Eu) as L.
    unfold pool. fold (spendable (wb_own w)) in Eu, L. apply mapM_uh_own in Eu. rewrite Eu, app_nil_r. repeat split. intros ->.
    destruct (spendable (wb_own w)); [reflexivity|easy].
Qed.

Lemma fund_outputs_ok w amount source outs coll refund : fund_outputs H w amount source = Ok (outs, coll, refund) ->
  coll = worth outs /\ amount <= coll /\ (length outs <= 99)%nat /\ selection outs (pool H w source).
Proof.
  unfold fund_outputs. intro E. apply bind_ok in E as ([[addrs ms] rf] & Ea & E). apply fund_addresses_ok in Ea as (Es & Ep & Em).
  apply bind_ok in E as (? & _ & E). apply bind_ok in E as ([o1 c1] & E1 & E).
  assert (X : c1 = worth o1 /\ (length o1 <= 99)%nat /\ selection o1 (filter (pays_to H addrs) (spendable (wb_own w))) /\
              (c1 < amount -> exists z, o1 = lastn 99 z /\ selection z (filter (pays_to H addrs) (spendable (wb_own w))))).
  { destruct addrs as [|a addrs].
    - apply ok_inj in E1. injection E1 as <- <-. split; [reflexivity|]. split; [cbn; lia|]. split; [apply sel_nil|]. intros _. exists []. split; [reflexivity|apply sel_nil].
    - apply individual_ok in E1 as (A & B & C & D). repeat split; auto. intro Lt. destruct (D Lt) as [(z & Z1 & Z2) _]. exists z. split; auto.
      eapply sel_perm; [apply sel_refl|exact Z2]. }
  destruct X as (X1 & X2 & X3 & X4). destruct (amount <=? c1) eqn:C.
  - apply ok_inj in E. injection E as <- <- _. repeat split; auto; [lia|]. rewrite Ep. now apply sel_app_l.
  - apply bind_ok in E as (? & G & E). destruct (fund_multisig (wb_ms w) amount ms o1 c1) as [o2 c2] eqn:E2.
    apply bind_ok in E as (? & G2 & E). apply guard_ok in G2. apply ok_inj in E. injection E as <- <- _.
    destruct (X4 ltac:(lia)) as (z & Z1 & Z2). rewrite X1, Z1 in E2. apply multisig_ok in E2 as (Y1 & Y2 & Y3).
    repeat split; auto; [lia|]. rewrite Ep. destruct source as [s|].
    + eapply sel_trans; [exact Y3|]. apply sel_app; [exact Z2|]. apply sel_ms with (addrs := ms); [|apply sel_refl].
      intros u I. rewrite Em in I. eapply existsb_filter; exact I.
    + subst ms. cbn in G. easy.
Qed.

Lemma fund_ok w amount source ins rem refund : fund H w amount source = Ok (ins, rem, refund) ->
  exists outs, Forall2 spends ins outs /\ selection outs (pool H w source) /\ (length outs <= 99)%nat /\ worth outs = amount + rem.
Proof.
  unfold fund. intro E. apply bind_ok in E as ([[outs coll] rf] & E1 & E). apply bind_ok in E as (i & Ei & E). apply ok_inj in E. injection E as <- <- _.
  apply fund_outputs_ok in E1 as (-> & L & Le & S). exists outs. split; [now apply inputs_of_ok|]. repeat split; auto. lia.
Qed.

(** ** C35 *)
Definition personal_source (source : option (list uh)) : Prop :=
  match source with None => True | Some s => Forall (fun u => uh_type u = 1%Z) s end.
Lemma personal_id s : Forall (fun u => uh_type u = 1%Z) s -> personal s = s /\ filter (fun u => (uh_type u =? 3)%Z) s = [].
Proof.
  induction 1 as [|u s E _ [IH1 IH2]]; unfold personal in *; cbn [filter]; [auto|]. rewrite E. change (1 =? 3)%Z with false. cbn [negb]. rewrite IH1, IH2. auto.
Qed.
Definition usable (w : wbal) : Prop :=
  Forall (fun o => is_ok (cond_unlockhash H (o_cond o)) = true /\ is_ok (from_condition (o_cond o)) = true) (spendable (wb_own w)).
Lemma mapM_total {A B} (f : A -> res B) l : Forall (fun x => is_ok (f x) = true) l -> exists r, mapM f l = Ok r.
Proof. induction 1 as [|x l F _ [r IH]]; cbn; [eauto|]. destruct (f x); [|easy]. cbn. rewrite IH. cbn. eauto. Qed.
Definition personal_pool (w : wbal) (source : option (list uh)) : list output :=
  match source with None => spendable (wb_own w) | Some s => filter (pays_to H s) (spendable (wb_own w)) end.

Lemma fund_complete w amount source : personal_source source -> usable w -> 0 < amount ->
  match fund H w amount source with
  | Ok _ => exists s, selection s (personal_pool w source) /\ (length s <= 99)%nat /\ amount <= worth s
  | Err e => e = InsufficientFunds /\ forall s, selection s (personal_pool w source) -> (length s <= 99)%nat -> worth s < amount
  end.
Proof.
  intros P U Pos.
  assert (U1 : Forall (fun o => is_ok (cond_unlockhash H (o_cond o)) = true) (spendable (wb_own w))) by (eapply Forall_impl; [|exact U]; cbn; tauto).
  assert (U2 : Forall (fun o => is_ok (from_condition (o_cond o)) = true) (spendable (wb_own w))) by (eapply Forall_impl; [|exact U]; cbn; tauto).
  assert (Ea : exists addrs refund, fund_addresses H w source = Ok (addrs, [], refund) /\
                 (addrs = [] -> personal_pool w source = []) /\ filter (pays_to H addrs) (spendable (wb_own w)) = personal_pool w source).
  { destruct source as [s|]; cbn in *.
    - destruct (personal_id s P) as [P1 P2]. rewrite <- P2.
      assert (forallb (fun u => (uh_type u =? UH_MULTI_SIG) || (uh_type u =? UH_PUBLIC_KEY))%Z s = true) as ->.
      { clear -P. induction P as [|u s E _ IH]; cbn; [reflexivity|]. rewrite E, IH. reflexivity. }
      cbn. eexists _, _. split; [reflexivity|]. unfold personal in P1. change UH_MULTI_SIG with 3%Z. rewrite P1. split; [|reflexivity].
      intro Es. apply filter_none. intros o _. unfold pays_to. destruct (cond_unlockhash H (o_cond o)); [|reflexivity]. now rewrite Es, P2.
    - destruct (mapM_total (fun o => cond_unlockhash H (o_cond o)) _ U1) as [us Eu].
      exists us, None. unfold spendable in Eu. rewrite Eu. split; [reflexivity|]. split; [|now apply mapM_uh_own].
      intros ->. apply mapM_ok_length in Eu. fold (spendable (wb_own w)) in Eu. destruct (spendable (wb_own w)); [reflexivity|easy]. }
  destruct Ea as (addrs & refund & Ea & Ee & Ep). unfold fund, fund_outputs. rewrite Ea. cbn [bind].
  destruct addrs as [|a addrs].
  { cbn. split; [reflexivity|]. intros s S _. rewrite (Ee eq_refl) in S. destruct S as [r S]. apply Permutation_sym, Permutation_nil, app_eq_nil in S as [-> _].
    unfold worth. cbn. exact Pos. }
  set (aa := a :: addrs) in *. assert (length aa =? 0 = false)%nat as -> by reflexivity. cbn [andb negb guard bind].
  destruct (individual_total H (wb_own w) amount aa U1) as [[o c] Ei].
  replace (match aa with [] => Ok ([], 0) | _ => fund_individual H (wb_own w) amount aa end) with (fund_individual H (wb_own w) amount aa) by reflexivity.
  rewrite Ei. cbn [bind]. apply individual_ok in Ei as (I1 & I2 & I3 & I4). rewrite Ep in *.
  destruct (amount <=? c) eqn:C.
  - cbn [bind]. destruct (inputs_total o) as [ins Eins].
    { rewrite Forall_forall in *. intros x I. apply U2. apply (sel_incl _ _ I3) in I. destruct source; cbn in I; [apply filter_In in I; tauto|exact I]. }
    rewrite Eins. cbn. exists o. repeat split; auto. lia.
  - cbn. split; [reflexivity|]. apply I4. lia.
Qed.
End Hash.

(** ** Draining *)
Lemma drain_one_ok recipient fee data used t : drain_one recipient fee data used = Ok t ->
  exists ins, t = T1 (mkstd false ins [mkout (worth used - fee) recipient []] [] [] [fee] data) /\ Forall2 spends ins used /\ fee <= worth used.
Proof.
  unfold drain_one, data_new. intro E. apply bind_ok in E as (d & Ed & E). apply bind_ok in Ed as (? & _ & Ed). apply ok_inj in Ed. subst d.
  apply bind_ok in E as (? & G & E). apply guard_ok in G. apply bind_ok in E as (ins & Ei & E). apply ok_inj in E. subst t.
  rewrite total_worth in *. exists ins. split; [reflexivity|]. split; [now apply inputs_of_ok|lia].
Qed.
(** the transactions of a drain, with the outputs each of them uses *)
Definition drains (recipient : cond) (fee : N) (data : bytes) (used : list output) (t : txn) : Prop :=
  exists ins, t = T1 (mkstd false ins [mkout (worth used - fee) recipient []] [] [] [fee] data) /\ Forall2 spends ins used /\
              fee <= worth used /\ (0 < length used <= 99)%nat.
Lemma drain_loop_ok recipient fee data n : forall l ts, (length l <= n)%nat -> drain_loop n recipient fee data l = Ok ts ->
  exists parts, concat parts = l /\ Forall2 (drains recipient fee data) parts ts.
Proof.
  induction n as [|n IH]; intros l ts L E; cbn in E.
  - apply ok_inj in E. subst. exists []. destruct l; [split; [reflexivity|constructor]|cbn in L; lia].
  - destruct l as [|o l]; [apply ok_inj in E; subst; exists []; split; [reflexivity|constructor]|].
    set (k := Nat.min (length (o :: l)) MAX_INPUTS) in *.
    assert (K : (0 < k <= 99)%nat /\ (k <= length (o :: l))%nat) by (unfold k, MAX_INPUTS; cbn; lia). clearbody k.
    apply bind_ok in E as (t & Et & E). apply bind_ok in E as (r & Er & E). apply ok_inj in E. subst ts.
    apply IH in Er as (parts & Ec & F); [|rewrite skipn_length; lia].
    exists (firstn k (o :: l) :: parts). split; [cbn [concat]; rewrite Ec; apply firstn_skipn|]. constructor; [|exact F].
    apply drain_one_ok in Et as (ins & -> & S & Le). exists ins. repeat split; auto; rewrite firstn_length; lia.
Qed.
Lemma drain_loop_total recipient fee data n : forall l, (length l <= n)%nat -> (length data <= 83)%nat ->
  Forall (fun o => is_ok (from_condition (o_cond o)) = true /\ fee <= o_value o) l -> exists ts, drain_loop n recipient fee data l = Ok ts.
Proof.
  induction n as [|n IH]; intros l L D F; cbn; [eauto|]. destruct l as [|o l]; [eauto|].
  set (k := Nat.min (length (o :: l)) MAX_INPUTS) in *.
  assert (K : (0 < k <= 99)%nat /\ (k <= length (o :: l))%nat) by (unfold k, MAX_INPUTS; cbn; lia). clearbody k.
  rewrite <- (firstn_skipn k (o :: l)) in F. apply Forall_app in F as [F1 F2].
  destruct (IH (skipn k (o :: l))) as [r Er]; auto; [rewrite skipn_length; lia|]. rewrite Er.
  destruct (inputs_total (firstn k (o :: l))) as [ins Ei]; [eapply Forall_impl; [|exact F1]; cbn; tauto|].
  unfold drain_one, data_new. assert (length data <=? 83 = true)%nat as -> by lia. cbn [guard bind].
  assert (fee <=? total (firstn k (o :: l)) = true) as ->.
  { rewrite total_worth. destruct k as [|k]; [lia|]. cbn [firstn] in *. inversion_clear F1 as [|? ? [_ X] _]. unfold worth. cbn. lia. }
  cbn [guard bind]. rewrite Ei. cbn. eauto.
Qed.
