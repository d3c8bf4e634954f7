(** Facts about operations from the chain to the submission. *)
From Coq Require Import Sorting.Sorted.
From Verif Require Import Base BaseFacts Encoders Currency Primitive Types Conditions Fulfillments ThreeBotTypes Txn TxnJson TxnSign Wallet Explorer AtomicSwap Ops WalletLoad Submit Session
  Spec_Types Spec_Wallet Spec_Ops Spec_Explorer Spec_Load Spec_Session TypesFacts ConditionFacts WalletFacts WalletFacts2 FundFacts2 ExplorerFacts ExplorerFacts2 ExplorerFacts3 OpsFacts4 LoadFacts Prop_Load.
From Coq Require Import ZifyBool ZifyNat ZifyN.
Ltac Zify.zify_post_hook ::= Z.div_mod_to_equations.

Section Hash.
Variable H : bytes -> bytes.
Variable ip_parse : pystr -> res bytes.
Variable now : Z.

Lemma in_dset {A} (d : dict A) k v x : In x (dset d k v) -> In x d \/ x = (k, v).
Proof.
  induction d as [|[j y] d IH]; cbn [dset]; [intros [<-|[]]; now right|]. destruct (listN_eqb k j) eqn:E.
  - apply listN_eqb_eq in E. subst j. intros [<-|I]; [now right|left; now right].
  - intros [<-|I]; [left; now left|]. destruct (IH I) as [J|J]; [left; now right|now right].
Qed.
Lemma in_dmerge {A} (e : dict A) : forall d x, In x (dmerge d e) -> In x d \/ In x e.
Proof.
  unfold dmerge. induction e as [|[j y] e IH]; cbn [fold_left]; intros d x I; [now left|]. destruct (IH _ _ I) as [J|J]; [|right; now right].
  apply in_dset in J as [J|J]; [now left|right; left; now symmetry].
Qed.
Lemma merged_in (f : bal -> odict) a bs c x : f = w_outs \/ f = w_unc -> merged a bs c -> In x (f c) -> In x (f a) \/ exists b, In b bs /\ In x (f b).
Proof.
  intros F M. induction M as [b|a b c l d E M IH]; intro I; [now left|]. destruct (IH I) as [J|(y & Iy & J)]; [|right; exists y; split; [now right|exact J]].
  unfold balance_add in E. apply bind_ok in E as ([[t h] k] & _ & E). apply ok_inj in E. subst c.
  assert (J' : In x (dmerge (f a) (f b))) by (destruct F; subst f; exact J). apply in_dmerge in J' as [J'|J']; [now left|right; exists b; split; [now left|exact J']].
Qed.
Lemma merged_nodup a bs c : merged a bs c -> NoDup (map fst (w_outs a)) -> NoDup (map fst (w_unc a)) -> NoDup (map fst (w_outs c)) /\ NoDup (map fst (w_unc c)).
Proof.
  induction 1 as [b|a b c l d E M IH]; intros N1 N2; [auto|]. unfold balance_add in E. apply bind_ok in E as ([[t h] k] & _ & E). apply ok_inj in E. subst c.
  apply IH; cbn [w_outs w_unc]; apply dmerge_nodup; assumption.
Qed.

(** what a balance lists, and in which history it was seen *)
Definition seen_in (b : bal) (hs : list (pystr * uhresult)) : Prop :=
  (forall id o, In (id, o) (w_outs b) -> o_id o = id /\ exists a r, In (a, r) hs /\ told H a (h_txns r) o /\ is_available H a (h_txns r) id) /\
  (forall id o, In (id, o) (w_unc b) -> o_id o = id /\ exists a r, In (a, r) hs /\ told H a (h_txns r) o /\ is_unconfirmed H a (h_txns r) id) /\
  NoDup (map fst (w_outs b)) /\ NoDup (map fst (w_unc b)).
Lemma bal_seen r info m b a : uh_str H (h_uh r) = Ok a -> StronglySorted newer (h_txns r) ->
  Forall (fun x => no_definition (e_txn x)) (h_txns r) \/ uh_type (h_uh r) <> 3%Z -> result_balance H r info = Ok (m, b) -> seen_in b [(a, r)].
Proof.
  intros A Q D E. assert (V : inv (history H a (h_txns r)) b).
  { apply inv_core. rewrite (result_balance_core H r info m b a A D E). apply inv_observe. }
  assert (G : forall id o, In (id, o) (w_outs b) \/ In (id, o) (w_unc b) -> o_id o = id /\ told H a (h_txns r) o).
  { intros id o I. assert (K : exists d, (d = w_outs b \/ d = w_spent b \/ d = w_unc b \/ d = w_uncspent b) /\ In (id, o) d) by (destruct I; eexists; (split; [|eassumption]); auto).
    destruct K as (d & Kd & K). destruct (i_val _ _ V d Kd id o K) as (Eid & y & Iy & <-). split; [exact Eid|].
    apply in_history in Iy as (x & Ix & Iy). apply in_observations in Iy as (_ & P & K2). split; [exact P|]. exists x. split; [exact Ix|]. tauto. }
  assert (R : forall id, reports b id (is_available H a (h_txns r) id) (is_unconfirmed H a (h_txns r) id) (is_spent H a (h_txns r) id) (is_spent_unconfirmed H a (h_txns r) id))
    by (intro id; exact (balance_reports H r info m b a id A Q D E)).
  split; [|split; [|split; [exact (i_n1 _ _ V)|exact (i_n3 _ _ V)]]]; intros id o I; destruct (R id) as (R1 & R2 & _).
  - destruct (G id o (or_introl I)) as [Eid T]. split; [exact Eid|]. exists a, r. split; [now left|]. split; [exact T|]. apply R1. apply in_map_iff. exists (id, o). auto.
  - destruct (G id o (or_intror I)) as [Eid T]. split; [exact Eid|]. exists a, r. split; [now left|]. split; [exact T|]. apply R2. apply in_map_iff. exists (id, o). auto.
Qed.

Lemma seen_mono b hs hs' : seen_in b hs -> (forall x, In x hs -> In x hs') -> seen_in b hs'.
Proof.
  intros (A & B & N1 & N2) I. split; [|split; [|split; assumption]]; intros id o K; [destruct (A id o K) as (E & a & r & J & T)|destruct (B id o K) as (E & a & r & J & T)];
    (split; [exact E|]); exists a, r; split; auto.
Qed.
Definition ms_seen (multi : list (pystr * uhresult)) (m : msbal) : Prop :=
  exists a r, In (a, r) multi /\ uh_str H (ms_addr m) = Ok a /\ full_uh (ms_addr m) /\ seen_in (ms_bal m) [(a, r)].
Lemma wallet_seen net info addrs w own multi : hash_ok H -> Forall (text_of H 1) addrs ->
  wallet_balance H ip_parse now net info addrs = Ok w -> answers (lookup H ip_parse now net) 0 addrs own ->
  answers (lookup H ip_parse now net) (length addrs) (flat_map (fun ar => multisigs H (snd ar)) own) multi -> real_heights (own ++ multi) ->
  (forall a r, In (a, r) multi -> Forall (fun x => no_definition (e_txn x)) (h_txns r)) ->
  seen_in (wb_own w) own /\ Forall (ms_seen multi) (wb_ms w) /\ NoDup (map ms_addr (wb_ms w)) /\
  (forall a r b s, In (a, r) own -> In (b, s) multi -> a <> b).
Proof.
  intros HH T E An0 Am0 RH D. pose proof E as E'.
  apply (C62_multisig_partial H ip_parse now net info addrs w own multi HH T) in E' as (ND & MS & _); [|assumption|assumption|intros a r x I J; apply (RH a r x); [apply in_or_app; now right|exact J]|exact D].
  apply (wallet_balance_inv H ip_parse now net) in E as (own' & multi' & bs & ps & ars & An & An2 & F & Pp & (o & M & Eo) & Fe & I1 & I2 & _ & Fo & Fm); [|exact HH|exact T].
  rewrite (answers_fun H ip_parse now net _ _ _ An own An0) in *. rewrite (answers_fun H ip_parse now net _ _ _ An2 multi Am0) in *. clear An0 Am0.
  rewrite Forall_forall in Fo, Fm.
  assert (St : forall a r, In (a, r) (own' ++ multi') -> exists n, lookup H ip_parse now net n a = Ok r /\ StronglySorted newer (h_txns r)).
  { intros a r I. assert (L : exists n, lookup H ip_parse now net n a = Ok r).
    { apply in_app_or in I as [I|I]; [destruct (answers_look H ip_parse now net _ _ _ An a r I) as (n & L & _)|destruct (answers_look H ip_parse now net _ _ _ An2 a r I) as (n & L & _)]; eauto. }
    destruct L as (n & L). exists n. split; [exact L|]. apply (look_sorted H ip_parse now net n a r L). intros x Ix. exact (RH a r x I Ix). }
  split; [|split; [|split; [exact ND|]]].
  - assert (B : forall b, In b bs -> exists ar, In ar own' /\ seen_in b [ar]).
    { intros b Ib. destruct (Forall2_in_r _ _ _ F b Ib) as ([a r] & Ia & Pl). exists (a, r). split; [exact Ia|]. destruct (Fo _ Ia) as (Ty & Str). cbn [fst snd] in *.
      destruct (St a r ltac:(apply in_or_app; now left)) as (_ & _ & So). exact (bal_seen r (Some info) None b a Str So ltac:(right; lia) Pl). }
    assert (Ne : forall b, In b ps -> w_outs b = [] /\ w_unc b = []).
    { intros b I. destruct (Pp b I) as (ar & Ia & P). destruct (Fm _ Ia) as (Ty & _). destruct (multi_plain_empty H info (snd ar) b Ty P) as (Z1 & Z2 & _). auto. }
    assert (N : NoDup (map fst (w_outs o)) /\ NoDup (map fst (w_unc o))) by (apply (merged_nodup _ _ _ M); constructor).
    assert (W : w_outs (wb_own w) = w_outs o /\ w_unc (wb_own w) = w_unc o) by (rewrite Eo; destruct info as [[h t] k]; split; reflexivity).
    destruct W as (W1 & W2). split; [|split; [|rewrite W1, W2; exact N]]; intros id x I; [rewrite W1 in I|rewrite W2 in I].
    + apply (merged_in w_outs _ _ _ _ (or_introl eq_refl) M) in I as [[]|(b & Ib & I)]. apply in_app_or in Ib as [Ib|Ib]; [|rewrite (proj1 (Ne b Ib)) in I; destruct I].
      destruct (B b Ib) as (ar & Ia & (S1 & _)). destruct (S1 id x I) as (Eid & a & r & [->|[]] & Q). split; [exact Eid|]. exists a, r. auto.
    + apply (merged_in w_unc _ _ _ _ (or_intror eq_refl) M) in I as [[]|(b & Ib & I)]. apply in_app_or in Ib as [Ib|Ib]; [|rewrite (proj2 (Ne b Ib)) in I; destruct I].
      destruct (B b Ib) as (ar & Ia & (_ & S2 & _)). destruct (S2 id x I) as (Eid & a & r & [->|[]] & Q). split; [exact Eid|]. exists a, r. auto.
  - apply Forall_forall. intros m Im. destruct (MS m Im) as (Cu & _).
    destruct (Forall2_in_r _ _ _ Fe m Im) as ([a r] & Ia & En). destruct (Fm _ (I1 _ Ia)) as (Ty & Str). cbn [fst snd] in *.
    assert (K : uh_str H (ms_addr m) = Ok a).
    { destruct En as (Er & Eu). cbn [snd] in Er. unfold result_balance in Er. rewrite Ty in Er. change (3 =? 3)%Z with true in Er. cbv iota in Er. unfold multisig_balance in Er. rewrite Str in Er. cbn [bind] in Er.
      apply bind_ok in Er as (y & Ey & Er). apply ok_inj in Er. destruct y as [[[us n] x]|]; [|discriminate Er]. injection Er as Eus Enn _.
      destruct (multi_new_address H a (h_txns r) None _ Ey (D a r (I1 _ Ia)) ltac:(discriminate) us n x eq_refl) as (u & Cu' & Su).
      rewrite Eus, Enn in Cu'. rewrite Eu in Cu'. apply ok_inj in Cu'. rewrite Cu'. exact Su. }
    exists a, r. split; [exact (I1 _ Ia)|]. split; [exact K|]. split.
    + cbn [cond_unlockhash] in Cu. apply bind_ok in Cu as (ls & _ & Cu). apply bind_ok in Cu as (rt & R & Cu). apply ok_inj in Cu. rewrite <- Cu. split; [unfold UH_MULTI_SIG; cbn; lia|]. cbn [uh_hash].
      assert (Nl : ls <> []) by (intros ->; rewrite MerkleFacts.root_empty in R; discriminate). apply (proj1 (MerkleFacts.root_iff H ls rt Nl)) in R. inversion R; subst; apply HH.
    + destruct (St a r ltac:(apply in_or_app; right; exact (I1 _ Ia))) as (_ & _ & So). exact (bal_seen r (Some info) _ _ a Str So ltac:(left; exact (D a r (I1 _ Ia))) (proj1 En)).
  - intros a r b s Ia Ib <-. destruct (St a r ltac:(apply in_or_app; now left)) as (n & L & _). destruct (St a s ltac:(apply in_or_app; now right)) as (n' & L' & _).
    apply lookup_inv in L as (P & _). apply lookup_inv in L' as (P' & _). rewrite P in P'. apply ok_inj in P'. destruct (Fo _ Ia) as (Ty & _). destruct (Fm _ Ib) as (Ty' & _). cbn [fst snd] in *. rewrite P' in Ty. lia.
Qed.

(** *** The outputs that may be used *)
Lemma in_values (d : odict) o : In o (values d) -> exists id, In (id, o) d.
Proof. unfold values. intro I. apply in_map_iff in I as ([id x] & <- & I). exists id. exact I. Qed.
Lemma unlocked_sub b l o : In o (unlocked b l) -> In o l.
Proof. unfold unlocked. destruct (known_chain b); [|auto]. intro I. apply filter_In in I. tauto. Qed.
Lemma spendable_seen b hs o : seen_in b hs -> In o (spendable b) ->
  exists a r, In (a, r) hs /\ told H a (h_txns r) o /\ (is_available H a (h_txns r) (o_id o) \/ is_unconfirmed H a (h_txns r) (o_id o)) /\
    ((0 < w_height b)%Z -> (0 < w_time b)%Z -> open_at (w_height b) (w_time b) o).
Proof.
  intros (A & B & _) I. assert (L : (0 < w_height b)%Z -> (0 < w_time b)%Z -> open_at (w_height b) (w_time b) o).
  { intros P1 P2. apply in_app_or in I as [I|I]; apply (unlocked_in b _ o P2 P1) in I; tauto. }
  apply in_app_or in I as [I|I]; apply unlocked_sub in I; apply in_values in I as (id & I).
  - destruct (A id o I) as (<- & a & r & J & T & Q). exists a, r. auto.
  - destruct (B id o I) as (<- & a & r & J & T & Q). exists a, r. auto.
Qed.
Lemma ids_filter (f : output -> bool) l : NoDup (ids l) -> NoDup (ids (filter f l)).
Proof.
  unfold ids. induction l as [|x l IH]; cbn [map filter]; intro N; [constructor|]. inversion N as [|? ? N1 N2]; subst. destruct (f x); [|auto]. cbn [map]. constructor; [|auto].
  intro I. apply N1. apply in_map_iff in I as (y & E & I). apply filter_In in I as [I _]. apply in_map_iff. exists y. auto.
Qed.
Lemma unlocked_ids b l : NoDup (ids l) -> NoDup (ids (unlocked b l)).
Proof. unfold unlocked. destruct (known_chain b); [apply ids_filter|auto]. Qed.
Lemma keys_ids (d : odict) : (forall id o, In (id, o) d -> o_id o = id) -> ids (values d) = map fst d.
Proof. unfold ids, values. intro E. rewrite map_map. apply map_ext_in. intros [id o] I. exact (E id o I). Qed.
Definition together (hs : list (pystr * uhresult)) : Prop := consistent (flat_map (fun ar => history H (fst ar) (h_txns (snd ar))) hs).
Lemma told_history hs a r o : In (a, r) hs -> told H a (h_txns r) o -> exists y, In y (flat_map (fun ar => history H (fst ar) (h_txns (snd ar))) hs) /\ ob_out y = o.
Proof.
  intros I (P & x & Ix & K).
  assert (J : exists b, In (mkobs o (negb (e_unconfirmed x)) b) (history H a (h_txns r))).
  { destruct K as [K|K]; [exists true|exists false]; apply in_history; exists x; (split; [exact Ix|]); apply in_observations; cbn; auto. }
  destruct J as (b & J). eexists (mkobs o _ b). split; [|reflexivity]. apply in_flat_map. exists (a, r). split; [exact I|exact J].
Qed.
Lemma told_same hs a r o b s q : together hs -> In (a, r) hs -> In (b, s) hs -> told H a (h_txns r) o -> told H b (h_txns s) q -> o_id o = o_id q -> o = q /\ a = b.
Proof.
  intros C I J T U E. destruct (told_history hs a r o I T) as (y & Iy & <-). destruct (told_history hs b s q J U) as (z & Iz & <-).
  pose proof (C y z Iy Iz E) as Q. split; [exact Q|]. destruct T as (P & _), U as (P2 & _). rewrite <- Q in P2. exact (pays_fun H a b _ P P2).
Qed.
Lemma spendable_nodup b hs : seen_in b hs -> together hs -> NoDup (map fst hs) -> NoDup (ids (spendable b)).
Proof.
  intros S C N. pose proof S as (A & B & N1 & N2). unfold spendable, outputs_available, outputs_unconfirmed_available. unfold ids. rewrite map_app. apply NoDup_app_iff. split; [|split].
  - apply unlocked_ids. rewrite keys_ids; [exact N1|]. intros id o I. exact (proj1 (A id o I)).
  - apply unlocked_ids. rewrite keys_ids; [exact N2|]. intros id o I. exact (proj1 (B id o I)).
  - intros id I J. apply in_map_iff in I as (o & <- & I). apply in_map_iff in J as (q & E & J). apply unlocked_sub, in_values in I as (i & I). apply unlocked_sub, in_values in J as (j & J).
    destruct (A i o I) as (<- & a & r & Ia & Ta & (Ca & _)). destruct (B j q J) as (<- & a' & r' & Ib & Tb & (_ & Nb & _)).
    destruct (told_same hs a r o a' r' q C Ia Ib Ta Tb (eq_sym E)) as [<- <-].
    assert (r = r'). { clear - N Ia Ib. induction hs as [|[x y] l IH]; [destruct Ia|]. cbn [map fst] in N. inversion N as [|? ? M1 M2]; subst. 
      destruct Ia as [Ea|Ia], Ib as [Eb|Ib]; [congruence| | |auto]; [injection Ea as <- <-|injection Eb as <- <-]; exfalso; apply M1; apply in_map_iff; [exists (x, r')|exists (x, r)]; auto. }
    subst r'. contradiction.
Qed.
Lemma together_sub hs hs' : together hs -> (forall x, In x hs' -> In x hs) -> together hs'.
Proof. intros C I x y Ix Iy. apply C; [apply in_flat_map in Ix as (z & Iz & K)|apply in_flat_map in Iy as (z & Iz & K)]; apply in_flat_map; exists z; auto. Qed.
Lemma pool_in w source o : In o (pool H w source) -> In o (spendable (wb_own w)) \/ exists m, In m (wb_ms w) /\ In o (spendable (ms_bal m)).
Proof.
  unfold pool. destruct source as [s|]; [|now left]. intro I. apply in_app_or in I as [I|I]; [left; apply filter_In in I; tauto|].
  right. apply in_flat_map in I as (m & Im & I). exists m. split; [exact Im|]. destruct (existsb _ _); [exact I|destruct I].
Qed.
Lemma pool_nodup w source own multi : hash_ok H -> seen_in (wb_own w) own -> Forall (ms_seen multi) (wb_ms w) -> NoDup (map ms_addr (wb_ms w)) ->
  (forall a r b s, In (a, r) own -> In (b, s) multi -> a <> b) -> together (own ++ multi) -> NoDup (map fst own) -> NoDup (ids (pool H w source)).
Proof.
  intros HH So Sm ND X C N. assert (Co : together own) by (apply (together_sub _ _ C); intros; apply in_or_app; now left).
  pose proof (spendable_nodup _ _ So Co N) as N1. unfold pool. destruct source as [s|]; [|exact N1]. unfold ids. rewrite map_app. apply NoDup_app_iff. split; [apply ids_filter; exact N1|].
  assert (G : forall m o, ms_seen multi m -> In o (spendable (ms_bal m)) -> exists a r, In (a, r) multi /\ uh_str H (ms_addr m) = Ok a /\ full_uh (ms_addr m) /\ told H a (h_txns r) o).
  { intros m o (a & r & I & E & Fu & S) Io. destruct (spendable_seen _ _ o S Io) as (a' & r' & [Q|[]] & T & _). injection Q as <- <-. exists a, r. auto. }
  rewrite Forall_forall in Sm. split.
  - clear So X N1 N Co. induction (wb_ms w) as [|m l IH]; cbn [flat_map map]; [constructor|]. cbn [map] in ND. inversion ND as [|? ? M1 M2]; subst.
    rewrite map_app. apply NoDup_app_iff. split; [|split].
    + destruct (existsb _ _); [|constructor]. destruct (Sm m (or_introl eq_refl)) as (a & r & I & _ & _ & S). apply (spendable_nodup _ _ S); [|constructor; [intros []|constructor]].
      apply (together_sub _ _ C). intros x [<-|[]]. apply in_or_app. now right.
    + apply IH; [intros x Ix; apply Sm; now right|exact M2].
    + intros id I J. apply in_map_iff in I as (o & <- & I). apply in_map_iff in J as (q & E & J). destruct (existsb _ _); [|destruct I].
      apply in_flat_map in J as (m' & Im' & J). destruct (existsb _ _); [|destruct J].
      destruct (G m o (Sm m (or_introl eq_refl)) I) as (a & r & Ia & Ea & Fa & Ta). destruct (G m' q (Sm m' (or_intror Im')) J) as (b & s' & Ib & Eb & Fb & Tb).
      destruct (told_same (own ++ multi) a r o b s' q C ltac:(apply in_or_app; now right) ltac:(apply in_or_app; now right) Ta Tb (eq_sym E)) as [_ <-].
      apply M1. rewrite (uh_str_inj H _ _ _ HH Fa Fb Ea Eb). apply in_map. exact Im'.
  - intros id I J. apply in_map_iff in I as (o & <- & I). apply in_map_iff in J as (q & E & J). apply filter_In in I as [I _]. apply in_flat_map in J as (m & Im & J). destruct (existsb _ _); [|destruct J].
    destruct (spendable_seen _ _ o So I) as (a & r & Ia & Ta & _). destruct (G m q (Sm m Im) J) as (b & s' & Ib & _ & _ & Tb).
    destruct (told_same (own ++ multi) a r o b s' q C ltac:(apply in_or_app; now left) ltac:(apply in_or_app; now right) Ta Tb (eq_sym E)) as [_ <-]. exact (X a r a s' Ia Ib eq_refl).
Qed.
End Hash.
