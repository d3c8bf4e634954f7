(** What a wallet loaded from the chain can pay. *)
From Coq Require Import Sorting.Sorted Permutation.
From Verif Require Import Base BaseFacts Encoders EncodersFacts Currency Primitive Types TypesFacts Conditions ConditionFacts ConditionFacts2 Fulfillments FulfilFacts ThreeBotTypes Txn TxnSign Wallet Explorer Ops WalletLoad
  Spec_Types Spec_Fulfil Spec_Sign Spec_Swap Spec_Wallet Spec_Explorer Spec_Load Spec_Session Spec_Fits Spec_Afford Spec_Afford2 WalletFacts WalletFacts2 FundFacts FundFacts2 ExplorerFacts ExplorerFacts2 LoadFacts SessionFacts SwapFacts AffordFacts AffordFacts2 Prop_Load.
From Coq Require Import ZifyBool ZifyNat ZifyN.
Ltac Zify.zify_post_hook ::= Z.div_mod_to_equations.

Section Loaded.
Variables (H : bytes -> bytes) (ip : pystr -> res bytes) (now : Z).
Hypothesis HH : hash_ok H.

Lemma str_type u v a : uh_str H u = Ok a -> uh_str H v = Ok a -> uh_type u = uh_type v.
Proof.
  unfold uh_str. intros E P. apply bind_ok in E as (c & _ & E). apply bind_ok in E as (? & G & E). apply ok_inj in E. subst a.
  apply bind_ok in P as (d & _ & P). apply bind_ok in P as (? & G' & P). apply ok_inj in P. apply guard_ok in G. apply guard_ok in G'.
  apply (f_equal (firstn 2)) in P.
  change (firstn 2 (hex [Z.to_N (uh_type u)] ++ hash_str (uh_hash u) ++ hex (firstn 6 c))) with (hex [Z.to_N (uh_type u)]) in P.
  change (firstn 2 (hex [Z.to_N (uh_type v)] ++ hash_str (uh_hash v) ++ hex (firstn 6 d))) with (hex [Z.to_N (uh_type v)]) in P. apply hex_inj in P.
  - injection P as P. lia.
  - constructor; [lia | constructor].
  - constructor; [lia | constructor].
Qed.
Lemma address_full u : address u -> full_uh u.
Proof. intros (T & L & _). split; [lia|exact L]. Qed.
Lemma paid_mine primary ks a o : wallet_ok H primary ks -> text_of H 1 a -> holds_key H ks a -> network_cond (o_cond o) -> Spec_Explorer.pays H a o = true -> mine H ks o.
Proof.
  intros WO (u0 & A0 & T0 & S0) ((k & Ik) & ND) NC P. unfold Spec_Explorer.pays in P.
  destruct (cond_unlockhash H (o_cond o)) as [u|] eqn:Eu; [|discriminate]. destruct (uh_str H u) as [b|] eqn:Es; [|discriminate]. apply listN_eqb_eq in P. subst b.
  pose proof (str_type _ _ _ Es S0) as Ty. rewrite T0 in Ty.
  unfold wallet_ok in WO. rewrite Forall_forall in WO. specialize (WO _ Ik). cbn [fst snd] in WO. unfold pk_address in WO. apply bind_ok in WO as (v & Kv & Sv).
  assert (Fv : full_uh v). { destruct (pk_address_fun H _ _ Kv) as (Tv & d & _ & Hv). split; [lia|]. rewrite Hv. apply HH. }
  assert (G : full_uh u -> has_key H ks u /\ real_address H u).
  { intro Fu. assert (u = v) as -> by exact (uh_str_inj H _ _ _ HH Fu Fv Es Sv). split; [exists a, k; auto|]. intro D. apply ND. unfold pk_address. rewrite D. exact Sv. }
  assert (X : forall c, simple_cond c -> cond_unlockhash H c = Ok u -> c = CUnlockHash u /\ full_uh u).
  { intros c Sc Ec. destruct c as [|w|? ? ? ?|? ?|us n]; cbn [simple_cond] in Sc; try contradiction; cbn [cond_unlockhash] in Ec.
    - apply ok_inj in Ec. subst u. discriminate Ty.
    - apply ok_inj in Ec. subst w. split; [reflexivity|apply address_full; exact Sc].
    - apply bind_ok in Ec as (? & _ & Ec). apply bind_ok in Ec as (? & _ & Ec). apply ok_inj in Ec. subst u. discriminate Ty. }
  destruct (o_cond o) as [|w|s r h l|l i|us n] eqn:Eo; cbn [network_cond] in NC.
  - destruct (X CNil NC Eu) as (? & _). discriminate.
  - destruct (X _ NC Eu) as (E & F). exists u. split; [left; congruence|auto].
  - cbn [cond_unlockhash] in Eu. apply bind_ok in Eu as (? & _ & Ec). apply ok_inj in Ec. subst u. discriminate Ty.
  - destruct NC as (_ & NC). destruct (X i NC Eu) as (E & F). subst i. exists u. split; [right; exists l; exact Eo|auto].
  - destruct (X _ NC Eu) as (? & _). discriminate.
Qed.

Lemma in_keys (d : odict) id : has d id -> exists o, In (id, o) d.
Proof. intro X. apply has_keys in X. unfold WalletFacts.keys in X. apply in_map_iff in X as ([i o] & <- & I). eauto. Qed.

Section W.
Variables (net : nat -> pystr -> res json) (h t : Z) (k : bytes) (addrs : list pystr) (w : wbal) (own multi : list (pystr * uhresult)).
Hypothesis T : Forall (text_of H 1) addrs.
Hypothesis W : wallet_balance H ip now net (h, t, k) addrs = Ok w.
Hypothesis A1 : answers (lookup H ip now net) 0 addrs own.
Hypothesis A2 : answers (lookup H ip now net) (length addrs) (flat_map (fun ar => multisigs H (snd ar)) own) multi.
Hypothesis RH : real_heights (own ++ multi).
Hypothesis D : forall a r, In (a, r) multi -> Forall (fun x => no_definition (e_txn x)) (h_txns r).
Hypothesis Ph : (0 < h)%Z.
Hypothesis Pt : (0 < t)%Z.

Lemma own_seen : seen_in H (wb_own w) own /\ w_height (wb_own w) = h /\ w_time (wb_own w) = t.
Proof.
  destruct (wallet_seen H ip now net (h, t, k) addrs w own multi HH T W A1 A2 RH D) as (So & _). split; [exact So|].
  destruct (C62_lookups H ip now net h t k addrs w HH T W) as (E1 & E2 & _). auto.
Qed.
Lemma spendable_free o : In o (spendable (wb_own w)) -> free H h t own o.
Proof.
  intro I. destruct own_seen as (So & Eh & Et). destruct (spendable_seen H _ _ o So I) as (a & r & J & To & St & Op). exists a, r. rewrite Eh, Et in Op. auto.
Qed.
Lemma free_spendable o : together H own -> free H h t own o -> In o (spendable (wb_own w)).
Proof.
  intros C (a & r & J & To & Op & St). destruct own_seen as (So & Eh & Et). pose proof So as (S1 & S2 & _).
  assert (RO : real_heights own) by (intros x y z I1 I2; apply (RH x y z); [apply in_or_app; now left|exact I2]).
  destruct (C62_own H ip now net (h, t, k) addrs w own (o_id o) HH T W A1 RO) as (R1 & R2 & _).
  unfold spendable, outputs_available, outputs_unconfirmed_available.
  assert (G : forall l, In o l -> In o (unlocked (wb_own w) l)).
  { intros l I. apply unlocked_in; [lia|lia|]. split; [exact I|]. rewrite Eh, Et. exact Op. }
  assert (V : forall (d : odict) q, In (o_id o, q) d -> o = q -> In o (values d)) by (intros d q I ->; apply in_map_iff; exists (o_id q, q); auto).
  apply in_or_app. destruct St as [St|St]; [left|right]; apply G.
  - destruct (in_keys _ _ (proj2 R1 (ex_intro _ a (ex_intro _ r (conj J St))))) as (q & I). apply (V _ q I).
    destruct (S1 _ _ I) as (Eq & a' & r' & J' & Tq & _). apply (told_same H own a r o a' r' q C J J' To Tq). congruence.
  - destruct (in_keys _ _ (proj2 R2 (ex_intro _ a (ex_intro _ r (conj J St))))) as (q & I). apply (V _ q I).
    destruct (S2 _ _ I) as (Eq & a' & r' & J' & Tq & _). apply (told_same H own a r o a' r' q C J J' To Tq). congruence.
Qed.
Lemma answers_in look n l rs a (r : uhresult) : answers look n l rs -> In (a, r) rs -> In a l.
Proof.
  intros A. induction A as [|? ? ? ? _ _ IH|? ? ? ? ? _ _ IH]; intro I; [destruct I|right; auto|]. destruct I as [I|I]; [injection I as <- <-; now left|right; auto].
Qed.
Lemma purse_mine primary ks : wallet_ok H primary ks -> Forall (holds_key H ks) addrs -> (forall a r o, In (a, r) own -> told H a (h_txns r) o -> network_cond (o_cond o)) ->
  Forall (mine H ks) (spendable (wb_own w)).
Proof.
  intros WO KA NC. apply Forall_forall. intros o I. destruct (spendable_free o I) as (a & r & J & To & _). pose proof (answers_in _ _ _ _ _ _ A1 J) as Ia.
  rewrite Forall_forall in KA. pose proof T as T'. rewrite Forall_forall in T'. apply (paid_mine primary ks a); auto; [exact (NC a r o J To)|exact (proj1 To)].
Qed.
Lemma sel_of s (pool : list output) : NoDup s -> (forall o, In o s -> In o pool) -> selection s pool.
Proof.
  revert pool. induction s as [|o s IH]; intros pool N I; [exists pool; reflexivity|]. inversion N as [|? ? N1 N2]; subst.
  destruct (in_split o pool (I o (or_introl eq_refl))) as (l1 & l2 & ->). destruct (IH (l1 ++ l2) N2) as (rest & P).
  - intros q Q. assert (J : In q (l1 ++ o :: l2)) by (apply I; now right). apply in_app_or in J. apply in_or_app. destruct J as [J|[J|J]]; [auto|subst; contradiction|auto].
  - exists rest. cbn [app]. rewrite <- Permutation_middle. constructor. exact P.
Qed.
Lemma pay_iff amount : together H own -> NoDup addrs -> (can_pay H h t own amount <-> affordable (spendable (wb_own w)) amount).
Proof.
  intros C N. split; intros (s & X).
  - destruct X as (N1 & F & L & A). exists s. split; [|auto]. apply sel_of.
    + unfold ids in N1. apply NoDup_map_inv in N1. exact N1.
    + intros o I. apply free_spendable; [exact C|]. rewrite Forall_forall in F. auto.
  - destruct X as (S & L & A). exists s. destruct own_seen as (So & _). split; [|split; [|auto]].
    + apply (sel_nodup o_id s _ S). exact (spendable_nodup H _ _ So C (answers_nodup _ _ _ _ A1 N)).
    + apply Forall_forall. intros o I. apply spendable_free. destruct S as (rest & P). apply (Permutation_in _ P). apply in_or_app. now left.
Qed.
Lemma purse_modest : together H own -> NoDup addrs -> (forall s, NoDup (ids s) -> Forall (free H h t own) s -> modest (worth s)) -> modest (worth (spendable (wb_own w))).
Proof.
  intros C N M. apply M; [destruct own_seen as (So & _); exact (spendable_nodup H _ _ So C (answers_nodup _ _ _ _ A1 N))|].
  apply Forall_forall. intros o I. exact (spendable_free o I).
Qed.
End W.
End Loaded.
