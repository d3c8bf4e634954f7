(** Facts about balances: locks (C31), double counting (C32), merging (C33). *)
From Verif Require Import Base BaseFacts Encoders Primitive Types Conditions Fulfillments ThreeBotTypes Txn Wallet Spec_Wallet WalletFacts.
From Coq Require Import ZifyBool ZifyNat ZifyN.
Ltac Zify.zify_post_hook ::= Z.div_mod_to_equations.

Lemma sum_app a b : sum (a ++ b) = sum a + sum b.
Proof. induction a as [|x a IH]; cbn; [reflexivity|]. rewrite IH. lia. Qed.
Lemma sum_perm a b : Permutation a b -> sum a = sum b.
Proof. induction 1; cbn; lia. Qed.
Lemma worth_app a b : worth (a ++ b) = worth a + worth b.
Proof. unfold worth. now rewrite map_app, sum_app. Qed.
Lemma worth_perm a b : Permutation a b -> worth a = worth b.
Proof. intro P. apply sum_perm, Permutation_map, P. Qed.
Lemma total_worth l : total l = worth l.
Proof. unfold total, worth. induction l as [|x l IH]; cbn; [reflexivity|]. now rewrite IH. Qed.

Lemma locked_open l h t : locked_check l h t = false <-> lock_open l h t.
Proof.
  unfold locked_check, lock_is_timestamp, lock_open. change (500 * 1000 * 1000)%Z with 500000000%Z.
  destruct (500000000 <=? l)%Z eqn:E; lia.
Qed.
Lemma is_locked_open b o : is_locked b o = false <-> open_at (w_height b) (w_time b) o.
Proof.
  unfold is_locked, open_at. destruct (o_cond o); cbn; rewrite locked_open; try reflexivity; unfold lock_open; lia.
Qed.
Lemma filter_split {A} (f : A -> bool) l : Permutation (filter (fun x => negb (f x)) l ++ filter f l) l.
Proof.
  induction l as [|x l IH]; cbn; [constructor|]. destruct (f x); cbn.
  - eapply perm_trans; [symmetry; apply Permutation_middle|]. now constructor.
  - now constructor.
Qed.
Lemma partition_ok b l : worth (unlocked b l) + locked_of b l = worth l.
Proof.
  unfold unlocked, locked_of. destruct (known_chain b); [|lia].
  rewrite (total_worth (filter (is_locked b) l)). erewrite <- (worth_perm _ _ (filter_split (is_locked b) l)). symmetry. apply worth_app.
Qed.
Lemma known_chain_ok b : known_chain b = true <-> (0 < w_time b /\ 0 < w_height b)%Z.
Proof. unfold known_chain. lia. Qed.
Lemma unlocked_in b l o : (0 < w_time b)%Z -> (0 < w_height b)%Z ->
  (In o (unlocked b l) <-> In o l /\ open_at (w_height b) (w_time b) o).
Proof.
  intros T Hh. unfold unlocked. rewrite (proj2 (known_chain_ok b)) by auto.
  rewrite filter_In, negb_true_iff, is_locked_open. tauto.
Qed.
Lemma unlocked_unknown b l : ~ (0 < w_time b /\ 0 < w_height b)%Z -> unlocked b l = l /\ locked_of b l = 0.
Proof. intro U. unfold unlocked, locked_of. destruct (known_chain b) eqn:E; [|auto]. now apply known_chain_ok in E. Qed.

(** ** C32 *)
Lemma created_split h id : seen h true false id -> last_created_unconfirmed h id -> ~ unconfirmed_first h.
Proof.
  intros (y & I & A & C & S) (h1 & x & h2 & -> & Ax & Cx & Sx & N) U.
  apply in_app_iff in I as [I|[->|I]].
  - apply (U h1 x h2 eq_refl Cx Sx). unfold about in *. exists y. unfold about. rewrite Ax. auto.
  - congruence.
  - apply N. exists y. auto.
Qed.
Lemma once h id : unconfirmed_first h -> has (w_outs (observe bal_new h)) id -> ~ has (w_unc (observe bal_new h)) id.
Proof.
  intros U I J. pose proof (inv_observe h) as V. apply (i_outs h _ V) in I. apply (i_unc h _ V) in J.
  eapply created_split; [apply I|apply J|exact U].
Qed.
Lemma values_ids h d b : inv h b -> (d = w_outs b \/ d = w_spent b \/ d = w_unc b \/ d = w_uncspent b) -> ids (values d) = map fst d.
Proof.
  intros V D. pose proof (i_val h b V d D) as W. clear D. unfold ids, values. induction d as [|[k o] d IH]; cbn; [reflexivity|].
  f_equal; [apply (W k o); now left|]. apply IH. intros id x I. apply W. now right.
Qed.
Lemma NoDup_app_iff {A} (a b : list A) : NoDup (a ++ b) <-> NoDup a /\ NoDup b /\ (forall x, In x a -> ~ In x b).
Proof.
  induction a as [|x a IH]; cbn.
  - split; [intro N; repeat split; auto; constructor|tauto].
  - rewrite !NoDup_cons_iff, IH, in_app_iff. firstorder; subst; eauto.
Qed.
Lemma all_ids_nodup h : unconfirmed_first h ->
  NoDup (ids (values (w_outs (observe bal_new h)) ++ values (w_unc (observe bal_new h)))).
Proof.
  intro U. pose proof (inv_observe h) as V. unfold ids. rewrite map_app.
  fold (ids (values (w_outs (observe bal_new h)))). fold (ids (values (w_unc (observe bal_new h)))).
  rewrite (values_ids h (w_outs (observe bal_new h)) _ V) by auto. rewrite (values_ids h (w_unc (observe bal_new h)) _ V) by auto.
  apply NoDup_app_iff. repeat split; [apply V|apply V|]. intros id I J. eapply once; eauto.
Qed.

(** ** C33 *)
Definition apart (a b : bal) : Prop := forall id,
  ~ ((has (w_outs a) id \/ has (w_spent a) id \/ has (w_unc a) id \/ has (w_uncspent a) id) /\
     (has (w_outs b) id \/ has (w_spent b) id \/ has (w_unc b) id \/ has (w_uncspent b) id)).
Definition keyed (b : bal) : Prop :=
  NoDup (keys (w_outs b)) /\ NoDup (keys (w_spent b)) /\ NoDup (keys (w_unc b)) /\ NoDup (keys (w_uncspent b)).
Lemma balance_add_apart a b c : keyed b -> apart a b -> balance_add a b = Ok c ->
  w_outs c = w_outs a ++ w_outs b /\ w_spent c = w_spent a ++ w_spent b /\
  w_unc c = w_unc a ++ w_unc b /\ w_uncspent c = w_uncspent a ++ w_uncspent b.
Proof.
  intros (N1 & N2 & N3 & N4) P E. unfold balance_add in E. apply bind_ok in E as ([[t h] k] & _ & E).
  apply ok_inj in E. subst c. cbn.
  repeat split; apply dmerge_new; auto; intros j I J; apply (P j); unfold has; change (map fst) with (@keys output); auto.
Qed.
Lemma balance_add_total a b : (w_height b = w_height a -> w_time b = w_time a) -> (w_height b < w_height a -> w_time b <= w_time a)%Z ->
  (w_height a < w_height b -> w_time a < w_time b)%Z -> exists c, balance_add a b = Ok c.
Proof.
  intros E L G. unfold balance_add. destruct (w_height b <=? w_height a)%Z eqn:C.
  - assert (negb (w_time a <? w_time b)%Z = true) as -> by lia. cbn. eauto.
  - assert (negb (w_time b <=? w_time a)%Z = true) as -> by lia. cbn. eauto.
Qed.
