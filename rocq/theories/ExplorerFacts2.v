(** Lemmas about histories and the balances made from them. *)
From Coq Require Import Sorting.Sorted.
From Verif Require Import Base BaseFacts Encoders Currency Primitive Types Conditions Fulfillments ThreeBotTypes Txn TxnJson Wallet Explorer
  Spec_Wallet Spec_Explorer TypesFacts WalletFacts WalletFacts2 ExplorerFacts.
From Coq Require Import ZifyBool ZifyNat ZifyN.
Ltac Zify.zify_post_hook ::= Z.div_mod_to_equations.

(** ** Sorting *)
Definition key_ge (x y : etx) : Prop := (sort_key y <= sort_key x)%Z.
Lemma insert_perm x l : Permutation (x :: l) (insert_desc x l).
Proof.
  induction l as [|y l IH]; cbn [insert_desc]; [constructor; constructor|]. destruct (sort_key y <=? sort_key x)%Z; [reflexivity|].
  rewrite perm_swap. constructor. exact IH.
Qed.
Lemma sort_perm l : Permutation l (sort_desc l).
Proof.
  induction l as [|x l IH]; cbn [sort_desc fold_right]; [constructor|].
  transitivity (x :: sort_desc l); [constructor; exact IH | apply insert_perm].
Qed.
Lemma insert_sorted x l : StronglySorted key_ge l -> StronglySorted key_ge (insert_desc x l).
Proof.
  induction l as [|y l IH]; cbn [insert_desc]; intro Q; [repeat constructor|].
  destruct (sort_key y <=? sort_key x)%Z eqn:E.
  - inversion Q as [|? ? Q1 Q2]; subst. constructor; [exact Q|]. constructor; [unfold key_ge; lia|].
    apply Forall_forall. intros z I. pose proof (proj1 (Forall_forall _ _) Q2 z I) as G. unfold key_ge in *. lia.
  - inversion Q as [|? ? Q1 Q2]; subst. constructor; [exact (IH Q1)|]. apply Forall_forall. intros z I.
    apply (Permutation_in _ (Permutation_sym (insert_perm x l))) in I as [<-|I]; [unfold key_ge; lia|].
    exact (proj1 (Forall_forall _ _) Q2 z I).
Qed.
Lemma sort_sorted l : StronglySorted key_ge (sort_desc l).
Proof. induction l as [|x l IH]; cbn [sort_desc fold_right]; [constructor | apply insert_sorted, IH]. Qed.
Definition with_key (k : Z) (l : list etx) : list etx := filter (fun x => (sort_key x =? k)%Z) l.
Lemma insert_stable k x l : with_key k (insert_desc x l) = with_key k (x :: l).
Proof.
  induction l as [|y l IH]; cbn [insert_desc]; [reflexivity|]. destruct (sort_key y <=? sort_key x)%Z eqn:E; [reflexivity|].
  unfold with_key in *. cbn [filter] in *. rewrite IH. destruct (sort_key x =? k)%Z eqn:A, (sort_key y =? k)%Z eqn:B; try reflexivity. lia.
Qed.
Lemma sort_stable k l : with_key k (sort_desc l) = with_key k l.
Proof.
  induction l as [|x l IH]; [reflexivity|]. cbn [sort_desc fold_right]. rewrite insert_stable. unfold with_key, sort_desc in *. cbn [filter]. rewrite IH. reflexivity.
Qed.
Lemma StronglySorted_impl_in {A} (R S' : A -> A -> Prop) l : (forall x y, In x l -> In y l -> R x y -> S' x y) -> StronglySorted R l -> StronglySorted S' l.
Proof.
  induction l as [|x l IH]; intros I Q; [constructor|]. inversion Q as [|? ? Q1 Q2]; subst. constructor.
  - apply IH; [|exact Q1]. intros a b Ia Ib. apply I; right; assumption.
  - apply Forall_forall. intros y Iy. apply I; [left; reflexivity | right; exact Iy | exact (proj1 (Forall_forall _ _) Q2 y Iy)].
Qed.

(** ** Balances as observations *)
(** the dictionaries, without the chain context and the set of addresses *)
Definition core (b : bal) : bal := mkbal (w_outs b) (w_spent b) (w_unc b) (w_uncspent b) 0 0 [] [].
Lemma core_add b o c s : core (dicts_add b o c s) = dicts_add (core b) o c s.
Proof.
  unfold dicts_add, core. cbn [w_outs w_spent w_unc w_uncspent].
  destruct c, s; destruct (din (w_spent b) (o_id o)) eqn:A, (din (w_uncspent b) (o_id o)) eqn:B; cbn [negb andb w_outs w_spent w_unc w_uncspent]; reflexivity.
Qed.
Section Hash.
Variable H : bytes -> bytes.
Lemma output_add_core b o c s b' : output_add H b o c s = Ok b' -> core b' = dicts_add (core b) o c s.
Proof.
  unfold output_add. intro E. apply bind_ok in E as (u & Eu & E). apply bind_ok in E as (t & Et & E). apply ok_inj in E. subst b'.
  rewrite <- core_add. reflexivity.
Qed.
Lemma cond_address_pays a o s : cond_address H (o_cond o) = Ok s -> pays H a o = listN_eqb s a.
Proof. unfold cond_address, pays. intro E. apply bind_ok in E as (u & Eu & E). rewrite Eu, E. reflexivity. Qed.
Lemma add_matching_core a c s os b b' : add_matching H a c s b os = Ok b' ->
  core b' = observe (core b) (map (fun o => mkobs o c s) (filter (pays H a) os)).
Proof.
  revert b. induction os as [|o os IH]; intros b E; cbn [add_matching filter map] in *; [apply ok_inj in E; subst; reflexivity|].
  apply bind_ok in E as (t & Et & E). apply bind_ok in E as (b1 & E1 & E). rewrite (cond_address_pays a o t Et).
  apply IH in E. destruct (listN_eqb t a).
  - apply output_add_core in E1. rewrite E1 in E. exact E.
  - apply ok_inj in E1. subst. exact E.
Qed.
Lemma observe_app b h k : observe b (h ++ k) = observe (observe b h) k.
Proof. apply fold_left_app. Qed.
Lemma spent_by_ok t ins : coin_inputs t = Ok ins -> map parent_of ins = spent_by t.
Proof. unfold spent_by, inputs_of. intros ->. reflexivity. Qed.
Lemma add_txn_core a b x b' : add_txn H a b x = Ok b' -> core b' = observe (core b) (observations H a x).
Proof.
  unfold add_txn. intro E. apply bind_ok in E as (ins & Ei & E). apply bind_ok in E as (b1 & E1 & E).
  apply add_matching_core in E1. apply add_matching_core in E. unfold observations. rewrite observe_app, <- (spent_by_ok _ _ Ei), <- E1. exact E.
Qed.
Lemma add_txns_core a l b b' : add_txns H a b l = Ok b' -> core b' = observe (core b) (history H a l).
Proof.
  revert b. induction l as [|x l IH]; intros b E; cbn [add_txns history flat_map] in *; [apply ok_inj in E; subst; reflexivity|].
  apply bind_ok in E as (b1 & E1 & E). apply add_txn_core in E1. apply IH in E. unfold history in E. rewrite observe_app, <- E1. exact E.
Qed.
Lemma with_chain_core b i : core (with_chain b i) = core b.
Proof. destruct i as [[[h t] k]|]; reflexivity. Qed.
Lemma address_balance_core r i b a : uh_str H (h_uh r) = Ok a -> address_balance H r i = Ok b -> core b = observe bal_new (history H a (h_txns r)).
Proof.
  unfold address_balance. intros -> E. cbn [bind] in E. apply bind_ok in E as (b1 & E1 & E). apply ok_inj in E. subst. rewrite with_chain_core.
  apply add_txns_core in E1. exact E1.
Qed.
Lemma address_balance_total r i a : uh_str H (h_uh r) = Ok a ->
  (forall x, In x (h_txns r) -> (exists l, coin_inputs (e_txn x) = Ok l) /\
     forall o, In o (spent_by (e_txn x) ++ coin_outputs (e_txn x)) -> exists s, cond_address H (o_cond o) = Ok s) ->
  exists b, address_balance H r i = Ok b.
Proof.
  intros E P. unfold address_balance. rewrite E. cbn [bind].
  assert (M : forall c s os b, (forall o, In o os -> exists s, cond_address H (o_cond o) = Ok s) -> exists b', add_matching H a c s b os = Ok b').
  { intros c s os. induction os as [|o os IH]; intros b Q; cbn [add_matching]; [eauto|].
    destruct (Q o (or_introl eq_refl)) as (t & Et). rewrite Et. cbn [bind].
    destruct (listN_eqb t a).
    - unfold output_add. unfold cond_address in Et. apply bind_ok in Et as (u & Eu & Et). rewrite Eu. cbn [bind]. rewrite Et. cbn [bind].
      apply IH. intros o' I. apply Q. right. exact I.
    - cbn [bind]. apply IH. intros o' I. apply Q. right. exact I. }
  assert (T : forall l b, (forall x, In x l -> In x (h_txns r)) -> exists b', add_txns H a b l = Ok b').
  { induction l as [|x l IH]; intros b Q; cbn [add_txns]; [eauto|].
    destruct (P x (Q x (or_introl eq_refl))) as ((ins & Ei) & Po). unfold add_txn. rewrite Ei. cbn [bind]. rewrite (spent_by_ok _ _ Ei).
    destruct (M (negb (e_unconfirmed x)) true (spent_by (e_txn x)) b) as (b1 & ->); [intros o I; apply Po, in_or_app; auto|]. cbn [bind].
    destruct (M (negb (e_unconfirmed x)) false (coin_outputs (e_txn x)) b1) as (b2 & ->); [intros o I; apply Po, in_or_app; auto|]. cbn [bind].
    apply IH. intros y I. apply Q. right. exact I. }
  destruct (T (h_txns r) bal_new) as (b & ->); [auto|]. cbn [bind]. eauto.
Qed.

(** ** What is seen in a history *)
Lemma in_history a l y : In y (history H a l) <-> exists x, In x l /\ In y (observations H a x).
Proof. apply in_flat_map. Qed.
Lemma in_observations a x y : In y (observations H a x) <->
  ob_confirmed y = negb (e_unconfirmed x) /\ pays H a (ob_out y) = true /\
  ((ob_spent y = true /\ In (ob_out y) (spent_by (e_txn x))) \/ (ob_spent y = false /\ In (ob_out y) (coin_outputs (e_txn x)))).
Proof.
  unfold observations. rewrite in_app_iff, !in_map_iff. split.
  - intros [(o & <- & I)|(o & <- & I)]; apply filter_In in I as (I & P); cbn; tauto.
  - intros (C & P & [(Sy & I)|(Sy & I)]); [left|right]; exists (ob_out y); (split; [destruct y; cbn in *; subst; reflexivity | apply filter_In; auto]).
Qed.
Lemma seen_created a l c id : seen (history H a l) c false id <-> exists x, In x l /\ e_unconfirmed x = negb c /\ creates H a x id.
Proof.
  unfold seen, about, creates. split.
  - intros (y & I & Eid & C & Sy). apply in_history in I as (x & Ix & I). apply in_observations in I as (Cx & P & [(Sx & _)|(_ & Io)]); [congruence|].
    exists x. split; [exact Ix|]. split; [rewrite Cx in C; rewrite <- C, negb_involutive; reflexivity | eauto].
  - intros (x & Ix & C & o & Io & P & Eid). exists (mkobs o c false). repeat split; [|exact Eid].
    apply in_history. exists x. split; [exact Ix|]. apply in_observations. cbn. rewrite C, negb_involutive. tauto.
Qed.
Lemma seen_used a l c id : seen (history H a l) c true id <-> exists x, In x l /\ e_unconfirmed x = negb c /\ uses H a x id.
Proof.
  unfold seen, about, uses. split.
  - intros (y & I & Eid & C & Sy). apply in_history in I as (x & Ix & I). apply in_observations in I as (Cx & P & [(_ & Io)|(Sx & _)]); [|congruence].
    exists x. split; [exact Ix|]. split; [rewrite Cx in C; rewrite <- C, negb_involutive; reflexivity | eauto].
  - intros (x & Ix & C & o & Io & P & Eid). exists (mkobs o c true). repeat split; [|exact Eid].
    apply in_history. exists x. split; [exact Ix|]. apply in_observations. cbn. rewrite C, negb_involutive. tauto.
Qed.
Lemma seen_spent_used a l id : seen_spent (history H a l) id <-> exists x, In x l /\ uses H a x id.
Proof.
  unfold seen_spent. rewrite !seen_used. split.
  - intros [(x & I & _ & U)|(x & I & _ & U)]; eauto.
  - intros (x & I & U). destruct (e_unconfirmed x) eqn:E; [right|left]; exists x; auto.
Qed.
(** listed newest first, the unconfirmed observations come before all confirmed ones *)
Lemma history_split a l : StronglySorted newer l -> exists h1 h2, history H a l = h1 ++ h2 /\
  Forall (fun y => ob_confirmed y = false) h1 /\ Forall (fun y => ob_confirmed y = true) h2.
Proof.
  induction l as [|x l IH]; intro Q; [exists [], []; repeat split; constructor|].
  inversion Q as [|? ? Q1 Q2]; subst. destruct (IH Q1) as (h1 & h2 & E & F1 & F2). cbn [history flat_map]. unfold history in E. rewrite E.
  destruct (e_unconfirmed x) eqn:U.
  - exists (observations H a x ++ h1), h2. split; [apply app_assoc|]. split; [|exact F2]. apply Forall_app. split; [|exact F1].
    apply Forall_forall. intros y I. apply in_observations in I as (C & _). rewrite C, U. reflexivity.
  - exists [], (observations H a x ++ h1 ++ h2). split; [reflexivity|]. split; [constructor|]. rewrite <- E. apply Forall_forall. intros y I.
    apply in_app_or in I as [I|I]; [apply in_observations in I as (C & _); rewrite C, U; reflexivity|].
    apply in_flat_map in I as (z & Iz & I). apply in_observations in I as (C & _). rewrite C.
    destruct (proj1 (Forall_forall _ _) Q2 z Iz) as [Ux|(h & k & _ & (Uz & _) & _)]; [congruence|]. rewrite Uz. reflexivity.
Qed.
Lemma history_unconfirmed_first a l : StronglySorted newer l -> unconfirmed_first (history H a l).
Proof.
  intro Q. destruct (history_split a l Q) as (h1 & h2 & E & F1 & F2). intros k1 x k2 Ek C _ (y & I & _ & Cy & _).
  rewrite E in Ek. clear E. revert h1 F1 Ek. induction k1 as [|z k1 IH]; intros h1 F1 Ek; [destruct I|].
  destruct h1 as [|w h1]; cbn [app] in Ek.
  - subst h2. apply Forall_inv_tail, Forall_app in F2 as (_ & F2). inversion F2; subst. congruence.
  - injection Ek as -> Ek. inversion F1; subst. destruct I as [->|I]; [congruence|]. exact (IH I h1 ltac:(assumption) Ek).
Qed.
Lemma last_created_iff a l id : StronglySorted newer l ->
  (last_created_unconfirmed (history H a l) id <-> seen (history H a l) false false id /\ ~ seen (history H a l) true false id).
Proof.
  intro Q. destruct (history_split a l Q) as (h1 & h2 & E & F1 & F2). rewrite E. split.
  - intros (k1 & x & k2 & Ek & A & C & Sx & Nx). split.
    + exists x. rewrite Ek. repeat split; auto. apply in_or_app. right. left. reflexivity.
    + intro Y. apply Nx. destruct Y as (y & I & Ay & Cy & Sy). exists y. repeat split; auto.
      clear E A Ay Sx Sy Nx. revert h1 F1 Ek I. induction k1 as [|z k1 IH]; intros h1 F1 Ek I.
      * destruct h1 as [|w h1]; cbn [app] in Ek; [subst h2; inversion F2; subst; congruence|]. injection Ek as -> <-. destruct I as [->|I]; [congruence | exact I].
      * destruct h1 as [|w h1]; cbn [app] in Ek; [subst h2; apply Forall_inv_tail, Forall_app in F2 as (_ & F2); inversion F2; subst; congruence|].
        injection Ek as -> Ek. inversion F1; subst. destruct I as [->|I]; [congruence|]. exact (IH h1 ltac:(assumption) Ek I).
  - intros ((x & I & A & C & Sx) & Nx). apply in_split in I as (k1 & k2 & Ek). exists k1, x, k2. repeat split; auto.
    intros (y & I & Ay & Cy & Sy). apply Nx. exists y. rewrite Ek. repeat split; auto. apply in_or_app. right. right. exact I.
Qed.
End Hash.
