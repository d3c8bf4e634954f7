(** Lemmas about explorers' answers. *)
From Coq Require Import Sorting.Sorted.
From Verif Require Import Base BaseFacts Encoders Currency Primitive Types Conditions Fulfillments ThreeBotTypes Txn TxnJson Wallet Explorer
  Spec_Wallet Spec_Explorer TypesFacts WalletFacts.
From Coq Require Import ZifyBool ZifyNat ZifyN.
Ltac Zify.zify_post_hook ::= Z.div_mod_to_equations.

(** ** Requests *)
Lemma get_step_none o : get_step o = None <-> silent o.
Proof.
  split.
  - destruct o as [|c b|c l|e]; cbn [get_step]; intro E; [left; reflexivity| | |discriminate].
    + destruct ((c =? 400)%Z && _); [discriminate|]. destruct (c =? 0)%Z eqn:C; [|discriminate]. apply Z.eqb_eq in C. subst. right. eauto.
    + repeat (destruct (_ =? _)%Z; try discriminate).
  - intros [-> |[b ->]]; reflexivity.
Qed.
Lemma post_step_none o : post_step o = None <-> silent o.
Proof.
  split.
  - destruct o as [|c b|c l|e]; cbn [post_step]; intro E; [left; reflexivity| | |discriminate].
    + destruct (c =? 0)%Z eqn:C; [|discriminate]. apply Z.eqb_eq in C. subst. right. eauto.
    + repeat (destruct (_ =? _)%Z; try discriminate).
  - intros [-> |[b ->]]; reflexivity.
Qed.
Lemma get_step_some o r : get_step o = Some r -> get_says o r.
Proof.
  destruct o as [|c b|c l|e]; cbn [get_step]; intro E; [discriminate| | |injection E as <-; constructor].
  - destruct (c =? 400)%Z eqn:C; cbn [andb] in E.
    + apply Z.eqb_eq in C. subst. destruct (has_text "unrecognized hash" b || has_text "not found" b) eqn:T.
      * injection E as <-. apply GS_unknown. apply orb_true_iff in T. exact T.
      * change ((400 =? 0)%Z) with false in E. injection E as <-. apply orb_false_iff in T. apply GS_error; [lia | right; exact T].
    + destruct (c =? 0)%Z eqn:Z0; [discriminate|]. injection E as <-. apply GS_error; lia.
  - destruct (c =? 200)%Z eqn:A; [apply Z.eqb_eq in A; subst; injection E as <-; constructor|].
    destruct (c =? 204)%Z eqn:B; [apply Z.eqb_eq in B; subst; injection E as <-; constructor|].
    destruct (c =? 201)%Z eqn:C; [apply Z.eqb_eq in C; subst; injection E as <-; constructor|].
    injection E as <-. constructor; lia.
Qed.
Lemma post_step_some o r : post_step o = Some r -> post_says o r.
Proof.
  destruct o as [|c b|c l|e]; cbn [post_step]; intro E; [discriminate| | |injection E as <-; constructor].
  - destruct (c =? 0)%Z eqn:Z0; [discriminate|]. injection E as <-. apply PS_error; lia.
  - destruct (c =? 200)%Z eqn:A; [apply Z.eqb_eq in A; subst; injection E as <-; constructor|].
    destruct (c =? 201)%Z eqn:B; cbn [orb] in E; [apply Z.eqb_eq in B; subst; injection E as <-; constructor; auto|].
    destruct (c =? 204)%Z eqn:C; [apply Z.eqb_eq in C; subst; injection E as <-; constructor; auto|].
    injection E as <-. constructor; lia.
Qed.
Section Try.
Variable step : outcome -> option (res bytes).
Variable says : outcome -> res bytes -> Prop.
Hypothesis N : forall o, step o = None <-> silent o.
Hypothesis Y : forall o r, step o = Some r -> says o r.
Lemma try_search addrs net order : texts addrs -> Forall (fun i => (i < length addrs)%nat) order ->
  let x := try_all step addrs (Ok tt) net order in search says net order (fst x) (snd x).
Proof.
  intros T. induction order as [|i order IH]; intro B; cbn [try_all fst snd].
  - left. repeat split; constructor.
  - inversion B as [|? ? Bi B' ]; subst.
    destruct (nth_error addrs i) as [a|] eqn:E; [|apply nth_error_None in E; lia].
    assert (A : a <> None) by (exact (proj1 (Forall_forall _ _) T a (nth_error_In _ _ E))). destruct a as [a|]; [|contradiction].
    destruct (step (net i)) as [r|] eqn:Sr; cbn [fst snd].
    + right. exists [], i, order. repeat split; [constructor| |exact (Y _ _ Sr)]. intro Q. apply N in Q. congruence.
    + apply N in Sr. destruct (IH B') as [(C & F & R)|(bf & j & rest & O & C & F & Nj & R)].
      * left. rewrite C, R. repeat split. constructor; assumption.
      * right. exists (i :: bf), j, rest. rewrite C. subst order. repeat split; try assumption. constructor; assumption.
Qed.
End Try.
Lemma shuffled_bound {A} (addrs : list A) order : shuffled addrs order -> Forall (fun i => (i < length addrs)%nat) order /\ NoDup order.
Proof.
  intro P. split.
  - apply Forall_forall. intros i I. apply (Permutation_in _ P) in I. apply in_seq in I. lia.
  - apply (Permutation_NoDup (Permutation_sym P)). apply seq_NoDup.
Qed.

(** ** Attaching ids and parents *)
Lemma jlist_of_listed k e l : jlist_of k e = Ok l -> listed k e l.
Proof.
  unfold jlist_of, jor. intro E. apply bind_ok in E as (v & Ev & E). exists v. split; [exact Ev|].
  destruct (jtruthy v); [exact E|]. cbn [jelems] in E. apply ok_inj in E. auto.
Qed.
Lemma listed_jlist_of k e l : listed k e l -> jlist_of k e = Ok l.
Proof. intros (v & Ev & E). unfold jlist_of, jor. rewrite Ev. cbn [bind]. destruct (jtruthy v); [exact E|]. subst. reflexivity. Qed.
Lemma same_length_ok {A B} (l : list A) (m : list B) u : same_length l m = Ok u -> length m = length l.
Proof. unfold same_length. intro E. apply guard_ok in E. apply Nat.eqb_eq in E. auto. Qed.
Lemma set_parents_length l os : length (set_parents l os) = length l.
Proof. revert os. induction l as [|i l IH]; intros [|o os]; cbn; auto. Qed.
Lemma set_ids_length l is_ : length (set_ids l is_) = length l.
Proof. revert is_. induction l as [|i l IH]; intros [|o os]; cbn; auto. Qed.
Lemma set_parents_nth l os k i : length os = length l -> nth_error (set_parents l os) k = Some i ->
  exists i0 o, nth_error l k = Some i0 /\ nth_error os k = Some o /\ i = mkin (i_parent i0) (i_ff i0) (Some (mkout (o_value o) (o_cond o) (i_parent i0))).
Proof.
  revert os k. induction l as [|x l IH]; intros [|o os] [|k] L E; cbn in *; try discriminate; try lia.
  - injection E as <-. eauto.
  - apply IH; [lia | exact E].
Qed.
Lemma set_ids_nth l is_ k x : length is_ = length l -> nth_error (set_ids l is_) k = Some x ->
  exists o i, nth_error l k = Some o /\ nth_error is_ k = Some i /\ x = mkout (o_value o) (o_cond o) i.
Proof.
  revert is_ k. induction l as [|y l IH]; intros [|o os] [|k] L E; cbn in *; try discriminate; try lia.
  - injection E as <-. eauto.
  - apply IH; [lia | exact E].
Qed.
Lemma mapM_nth {A B} (f : A -> res B) l r k y : mapM f l = Ok r -> nth_error r k = Some y -> exists x, nth_error l k = Some x /\ f x = Ok y.
Proof.
  revert r k. induction l as [|a l IH]; intros r k E N; cbn [mapM] in E.
  - apply ok_inj in E. subst. destruct k; discriminate.
  - apply bind_ok in E as (z & Ez & E). apply bind_ok in E as (zs & Es & E). apply ok_inj in E. subst.
    destruct k; cbn in N |- *; [injection N as <-; eauto | exact (IH _ _ Es N)].
Qed.
Lemma parents_ok read l ps os : mapM read ps = Ok os -> length ps = length l -> with_parents read l ps (set_parents l os).
Proof.
  intros M L. split; [apply set_parents_length|]. split; [exact L|]. intros k i E.
  apply set_parents_nth in E as (i0 & o & E0 & Eo & ->); [|rewrite (mapM_ok_length _ _ M); exact L].
  destruct (mapM_nth _ _ _ _ _ M Eo) as (p & Ep & R). exists i0, p, o. repeat split; try assumption. eexists. repeat split.
Qed.
Lemma ids_ok l js is_ : mapM hash_from_json js = Ok is_ -> length js = length l -> with_ids l js (set_ids l is_).
Proof.
  intros M L. split; [apply set_ids_length|]. split; [exact L|]. intros k x E.
  apply set_ids_nth in E as (o & i & E0 & Ei & ->); [|rewrite (mapM_ok_length _ _ M); exact L].
  destruct (mapM_nth _ _ _ _ _ M Ei) as (p & Ep & R). exists o, p. repeat split; assumption.
Qed.
Lemma refund_ids o is_ : length is_ = length (refunds o) -> refunds (set_refund o is_) = set_ids (refunds o) is_.
Proof. destruct o as [o|], is_ as [|i is_]; cbn; intro; try reflexivity; lia. Qed.

(** the setters touch nothing else *)
Lemma put_cin_outs t l : coin_outputs (put_cin t l) = coin_outputs t /\ blockstake_inputs (put_cin t l) = blockstake_inputs t /\
  blockstake_outputs (put_cin t l) = blockstake_outputs t.
Proof. destruct t; repeat split. Qed.
Lemma put_cin_ins t l l0 : coin_inputs t = Ok l0 -> length l = length l0 -> coin_inputs (put_cin t l) = Ok l.
Proof. destruct t; cbn; intros E L; try reflexivity; apply ok_inj in E; subst; destruct l; try reflexivity; discriminate. Qed.
Lemma put_bin_same t l : coin_outputs (put_bin t l) = coin_outputs t /\ coin_inputs (put_bin t l) = coin_inputs t /\
  blockstake_outputs (put_bin t l) = blockstake_outputs t.
Proof. destruct t; repeat split. Qed.
Lemma put_bin_ins t l : length l = length (blockstake_inputs t) -> blockstake_inputs (put_bin t l) = l.
Proof. destruct t; cbn; intro L; try reflexivity; destruct l; try reflexivity; discriminate. Qed.
Lemma coin_ids_same t l : coin_inputs (set_coin_ids t l) = coin_inputs t /\ blockstake_inputs (set_coin_ids t l) = blockstake_inputs t /\
  blockstake_outputs (set_coin_ids t l) = blockstake_outputs t.
Proof. destruct t; repeat split. Qed.
Lemma coin_ids_outs t l : (forall g, t <> T209 g) -> length l = length (coin_outputs t) -> coin_outputs (set_coin_ids t l) = set_ids (coin_outputs t) l.
Proof.
  destruct t as [t|t|t|t|t|t|t|t]; cbn [coin_outputs set_coin_ids s_cout m_new c_refund r_refund b_refund u_refund n_refund]; intros G L;
    try reflexivity; try (apply refund_ids; exact L); [|destruct (G t eq_refl)].
  destruct (m_new t); [|reflexivity]. destruct l; [reflexivity | discriminate].
Qed.
Lemma stake_ids_same t l : coin_inputs (set_stake_ids t l) = coin_inputs t /\ blockstake_inputs (set_stake_ids t l) = blockstake_inputs t /\
  coin_outputs (set_stake_ids t l) = coin_outputs t.
Proof. destruct t; repeat split. Qed.
Lemma stake_ids_outs t l : length l = length (blockstake_outputs t) -> blockstake_outputs (set_stake_ids t l) = set_ids (blockstake_outputs t) l.
Proof. destruct t; cbn; intro L; try reflexivity; destruct l; try reflexivity; discriminate. Qed.

Section Hash.
Variable H : bytes -> bytes.
Variable ip_parse : pystr -> res bytes.
Variable now : Z.

(** what reading a transaction amounts to *)
Lemma explorer_txn_inv e x : explorer_txn H ip_parse now e = Ok x ->
  exists raw id t ido ins cps cpos cids chs bps bpos bids bhs,
    jget "rawtransaction" e = Ok raw /\ jget "id" e = Ok id /\ txn_parse H ip_parse now raw (jbval id) = Ok (t, ido) /\
    coin_inputs t = Ok ins /\
    jlist_of "coininputoutputs" e = Ok cps /\ length cps = length ins /\ mapM (cout_from_json H now) cps = Ok cpos /\
    jlist_of "coinoutputids" e = Ok cids /\ length cids = length (coin_outputs t) /\ mapM hash_from_json cids = Ok chs /\
    jlist_of "blockstakeinputoutputs" e = Ok bps /\ length bps = length (blockstake_inputs t) /\ mapM (bout_from_json H now) bps = Ok bpos /\
    jlist_of "blockstakeoutputids" e = Ok bids /\ length bids = length (blockstake_outputs t) /\ mapM hash_from_json bids = Ok bhs /\
    e_txn x = set_stake_ids (put_bin (set_coin_ids (put_cin t (set_parents ins cpos)) chs) (set_parents (blockstake_inputs t) bpos)) bhs /\
    e_id x = (match ido with Some i => i | None => [] end) /\
    ((jget_d "unconfirmed" (JBool false) e = Ok (JBool true) /\ e_unconfirmed x = true /\ e_height x = (-1)%Z) \/
     (jget_d "unconfirmed" (JBool false) e = Ok (JBool false) /\ e_unconfirmed x = false /\ (0 <= e_height x)%Z /\
      exists v, jget_d "height" JNull e = Ok v /\ jint v = Ok (e_height x))).
Proof.
  unfold explorer_txn. intro E.
  apply bind_ok in E as (raw & Eraw & E). apply bind_ok in E as (id & Eid & E). apply bind_ok in E as ([t ido] & Et & E). cbn [fst snd] in E.
  apply bind_ok in E as (cps & Ecps & E). apply bind_ok in E as (ins & Eins & E). apply bind_ok in E as (u1 & L1 & E). apply same_length_ok in L1.
  apply bind_ok in E as (cpos & Ecpos & E). apply bind_ok in E as (cids & Ecids & E). apply bind_ok in E as (u2 & L2 & E). apply same_length_ok in L2.
  destruct (put_cin_outs t (set_parents ins cpos)) as (O1 & O2 & O3). rewrite O1 in L2.
  apply bind_ok in E as (chs & Echs & E). apply bind_ok in E as (bps & Ebps & E). apply bind_ok in E as (u3 & L3 & E). apply same_length_ok in L3.
  destruct (coin_ids_same (put_cin t (set_parents ins cpos)) chs) as (P1 & P2 & P3). rewrite P2, O2 in L3. rewrite P2, O2 in E.
  apply bind_ok in E as (bpos & Ebpos & E). apply bind_ok in E as (bids & Ebids & E). apply bind_ok in E as (u4 & L4 & E). apply same_length_ok in L4.
  destruct (put_bin_same (set_coin_ids (put_cin t (set_parents ins cpos)) chs) (set_parents (blockstake_inputs t) bpos)) as (Q1 & Q2 & Q3).
  rewrite Q3, P3, O3 in L4.
  apply bind_ok in E as (bhs & Ebhs & E). apply bind_ok in E as (u & Eu & E).
  exists raw, id, t, ido, ins, cps, cpos, cids, chs, bps, bpos, bids, bhs.
  repeat (split; [assumption|]).
  destruct u as [|u| | | | |]; try discriminate. apply bind_ok in E as (h & Eh & E). apply ok_inj in E. subst x. cbn [e_txn e_id e_unconfirmed e_height].
  split; [reflexivity|]. split; [reflexivity|].
  destruct u; [left; apply ok_inj in Eh; subst; auto|right].
  apply bind_ok in Eh as (v & Ev & Eh). apply bind_ok in Eh as (z & Ez & Eh). apply bind_ok in Eh as (uu & G & Eh). apply guard_ok in G. apply ok_inj in Eh. subst.
  split; [exact Eu|]. split; [reflexivity|]. split; [lia|]. eauto.
Qed.

Lemma explorer_txn_state e x : explorer_txn H ip_parse now e = Ok x ->
  (e_unconfirmed x = true /\ e_height x = (-1)%Z) \/ (e_unconfirmed x = false /\ (0 <= e_height x)%Z).
Proof.
  intro E. apply explorer_txn_inv in E as (?&?&?&?&?&?&?&?&?&?&?&?&?&?&?&?&?&?&?&?&?&?&?&?&?&?&?&?&?&?&?&D).
  destruct D as [(_ & U & Hh)|(_ & U & Hh & _)]; auto.
Qed.
End Hash.
