(** Lemmas about outputs looked up, multi-signature balances, and the outputs a balance contains. *)
From Coq Require Import Sorting.Sorted.
From Verif Require Import Base BaseFacts Encoders Currency Primitive Types Conditions Fulfillments ThreeBotTypes Txn TxnJson Wallet Explorer
  Spec_Types Spec_Wallet Spec_Explorer TypesFacts WalletFacts WalletFacts2 ExplorerFacts ExplorerFacts2.
From Coq Require Import ZifyBool ZifyNat ZifyN.
Ltac Zify.zify_post_hook ::= Z.div_mod_to_equations.

Lemma key_error_ok {A} (r : res A) a : key_error r = Ok a -> r = Ok a.
Proof. destruct r as [x|e]; [intro E; exact E | destruct e; discriminate]. Qed.
Lemma find_first {A} (f : A -> bool) l x : find f l = Some x -> exists a b, l = a ++ x :: b /\ f x = true /\ Forall (fun y => f y = false) a.
Proof.
  induction l as [|y l IH]; cbn [find]; [discriminate|]. destruct (f y) eqn:E.
  - intro I. injection I as <-. exists [], l. repeat split; [exact E | constructor].
  - intro I. destruct (IH I) as (a & b & -> & F & G). exists (y :: a), b. repeat split; [exact F | constructor; assumption].
Qed.

Lemma unhexdig_small c d : unhexdig c = Some d -> d < 16.
Proof. unfold unhexdig. repeat match goal with |- context [if ?b then _ else _] => destruct b eqn:? end; intro E; try discriminate; injection E as <-; lia. Qed.
Lemma unhex_wf s : forall b, unhex s = Ok b -> wf_bytes b.
Proof.
  assert (G : forall n s b, (length s <= n)%nat -> unhex s = Ok b -> wf_bytes b); [|intros b; exact (G (length s) s b (le_n _))].
  clear s. induction n as [|n IH]; intros s b L E.
  - destruct s; [|cbn in L; lia]. apply ok_inj in E. subst. constructor.
  - destruct s as [|c s]; cbn [unhex] in E; [apply ok_inj in E; subst; constructor|]. cbn [length] in L.
    destruct (is_space c); [apply (IH s); [lia | exact E]|]. destruct s as [|d s]; [discriminate|]. cbn [length] in L.
    destruct (unhexdig c) as [x|] eqn:X; [|discriminate]. destruct (unhexdig d) as [y|] eqn:Y; [|discriminate].
    apply bind_ok in E as (r & Er & E). apply ok_inj in E. subst b. apply unhexdig_small in X. apply unhexdig_small in Y.
    constructor; [lia|]. apply (IH s); [lia | exact Er].
Qed.
Lemma hash_from_json_sound j h : hash_from_json j = Ok h -> h = [] \/ hash32 h.
Proof.
  destruct j as [| | |s| | |]; try discriminate; intro E.
  - left. cbn in E. apply hash_new_ok in E as (E & _). cbn in E. apply ok_inj in E. auto.
  - cbn [hash_from_json] in E. destruct s as [|c s]; apply hash_new_ok in E as (E & [L|L]); auto; cbn [bd_norm from_str] in E.
    + apply ok_inj in E. auto.
    + right. split; [exact L | exact (unhex_wf _ _ E)].
Qed.

(** the output list is the explorer's list of one or two entries *)
Section Hash.
Variable H : bytes -> bytes.
Variable ip_parse : pystr -> res bytes.
Variable now : Z.
Lemma output_get_inv k id resp o c s : output_get H ip_parse now k id resp = Ok (o, c, s) ->
  exists l, jget "transactions" resp = Ok (JArr l) /\
  hash_str (o_id o) = id /\ (exists a b, outputs_of k (e_txn c) = a ++ o :: b /\ Forall (fun y => hash_str (o_id y) <> id) a) /\
  ((exists cj, l = [cj] /\ explorer_txn H ip_parse now cj = Ok c /\ s = None) \/
   (exists cj sj y, (l = [cj; sj] \/ l = [sj; cj]) /\ explorer_txn H ip_parse now cj = Ok c /\ explorer_txn H ip_parse now sj = Ok y /\ s = Some y)).
Proof.
  unfold output_get. intro E. apply key_error_ok in E. apply bind_ok in E as (u & _ & E). apply bind_ok in E as (ts & Ets & E).
  apply bind_ok in E as (l & El & E). destruct ts as [| | | |l'| |]; try discriminate. apply ok_inj in El. subst l'. exists l. split; [exact Ets|].
  apply bind_ok in E as (cs & Ecs & E). apply bind_ok in E as (c' & Ec & E). apply bind_ok in E as (s' & Es & E).
  destruct (find _ _) as [o'|] eqn:F; [|discriminate]. apply ok_inj in E. injection E as -> -> ->.
  apply find_first in F as (a & b & Eo & Ho & Fa). apply listN_eqb_eq in Ho. split; [exact Ho|]. split.
  { exists a, b. split; [exact Eo|]. eapply Forall_impl; [|exact Fa]. intros y Q. cbn beta in Q. intro D. rewrite D in Q. rewrite listN_eqb_refl in Q. discriminate. }
  destruct l as [|x [|y [|z l]]]; try discriminate.
  - apply ok_inj in Ecs. subst cs. cbn [fst snd] in *. apply ok_inj in Es. left. exists x. auto.
  - apply bind_ok in Ecs as (hs & Ehs & Ecs). apply bind_ok in Ecs as (hc & Ehc & Ecs). apply bind_ok in Ecs as (g & Eg & Ecs). apply ok_inj in Ecs.
    right. destruct g; subst cs; cbn [fst snd] in *; apply bind_ok in Es as (w & Ew & Es); apply ok_inj in Es; eauto 10.
Qed.
Lemma explorer_ids e x o k : explorer_txn H ip_parse now e = Ok x -> In o (outputs_of k (e_txn x)) ->
  o_id o = [] \/ exists j, hash_from_json j = Ok (o_id o).
Proof.
  intros E I. apply explorer_txn_inv in E as (raw & id & t & ido & ins & cps & cpos & cids & chs & bps & bpos & bids & bhs & _ & _ & _ & Eins & _ & L1 & M1 & _ & L2 & M2 & _ & L3 & M3 & _ & L4 & M4 & Et & _).
  rewrite Et in I. clear Et. apply In_nth_error in I as (n & I).
  destruct (put_cin_outs t (set_parents ins cpos)) as (O1 & O2 & O3).
  destruct (coin_ids_same (put_cin t (set_parents ins cpos)) chs) as (P1 & P2 & P3).
  set (tp := put_bin (set_coin_ids (put_cin t (set_parents ins cpos)) chs) (set_parents (blockstake_inputs t) bpos)) in *.
  destruct (put_bin_same (set_coin_ids (put_cin t (set_parents ins cpos)) chs) (set_parents (blockstake_inputs t) bpos)) as (Q1 & Q2 & Q3). fold tp in Q1, Q2, Q3.
  destruct (stake_ids_same tp bhs) as (R1 & R2 & R3).
  destruct k; cbn [outputs_of] in I.
  - rewrite R3, Q1 in I. destruct t as [t|t|t|t|t|t|t|t].
    4: { cbn in I. destruct n as [|n]; cbn in I; [injection I as <-; left; reflexivity | destruct n; discriminate]. }
    all: rewrite coin_ids_outs in I; [|intros g D; discriminate D | rewrite O1, (mapM_ok_length _ _ M2); exact L2]; rewrite O1 in I;
      apply set_ids_nth in I as (o0 & i & _ & Ei & ->); [|rewrite (mapM_ok_length _ _ M2); exact L2];
      destruct (mapM_nth _ _ _ _ _ M2 Ei) as (j & _ & Ej); right; exists j; exact Ej.
  - rewrite stake_ids_outs in I; [|rewrite Q3, P3, O3, (mapM_ok_length _ _ M4); exact L4]. rewrite Q3, P3, O3 in I.
    apply set_ids_nth in I as (o0 & i & _ & Ei & ->); [|rewrite (mapM_ok_length _ _ M4); exact L4].
    destruct (mapM_nth _ _ _ _ _ M4 Ei) as (j & _ & Ej). right. exists j. exact Ej.
Qed.

(** ** Multi-signature balances *)
Definition mcore (b : option mbal) : bal := match b with Some y => core (snd y) | None => bal_new end.
Lemma madd_matching_core a c s os b b' : madd_matching H a c s b os = Ok b' ->
  mcore b' = observe (mcore b) (map (fun o => mkobs o c s) (filter (pays H a) os)).
Proof.
  revert b. induction os as [|o os IH]; intros b E; cbn [madd_matching filter map] in *; [apply ok_inj in E; subst; reflexivity|].
  apply bind_ok in E as (t & Et & E). apply bind_ok in E as (b1 & E1 & E). rewrite (cond_address_pays H a o t Et).
  apply IH in E. destruct (listN_eqb t a); cbn [map].
  - apply bind_ok in E1 as (m & Em & E1). apply bind_ok in E1 as (y & Ey & E1). apply bind_ok in E1 as (x & Ex & E1). apply ok_inj in E1. subst b1.
    apply output_add_core in Ex. cbn [mcore snd] in E. rewrite E, Ex. cbn [observe fold_left ob_out ob_confirmed ob_spent]. f_equal. f_equal.
    destruct b as [y'|]; [apply ok_inj in Ey; subst; reflexivity|]. unfold ms_new in Ey. apply bind_ok in Ey as (u1 & _ & Ey). apply bind_ok in Ey as (u2 & _ & Ey).
    apply ok_inj in Ey. subst. reflexivity.
  - apply ok_inj in E1. subst. exact E.
Qed.
Lemma madd_txn_core a b x b' : no_definition (e_txn x) -> madd_txn H a b x = Ok b' -> mcore b' = observe (mcore b) (observations H a x).
Proof.
  unfold madd_txn. intros D E. apply bind_ok in E as (ins & Ei & E). apply bind_ok in E as (b1 & E1 & E). apply bind_ok in E as (b2 & E2 & E).
  apply madd_matching_core in E1. apply madd_matching_core in E2. unfold observations. rewrite observe_app, <- (spent_by_ok _ _ Ei), <- E1, <- E2.
  destruct (e_txn x) as [t|t|t|t|t|t|t|t]; try (apply ok_inj in E; subst; reflexivity). cbn in D. destruct (m_new t); [contradiction|]. apply ok_inj in E; subst; reflexivity.
Qed.
Lemma madd_txns_core a l b b' : Forall (fun x => no_definition (e_txn x)) l -> madd_txns H a b l = Ok b' -> mcore b' = observe (mcore b) (history H a l).
Proof.
  revert b. induction l as [|x l IH]; intros b D E; cbn [madd_txns history flat_map] in *; [apply ok_inj in E; subst; reflexivity|].
  inversion D; subst. apply bind_ok in E as (b1 & E1 & E). apply madd_txn_core in E1; [|assumption]. apply IH in E; [|assumption]. unfold history in E. rewrite observe_app, <- E1. exact E.
Qed.
Lemma result_balance_core r i m b a : uh_str H (h_uh r) = Ok a -> Forall (fun x => no_definition (e_txn x)) (h_txns r) \/ uh_type (h_uh r) <> 3%Z ->
  result_balance H r i = Ok (m, b) -> core b = observe bal_new (history H a (h_txns r)).
Proof.
  unfold result_balance. intros A D E. destruct (uh_type (h_uh r) =? 3)%Z eqn:T.
  - destruct D as [D|D]; [|apply Z.eqb_eq in T; contradiction]. unfold multisig_balance in E. rewrite A in E. cbn [bind] in E.
    apply bind_ok in E as (y & Ey & E). apply madd_txns_core in Ey; [|exact D]. cbn [mcore] in Ey. apply ok_inj in E. rewrite <- Ey.
    destruct y as [[m' x]|]; injection E as <- <-; rewrite with_chain_core; reflexivity.
  - apply bind_ok in E as (b' & Eb & E). apply ok_inj in E. injection E as <- <-. exact (address_balance_core H r i b' a A Eb).
Qed.

(** ** Exactly the outputs *)
Lemma perm_by_ids (l m : list output) : NoDup (ids l) -> NoDup (ids m) -> (forall o, In o l <-> In o m) -> Permutation l m.
Proof.
  intros N M I. apply NoDup_Permutation; [|  |exact I]; eapply NoDup_map_inv; unfold ids in *; eassumption.
Qed.
End Hash.
