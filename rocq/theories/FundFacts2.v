(** Facts about funding, continued: the whole of [fund]. *)
From Verif Require Import Base BaseFacts Encoders Primitive Types Conditions Fulfillments ThreeBotTypes Txn Wallet Spec_Wallet WalletFacts WalletFacts2 FundFacts.
From Coq Require Import ZifyBool ZifyNat ZifyN Sorted.
Ltac Zify.zify_post_hook ::= Z.div_mod_to_equations.

(** ** Selections *)
Lemma sel_refl l : selection l l.
Proof. exists []. now rewrite app_nil_r. Qed.
Lemma sel_nil l : selection [] l.
Proof. exists l. reflexivity. Qed.
Lemma sel_perm s l m : selection s l -> Permutation l m -> selection s m.
Proof. intros [r P] Q. exists r. now rewrite P. Qed.
Lemma sel_trans s t l : selection s t -> selection t l -> selection s l.
Proof. intros [r P] [q Q]. exists (r ++ q). now rewrite app_assoc, P. Qed.
Lemma sel_app s t l m : selection s l -> selection t m -> selection (s ++ t) (l ++ m).
Proof.
  intros [r P] [q Q]. exists (r ++ q). rewrite <- P, <- Q. rewrite <- !app_assoc. apply Permutation_app_head.
  rewrite !app_assoc. apply Permutation_app_tail, Permutation_app_comm.
Qed.
Lemma sel_app_l s l m : selection s l -> selection s (l ++ m).
Proof. intro S. rewrite <- (app_nil_r s). apply sel_app; [exact S|apply sel_nil]. Qed.
Lemma sel_app_r s l m : selection s m -> selection s (l ++ m).
Proof. intro S. change s with ([] ++ s). apply sel_app; [apply sel_nil|exact S]. Qed.
Lemma sel_lastn n l : selection (lastn n l) l.
Proof. unfold lastn. exists (firstn (length l - n) l). rewrite Permutation_app_comm. now rewrite firstn_skipn. Qed.
Lemma sel_firstn n l : selection (firstn n l) l.
Proof. exists (skipn n l). now rewrite firstn_skipn. Qed.
Lemma sel_in o l : In o l -> selection [o] l.
Proof. intro I. apply in_split in I as (a & b & ->). exists (a ++ b). cbn. apply Permutation_middle. Qed.
Lemma sel_incl s l : selection s l -> incl s l.
Proof. intros [r P] x I. eapply Permutation_in; [exact P|]. apply in_app_iff. auto. Qed.
Lemma sel_nodup {A} (f : output -> A) s l : selection s l -> NoDup (map f l) -> NoDup (map f s).
Proof.
  intros [r P] N. apply (Permutation_map f) in P. symmetry in P. apply (Permutation_NoDup P) in N.
  rewrite map_app in N. apply NoDup_app_iff in N. tauto.
Qed.
Lemma sel_worth s l : selection s l -> worth s <= worth l.
Proof. intros [r P]. rewrite <- (worth_perm _ _ P), worth_app. lia. Qed.

(** ** A window over two sorted lists is the best selection *)
Lemma sum_map_worth l : sum (map o_value l) = worth l.
Proof. reflexivity. Qed.
Lemma map_lastn {A B} (f : A -> B) n l : map f (lastn n l) = lastn n (map f l).
Proof. unfold lastn. rewrite map_length. generalize (length l - n)%nat. intro k. revert l. induction k as [|k IH]; intros [|x l]; cbn; auto. Qed.
Lemma best amount c u s : (forall i, (i <= length u)%nat -> worth (lastn 99 (sort_asc c ++ firstn i (sort_desc u))) < amount) ->
  selection s (c ++ u) -> (length s <= 99)%nat -> worth s < amount.
Proof.
  intros W [r P] L. apply split_selection in P as (s1 & r1 & s2 & r2 & P1 & P2 & P3 & _).
  rewrite (worth_perm _ _ P3), worth_app. apply Permutation_length in P3. rewrite app_length in P3.
  assert (L2 : (length s2 <= length u)%nat) by (apply Permutation_length in P2; rewrite app_length in P2; lia).
  specialize (W (length s2) L2).
  assert (Lf : length (firstn (length s2) (sort_desc u)) = length s2).
  { rewrite firstn_length. unfold sort_desc. rewrite (Permutation_length (sort_by_perm _ u)). lia. }
  rewrite lastn_app in W by lia. rewrite Lf, worth_app in W.
  assert (A1 : worth s1 <= worth (lastn (99 - length s2) (sort_asc c))).
  { unfold worth. rewrite map_lastn. apply bottom_sum with (r := map o_value r1); [apply sort_asc_sorted| |rewrite map_length; lia].
    rewrite <- map_app. apply Permutation_map. rewrite P1. symmetry. apply sort_by_perm. }
  assert (A2 : worth s2 <= worth (firstn (length s2) (sort_desc u))).
  { unfold worth. rewrite <- firstn_map. apply top_sum with (r := map o_value r2); [apply sort_desc_sorted| |rewrite map_length; lia].
    rewrite <- map_app. apply Permutation_map. rewrite P2. symmetry. apply sort_by_perm. }
  lia.
Qed.

Section Hash.
Variable H : bytes -> bytes.

Lemma of_addresses_ok addrs l r : of_addresses H addrs l = Ok r -> r = filter (pays_to H addrs) l /\ Forall (fun o => is_ok (cond_unlockhash H (o_cond o)) = true) l.
Proof.
  revert r. induction l as [|o l IH]; cbn; intros r E.
  - apply ok_inj in E. subst. split; [reflexivity|constructor].
  - apply bind_ok in E as (u & Eu & E). apply bind_ok in E as (r' & Er & E). apply ok_inj in E. subst r.
    destruct (IH r' Er) as [-> F]. assert (pays_to H addrs o = existsb (uh_eqb u) addrs) as -> by (unfold pays_to; now rewrite Eu).
    split; [reflexivity|]. constructor; [now rewrite Eu|exact F].
Qed.
Lemma of_addresses_total addrs l : Forall (fun o => is_ok (cond_unlockhash H (o_cond o)) = true) l -> of_addresses H addrs l = Ok (filter (pays_to H addrs) l).
Proof.
  induction 1 as [|o l F _ IH]; cbn; [reflexivity|]. destruct (cond_unlockhash H (o_cond o)) as [u|] eqn:Eu; [|easy].
  assert (pays_to H addrs o = existsb (uh_eqb u) addrs) as -> by (unfold pays_to; now rewrite Eu). cbn. rewrite IH. reflexivity.
Qed.

Lemma individual_ok b amount addrs outs coll : fund_individual H b amount addrs = Ok (outs, coll) ->
  let p := filter (pays_to H addrs) (spendable b) in
  coll = worth outs /\ (length outs <= 99)%nat /\ selection outs p /\
  (coll < amount -> (exists z, outs = lastn 99 z /\ Permutation z p) /\
                    forall s, selection s p -> (length s <= 99)%nat -> worth s < amount).
Proof.
  unfold fund_individual. intro E. apply bind_ok in E as (c & Ec & E). apply of_addresses_ok in Ec as [Ec _].
  pose proof (pick_spec amount (sort_asc c) []) as P1. cbn [app] in P1. change (lastn 99 []) with (@nil output) in P1. change (worth []) with 0 in P1.
  assert (Lp : forall z : list output, (length (lastn 99 z) <= 99)%nat) by (intro z; rewrite lastn_length; lia).
  set (u := filter (pays_to H addrs) (outputs_unconfirmed_available b)).
  assert (Ep : filter (pays_to H addrs) (spendable b) = c ++ u) by (unfold spendable, u; rewrite filter_app, Ec; reflexivity).
  cbv zeta. rewrite Ep. clear Ep Ec.
  destruct P1 as [(i & Li & s & Es & A & Sel)|[Es W1]]; rewrite Es in E.
  { apply ok_inj in E. injection E as <- <-. split; [reflexivity|].
    assert (X : (length s <= 99)%nat /\ selection s (sort_asc c)).
    { destruct Sel as [(co & I & ->)| ->]; [split; [cbn; lia|now apply sel_in]|split; [apply Lp|]].
      eapply sel_trans; [apply sel_lastn|apply sel_firstn]. }
    destruct X as [X1 X2]. split; [exact X1|]. split; [apply sel_app_l; eapply sel_perm; [exact X2|apply sort_by_perm]|]. intro; lia. }
  assert (Pz : Permutation (sort_asc c ++ sort_desc u) (c ++ u)) by (apply Permutation_app; apply sort_by_perm).
  destruct (amount <=? worth (lastn 99 (sort_asc c))) eqn:E1.
  { apply ok_inj in E. injection E as <- <-. split; [reflexivity|]. split; [apply Lp|]. split; [|intro; lia].
    apply sel_app_l. eapply sel_trans; [apply sel_lastn|]. eapply sel_perm; [apply sel_refl|apply sort_by_perm]. }
  apply bind_ok in E as (u' & Eu & E). apply of_addresses_ok in Eu as [-> _]. fold u in E.
  pose proof (pick_spec amount (sort_desc u) (sort_asc c)) as P2.
  destruct P2 as [(i & Li & s & Es2 & A & Sel)|[Es2 W2]]; rewrite Es2 in E; apply ok_inj in E; injection E as <- <-.
  - split; [reflexivity|].
    assert (X : (length s <= 99)%nat /\ selection s (sort_asc c ++ sort_desc u)).
    { destruct Sel as [(co & I & ->)| ->]; [split; [cbn; lia|apply sel_app_r; now apply sel_in]|split; [apply Lp|]].
      eapply sel_trans; [apply sel_lastn|]. apply sel_app; [apply sel_refl|apply sel_firstn]. }
    destruct X as [X1 X2]. split; [exact X1|]. split; [eapply sel_perm; [exact X2|exact Pz]|]. intro; lia.
  - split; [reflexivity|]. split; [apply Lp|]. split; [eapply sel_trans; [apply sel_lastn|]; eapply sel_perm; [apply sel_refl|exact Pz]|].
    intro Lt. split; [eauto|]. intros s Ss Ls. eapply best; [|exact Ss|exact Ls].
    intros [|i] Li; [cbn [firstn]; rewrite app_nil_r; lia|]. apply W2. unfold sort_desc. rewrite (Permutation_length (sort_by_perm _ u)). lia.
Qed.
Lemma individual_total b amount addrs : Forall (fun o => is_ok (cond_unlockhash H (o_cond o)) = true) (spendable b) ->
  exists r, fund_individual H b amount addrs = Ok r.
Proof.
  intro F. unfold spendable in F. apply Forall_app in F as [F1 F2]. unfold fund_individual. rewrite (of_addresses_total addrs _ F1). cbn.
  destruct (pick _ _ _ _) as [r|[o c]]; [eauto|]. destruct (amount <=? c); [eauto|]. rewrite (of_addresses_total addrs _ F2). cbn.
  destruct (pick _ _ _ _) as [r|r]; eauto.
Qed.

Definition ms_pool (s : list uh) (l : list msbal) : list output :=
  flat_map (fun m => if existsb (uh_eqb (ms_addr m)) s then spendable (ms_bal m) else []) l.
Lemma multisig_ok l amount addrs : forall z outs coll, fund_multisig l amount addrs (lastn 99 z) (worth (lastn 99 z)) = (outs, coll) ->
  coll = worth outs /\ (length outs <= 99)%nat /\ selection outs (z ++ ms_pool addrs l).
Proof.
  assert (Lp : forall z : list output, (length (lastn 99 z) <= 99)%nat) by (intro z; rewrite lastn_length; lia).
  induction l as [|m l IH]; intros z outs coll E; cbn [fund_multisig ms_pool flat_map] in *.
  { injection E as <- <-. split; [reflexivity|]. split; [apply Lp|]. apply sel_app_l, sel_lastn. }
  fold (ms_pool addrs l). destruct (existsb (uh_eqb (ms_addr m)) addrs) eqn:X; cbn [negb] in E; [|now apply IH].
  set (c := sort_asc (outputs_available (ms_bal m))) in *. set (u := sort_desc (outputs_unconfirmed_available (ms_bal m))) in *.
  assert (Pz : Permutation (c ++ u) (spendable (ms_bal m))) by (apply Permutation_app; apply sort_by_perm).
  assert (Sz : forall s, selection s (z ++ c ++ u) -> selection s (z ++ spendable (ms_bal m) ++ ms_pool addrs l)).
  { intros s S. rewrite app_assoc. apply sel_app_l. eapply sel_perm; [exact S|]. now apply Permutation_app_head. }
  destruct (pick_spec amount c z) as [(i & Li & s & Es & A & Sel)|[Es W1]]; rewrite Es in E.
  { injection E as <- <-. split; [reflexivity|].
    destruct Sel as [(co & I & ->)| ->].
    - split; [cbn; lia|]. apply Sz, sel_app_r, sel_app_l, sel_in, I.
    - split; [apply Lp|]. apply Sz. eapply sel_trans; [apply sel_lastn|]. apply sel_app; [apply sel_refl|]. apply sel_app_l, sel_firstn. }
  destruct (amount <=? worth (lastn 99 (z ++ c))) eqn:E1.
  { injection E as <- <-. split; [reflexivity|]. split; [apply Lp|]. apply Sz. rewrite app_assoc. apply sel_app_l, sel_lastn. }
  destruct (pick_spec amount u (z ++ c)) as [(i & Li & s & Es2 & A & Sel)|[Es2 W2]]; rewrite Es2 in E.
  { injection E as <- <-. split; [reflexivity|].
    destruct Sel as [(co & I & ->)| ->].
    - split; [cbn; lia|]. apply Sz, sel_app_r, sel_app_r, sel_in, I.
    - split; [apply Lp|]. apply Sz. eapply sel_trans; [apply sel_lastn|]. rewrite app_assoc. apply sel_app; [apply sel_refl|]. apply sel_firstn. }
  apply IH in E as (Ea & Eb & Ec). split; [exact Ea|]. split; [exact Eb|].
  rewrite app_assoc. eapply sel_perm; [exact Ec|]. apply Permutation_app_tail. rewrite <- app_assoc. now apply Permutation_app_head.
Qed.
End Hash.
