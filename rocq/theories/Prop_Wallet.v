(** Properties C30-C37 and C51: wallet balances, funding, and the transactions a wallet builds. *)
From Verif Require Import Base BaseFacts Encoders Primitive Types Conditions Fulfillments ThreeBotTypes Txn Wallet Spec_Wallet WalletFacts WalletFacts2 FundFacts FundFacts2 FundFacts3 BuildFacts.

(** Example outputs: 10 and 7 coins of a personal address, one locked until height 100 *)
Definition exw_uh : uh := mkuh 1 (repeat 7 32).
Definition exw_o1 : output := mkout 10 (CUnlockHash exw_uh) (repeat 1 32).
Definition exw_o2 : output := mkout 7 (CLock 100 (CUnlockHash exw_uh)) (repeat 2 32).
Definition exw_o3 : output := mkout 5 (CUnlockHash exw_uh) (repeat 3 32).
Definition exw_H : bytes -> bytes := fun _ => repeat 9 32.

(** C30: after any history of observations, an output is counted
    - spent exactly when a confirmed spend of it was seen,
    - spent unconfirmed exactly when only an unconfirmed spend was seen,
    - in the confirmed balance exactly when no spend but a confirmed creation was seen,
    - in the unconfirmed balance exactly when no spend was seen and its last creation seen was unconfirmed;
    and the outputs counted are ones that were observed, under their own id, each id once. *)
Theorem C30_classification : forall (h : list obs) (id : bytes),
  let b := observe bal_new h in
  (has (w_spent b) id <-> seen h true true id) /\
  (has (w_uncspent b) id <-> ~ seen h true true id /\ seen h false true id) /\
  (has (w_outs b) id <-> ~ seen_spent h id /\ seen h true false id) /\
  (has (w_unc b) id <-> ~ seen_spent h id /\ last_created_unconfirmed h id).
Proof. intros h id. pose proof (inv_observe h) as V. exact (conj (i_spent h _ V id) (conj (i_uncspent h _ V id) (conj (i_outs h _ V id) (i_unc h _ V id)))). Qed.
Print Assumptions C30_classification.
Theorem C30_contents : forall (h : list obs) (d : odict),
  let b := observe bal_new h in
  d = w_outs b \/ d = w_spent b \/ d = w_unc b \/ d = w_uncspent b ->
  NoDup (map fst d) /\ forall id o, In (id, o) d -> o_id o = id /\ exists x, In x h /\ ob_out x = o.
Proof.
  intros h d b D. pose proof (inv_observe h) as V. split; [|exact (i_val h _ V d D)].
  destruct D as [-> |[-> |[-> | ->]]]; apply V.
Qed.
Print Assumptions C30_contents.
(** once a spend was seen, the output never is in the confirmed or unconfirmed balance again *)
Theorem C30_spent_for_good : forall (h h' : list obs) (id : bytes), seen_spent h id ->
  ~ has (w_outs (observe bal_new (h ++ h'))) id /\ ~ has (w_unc (observe bal_new (h ++ h'))) id.
Proof.
  intros h h' id S. pose proof (inv_observe (h ++ h')) as V.
  assert (S' : seen_spent (h ++ h') id) by (unfold seen_spent in *; rewrite !seen_app; tauto).
  rewrite (i_outs _ _ V id), (i_unc _ _ V id). tauto.
Qed.
Print Assumptions C30_spent_for_good.
Example C30_ex : let h := [mkobs exw_o1 false false; mkobs exw_o2 true true; mkobs exw_o1 true false; mkobs exw_o2 true false; mkobs exw_o3 false true] in
  seen_spent h (o_id exw_o2) /\ map fst (w_outs (observe bal_new h)) = [o_id exw_o1] /\ w_unc (observe bal_new h) = [] /\
  map fst (w_spent (observe bal_new h)) = [o_id exw_o2] /\ map fst (w_uncspent (observe bal_new h)) = [o_id exw_o3].
Proof.
  split; [left; exists (mkobs exw_o2 true true); split; [cbn; tauto|repeat split]|].
  vm_compute. auto 10.
Qed.

(** C31: available and locked amounts add up to the worth of all confirmed unspent outputs (and likewise for the
    unconfirmed ones), and at a known height and time exactly the outputs whose lock is open are available. *)
Theorem C31_partition : forall (b : bal),
  available b + locked b = worth (values (w_outs b)) /\ unconfirmed b + unconfirmed_locked b = worth (values (w_unc b)).
Proof. intro b. unfold available, unconfirmed. rewrite !total_worth. split; apply partition_ok. Qed.
Print Assumptions C31_partition.
Theorem C31_available_iff_open : forall (b : bal) (o : output), (0 < w_time b)%Z -> (0 < w_height b)%Z ->
  (In o (outputs_available b) <-> In o (values (w_outs b)) /\ open_at (w_height b) (w_time b) o) /\
  (In o (outputs_unconfirmed_available b) <-> In o (values (w_unc b)) /\ open_at (w_height b) (w_time b) o).
Proof. intros b o T Hh. split; apply unlocked_in; assumption. Qed.
Print Assumptions C31_available_iff_open.
(** the amounts reported are those of the outputs reported *)
Theorem C31_amounts : forall (b : bal), available b = worth (outputs_available b) /\ unconfirmed b = worth (outputs_unconfirmed_available b).
Proof. intro b. split; apply total_worth. Qed.
Print Assumptions C31_amounts.
(** without a chain context everything counts as available *)
Theorem C31_unknown_chain : forall (b : bal), ~ (0 < w_time b /\ 0 < w_height b)%Z ->
  outputs_available b = values (w_outs b) /\ locked b = 0 /\ outputs_unconfirmed_available b = values (w_unc b) /\ unconfirmed_locked b = 0.
Proof.
  intros b U. unfold outputs_available, outputs_unconfirmed_available, locked, unconfirmed_locked.
  destruct (unlocked_unknown b (values (w_outs b)) U), (unlocked_unknown b (values (w_unc b)) U). auto.
Qed.
Print Assumptions C31_unknown_chain.
Example C31_ex : let b := mkbal [(o_id exw_o1, exw_o1); (o_id exw_o2, exw_o2)] [] [] [] 1600000000 99 [] [] in
  (0 < w_time b)%Z /\ (0 < w_height b)%Z /\ available b = 10 /\ locked b = 7 /\ ~ open_at (w_height b) (w_time b) exw_o2.
Proof. repeat split. cbn. unfold lock_open. lia. Qed.

(** C32 is false: an output seen created in a confirmed and then again in an unconfirmed transaction is counted in both parts. *)
Theorem C32_counted_once_refuted : exists h id,
  let b := observe bal_new h in consistent h /\ has (w_outs b) id /\ has (w_unc b) id /\ available b = 10 /\ unconfirmed b = 10.
Proof.
  exists [mkobs exw_o1 true false; mkobs exw_o1 false false], (o_id exw_o1). split; [|vm_compute; auto].
  intros x y [<-|[<-|[]]] [<-|[<-|[]]]; reflexivity.
Qed.
Print Assumptions C32_counted_once_refuted.
(** It holds when no unconfirmed creation of an output is observed after a confirmed one. *)
Theorem C32_counted_once_partial : forall (h : list obs), unconfirmed_first h ->
  let b := observe bal_new h in
  (forall id, has (w_outs b) id -> ~ has (w_unc b) id) /\ NoDup (ids (values (w_outs b) ++ values (w_unc b))).
Proof. intros h U. split; [intro id; exact (once h id U)|exact (all_ids_nodup h U)]. Qed.
Print Assumptions C32_counted_once_partial.
Example C32_ex : unconfirmed_first [mkobs exw_o1 false false; mkobs exw_o1 true false; mkobs exw_o3 false false].
Proof.
  intros h1 x h2 E C S (y & I & A & C' & S'). unfold about in A.
  destruct h1 as [|a [|b [|c h1]]]; [destruct I|injection E as <- <- _; discriminate| |].
  - injection E as <- <- <- _. destruct I as [<-|[<-|[]]]; [discriminate|]. vm_compute in A. discriminate.
  - destruct h1; discriminate.
Qed.

(** C33 is false in general: an output spent according to one balance is available in the sum if the other has it; *)
Theorem C33_merge_refuted : exists a b c, balance_add a b = Ok c /\ available a = 0 /\ has (w_spent a) (o_id exw_o1) /\ available c = 10.
Proof.
  exists (observe bal_new [mkobs exw_o1 true false; mkobs exw_o1 true true]), (observe bal_new [mkobs exw_o1 true false]).
  eexists. vm_compute. auto.
Qed.
Print Assumptions C33_merge_refuted.
(** and two balances which know the same multi-signature wallet cannot be added. *)
Theorem C33_multisig_refuted : forall (a b : wbal) (m : msbal), In m (wb_ms a) -> In m (wb_ms b) -> forall c, wb_balance_add a b <> Ok c.
Proof.
  intros a b m Ia Ib c E. unfold wb_balance_add in E. apply bind_ok in E as (o & _ & E). apply bind_ok in E as (l & E & _).
  revert E. generalize (wb_ms a) Ia. intros la Ia'. clear Ia. revert la Ia'. induction (wb_ms b) as [|x r IH]; intros la Ia E; [easy|].
  cbn in E. destruct (existsb (fun x0 => uh_eqb (ms_addr x0) (ms_addr x)) la) eqn:X; [easy|]. destruct Ib as [->|Ib].
  - assert (existsb (fun x0 => uh_eqb (ms_addr x0) (ms_addr m)) la = true); [|congruence].
    apply existsb_exists. exists m. split; [exact Ia|apply uh_eqb_refl].
  - apply (IH Ib (la ++ [x])); [apply in_app_iff; auto|exact E].
Qed.
Print Assumptions C33_multisig_refuted.
(** It holds for balances without a common output, in particular those of different addresses. *)
Theorem C33_merge_partial : forall (a b c : bal), keyed b -> apart a b -> balance_add a b = Ok c ->
  values (w_outs c) = values (w_outs a) ++ values (w_outs b) /\ values (w_spent c) = values (w_spent a) ++ values (w_spent b) /\
  values (w_unc c) = values (w_unc a) ++ values (w_unc b) /\ values (w_uncspent c) = values (w_uncspent a) ++ values (w_uncspent b) /\
  available c + locked c = (available a + locked a) + (available b + locked b).
Proof.
  intros a b c K P E. destruct (balance_add_apart a b c K P E) as (E1 & E2 & E3 & E4).
  rewrite !(proj1 (C31_partition _)). unfold values. rewrite E1, E2, E3, E4, !map_app, worth_app. auto.
Qed.
Print Assumptions C33_merge_partial.
Theorem C33_merge_possible_partial : forall (a b : bal),
  (w_height b = w_height a -> w_time b = w_time a) -> (w_height b < w_height a -> w_time b <= w_time a)%Z ->
  (w_height a < w_height b -> w_time a < w_time b)%Z -> exists c, balance_add a b = Ok c.
Proof. exact balance_add_total. Qed.
Print Assumptions C33_merge_possible_partial.
Example C33_ex : let a := observe bal_new [mkobs exw_o1 true false; mkobs exw_o2 true true] in let b := observe bal_new [mkobs exw_o3 true false] in
  keyed b /\ apart a b /\ exists c, balance_add a b = Ok c /\ available c = 15.
Proof.
  split; [repeat split; cbn; repeat constructor; easy|]. split; [|eexists; vm_compute; auto].
  intros id [A B]. vm_compute in A, B. intuition congruence.
Qed.

(** C34: when funding succeeds the inputs spend a selection of the wallet's spendable outputs (those of the given source, if
    any), none used more often than it is listed, at most 99, worth exactly the amount and the remainder. *)
Theorem C34_fund_exact : forall (H : bytes -> bytes) (w : wbal) (amount : N) (source : option (list uh)) (ins : list input) (rem : N) (refund : option cond),
  fund H w amount source = Ok (ins, rem, refund) ->
  exists used, Forall2 spends ins used /\ selection used (pool H w source) /\ (length used <= 99)%nat /\ worth used = amount + rem.
Proof. exact fund_ok. Qed.
Print Assumptions C34_fund_exact.
(** Hence the inputs are pairwise different if the wallet lists no output twice. *)
Theorem C34_fund_distinct : forall (H : bytes -> bytes) (w : wbal) (amount : N) (source : option (list uh)) (ins : list input) (rem : N) (refund : option cond),
  NoDup (ids (pool H w source)) -> fund H w amount source = Ok (ins, rem, refund) -> NoDup (map i_parent ins).
Proof.
  intros H w amount source ins rem refund N E. destruct (fund_ok H _ _ _ _ _ _ E) as (used & S & Sel & _).
  rewrite (spends_ids _ _ S). exact (sel_nodup o_id used _ Sel N).
Qed.
Print Assumptions C34_fund_distinct.
(** Otherwise (see C32) one output can be spent twice by one transaction. *)
Theorem C34_fund_twice : exists h ins rem refund, let w := mkwb (observe bal_new h) [] in
  fund exw_H w 15 None = Ok (ins, rem, refund) /\ ~ NoDup (map i_parent ins).
Proof.
  exists [mkobs exw_o1 true false; mkobs exw_o1 false false]. do 3 eexists. split; [vm_compute; reflexivity|].
  intro N. vm_compute in N. inversion_clear N as [|? ? N1 _]. apply N1. now left.
Qed.
Print Assumptions C34_fund_twice.
Definition exw_w : wbal := mkwb (observe bal_new [mkobs exw_o1 true false; mkobs exw_o2 true false; mkobs exw_o3 false false]) [].
Example C34_ex : exists ins refund, fund exw_H exw_w 20 None = Ok (ins, 2, refund) /\ length ins = 3%nat /\ NoDup (ids (pool exw_H exw_w None)).
Proof.
  do 2 eexists. split; [vm_compute; reflexivity|]. split; [reflexivity|].
  change (NoDup [repeat 1 32; repeat 2 32; repeat 3 32]). repeat constructor; cbn; intuition discriminate.
Qed.

(** C35: funding from personal addresses succeeds exactly when some selection of at most 99 spendable outputs is worth the
    amount, and otherwise reports insufficient funds. *)
Theorem C35_fund_complete : forall (H : bytes -> bytes) (w : wbal) (amount : N) (source : option (list uh)),
  personal_source source -> usable H w -> 0 < amount ->
  match fund H w amount source with
  | Ok _ => exists s, selection s (personal_pool H w source) /\ (length s <= 99)%nat /\ amount <= worth s
  | Err e => e = InsufficientFunds /\ forall s, selection s (personal_pool H w source) -> (length s <= 99)%nat -> worth s < amount
  end.
Proof. exact fund_complete. Qed.
Print Assumptions C35_fund_complete.
Example C35_ex : personal_source (Some [exw_uh]) /\ usable exw_H exw_w /\ fund exw_H exw_w 23 (Some [exw_uh]) = Err InsufficientFunds /\
  is_ok (fund exw_H exw_w 22 (Some [exw_uh])) = true.
Proof. split; [repeat constructor|]. split; [repeat constructor|]. vm_compute. auto. Qed.

(** The same is false for several multi-signature wallets: 99 coins worth 10 in one and 98 worth 1 and one worth 500 in the other
    could pay 1480 with 99 inputs, but the window only looks at the last 99 in the order of the wallets. *)
Definition exw_ms (n : N) : uh := mkuh 3 (repeat n 32).
Definition exw_many (k : nat) (v from : N) : odict :=
  map (fun i => let id := le 32 (from + N.of_nat i) in (id, mkout v (CMulti [exw_uh] 1) id)) (seq 0 k).
Definition exw_bal (d : odict) : bal := mkbal d [] [] [] 0 0 [] [].
Theorem C35_multisig_refuted : exists w amount source s,
  fund exw_H w amount source = Err InsufficientFunds /\ selection s (pool exw_H w source) /\ (length s <= 99)%nat /\ amount <= worth s.
Proof.
  set (a := exw_many 99 10 0). set (b := exw_many 98 1 1000). set (c := exw_many 1 500 2000).
  exists (mkwb bal_new [mkms (exw_ms 1) [exw_uh] 1 (exw_bal a); mkms (exw_ms 2) [exw_uh] 1 (exw_bal (b ++ c))]), 1480, (Some [exw_ms 1; exw_ms 2]).
  exists (values c ++ firstn 98 (values a)). split; [vm_compute; reflexivity|]. split; [|split; [vm_compute; lia|vm_compute; discriminate]].
  exists (skipn 98 (values a) ++ values b).
  match goal with |- Permutation _ ?p => assert (p = values a ++ values b ++ values c) as -> by reflexivity end.
  rewrite <- (firstn_skipn 98 (values a)) at 3. set (x := firstn 98 (values a)). set (y := skipn 98 (values a)).
  generalize (values b) (values c). intros vb vc. rewrite <- !app_assoc. rewrite (Permutation_app_comm vc). rewrite <- !app_assoc. reflexivity.
Qed.
Print Assumptions C35_multisig_refuted.

(** C37: a drain that succeeds spends every selected output exactly once, in transactions of 1 to 99 inputs, each paying all its
    inputs minus the fee to the recipient. *)
Theorem C37_drain : forall (b : bal) (recipient : cond) (fee : N) (unconfirmed : bool) (data : bytes) (ts : list txn),
  drain b recipient fee unconfirmed data = Ok ts ->
  exists parts, concat parts = outputs_available b ++ (if unconfirmed then outputs_unconfirmed_available b else []) /\
    Forall2 (fun used t => exists ins, t = T1 (mkstd false ins [mkout (worth used - fee) recipient []] [] [] [fee] data) /\
                           Forall2 spends ins used /\ fee <= worth used /\ (0 < length used <= 99)%nat) parts ts.
Proof.
  unfold drain. intros b recipient fee unconfirmed data ts E. apply bind_ok in E as (? & _ & E).
  destruct (drain_loop_ok recipient fee data _ _ _ (le_n _) E) as (parts & Ec & F). exists parts. split; [exact Ec|exact F].
Qed.
Print Assumptions C37_drain.
(** It succeeds if every selected output is worth the fee. *)
Theorem C37_drain_total : forall (b : bal) (recipient : cond) (fee : N) (unconfirmed : bool) (data : bytes),
  fee <> 0 -> (length data <= 83)%nat ->
  Forall (fun o => is_ok (from_condition (o_cond o)) = true /\ fee <= o_value o) (outputs_available b ++ (if unconfirmed then outputs_unconfirmed_available b else [])) ->
  exists ts, drain b recipient fee unconfirmed data = Ok ts.
Proof.
  intros b recipient fee unconfirmed data F D A. unfold drain. assert (negb (fee =? 0) = true) as -> by lia. cbn [guard bind].
  exact (drain_loop_total recipient fee data _ _ (le_n _) D A).
Qed.
Print Assumptions C37_drain_total.
(** Otherwise it can fail as a whole: 99 coins and one worth less than the fee. *)
Theorem C37_drain_small : exists b, length (outputs_available b) = 100%nat /\ available b = 992 /\ drain b CNil 3 false [] = Err NameError.
Proof.
  exists (exw_bal (exw_many 99 10 0 ++ exw_many 1 2 1000)). vm_compute. auto.
Qed.
Print Assumptions C37_drain_small.
Example C37_ex : exists ts, drain (wb_own exw_w) CNil 3 true [] = Ok ts /\ length ts = 1%nat /\
  is_ok (drain (exw_bal (exw_many 120 10 0)) CNil 3 false [1; 2]) = true.
Proof. eexists. vm_compute. auto. Qed.

(** C51: whatever is called on a transaction builder, the first [send] builds the transaction paying exactly the outputs
    accepted before it, in order, and everything after it is refused. *)
Theorem C51_builder_once : forall (H : bytes -> bytes) (adds : list bcall) w fee primary source given data (rest : list bcall),
  forallb (fun c => negb (is_send c)) adds = true ->
  exists ra rr, length ra = length adds /\
    brun H builder_new (adds ++ BSend w fee primary source given data :: rest) = ra ++ RSend (send_build H w fee primary (added adds) source given data) :: rr /\
    Forall refused rr.
Proof.
  intros H adds w fee primary source given data rest F. destruct (builder_once H adds w fee primary source given data rest F) as (ra & L & rr & E & R).
  exists ra, rr. auto.
Qed.
Print Assumptions C51_builder_once.
Theorem C51_builder_outputs : forall (H : bytes -> bytes) w fee primary (pays : list (cond * N)) source given data t,
  send_build H w fee primary pays source given data = Ok t ->
  exists rem, coin_outputs t = map (fun p => mkout (snd p) (fst p) []) pays ++ change rem (refund_to w primary source given).
Proof.
  intros H w fee primary pays source given data t E. destruct (send_ok H _ _ _ _ _ _ _ _ E) as (_ & ins & used & rem & -> & _). exists rem. reflexivity.
Qed.
Print Assumptions C51_builder_outputs.
Example C51_ex : forallb (fun c => negb (is_send c)) [BAdd CNil 3; BAdd CNil 0; BAdd (CUnlockHash exw_uh) 4] = true /\
  added [BAdd CNil 3; BAdd CNil 0; BAdd (CUnlockHash exw_uh) 4] = [(CNil, 3); (CUnlockHash exw_uh, 4)] /\
  is_ok (send_build exw_H exw_w 1 exw_uh [(CNil, 3); (CUnlockHash exw_uh, 4)] None None []) = true.
Proof. vm_compute. auto. Qed.
