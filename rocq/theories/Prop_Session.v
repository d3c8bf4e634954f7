(** Theorems about operations from the chain to the submission (C76). *)
From Coq Require Import Sorting.Sorted.
From Verif Require Import Base BaseFacts Encoders Currency Primitive Types Conditions Fulfillments ThreeBotTypes Txn TxnJson TxnSign Wallet Explorer AtomicSwap Ops WalletLoad Submit Session
  Spec_Types Spec_Wallet Spec_Ops Spec_Explorer Spec_Load Spec_Session TypesFacts WalletFacts WalletFacts2 FundFacts2 ExplorerFacts ExplorerFacts2 ExplorerFacts3 OpsFacts4 LoadFacts SessionFacts
  TxnFacts3 Prop_Fulfil Prop_Txn Prop_ThreeBot Prop_Json Prop_Wallet Prop_Explorer Prop_Sign Prop_Ops Prop_Load Prop_Submit.
From Coq Require Import ZifyBool ZifyNat ZifyN.
Ltac Zify.zify_post_hook ::= Z.div_mod_to_equations.

(** *** Lemmas *)
Lemma nameless_inputs t : coin_inputs (nameless t) = coin_inputs t.
Proof. destruct t; reflexivity. Qed.
Lemma paying_pool H S256 sign ip x o t sub : paying o -> prepare H S256 sign ip x o = Ok (t, sub) ->
  exists source ins used, coin_inputs t = Ok ins /\ Forall2 takes ins used /\ selection used (pool H (x_bal x) source).
Proof.
  assert (G : forall u source refund fee pays cost, funded H (x_bal x) (x_address x) source refund fee pays cost u -> coin_inputs u = coin_inputs t ->
    exists source ins used, coin_inputs t = Ok ins /\ Forall2 takes ins used /\ selection used (pool H (x_bal x) source)).
  { intros u source refund fee pays cost (_ & _ & ins & used & rem & C & T & S & _) E. exists source, ins, used. rewrite <- E. auto. }
  intros P E. destruct o; try contradiction; cbn [prepare] in E.
  - apply C36_send in E as (_ & F & _). exact (G _ _ _ _ _ _ F eq_refl).
  - apply C36_send_many in E as (F & _). exact (G _ _ _ _ _ _ F eq_refl).
  - apply C36_contract in E as (_ & _ & F & _). exact (G _ _ _ _ _ _ F (nameless_inputs t)).
  - apply C36_record_new in E as (b & k & _ & _ & _ & _ & _ & _ & _ & _ & F & _). exact (G _ _ _ _ _ _ F eq_refl).
  - apply C36_record_update in E as (u & r & _ & _ & _ & _ & _ & _ & _ & _ & _ & _ & _ & _ & F & _). exact (G _ _ _ _ _ _ F eq_refl).
  - apply C36_name_transfer in E as (n & rs & rr & _ & _ & _ & _ & _ & _ & _ & _ & _ & _ & _ & _ & F & _). exact (G _ _ _ _ _ _ F eq_refl).
  - apply C36_erc20_send in E as (c & _ & _ & _ & _ & F & _). exact (G _ _ _ _ _ _ F eq_refl).
  - apply C36_erc20_register in E as (r & k & _ & _ & _ & F & _). exact (G _ _ _ _ _ _ F eq_refl).
Qed.
Lemma posted_prepared H S256 sign ip now put own rebal net info v o t :
  In t (fst (perform H S256 sign ip now put own rebal net info v o)) ->
  exists w x, wallet_balance H ip now net info (v_addrs v) = Ok w /\ x_bal x = w /\ prepare H S256 sign ip x o = Ok (t, true).
Proof.
  unfold perform, opened. destruct (wallet_balance H ip now net info (v_addrs v)) as [w|e]; cbn [bind]; [|intros []]. unfold run.
  destruct (prepare _ _ _ _ _ _) as [[t0 [|]]|e] eqn:P; cbn [fst]; try (intros []). destruct (fst (put t0)); [|intros []]. intros [<-|[]]. eexists. eexists. split; [reflexivity|]. split; [|exact P]. reflexivity.
Qed.
Lemma takes_ids ins used : Forall2 takes ins used -> map i_parent ins = ids used.
Proof. induction 1 as [|i o l m [A _] F IH]; [reflexivity|]. unfold ids in *. cbn [map]. rewrite A, IH. reflexivity. Qed.

(** ** C76 *)
(** Every input of a transaction that a paying operation submits spends an output which, as the explorers' histories of the wallet's addresses and of
    its multi-signature addresses tell, was paid to that address, is not spent, and has no lock that is closed at the chain's height and time. *)
Theorem C76_spends_free : forall H S256 sign ip_parse now put own rebal net h t k v o mine multi, hash_ok H -> Forall (text_of H 1) (v_addrs v) ->
  answers (lookup H ip_parse now net) 0 (v_addrs v) mine ->
  answers (lookup H ip_parse now net) (length (v_addrs v)) (flat_map (fun ar => multisigs H (snd ar)) mine) multi -> real_heights (mine ++ multi) ->
  (forall a r, In (a, r) multi -> Forall (fun x => no_definition (e_txn x)) (h_txns r)) -> (0 < h)%Z -> (0 < t)%Z -> paying o ->
  Forall (fun u => exists ins, coin_inputs u = Ok ins /\ Forall (fun i => exists q, takes i q /\ free H h t (mine ++ multi) q) ins)
    (fst (perform H S256 sign ip_parse now put own rebal net (h, t, k) v o)).
Proof.
  intros H S sg ip now put own rebal net h t k v o mine multi HH T A1 A2 RH D Ph Pt P. apply Forall_forall. intros u I.
  apply posted_prepared in I as (w & x & W & Ex & Pr). apply paying_pool in Pr as (source & ins & used & C & F & Sel); [|exact P]. exists ins. split; [exact C|].
  destruct (wallet_seen H ip now net (h, t, k) _ w mine multi HH T W A1 A2 RH D) as (So & Sm & _). rewrite Forall_forall in Sm.
  destruct (C62_lookups H ip now net h t k _ w HH T W) as (Eh & Et & _ & own' & multi' & _ & _ & Ec).
  apply Forall_forall. intros i Ii. destruct (Forall2_in_l _ _ _ F i Ii) as (q & Iq & Tq). exists q. split; [exact Tq|].
  assert (Q : In q (pool H (x_bal x) source)) by (destruct Sel as (rest & Pm); apply (Permutation_in _ Pm); apply in_or_app; now left). rewrite Ex in Q.
  apply pool_in in Q as [Q|(m & Im & Q)].
  - destruct (spendable_seen H _ _ q So Q) as (a & r & Ia & Ta & St & Op). exists a, r. split; [apply in_or_app; now left|]. split; [exact Ta|]. rewrite Eh, Et in Op. split; [apply Op; assumption|exact St].
  - destruct (Ec m Im) as (Mh & Mt & _). destruct (Sm m Im) as (a & r & Ia & _ & _ & S1). destruct (spendable_seen H _ _ q S1 Q) as (a' & r' & [E|[]] & Ta & St & Op). injection E as <- <-.
    exists a, r. split; [apply in_or_app; now right|]. split; [exact Ta|]. rewrite Mh, Mt in Op. split; [apply Op; assumption|exact St].
Qed.
Print Assumptions C76_spends_free.
(** No two of its inputs spend the same output, if ids tell the outputs of these histories apart. *)
Theorem C76_once : forall H S256 sign ip_parse now put own rebal net info v o mine multi, hash_ok H -> Forall (text_of H 1) (v_addrs v) -> NoDup (v_addrs v) ->
  answers (lookup H ip_parse now net) 0 (v_addrs v) mine ->
  answers (lookup H ip_parse now net) (length (v_addrs v)) (flat_map (fun ar => multisigs H (snd ar)) mine) multi -> real_heights (mine ++ multi) ->
  (forall a r, In (a, r) multi -> Forall (fun x => no_definition (e_txn x)) (h_txns r)) ->
  consistent (flat_map (fun ar => history H (fst ar) (h_txns (snd ar))) (mine ++ multi)) -> paying o ->
  Forall (fun u => exists l, consumed u l /\ NoDup l) (fst (perform H S256 sign ip_parse now put own rebal net info v o)).
Proof.
  intros H S sg ip now put own rebal net info v o mine multi HH T N A1 A2 RH D C P. apply Forall_forall. intros u I.
  apply posted_prepared in I as (w & x & W & Ex & Pr). apply paying_pool in Pr as (source & ins & used & Ci & F & Sel); [|exact P]. exists (map i_parent ins). split; [exists ins; auto|].
  destruct (wallet_seen H ip now net info _ w mine multi HH T W A1 A2 RH D) as (So & Sm & ND & X). rewrite (takes_ids _ _ F). apply (sel_nodup o_id used _ Sel). rewrite Ex.
  exact (pool_nodup H w source mine multi HH So Sm ND X C (answers_nodup _ _ _ _ A1 N)).
Qed.
Print Assumptions C76_once.
(** An operation spends nothing that an earlier one of this or another wallet spent, once the histories tell so: [l] is what it must not touch. *)
Theorem C76_not_again : forall H S256 sign ip_parse now put own rebal net h t k v o mine multi l, hash_ok H -> Forall (text_of H 1) (v_addrs v) ->
  answers (lookup H ip_parse now net) 0 (v_addrs v) mine ->
  answers (lookup H ip_parse now net) (length (v_addrs v)) (flat_map (fun ar => multisigs H (snd ar)) mine) multi -> real_heights (mine ++ multi) ->
  (forall a r, In (a, r) multi -> Forall (fun x => no_definition (e_txn x)) (h_txns r)) -> (0 < h)%Z -> (0 < t)%Z -> paying o ->
  Forall (known_spent H (mine ++ multi)) l ->
  Forall (fun u => exists l', consumed u l' /\ forall id, In id l -> ~ In id l') (fst (perform H S256 sign ip_parse now put own rebal net (h, t, k) v o)).
Proof.
  intros H S sg ip now put own rebal net h t k v o mine multi l HH T A1 A2 RH D Ph Pt P K.
  pose proof (C76_spends_free H S sg ip now put own rebal net h t k v o mine multi HH T A1 A2 RH D Ph Pt P) as F. rewrite Forall_forall in F, K. apply Forall_forall. intros u I.
  destruct (F u I) as (ins & C & Fi). exists (map i_parent ins). split; [exists ins; auto|]. intros id Il Ii. apply in_map_iff in Ii as (i & <- & Ii). rewrite Forall_forall in Fi.
  destruct (Fi i Ii) as (q & [Ep _] & a & r & Ia & _ & _ & St). pose proof (K _ Il a r) as Ks. rewrite Ep in Ks.
  destruct St as [(Cr & N1 & N2)|(Cr & _ & N1 & N2)]; destruct (Ks _ Ia Cr) as ([|] & Sp); contradiction.
Qed.
Print Assumptions C76_not_again.

(** *** Cases.  A wallet with two addresses; one transaction of the chain pays both. *)
Definition exn_purse : purse := mkpurse (ex_addr 7) ex_ks (ex_key_uh 7) [ex_addr 7; ex_addr 8] 100000000.
Definition exn_pay : txn := exx_std 5 [mkout (1000 * TFT) (CUnlockHash (ex_key_uh 7)) []; mkout (50 * TFT) (CUnlockHash (ex_key_uh 8)) []].
Definition exn_first : json := exx_answer exn_pay 31 [exx_pay 31] [] [21; 22] [] 7 false.
Definition exn_net (l : list json) (n : nat) (a : pystr) : res json := if existsb (listN_eqb a) [ex_addr 7; ex_addr 8] then Ok (exl_resp l []) else Err ExplorerNoContent.
Definition exn_perform (l : list json) (amount : N) :=
  perform ex_H2 ex_H2 ex_sign ex_ip_parse 1600000000 exb_put exb_own (Err RuntimeError) (exn_net l) exl_info exn_purse (OSend (CUnlockHash (ex_key_uh 9)) (amount * TFT) exo_f []).
Definition exn_see (r : list txn * res (txn * option bytes)) : list (list bytes) * list (list N) :=
  (map (fun t => match coin_inputs t with Ok l => map i_parent l | Err _ => [] end) (fst r), map (fun t => map o_value (coin_outputs t)) (fst r)).
Definition exn_sent : txn := match fst (exn_perform [exn_first] 1020) with t :: _ => t | [] => ex_gen end.
(** what the explorers tell once they know what was sent: not yet confirmed *)
Definition exn_second : json := exx_answer exn_sent 41 [mkout (50 * TFT) (CUnlockHash (ex_key_uh 8)) []; mkout (1000 * TFT) (CUnlockHash (ex_key_uh 7)) []] [] [51; 52] [] 0 true.
(** The first operation spends both outputs; the second, once the explorers tell of it, spends its change. *)
Example C76_ex : exn_see (exn_perform [exn_first] 1020) = ([[repeat 22 32; repeat 21 32]], [[1020 * TFT; 29900000000]]) /\
  exn_see (exn_perform [exn_second; exn_first] 5) = ([[repeat 52 32]], [[5 * TFT; 24800000000]]).
Proof. split; vm_compute; reflexivity. Qed.
Lemma exn_texts : Forall (text_of ex_H2 1) [ex_addr 7; ex_addr 8].
Proof.
  assert (A : forall n, n < 256 -> text_of ex_H2 1 (exl_text (CUnlockHash (mkuh 1 (repeat n 32))))).
  { intros n L. exists (mkuh 1 (repeat n 32)).
    split. { split; [cbn; auto|]. split; [split; [apply repeat_length|]|discriminate]. unfold wf_bytes. apply Forall_forall. intros x I. apply repeat_spec in I. subst. exact L. }
    split; [reflexivity|]. unfold exl_text, cond_address. cbn [cond_unlockhash bind].
    destruct (uh_str_ok ex_H2 (mkuh 1 (repeat n 32)) ex_H2_ok ltac:(cbn; lia)) as (c & _ & E). rewrite E. reflexivity. }
  apply Forall_cons; [exact (A 7 eq_refl)|]. apply Forall_cons; [exact (A 8 eq_refl)|]. apply Forall_nil.
Qed.
(** yes or no *)
Definition exn_seen (a : pystr) (id : bytes) (l : list output) : bool := existsb (fun o => Spec_Explorer.pays ex_H2 a o && listN_eqb (o_id o) id) l.
Lemma exn_known hs id : forallb (fun ar => negb (existsb (fun x => exn_seen (fst ar) id (coin_outputs (e_txn x))) (h_txns (snd ar))) ||
    existsb (fun x => exn_seen (fst ar) id (spent_by (e_txn x))) (h_txns (snd ar))) hs = true -> known_spent ex_H2 hs id.
Proof.
  intros F a r b I (x & Ix & _ & o & Io & P & E). rewrite forallb_forall in F. specialize (F _ I). cbn [fst snd] in F. apply orb_prop in F as [F|F].
  - exfalso. apply negb_true_iff in F. assert (G : existsb (fun x => exn_seen a id (coin_outputs (e_txn x))) (h_txns r) = true); [|congruence].
    apply existsb_exists. exists x. split; [exact Ix|]. apply existsb_exists. exists o. split; [exact Io|]. rewrite P, E. apply listN_eqb_refl.
  - apply existsb_exists in F as (y & Iy & F). apply existsb_exists in F as (q & Iq & F). apply andb_prop in F as [P' F]. apply listN_eqb_eq in F.
    exists (e_unconfirmed y), y. split; [exact Iy|]. split; [reflexivity|]. exists q. auto.
Qed.
Definition exn_hyps (l : list json) (spent : list bytes) : Prop :=
  exists mine, answers (lookup ex_H2 ex_ip_parse 1600000000 (exn_net l)) 0 (v_addrs exn_purse) mine /\
    answers (lookup ex_H2 ex_ip_parse 1600000000 (exn_net l)) 2 (flat_map (fun ar => multisigs ex_H2 (snd ar)) mine) [] /\ real_heights (mine ++ []) /\
    consistent (flat_map (fun ar => history ex_H2 (fst ar) (h_txns (snd ar))) (mine ++ [])) /\ Forall (known_spent ex_H2 (mine ++ [])) spent.
Example C76_ex_hypotheses : Forall (text_of ex_H2 1) (v_addrs exn_purse) /\ NoDup (v_addrs exn_purse) /\ exn_hyps [exn_first] [] /\
  exn_hyps [exn_second; exn_first] [repeat 22 32; repeat 21 32].
Proof.
  split; [exact exn_texts|]. split. { repeat (constructor; [vm_compute; intuition discriminate|]). constructor. }
  Ltac hyps := eexists; split; [apply A_found; [vm_compute; reflexivity|]; apply A_found; [vm_compute; reflexivity|]; apply A_none|];
    split; [match goal with |- answers _ _ ?l _ => let l' := eval vm_compute in l in change l with l' end; apply A_none|];
    split; [intros a r x [I|[I|[]]] Ix; injection I as <- <-; cbn [h_txns] in Ix; repeat destruct Ix as [<-|Ix]; try contradiction; vm_compute; reflexivity|];
    split; [|repeat apply Forall_cons; try apply Forall_nil; apply exn_known; vm_compute; reflexivity].
  split; hyps.
  all: intros x y Ix Iy E; vm_compute in Ix, Iy; repeat destruct Ix as [<-|Ix]; try contradiction; repeat destruct Iy as [<-|Iy]; try contradiction; cbn [ob_out o_id] in E; try discriminate E; reflexivity.
Qed.
(** Refuted: two operations in a row never spend the same output.  Each operation asks the explorers for the balance and nothing keeps what was
    submitted before, so until they tell of the first operation, the second may spend what it spent. *)
Theorem C76_in_a_row_refuted : exists id t1 t2 l1 l2, fst (exn_perform [exn_first] 1020) = [t1] /\ fst (exn_perform [exn_first] 5) = [t2] /\
  is_ok (snd (exn_perform [exn_first] 1020)) = true /\ is_ok (snd (exn_perform [exn_first] 5)) = true /\
  consumed t1 l1 /\ consumed t2 l2 /\ In id l1 /\ In id l2.
Proof.
  exists (repeat 22 32). do 4 eexists. split; [vm_compute; reflexivity|]. split; [vm_compute; reflexivity|]. split; [vm_compute; reflexivity|]. split; [vm_compute; reflexivity|].
  split; [eexists; split; [reflexivity|reflexivity]|]. split; [eexists; split; [reflexivity|reflexivity]|]. split; vm_compute; auto.
Qed.
Print Assumptions C76_in_a_row_refuted.
