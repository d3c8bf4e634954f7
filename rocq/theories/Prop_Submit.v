(** Theorems about what the wallet's operations submit, and what they return (C74). *)
From Verif Require Import Base BaseFacts Encoders Currency Primitive Types Conditions Fulfillments ThreeBotTypes Txn TxnSign Wallet AtomicSwap Ops Submit
  Spec_Types Spec_Txn Spec_Sign Spec_Wallet Spec_Explorer Spec_Ops Spec_Submit SubmitFacts TxnFacts3 Prop_Fulfil Prop_Txn Prop_ThreeBot Prop_Wallet Prop_Sign Prop_Ops.
From Coq Require Import ZifyBool ZifyNat ZifyN.
Ltac Zify.zify_post_hook ::= Z.div_mod_to_equations.

(** ** C74 *)
(** Whatever happens, an operation makes at most one transaction reach an explorer, and only one of which every signature is there. *)
Theorem C74_at_most_one : forall H S256 sign ip_parse put own rebal x o,
  let posted := fst (run H S256 sign ip_parse put own rebal x o) in
  (length posted <= 1)%nat /\ Forall complete posted.
Proof.
  intros H S sg ip put own rebal x o. cbv zeta. unfold run. destruct (prepare H S sg ip x o) as [[t [|]]|e] eqn:P; cbn [fst].
  - destruct (fst (put t)); cbn [length]; split; auto. constructor; [exact (prepare_complete H S sg ip x o t P)|constructor].
  - split; auto.
  - split; auto.
Qed.
Print Assumptions C74_at_most_one.
(** An operation that returns an id was given that id by the explorers, for a complete transaction; what it returns is this
    transaction: it differs only in the ids noted in its outputs, its encoding is the submitted one, and its outputs that pay to the
    wallet's own addresses have the ids they have on the chain. *)
Theorem C74_result : forall H S256 sign ip_parse put own rebal x o t id posted,
  run H S256 sign ip_parse put own rebal x o = (posted, Ok (t, Some id)) ->
  exists t0, complete t0 /\ posted = (if fst (put t0) then [t0] else []) /\ snd (put t0) = Ok id /\
    anonymous t = anonymous t0 /\ binary_encode H t = binary_encode H t0 /\
    forall a, own = Ok a -> forall j q, nth_error (coin_outputs t) j = Some q -> pays_any H a q -> coin_outputid H t (Z.of_nat j) = Ok (o_id q).
Proof.
  intros H S sg ip put own rebal x o t id posted. unfold run. destruct (prepare H S sg ip x o) as [[t0 [|]]|e] eqn:P; intro E; injection E as E0 E; try discriminate.
  apply bind_ok in E as (d & D & E). apply bind_ok in E as (t' & A & E). apply ok_inj in E. injection E as <- <-.
  destruct (after_inv H S sg ip _ _ _ _ _ _ P A) as [A1 A2]. exists t0. split; [exact (prepare_complete H S sg ip x o t0 P)|]. split; [now rewrite <- E0|]. split; [exact D|]. split; [exact A1|].
  split; [|exact A2]. rewrite <- (anonymous_binary H t'), <- (anonymous_binary H t0), A1. reflexivity.
Qed.
Print Assumptions C74_result.
(** An operation that returns a transaction without an id has submitted nothing; so has one that fails before it decides to submit. *)
Theorem C74_not_submitted : forall H S256 sign ip_parse put own rebal x o,
  (forall t posted, run H S256 sign ip_parse put own rebal x o = (posted, Ok (t, None)) -> posted = [] /\ prepare H S256 sign ip_parse x o = Ok (t, false)) /\
  (forall e, prepare H S256 sign ip_parse x o = Err e -> run H S256 sign ip_parse put own rebal x o = ([], Err e)).
Proof.
  intros H S sg ip put own rebal x o. unfold run. split.
  - destruct (prepare H S sg ip x o) as [[t [|]]|e]; intros t' p E; apply pair_equal_spec in E as [<- E]; try discriminate.
    + apply bind_ok in E as (d & _ & E). apply bind_ok in E as (t2 & _ & E). apply ok_inj in E. discriminate.
    + apply ok_inj in E. injection E as <-. split; reflexivity.
  - intros e ->. reflexivity.
Qed.
Print Assumptions C74_not_submitted.
(** After the explorers took the transaction the operation returns, if the wallet's addresses (and, for a swap that is claimed, its
    balance) can still be looked up and every output involved can be tracked. *)
Theorem C74_returns_partial : forall H S256 sign ip_parse put a w x o t id,
  prepare H S256 sign ip_parse x o = Ok (t, true) -> snd (put t) = Ok id ->
  Forall (fun m => exists s, uh_str H (ms_addr m) = Ok s) (wb_ms (x_bal x)) -> Forall (fun m => exists s, uh_str H (ms_addr m) = Ok s) (wb_ms w) ->
  Forall (trackable H) (touched t) -> (forall j, (j < length (coin_outputs t))%nat -> is_ok (coin_outputid H t (Z.of_nat j)) = true) ->
  exists t' posted, run H S256 sign ip_parse put (Ok a) (Ok w) x o = (posted, Ok (t', Some id)).
Proof.
  intros H S sg ip put a w x o t id P D T1 T2 F I. unfold run. rewrite P. destruct (after_ok H S sg ip a w x o t P T1 T2 F I) as [t' A]. exists t'. eexists. rewrite D. cbn [bind]. rewrite A. reflexivity.
Qed.
Print Assumptions C74_returns_partial.

(** *** Cases *)
Definition exb_put : txn -> bool * res bytes := fun _ => (true, Ok (repeat 9 32)).
Definition exb_own : res (list pystr) := Ok [ex_addr 7; ex_addr 8].
Definition exb_run := run ex_H2 ex_H2 ex_sign exo_ip exb_put exb_own (Ok (x_bal exo_x)).
Definition exb_send : op := OSend (CUnlockHash (ex_key_uh 9)) (1020 * TFT) exo_f [].
(** the result: how many transactions reached an explorer, the id, and whether the outputs of the wallet itself are given ids *)
Definition exb_see (r : list txn * res (txn * option bytes)) : nat * res (option bytes * list nat) :=
  (length (fst r), do p <- snd r; Ok (snd p, map (fun o => length (o_id o)) (coin_outputs (fst p)))).
Example C74_ex :
  exb_see (exb_run exo_x exb_send) = (1%nat, Ok (Some (repeat 9 32), [0; 32]%nat)) /\
  exb_see (exb_run exo_x (OContract 1500000000 (ex_key_uh 9) (5 * TFT) (repeat 3 32) 1600000000 exo_f [1] false)) = (0%nat, Ok (None, [32; 32]%nat)) /\
  exb_see (exb_run exo_x (OErc20Register (Ok (ex_key 8)) exo_f)) = (1%nat, Ok (Some (repeat 9 32), [32]%nat)) /\
  exb_see (exb_run exo_x (OMint (Ok (CMulti [ex_key_uh 7; ex_key_uh 9] 2)) (CUnlockHash exw_uh) 7 (repeat 1 8) None)) = (0%nat, Ok (None, [0]%nat)).
Proof. vm_compute. repeat split. Qed.
(** the hypotheses of [C74_returns_partial] *)
Definition exb_txn : txn := match prepare ex_H2 ex_H2 ex_sign exo_ip exo_x exb_send with Ok (t, _) => t | Err _ => ex_gen end.
Example C74_ex_returns :
  prepare ex_H2 ex_H2 ex_sign exo_ip exo_x exb_send = Ok (exb_txn, true) /\
  Forall (trackable ex_H2) (touched exb_txn) /\ (2 <= length (touched exb_txn))%nat /\
  (forall j, (j < length (coin_outputs exb_txn))%nat -> is_ok (coin_outputid ex_H2 exb_txn (Z.of_nat j)) = true).
Proof.
  assert (K : forall n v i, n = 7 \/ n = 8 \/ n = 9 -> trackable ex_H2 (mkout v (CUnlockHash (ex_key_uh n)) i)).
  { intros n v i N. exists (ex_key_uh n), (ex_addr n). split; [reflexivity|]. split; [destruct N as [-> | [-> | ->]]; vm_compute; reflexivity|]. intro Q. destruct N as [-> | [-> | ->]]; discriminate. }
  split; [vm_compute; reflexivity|].
  assert (E : exists v w i, touched exb_txn = [exo_a; exo_b; mkout v (CUnlockHash (ex_key_uh 9)) []; mkout w (CUnlockHash (ex_key_uh 7)) i]).
  { do 3 eexists. vm_compute. reflexivity. }
  destruct E as (v & w & i & ->). split; [|split].
  - repeat constructor; apply K; auto.
  - cbn [length]. lia.
  - intros j J. assert (L : length (coin_outputs exb_txn) = 2%nat) by (vm_compute; reflexivity). rewrite L in J. destruct j as [|[|j]]; [vm_compute; reflexivity|vm_compute; reflexivity|lia].
Qed.

(** ** Refuted: that an operation which raises has submitted nothing, so that it may be tried again. *)
(** The wallet's addresses are looked up once more after the submission, and the balance too when a swap is claimed. *)
Theorem C74_raise_means_nothing_refuted : exists x o own e, fst (run ex_H2 ex_H2 ex_sign exo_ip exb_put own (Ok (x_bal x)) x o) = [exb_txn] /\
  snd (run ex_H2 ex_H2 ex_sign exo_ip exb_put own (Ok (x_bal x)) x o) = Err e.
Proof. exists exo_x, exb_send, (Err RuntimeError), RuntimeError. vm_compute. split; reflexivity. Qed.
Print Assumptions C74_raise_means_nothing_refuted.
(** Nor is a working network enough: coins sent to a multi-signature wallet of the same owner, given by its address (as anyone else
    would give it), are submitted, then the operation raises TypeError, each time. *)
Definition exb_ms : cond := CMulti [ex_key_uh 7; ex_key_uh 9] 2.
Definition exb_ms_uh : uh := match cond_unlockhash ex_H2 exb_ms with Ok u => u | Err _ => ex_key_uh 0 end.
Definition exb_ms_x : wctx := mkctx (ex_addr 7) ex_ks (ex_key_uh 7)
  (mkwb (observe bal_new [mkobs exo_a true false; mkobs exo_b false false])
        [mkms exb_ms_uh [ex_key_uh 7; ex_key_uh 9] 2 (observe bal_new [mkobs (mkout 7 exb_ms (repeat 3 32)) true false])]) 100000000.
Theorem C74_own_multisig_refuted :
  ~ (forall u n, is_ok (uh_str ex_H2 u) = true -> is_ok (prepare ex_H2 ex_H2 ex_sign exo_ip exb_ms_x (OSend (CUnlockHash u) n exo_f [])) = true ->
       is_ok (snd (exb_run exb_ms_x (OSend (CUnlockHash u) n exo_f []))) = true).
Proof. intro A. specialize (A exb_ms_uh TFT). vm_compute in A. discriminate (A eq_refl eq_refl). Qed.
Print Assumptions C74_own_multisig_refuted.
Example C74_ex_own_multisig :
  let r := exb_run exb_ms_x (OSend (CUnlockHash exb_ms_uh) TFT exo_f []) in
  length (fst r) = 1%nat /\ snd r = Err TypeError /\
  exb_see (exb_run exb_ms_x (OSend exb_ms TFT exo_f [])) = (1%nat, Ok (Some (repeat 9 32), [32; 32]%nat)).
Proof. vm_compute. repeat split. Qed.
