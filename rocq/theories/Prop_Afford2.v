(** C77, from the chain to the submission: a wallet sends exactly when the chain shows enough for it. *)
From Coq Require Import Sorting.Sorted.
From Verif Require Import Base BaseFacts Encoders EncodersFacts Currency Primitive Types TypesFacts Conditions ConditionFacts ConditionFacts2 Fulfillments FulfilFacts ThreeBotTypes ThreeBotFacts2 Txn TxnFacts TxnFacts3 TxnJson TxnSign Wallet Explorer AtomicSwap Ops WalletLoad Submit Session
  Spec_Types Spec_Fulfil Spec_Txn Spec_Sign Spec_Swap Spec_Wallet Spec_Ops Spec_Explorer Spec_Load Spec_Session Spec_Fits Spec_Afford Spec_Afford2 ExplorerFacts2 LoadFacts SessionFacts AffordFacts AffordFacts2 AffordFacts3.
From Verif Require Import Prop_Types Prop_Fulfil Prop_Txn Prop_Sign Prop_ThreeBot Prop_Json Prop_Wallet Prop_Ops Prop_Explorer Prop_Load Prop_Submit Prop_Session Prop_Afford.
From Coq Require Import ZifyBool ZifyNat ZifyN.
Ltac Zify.zify_post_hook ::= Z.div_mod_to_equations.

(** What a wallet loads from the chain it can spend: it is ready to pay, and can afford exactly what the chain shows. *)
Theorem C77_loaded (H : bytes -> bytes) ip_parse now net h t k v w mine multi : hash_ok H -> Forall (text_of H 1) (v_addrs v) -> NoDup (v_addrs v) ->
  wallet_ok H (v_primary v) (v_keys v) -> Forall (holds_key H (v_keys v)) (v_addrs v) -> small_uh (v_address v) ->
  wallet_balance H ip_parse now net (h, t, k) (v_addrs v) = Ok w -> answers (lookup H ip_parse now net) 0 (v_addrs v) mine ->
  answers (lookup H ip_parse now net) (length (v_addrs v)) (flat_map (fun ar => multisigs H (snd ar)) mine) multi -> real_heights (mine ++ multi) ->
  (forall a r, In (a, r) multi -> Forall (fun x => no_definition (e_txn x)) (h_txns r)) -> (0 < h)%Z -> (0 < t)%Z ->
  consistent (flat_map (fun ar => history H (fst ar) (h_txns (snd ar))) mine) -> real_outputs H h t mine ->
  ready_to_pay H (mkctx (v_primary v) (v_keys v) (v_address v) w (v_fee v)) (mkfunding None None) /\
  forall amount, affordable (spendable (wb_own w)) amount <-> can_pay H h t mine amount.
Proof.
  intros HH T N WO KA SU W A1 A2 RH D Ph Pt C (NC & MO). split.
  - split; [exact WO|]. split; [split; [discriminate|]; split|exact SU].
    + exact (purse_mine H ip_parse now HH net h t k (v_addrs v) w mine multi T W A1 A2 RH D Ph Pt (v_primary v) (v_keys v) WO KA NC).
    + exact (purse_modest H ip_parse now HH net h t k (v_addrs v) w mine multi T W A1 A2 RH D Ph Pt C N MO).
  - intro amount. split; apply (pay_iff H ip_parse now HH net h t k (v_addrs v) w mine multi T W A1 A2 RH D Ph Pt amount C N).
Qed.
Print Assumptions C77_loaded.

(** Sending from the wallet's own addresses, with explorers that take the transaction: if the chain shows enough, one transaction is submitted, which pays
    the recipient the amount; if it does not, nothing is submitted and the complaint is that there is not enough money. *)
Theorem C77_from_the_chain (H S256 : bytes -> bytes) sign ip_parse now put own rebal net h t k v w mine multi recipient amount data :
  hash_ok H -> (forall k h, length (sign k h) = 64%nat) -> Forall (text_of H 1) (v_addrs v) -> NoDup (v_addrs v) ->
  wallet_ok H (v_primary v) (v_keys v) -> Forall (holds_key H (v_keys v)) (v_addrs v) -> small_uh (v_address v) ->
  wallet_balance H ip_parse now net (h, t, k) (v_addrs v) = Ok w -> answers (lookup H ip_parse now net) 0 (v_addrs v) mine ->
  answers (lookup H ip_parse now net) (length (v_addrs v)) (flat_map (fun ar => multisigs H (snd ar)) mine) multi -> real_heights (mine ++ multi) ->
  (forall a r, In (a, r) multi -> Forall (fun x => no_definition (e_txn x)) (h_txns r)) -> (0 < h)%Z -> (0 < t)%Z ->
  consistent (flat_map (fun ar => history H (fst ar) (h_txns (snd ar))) mine) -> real_outputs H h t mine ->
  (forall u, fst (put u) = true) -> fits_cond recipient -> 0 < amount -> (length data <= 83)%nat ->
  let r := perform H S256 sign ip_parse now put own rebal net (h, t, k) v (OSend recipient amount (mkfunding None None) data) in
  (can_pay H h t mine (amount + v_fee v) -> exists u, fst r = [u] /\ complete u /\ hd_error (coin_outputs u) = Some (mkout amount recipient [])) /\
  (~ can_pay H h t mine (amount + v_fee v) -> r = ([], Err InsufficientFunds)).
Proof.
  intros HH S64 T N WO KA SU W A1 A2 RH D Ph Pt C RO Pu FC Pos LD r.
  destruct (C77_loaded H ip_parse now net h t k v w mine multi HH T N WO KA SU W A1 A2 RH D Ph Pt C RO) as (Re & Iff).
  pose proof (C77_send H sign _ recipient amount _ data HH S64 Re FC Pos LD) as G. unfold r, perform, opened. rewrite W. cbn [bind]. unfold run, prepare.
  unfold goes_through in G. cbn [x_fee x_bal f_source purse_of] in G.
  destruct (wallet_send H sign _ recipient amount _ data) as [[u b]|e] eqn:E.
  - destruct G as (-> & A). cbn [fst]. rewrite Pu. split; [|intro X; exfalso; apply X; apply Iff; exact A]. intros _. exists u. split; [reflexivity|].
    apply C36_send in E as (_ & (_ & _ & ins & used & rem & _ & _ & _ & _ & ->) & _ & B). split; [apply B; reflexivity|reflexivity].
  - destruct G as (-> & A). split; [intro X; exfalso; apply A; apply Iff; exact X|reflexivity].
Qed.
Print Assumptions C77_from_the_chain.

(** The wallet of the example of C76: the chain shows 1050 TFT. *)
Definition exa_outs (ar : pystr * uhresult) : list output :=
  filter (Spec_Explorer.pays ex_H2 (fst ar)) (flat_map (fun x => spent_by (e_txn x) ++ coin_outputs (e_txn x)) (h_txns (snd ar))).
Lemma exa_told a r o : told ex_H2 a (h_txns r) o -> In o (exa_outs (a, r)).
Proof.
  intros (P & x & Ix & K). apply filter_In. split; [|exact P]. apply in_flat_map. exists x. split; [exact Ix|]. apply in_or_app. exact K.
Qed.
Definition exa_mine : list output := [mkout (1000 * TFT) (CUnlockHash (ex_key_uh 7)) (repeat 21 32); mkout (50 * TFT) (CUnlockHash (ex_key_uh 8)) (repeat 22 32)].
Example C77_ex_chain : exists mine w, answers (lookup ex_H2 ex_ip_parse 1600000000 (exn_net [exn_first])) 0 (v_addrs exn_purse) mine /\
  wallet_balance ex_H2 ex_ip_parse 1600000000 (exn_net [exn_first]) exl_info (v_addrs exn_purse) = Ok w /\
  Forall (holds_key ex_H2 (v_keys exn_purse)) (v_addrs exn_purse) /\ small_uh (v_address exn_purse) /\ wallet_ok ex_H2 (v_primary exn_purse) (v_keys exn_purse) /\
  real_outputs ex_H2 100 1600000000 mine /\ is_ok (snd (exn_perform [exn_first] 1049)) = true /\ length (fst (exn_perform [exn_first] 1049)) = 1%nat /\
  exn_perform [exn_first] 1050 = ([], Err InsufficientFunds).
Proof.
  eexists. eexists. split; [apply A_found; [vm_compute; reflexivity|]; apply A_found; [vm_compute; reflexivity|]; apply A_none|].
  split; [vm_compute; reflexivity|].
  split. { apply Forall_cons; [split; [exists (ex_key 7); left; reflexivity|vm_compute; discriminate]|]. apply Forall_cons; [split; [exists (ex_key 8); right; left; reflexivity|vm_compute; discriminate]|]. apply Forall_nil. }
  split. { split; [split; vm_compute; congruence|vm_compute; repeat constructor]. }
  split; [exact ex_wallet_ok|].
  assert (NC : forall n, n < 256 -> network_cond (CUnlockHash (mkuh 1 (repeat n 32)))).
  { intros n L. cbn [network_cond simple_cond]. split; [cbn; auto|]. split; [split; [apply repeat_length|]|discriminate]. unfold wf_bytes. apply Forall_forall. intros x I. apply repeat_spec in I. subst. exact L. }
  split; [|split; [vm_compute; reflexivity|split; vm_compute; reflexivity]].
  match goal with |- real_outputs _ _ _ ?m => set (hs := m) end.
  assert (X : forall a r o, In (a, r) hs -> told ex_H2 a (h_txns r) o -> In o exa_mine).
  { intros a r o I To. apply exa_told in To. assert (G : forallb (fun ar => forallb (fun o => existsb (fun q => (o_value o =? o_value q) && listN_eqb (o_id o) (o_id q) &&
      match o_cond o, o_cond q with CUnlockHash u, CUnlockHash v => uh_eqb u v | _, _ => false end) exa_mine) (exa_outs ar)) hs = true) by (vm_compute; reflexivity).
    rewrite forallb_forall in G. specialize (G _ I). rewrite forallb_forall in G. specialize (G _ To). apply existsb_exists in G as (q & Iq & G).
    apply andb_prop in G as [G G3]. apply andb_prop in G as [G1 G2]. apply N.eqb_eq in G1. apply listN_eqb_eq in G2. destruct o as [v c i], q as [v' c' i']. cbn [o_value o_cond o_id] in *.
    destruct c as [|u| | |]; try discriminate. destruct c' as [|u'| | |]; try discriminate. apply uh_eqb_eq in G3. subst. exact Iq. }
  split.
  - intros a r o I To. destruct (X a r o I To) as [<-|[<-|[]]]; [exact (NC 7 eq_refl)|exact (NC 8 eq_refl)].
  - intros s Nd F. assert (S : selection s exa_mine).
    { apply sel_of; [unfold ids in Nd; apply NoDup_map_inv in Nd; exact Nd|]. intros o I. rewrite Forall_forall in F. destruct (F o I) as (a & r & J & To & _). exact (X a r o J To). }
    apply (modest_le _ (worth exa_mine)); [vm_compute; reflexivity|apply sel_worth; exact S].
Qed.
