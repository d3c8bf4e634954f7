(** Attaching ids and parents changes nothing the chain sees. *)
From Verif Require Import Base BaseFacts Encoders Currency Primitive Types Conditions Fulfillments ThreeBotTypes Txn TxnJson Wallet Explorer ExplorerFacts Spec_Txn.

Definition same_seen (t u : txn) : Prop := version t = version u /\ content_of t = content_of u /\ witnesses t = witnesses u.
Lemma same_trans t u v : same_seen t u -> same_seen u v -> same_seen t v.
Proof. intros (A & B & C) (A' & B' & C'). repeat split; congruence. Qed.
Lemma parents_spends l os : spends (set_parents l os) = spends l.
Proof. revert os. induction l as [|i l IH]; intros [|o os]; cbn; try reflexivity. unfold spends in *. cbn. rewrite IH. reflexivity. Qed.
Lemma parents_ff l os : fulfilled_inputs (set_parents l os) = fulfilled_inputs l.
Proof. revert os. induction l as [|i l IH]; intros [|o os]; cbn; try reflexivity. unfold fulfilled_inputs in *. cbn. rewrite IH. reflexivity. Qed.
Lemma ids_pay l is_ : map pay (set_ids l is_) = map pay l.
Proof. revert is_. induction l as [|i l IH]; intros [|o os]; cbn; try reflexivity. rewrite IH. reflexivity. Qed.
Lemma refund_pay o is_ : option_map pay (set_refund o is_) = option_map pay o.
Proof. destruct o, is_; reflexivity. Qed.
Lemma put_cin_seen t ins os : coin_inputs t = Ok ins -> same_seen (put_cin t (set_parents ins os)) t.
Proof.
  destruct t as [t|t|t|t|t|t|t|t]; cbn [coin_inputs put_cin]; intro E; try (repeat split; fail).
  all: try (apply ok_inj in E; subst; unfold same_seen, version, content_of, witnesses; cbn [s_legacy s_cin s_cout s_bin s_bout s_fees s_data
    c_addr c_value c_fee c_cin c_refund b_addrs b_names b_months b_fee b_cin b_refund b_pk b_sig u_id u_addr_add u_addr_del u_name_add u_name_del u_months u_fee u_cin u_refund u_sig u_parent];
    rewrite ?parents_spends, ?parents_ff; repeat split).
  - destruct (r_cin t) as [l|] eqn:R; [|discriminate]. apply ok_inj in E. subst. unfold same_seen, version, content_of, witnesses.
    cbn [r_pk r_sig r_fee r_cin r_refund olist]. rewrite R. cbn [olist]. rewrite ?parents_spends, ?parents_ff; repeat split.
  - destruct (n_cin t) as [l|] eqn:R; [|discriminate]. apply ok_inj in E. subst. unfold same_seen, version, content_of, witnesses.
    cbn [n_sender n_receiver n_names n_fee n_cin n_refund n_ssig n_rsig olist]. rewrite R. cbn [olist]. rewrite ?parents_spends, ?parents_ff; repeat split.
Qed.
Lemma put_bin_seen t os : same_seen (put_bin t (set_parents (blockstake_inputs t) os)) t.
Proof.
  destruct t as [t|t|t|t|t|t|t|t]; cbn [blockstake_inputs put_bin]; try (repeat split; fail).
  unfold same_seen, version, content_of, witnesses. cbn [s_legacy s_cin s_cout s_bin s_bout s_fees s_data]. rewrite parents_spends, parents_ff. repeat split.
Qed.
Lemma coin_ids_seen t is_ : same_seen (set_coin_ids t is_) t.
Proof.
  destruct t as [t|t|t|t|t|t|t|t]; cbn [set_coin_ids]; try (repeat split; fail); unfold same_seen, version, content_of, witnesses;
  cbn [s_legacy s_cin s_cout s_bin s_bout s_fees s_data m_ff m_new m_fees m_data m_nonce m_parent r_pk r_sig r_fee r_cin r_refund n_sender n_receiver n_names n_fee n_cin n_refund n_ssig n_rsig
    c_addr c_value c_fee c_cin c_refund b_addrs b_names b_months b_fee b_cin b_refund b_pk b_sig u_id u_addr_add u_addr_del u_name_add u_name_del u_months u_fee u_cin u_refund u_sig u_parent];
  rewrite ?ids_pay, ?refund_pay; try (repeat split; fail).
  destruct (m_new t); cbn; rewrite ?ids_pay; repeat split.
Qed.
Lemma stake_ids_seen t is_ : same_seen (set_stake_ids t is_) t.
Proof.
  destruct t as [t|t|t|t|t|t|t|t]; cbn [set_stake_ids]; try (repeat split; fail); unfold same_seen, version, content_of, witnesses;
  cbn [s_legacy s_cin s_cout s_bin s_bout s_fees s_data]. rewrite ?ids_pay. repeat split.
Qed.
Lemma explorer_seen H ip now e x raw id t ido : explorer_txn H ip now e = Ok x -> jget "rawtransaction" e = Ok raw -> jget "id" e = Ok id ->
  txn_parse H ip now raw (jbval id) = Ok (t, ido) -> same_seen (e_txn x) t.
Proof.
  intros E A B C. apply explorer_txn_inv in E as (raw' & id' & t' & ido' & ins & cps & cpos & cids & chs & bps & bpos & bids & bhs & E1 & E2 & E3 & Eins & Lc & L1 & M1 & Li & L2 & M2 & Lb & L3 & M3 & Lj & L4 & M4 & Et & Eid & _).
  rewrite A in E1. apply ok_inj in E1. subst raw'. rewrite B in E2. apply ok_inj in E2. subst id'. rewrite C in E3. apply ok_inj in E3. injection E3 as <- <-.
  rewrite Et. eapply same_trans; [apply stake_ids_seen|].
  replace (blockstake_inputs t) with (blockstake_inputs (set_coin_ids (put_cin t (set_parents ins cpos)) chs))
    by (rewrite (proj1 (proj2 (coin_ids_same _ _))); apply put_cin_outs).
  eapply same_trans; [apply put_bin_seen|]. eapply same_trans; [apply coin_ids_seen|]. apply put_cin_seen. exact Eins.
Qed.
