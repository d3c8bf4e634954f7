(** Properties C36 (wallet operations conserve value) and C57 (minting). *)
From Verif Require Import Base BaseFacts Encoders Currency Primitive Types Conditions Fulfillments ThreeBotTypes Txn TxnSign Wallet AtomicSwap Ops
  Spec_Types Spec_Fulfil Spec_Txn Spec_Sign Spec_Wallet Spec_Swap Spec_Ops WalletFacts FundFacts FundFacts3 BuildFacts OpsFacts OpsFacts2 OpsFacts4 SwapFacts SwapFacts2
  Prop_Fulfil Prop_Sign Prop_Wallet Prop_Swap Prop_ThreeBot.

(** ** C36 *)
(** Sending to one or several recipients: the transaction pays exactly the recipients, the fee, and the remainder to the refund
    recipient; it is handed to the explorer exactly when it is completely signed. *)
Theorem C36_send_many : forall H sign x pays f data t sub, wallet_send_many H sign x pays f data = Ok (t, sub) ->
  funded H (x_bal x) (x_address x) (f_source f) (f_refund f) (x_fee x) (map (fun p => mkout (snd p) (fst p) []) pays) 0 t /\
  (exists a, t = T1 a /\ s_legacy a = false /\ s_bin a = [] /\ s_bout a = [] /\ s_data a = data /\ (length data <= 83)%nat) /\ (sub = true <-> complete t).
Proof. intros H sign x pays f data t sub. apply wallet_send_many_inv. Qed.
Print Assumptions C36_send_many.
Theorem C36_send : forall H sign x recipient amount f data t sub, wallet_send H sign x recipient amount f data = Ok (t, sub) ->
  0 < amount /\ funded H (x_bal x) (x_address x) (f_source f) (f_refund f) (x_fee x) [mkout amount recipient []] 0 t /\
  (exists a, t = T1 a /\ s_legacy a = false /\ s_bin a = [] /\ s_bout a = [] /\ s_data a = data /\ (length data <= 83)%nat) /\ (sub = true <-> complete t).
Proof. intros H sign x recipient amount f data t sub E. apply wallet_send_inv in E as [A E]. apply wallet_send_many_inv in E. auto. Qed.
Print Assumptions C36_send.
(** Atomic swap contracts: one output with the amount, locked by the swap condition, and the remainder; the outputs carry the ids
    they have on the chain. *)
Theorem C36_contract : forall H sign now x receiver amount sh lock f data submit t sub,
  wallet_contract H sign now x receiver amount sh lock f data submit = Ok (t, sub) ->
  x_fee x < amount /\ (500000000 <= lock)%Z /\
  funded H (x_bal x) (x_address x) (f_source f) (f_refund f) (x_fee x)
    [mkout amount (CSwap (match refund_to (x_bal x) (x_address x) (f_source f) (f_refund f) with CUnlockHash u => u | _ => x_address x end) receiver (Some sh) lock) []] 0 (nameless t) /\
  (exists a, t = T1 a /\ s_legacy a = false /\ s_bin a = [] /\ s_bout a = [] /\ s_data a = data /\ (length data <= 83)%nat) /\
  (forall j o, nth_error (coin_outputs t) j = Some o -> coin_outputid H t (Z.of_nat j) = Ok (o_id o)) /\
  (sub = true <-> submit = true /\ complete t).
Proof. intros H sign now x receiver amount sh lock f data submit t sub. apply wallet_contract_inv. Qed.
Print Assumptions C36_contract.
(** Claiming a contract: the contract's amount is the fee and the output to the claiming side. *)
Theorem C36_claim : forall H sign primary ks, (forall k h, length (sign k h) = 64%nat) -> forall fee k as_sender secret data t, claim H sign primary ks fee k as_sender secret data = Ok t ->
  conserves t 0 /\ miner_fees t = [fee] /\ coin_outputs t = [mkout (k_amount k - fee) (CUnlockHash (if as_sender then k_sender k else k_receiver k)) []] /\
  exists i, coin_inputs t = Ok [i] /\ takes i (contract_output k).
Proof.
  intros H sign primary ks S64 fee k as_sender secret data t E. apply (claim_inv H (fun x => x) sign primary ks S64) in E as (F & D & us & l & by_ & dd & _ & _ & _ & ->). unfold claim_tx.
  split; [|split; [reflexivity|split; [reflexivity|]]].
  - eexists. split; [reflexivity|]. cbn. destruct as_sender; lia.
  - eexists. split; [reflexivity|]. split; reflexivity.
Qed.
Print Assumptions C36_claim.
(** 3Bot operations: the price of the operation is neither paid to anyone nor refunded. *)
Theorem C36_record_new : forall H sign ip x months names addrs key f t sub, record_new H sign ip x months names addrs key f = Ok (t, sub) ->
  exists b k, t = T144 b /\ key = Ok k /\ b_pk b = Some k /\ b_months b = months /\ (1 <= months <= 24)%Z /\
    mapM bn_new (given_all names) = Ok (b_names b) /\ mapM (na_new ip) (given_all addrs) = Ok (b_addrs b) /\ limits t /\
    funded H (x_bal x) (x_address x) (f_source f) (f_refund f) (x_fee x) [] (price t) t /\ (sub = true <-> complete t).
Proof. intros H sign ip x months names addrs key f t sub. apply record_new_inv. Qed.
Print Assumptions C36_record_new.
Theorem C36_record_update : forall H sign ip now rec x id months na nd aa ad f t sub, record_update H sign ip now rec x id months na nd aa ad f = Ok (t, sub) ->
  exists u r, t = T145 u /\ rec id = Ok r /\ u_parent u = Some (br_key r) /\ (now < br_expiration r \/ months <> 0)%Z /\ u_id u = id /\ (1 <= id)%Z /\ u_months u = months /\
    mapM bn_new (given_all na) = Ok (u_name_add u) /\ mapM bn_new (given_all nd) = Ok (u_name_del u) /\
    mapM (na_new ip) (given_all aa) = Ok (u_addr_add u) /\ mapM (na_new ip) (given_all ad) = Ok (u_addr_del u) /\ limits t /\
    funded H (x_bal x) (x_address x) (f_source f) (f_refund f) (x_fee x) [] (price t) t /\ (sub = true <-> complete t).
Proof. intros H sign ip now rec x id months na nd aa ad f t sub. apply record_update_inv. Qed.
Print Assumptions C36_record_update.
Theorem C36_name_transfer : forall H sign ip now rec x sender receiver names f t sub, name_transfer H sign ip now rec x sender receiver names f = Ok (t, sub) ->
  exists n rs rr, t = T146 n /\ rec sender = Ok rs /\ rec receiver = Ok rr /\ n_spk n = Some (br_key rs) /\ n_rpk n = Some (br_key rr) /\
    (now < br_expiration rs)%Z /\ (now < br_expiration rr)%Z /\ n_sender n = sender /\ n_receiver n = receiver /\
    mapM bn_new (given_all names) = Ok (n_names n) /\ n_names n <> [] /\ limits t /\
    funded H (x_bal x) (x_address x) (f_source f) (f_refund f) (x_fee x) [] (price t) t /\ (sub = true <-> complete t).
Proof. intros H sign ip now rec x sender receiver names f t sub. apply name_transfer_inv. Qed.
Print Assumptions C36_name_transfer.
(** ERC20: the amount sent, or ten TFT for a registration, leaves the chain. *)
Theorem C36_erc20_send : forall H sign x address amount f t sub, erc20_send H sign x address amount f = Ok (t, sub) ->
  exists c, t = T208 c /\ eaddr_new address = Ok (c_addr c) /\ c_value c = amount /\ 0 < amount /\
    funded H (x_bal x) (x_address x) (f_source f) (f_refund f) (x_fee x) [] amount t /\ (sub = true <-> complete t).
Proof. intros H sign x address amount f t sub. apply erc20_send_inv. Qed.
Print Assumptions C36_erc20_send.
Theorem C36_erc20_register : forall H sign x key f t sub, erc20_register H sign x key f = Ok (t, sub) ->
  exists r k, t = T210 r /\ key = Ok k /\ r_pk r = Some k /\
    funded H (x_bal x) (x_address x) (f_source f) (f_refund f) (x_fee x) [] (10 * TFT) t /\ (sub = true <-> complete t).
Proof. intros H sign x key f t sub. apply erc20_register_inv. Qed.
Print Assumptions C36_erc20_register.
(** Draining: every transaction conserves value. *)
Theorem C36_drain : forall b recipient fee unconfirmed data ts, drain b recipient fee unconfirmed data = Ok ts ->
  Forall (fun t => conserves t 0 /\ miner_fees t = [fee] /\ exists v, coin_outputs t = [mkout v recipient []]) ts.
Proof.
  intros b recipient fee unconfirmed data ts E. apply C37_drain in E as (parts & _ & F). clear -F. induction F as [|used t parts ts (ins & -> & S & L & _) F IH]; constructor; [|exact IH].
  split; [|split; [reflexivity | eexists; reflexivity]]. exists ins. split; [reflexivity|]. cbn [coin_outputs s_cout miner_fees s_fees]. unfold worth. cbn [map sum].
  assert (W : in_worth ins = worth used).
  { clear L. induction S as [|i o l l' (A & B & _) S IHS]; [reflexivity|]. unfold in_worth, worth in *. cbn [map sum]. rewrite B, IHS. reflexivity. }
  rewrite W. cbn [o_value sum]. unfold worth in *. lia.
Qed.
Print Assumptions C36_drain.

(** A wallet with 1000 TFT confirmed, 50 TFT unconfirmed, and keys 7 and 8. *)
Definition exo_a : output := mkout (1000 * TFT) (CUnlockHash (ex_key_uh 7)) (repeat 1 32).
Definition exo_b : output := mkout (50 * TFT) (CUnlockHash (ex_key_uh 8)) (repeat 2 32).
Definition exo_x : wctx := mkctx (ex_addr 7) ex_ks (ex_key_uh 7)
  (mkwb (observe bal_new [mkobs exo_a true false; mkobs exo_b false false]) []) 100000000.
Definition exo_f : funding := mkfunding None None.
Definition exo_rec : Z -> res bot_record := fun i => Ok (mkrec (ex_key (Z.to_N i)) 2000000000).
Definition exo_ip : pystr -> res bytes := ex_ip_parse.
Definition sent (r : res (txn * bool)) : option bool := match r with Ok (_, b) => Some b | Err _ => None end.
Example C36_ex :
  sent (wallet_send ex_H2 ex_sign exo_x (CUnlockHash exw_uh) (1020 * TFT) exo_f []) = Some true /\
  sent (wallet_contract ex_H2 ex_sign 1500000000 exo_x (ex_key_uh 9) (5 * TFT) (repeat 3 32) 1600000000 exo_f [1] true) = Some true /\
  sent (record_new ex_H2 ex_sign exo_ip exo_x 12 (Some [Some (s2b "alpha")]) (Some [Some ex_host]) (Ok (ex_key 7)) exo_f) = Some true /\
  sent (record_update ex_H2 ex_sign exo_ip 1500000000 exo_rec exo_x 7 1 (Some [Some (s2b "gamma")]) None None None exo_f) = Some true /\
  sent (record_update ex_H2 ex_sign exo_ip 1500000000 exo_rec exo_x 9 1 (Some [Some (s2b "gamma")]) None None None exo_f) = Some false /\
  sent (name_transfer ex_H2 ex_sign exo_ip 1500000000 exo_rec exo_x 7 8 (Some [Some (s2b "gamma")]) exo_f) = Some true /\
  sent (erc20_send ex_H2 ex_sign exo_x (BVBytes (repeat 6 20)) (5 * TFT) exo_f) = Some true /\
  sent (erc20_register ex_H2 ex_sign exo_x (Ok (ex_key 8)) exo_f) = Some true.
Proof. vm_compute. auto 10. Qed.

(** ** C57: minting creates exactly what was asked for, under the mint condition in force *)
Theorem C57_coins_new : forall H sign x mc recipient amount nonce data t sub, coins_new H sign x mc recipient amount nonce data = Ok (t, sub) ->
  0 < amount /\ exists m c, t = TMint m /\ mc = Ok c /\ m_parent m = Some c /\ m_new m = MCoins [mkout amount recipient []] /\ m_fees m = [x_fee x] /\ m_nonce m = nonce /\
    m_data m = match data with Some d => d | None => [] end /\ (length (m_data m) <= 83)%nat /\ (sub = true <-> complete t).
Proof.
  intros H sign x mc recipient amount nonce data t sub E. unfold coins_new in E. apply bind_ok in E as (? & G & E). apply guard_ok in G. split; [lia|]. exact (mint_inv _ _ _ _ _ _ _ _ _ E).
Qed.
Print Assumptions C57_coins_new.
Theorem C57_definition_set : forall H sign x mc minter nonce data t sub, definition_set H sign x mc minter nonce data = Ok (t, sub) ->
  (exists u, cond_unlockhash H minter = Ok u /\ (uh_type u = 1 \/ uh_type u = 3)%Z) /\
  exists m c, t = TMint m /\ mc = Ok c /\ m_parent m = Some c /\ m_new m = MCond minter /\ m_fees m = [x_fee x] /\ m_nonce m = nonce /\
    m_data m = match data with Some d => d | None => [] end /\ (length (m_data m) <= 83)%nat /\ (sub = true <-> complete t).
Proof.
  intros H sign x mc minter nonce data t sub E. unfold definition_set in E. apply bind_ok in E as (u & U & E). apply bind_ok in E as (? & G & E). apply guard_ok in G.
  split; [exists u; split; [exact U | unfold UH_PUBLIC_KEY, UH_MULTI_SIG in G; lia]|]. exact (mint_inv _ _ _ _ _ _ _ _ _ E).
Qed.
Print Assumptions C57_definition_set.
(** Without one of the minter's keys nothing can be signed, and without all of them nothing is submitted. *)
Example C57_ex :
  sent (coins_new ex_H2 ex_sign exo_x (Ok (CUnlockHash (ex_key_uh 7))) (CUnlockHash exw_uh) 7 (repeat 1 8) None) = Some true /\
  sent (coins_new ex_H2 ex_sign exo_x (Ok (CMulti [ex_key_uh 7; ex_key_uh 9] 2)) (CUnlockHash exw_uh) 7 (repeat 1 8) None) = Some false /\
  sent (definition_set ex_H2 ex_sign exo_x (Ok (CMulti [ex_key_uh 7; ex_key_uh 8] 2)) (CMulti [ex_key_uh 7; ex_key_uh 9] 1) (repeat 1 8) (Some [4])) = Some true /\
  definition_set ex_H2 ex_sign exo_x (Ok (CUnlockHash (ex_key_uh 7))) (CSwap (ex_key_uh 7) (ex_key_uh 8) None 5) (repeat 1 8) (Some [4]) = Err ValueError.
Proof. vm_compute. auto 10. Qed.
