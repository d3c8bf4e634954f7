(** C74: a transaction that is complete is submitted; C38: how many addresses a new wallet looks ahead. *)
From Verif Require Import Base BaseFacts Encoders Currency Primitive Types Conditions Fulfillments ThreeBotTypes Txn TxnSign Wallet AtomicSwap Ops Submit KeyScan
  Spec_Types Spec_Txn Spec_Sign Spec_Wallet Spec_Explorer Spec_Ops Spec_Submit OpsFacts OpsFacts2 OpsFacts4 SubmitFacts Prop_Fulfil Prop_Txn Prop_ThreeBot Prop_Wallet Prop_Sign Prop_Ops Prop_Submit.
From Coq Require Import ZifyBool ZifyNat ZifyN.
Ltac Zify.zify_post_hook ::= Z.div_mod_to_equations.

(** The caller wants the transaction submitted: contracts and signing have an argument for it. *)
Definition wanted (o : op) : Prop := match o with OContract _ _ _ _ _ _ _ s => s = true | OSign _ s _ => s = true | _ => True end.
(** Something was left to sign when the transaction was given (claims, payments etc. always have). *)
Definition to_sign (H : bytes -> bytes) (x : wctx) (o : op) : Prop :=
  match o with OSign mc _ t => exists q qs, requests H (fst (mint_prepare mc (set_cin t (attach (known_outputs (x_bal x)))))) = Ok (q :: qs) | _ => True end.
Theorem C74_submits : forall H S256 (sign : pubkey -> bytes -> bytes) ip_parse x o t b,
  prepare H S256 sign ip_parse x o = Ok (t, b) -> (b = true <-> wanted o /\ complete t /\ to_sign H x o).
Proof.
  intros H S sg ip x o t b. destruct o; cbn [Submit.prepare wanted to_sign]; intro E.
  - apply wallet_send_inv in E as [_ E]. apply wallet_send_many_inv in E. tauto.
  - apply wallet_send_many_inv in E. tauto.
  - apply wallet_contract_inv in E as (_ & _ & _ & _ & _ & E). tauto.
  - apply bind_ok in E as (t' & E & X). apply ok_inj in X. injection X as -> <-. apply redeem_claim in E as (k & s & E). apply claim_complete in E. tauto.
  - apply bind_ok in E as (t' & E & X). apply ok_inj in X. injection X as -> <-. apply refund_claim in E as (k & E). apply claim_complete in E. tauto.
  - apply record_new_inv in E as (? & k & _ & _ & _ & _ & _ & _ & _ & _ & _ & E). tauto.
  - apply record_update_inv in E as (? & k & _ & _ & _ & _ & _ & _ & _ & _ & _ & _ & _ & _ & _ & E). tauto.
  - apply name_transfer_inv in E as (? & k & r & _ & _ & _ & _ & _ & _ & _ & _ & _ & _ & _ & _ & _ & E). tauto.
  - apply erc20_send_inv in E as (c & _ & _ & _ & _ & _ & E). tauto.
  - apply erc20_register_inv in E as (c & k & _ & _ & _ & _ & E). tauto.
  - unfold definition_set in E. apply bind_ok in E as (? & _ & E). apply bind_ok in E as (? & _ & E). apply mint_inv in E as (m & c & _ & _ & _ & _ & _ & _ & _ & _ & E). tauto.
  - unfold coins_new in E. apply bind_ok in E as (? & _ & E). apply mint_inv in E as (m & c & _ & _ & _ & _ & _ & _ & _ & _ & E). tauto.
  - unfold transaction_sign in E. destruct (coin_inputs t0); [|discriminate]. destruct (mint_prepare mc (set_cin t0 (attach (known_outputs (x_bal x))))) as [t1 [[]|]]; [|discriminate]. cbn [fst].
    destruct (requests H t1) as [qs|]; [|discriminate]. destruct qs as [|q qs].
    + apply ok_inj in E. injection E as -> <-. split; [discriminate|]. intros (_ & _ & (q & qs & X)). discriminate X.
    + destruct (sign_loop H sg (x_primary x) (x_keys x) (q :: qs) t1 0) as [t2 [n|]]; [|discriminate]. destruct (t_is_fulfilled t2) as [c|] eqn:C; [|discriminate]. cbn [bind] in E. apply ok_inj in E. injection E as -> <-.
      pose proof (fulfilled_complete _ _ C) as F. rewrite andb_true_iff, F. split; [intros (-> & K); eauto|tauto].
Qed.
Print Assumptions C74_submits.
(** A number of addresses to look ahead is taken as given; a negative one means three. *)
Theorem C38_scan_count : forall z, ((0 <= z)%Z -> scan_count z = Z.to_nat z) /\ ((z < 0)%Z -> scan_count z = 3%nat).
Proof. intro z. unfold scan_count. split; intro L; destruct (Z.max (-1) z =? -1)%Z eqn:E; f_equal; lia. Qed.
Print Assumptions C38_scan_count.
Example C74_submits_ex : exists t, prepare ex_H2 ex_H2 ex_sign exo_ip exo_x exb_send = Ok (t, true) /\ wanted exb_send /\ to_sign ex_H2 exo_x exb_send /\ complete t /\
  scan_count (-7) = 3%nat /\ scan_count 0 = 0%nat /\ scan_count 5 = 5%nat.
Proof.
  exists exb_txn. assert (E : prepare ex_H2 ex_H2 ex_sign exo_ip exo_x exb_send = Ok (exb_txn, true)) by apply C74_ex_returns.
  split; [exact E|]. split; [exact I|]. split; [exact I|]. split; [apply (proj1 (C74_submits _ _ _ _ _ _ _ _ E) eq_refl)|]. repeat split.
Qed.
