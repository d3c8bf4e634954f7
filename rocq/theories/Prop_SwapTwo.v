(** C78: an atomic swap between two wallets. *)
From Verif Require Import Base BaseFacts Encoders EncodersFacts Primitive Types TypesFacts Conditions ConditionFacts ConditionFacts2 Fulfillments ThreeBotTypes Txn TxnSign Wallet AtomicSwap Ops
  Spec_Types Spec_Fulfil Spec_Txn Spec_Sign Spec_Wallet Spec_Swap Spec_Ops Spec_Fits WalletFacts FundFacts FundFacts3 BuildFacts SignFacts3 SignFacts4 OpsFacts4 SwapFacts SwapFacts2 SigTotal
  Prop_Fulfil Prop_Sign Prop_Wallet Prop_Swap Prop_Ops.
From Coq Require Import ZifyBool ZifyNat ZifyN.
Ltac Zify.zify_post_hook ::= Z.div_mod_to_equations.

(** *** Lemmas *)
Lemma no_key H primary ks u : hash_ok H -> wallet_ok H primary ks -> full_uh u -> uh_type u <> 0%Z -> ~ has_key H ks u -> wallet_key H primary ks u = None.
Proof.
  intros HH WO Fu Ty N. unfold wallet_key. destruct (uh_str H u) as [a|] eqn:E; [|reflexivity]. unfold key_pair_get.
  destruct (listN_eqb (firstn 2 a) (s2b "00")) eqn:Z; [apply listN_eqb_eq in Z; apply (str_type_zero H (fun _ _ => repeat 0 64) (fun _ _ => eq_refl)) in E; [contradiction|exact Z]|].
  destruct (kfind a ks) as [k|] eqn:K; [|reflexivity]. exfalso. apply N.
  pose proof (kfind_ok H primary ks WO _ _ K) as A. unfold pk_address in A. apply bind_ok in A as (v & V & S).
  assert (Fv : full_uh v). { destruct (pk_address_fun H _ _ V) as (Tv & d & _ & Hv). split; [lia|]. rewrite Hv. apply HH. }
  assert (u = v) as -> by exact (uh_str_inj H _ _ _ HH Fu Fv E S).
  assert (I : exists b, In (b, k) ks).
  { clear -K. induction ks as [|[b x] l IH]; [easy|]. cbn in K. destruct (listN_eqb a b); [injection K as <-; exists b; now left|destruct (IH K) as (c & C); exists c; now right]. }
  destruct I as (b & I). exists b, k. auto.
Qed.
Lemma claim_fits k fee to data f : modest (k_amount k) -> small_uh to -> fee <= k_amount k -> (length data <= 83)%nat -> fits (claim_tx k fee to data f).
Proof.
  intros M S L D. unfold claim_tx, one. cbn [fits s_legacy s_cin s_bin s_cout s_bout s_fees s_data].
  assert (M' : forall n, n <= k_amount k -> modest n) by (intros n X; unfold modest in *; lia).
  assert (F : forall A (l : list A), (length l <= 83)%nat -> few l) by (intros A l X; unfold few; lia).
  split; [reflexivity|]. split; [apply F; cbn; lia|]. split; [apply F; cbn; lia|]. split; [apply F; cbn; lia|]. split; [apply F; cbn; lia|].
  split. { constructor; [split; [apply M'; cbn; lia|exact S]|constructor]. } split; [constructor|]. split; [apply F; cbn; lia|]. split; [constructor; [apply M'; lia|constructor]|]. apply F. exact D.
Qed.
Lemma small_print u : small_uh u -> printable u.
Proof. intros (T & _). exact T. Qed.

(** Without a hypothesis about encodings: redeeming and refunding succeed for contracts of sensible amounts between addresses. *)
Theorem C40_redeem_works : forall H S256 sign primary ks, (forall k h, length (sign k h) = 64%nat) -> hash_ok H -> wallet_ok H primary ks ->
  (forall x, length (S256 x) = 32%nat) -> Forall (fun k => small_key (snd k)) ks ->
  forall get fee id secret sec data o k, get id = Ok (o, false) -> is_contract o k -> has_key H ks (k_receiver k) -> real_address H (k_receiver k) ->
  secret_new secret = Ok sec -> k_hash k = Some (S256 sec) -> fee <= k_amount k -> (length data <= 83)%nat ->
  small_uh (k_sender k) -> small_uh (k_receiver k) -> modest (k_amount k) ->
  exists t, redeem H S256 sign primary ks get fee id secret data = Ok t.
Proof.
  intros H S256 sign primary ks S64 HH WO L SK get fee id secret sec data o k G C K R Sec Kh F Ld Ss Sr M.
  apply (C40_redeem_succeeds H S256 sign primary ks S64 HH WO L get fee id secret sec data o k); auto using small_print.
  intros se by_ (a & I). apply sig_input_there; [apply claim_fits; assumption|]. rewrite Forall_forall in SK. specialize (SK _ I).
  constructor; [unfold fits_extra, u64; lia|]. destruct se; cbn [ff_extras]; (constructor; [exact SK|]); repeat constructor.
Qed.
Print Assumptions C40_redeem_works.
Theorem C40_refund_works : forall H sign primary ks, (forall k h, length (sign k h) = 64%nat) -> hash_ok H -> wallet_ok H primary ks -> Forall (fun k => small_key (snd k)) ks ->
  forall now get fee id data o k, get id = Ok (o, false) -> is_contract o k -> has_key H ks (k_sender k) -> real_address H (k_sender k) ->
  (k_refund k <= now)%Z -> fee <= k_amount k -> (length data <= 83)%nat -> small_uh (k_sender k) -> small_uh (k_receiver k) -> modest (k_amount k) ->
  exists t, AtomicSwap.refund H sign now primary ks get fee id data = Ok t.
Proof.
  intros H sign primary ks S64 HH WO SK now get fee id data o k G C K R T F Ld Ss Sr M.
  apply (C40_refund_succeeds H sign primary ks S64 HH WO now get fee id data o k); auto using small_print.
  intros by_ (a & I). apply sig_input_there; [apply claim_fits; assumption|]. rewrite Forall_forall in SK. specialize (SK _ I).
  constructor; [unfold fits_extra, u64; lia|]. constructor; [exact SK|constructor].
Qed.
Print Assumptions C40_refund_works.

(** The contract a wallet makes is the one that was asked for. *)
Theorem C78_contract : forall H sign now x receiver amount sh lock f data submit t sub, hash_ok H ->
  wallet_contract H sign now x receiver amount sh lock f data submit = Ok (t, sub) ->
  exists o, nth_error (coin_outputs t) 0 = Some o /\ coin_outputid H t 0 = Ok (o_id o) /\ length (o_id o) = 32%nat /\
    is_contract o (mkct (o_id o) amount (match refund_to (x_bal x) (x_address x) (f_source f) (f_refund f) with CUnlockHash u => u | _ => x_address x end) receiver (Some sh) lock true).
Proof.
  intros H sign now x receiver amount sh lock f data submit t sub HH E. apply C36_contract in E as (_ & _ & (_ & _ & ins & used & rem & _ & _ & _ & _ & O) & (a & -> & _) & I & _).
  cbn [nameless coin_outputs s_cout] in O. destruct (s_cout a) as [|o l] eqn:El; [discriminate|]. cbn [map app] in O. injection O as V C _.
  exists o. cbn [coin_outputs]. rewrite El. split; [reflexivity|]. specialize (I 0%nat o). cbn [coin_outputs] in I. rewrite El in I. specialize (I eq_refl). change (Z.of_nat 0) with 0%Z in I.
  split; [exact I|]. unfold coin_outputid in I. apply bind_ok in I as (? & _ & I). apply bind_ok in I as (d & _ & I). apply ok_inj in I. rewrite <- I.
  split; [apply HH|]. unfold is_contract. cbn. auto.
Qed.
Print Assumptions C78_contract.

(** Two wallets: one makes a contract for an address of the other, locked by the hash of a secret.  As long as the explorers give the contract's output unspent:
    the other wallet verifies it, and redeems it with the secret, which its transaction tells everyone; with another secret it is refused.
    The first gets it back from the refund time on, not before.  No third wallet gets it. *)
Theorem C78_swap : forall H S256 sign, (forall k h, length (sign k h) = 64%nat) -> hash_ok H -> (forall x, length (S256 x) = 32%nat) ->
  forall now x receiver amount secret sec lock f data submit t sub,
  secret_new secret = Ok sec -> secret <> BVNone ->
  wallet_contract H sign now x receiver amount (S256 sec) lock f data submit = Ok (t, sub) ->
  let sender := match refund_to (x_bal x) (x_address x) (f_source f) (f_refund f) with CUnlockHash u => u | _ => x_address x end in
  modest amount -> full_uh sender -> full_uh receiver -> uh_type receiver = 1%Z -> real_address H sender -> real_address H receiver ->
  exists o k, nth_error (coin_outputs t) 0 = Some o /\ o_value o = amount /\ is_contract o k /\
  forall get, get (o_id o) = Ok (o, false) ->
  forall primary ks, wallet_ok H primary ks -> Forall (fun k => small_key (snd k)) ks ->
  forall fee note, fee <= amount -> (length note <= 83)%nat ->
  (* the other wallet *)
  (has_key H ks receiver ->
     verify H now now (map fst ks) get None (o_id o) (Some amount) (Some (BVBytes (S256 sec))) (Some (LInt lock)) false true = Ok k /\
     (exists u by_, redeem H S256 sign primary ks get fee (o_id o) secret note = Ok u /\ claims H sign k o by_ receiver (Some sec) fee note u) /\
     (forall other sec', secret_new other = Ok sec' -> S256 sec' <> S256 sec -> redeem H S256 sign primary ks get fee (o_id o) other note = Err AtomicSwapInvalidSecret)) /\
  (* the first wallet *)
  (has_key H ks sender -> ~ has_key H ks receiver -> forall later,
     ((later < lock)%Z -> AtomicSwap.refund H sign later primary ks get fee (o_id o) note = Err AtomicSwapForbidden) /\
     ((lock <= later)%Z -> exists u by_, AtomicSwap.refund H sign later primary ks get fee (o_id o) note = Ok u /\ claims H sign k o by_ sender None fee note u)) /\
  (* another wallet *)
  (~ has_key H ks receiver -> redeem H S256 sign primary ks get fee (o_id o) secret note = Err AtomicSwapForbidden) /\
  (~ has_key H ks sender -> forall later, AtomicSwap.refund H sign later primary ks get fee (o_id o) note = Err AtomicSwapForbidden).
Proof.
  intros H S256 sign S64 HH L now x receiver amount secret sec lock f data submit t sub Sec NN E sender M Fs Fr Tr Rs Rr.
  destruct (C78_contract _ _ _ _ _ _ _ _ _ _ _ _ _ HH E) as (o & N & _ & Lo & C). fold sender in C. set (k := mkct _ _ _ _ _ _ _) in C. exists o, k.
  pose proof C as (C1 & C2 & C3). cbn in C2. split; [exact N|]. split; [exact C2|]. split; [exact C|].
  assert (SM : forall u, full_uh u -> small_uh u) by (intros u (A & B & _); split; [exact A|lia]).
  intros get G primary ks WO SK fee note Fe Ln. destruct (C40_refused H S256 sign primary ks get fee (o_id o) note o k HH WO L G C) as (X1 & X2 & X3 & X4).
  split; [|split; [|split]].
  - intro K. split; [|split].
    + apply (C39_verify H primary ks HH WO). split; [exists o; auto|]. split; [reflexivity|]. cbn. split; [intros a A; now injection A|]. split; [|split; [|split; [discriminate|auto]]].
      * intros v V. injection V as <-. exists (S256 sec). split; [|reflexivity]. apply hash_new_ok. split; [reflexivity|right; apply L].
      * intros v V. injection V as <-. exists lock. cbn. split; [reflexivity|]. unfold refund_as_expected. lia.
    + destruct (C40_redeem_works H S256 sign primary ks S64 HH WO L SK get fee (o_id o) secret sec note o k G C K Rr Sec eq_refl Fe Ln (SM _ Fs) (SM _ Fr) M) as (u & U).
      pose proof (C40_redeem H S256 sign primary ks S64 HH WO L get fee (o_id o) secret note u U) as (o' & k' & sec' & by_ & G' & C' & Sec' & _ & _ & _ & Cl).
      rewrite G in G'. injection G' as <-. rewrite Sec in Sec'. apply ok_inj in Sec'. subst sec'.
      exists u, by_. split; [exact U|]. destruct C' as (C1' & C2' & C3'). rewrite C1 in C1'. injection C1' as E1 E2 E3 E4. cbn in E1, E2, E3, E4.
      assert (KK : forall b, k = mkct (k_id k') (k_amount k') (k_sender k') (k_receiver k') (k_hash k') (k_refund k') b -> claims H sign k o by_ receiver (Some sec) fee note u).
      { intros b Kb. rewrite <- E2 in Cl. specialize (Cl Rr). destruct secret; [contradiction| | | |]; rewrite Kb; exact Cl. }
      apply (KK true). unfold k. rewrite <- C2', <- C3', C2, <- E1, <- E2, <- E3, <- E4. reflexivity.
    + intros other sec' So Ne. exact (X1 other sec' (S256 sec) So eq_refl (fun e => Ne (eq_sym e))).
  - intros K NK later. split; [intro T; exact (X3 later T)|]. intro T.
    destruct (C40_refund_works H sign primary ks S64 HH WO SK later get fee (o_id o) note o k G C K Rs T Fe Ln (SM _ Fs) (SM _ Fr) M) as (u & U).
    pose proof (C40_refund_partial H sign primary ks S64 HH WO later get fee (o_id o) note u U) as (o' & k' & by_ & G' & C' & _ & _ & _ & Cl).
    rewrite G in G'. injection G' as <-. exists u, by_. split; [exact U|]. destruct C' as (C1' & C2' & C3'). rewrite C1 in C1'. injection C1' as E1 E2 E3 E4. cbn in E1, E2, E3, E4.
    assert (W : wallet_key H primary ks (k_receiver k') = None) by (rewrite <- E2; apply no_key; auto; lia). specialize (Cl (or_introl W)).
    assert (Ks : k = mkct (k_id k') (k_amount k') (k_sender k') (k_receiver k') (k_hash k') (k_refund k') true) by (unfold k; rewrite <- C2', <- C3', C2, <- E1, <- E2, <- E3, <- E4; reflexivity).
    rewrite Ks, E1. exact Cl.
  - intro NK. exact (X2 secret sec Sec eq_refl NK).
  - intros NK later. exact (X4 later NK).
Qed.
Print Assumptions C78_swap.

(** Once the contract is claimed, whoever tries again is told so. *)
Theorem C78_once : forall H S256 sign primary ks get fee id secret note now o k,
  get id = Ok (o, true) -> is_contract o k ->
  redeem H S256 sign primary ks get fee id secret note = Err AtomicSwapContractSpent /\
  AtomicSwap.refund H sign now primary ks get fee id note = Err AtomicSwapContractSpent /\
  (forall t1 t2 addrs amount sh mr s r, verify H t1 t2 addrs get None id amount sh mr s r = Err AtomicSwapContractSpent).
Proof.
  intros H S256 sign primary ks get fee id secret note now o k G C. split; [|split].
  - unfold redeem, fetch. rewrite G. cbn [bind]. unfold contract_new. rewrite (proj1 C). reflexivity.
  - unfold AtomicSwap.refund, fetch. rewrite G. cbn [bind]. unfold contract_new. rewrite (proj1 C). reflexivity.
  - intros. eapply C39_verify_spent; [exact G|exact C].
Qed.
Print Assumptions C78_once.

(** Key 9 redeems a contract made by the wallet of key 7. *)
Definition exy_contract : res (txn * bool) := wallet_contract ex_H2 ex_sign 1500000000 exo_x (ex_key_uh 9) (5 * TFT) (exs_S exs_secret) 1600000000 exo_f [1] true.
Definition exy_out : output := match exy_contract with Ok (t, _) => match coin_outputs t with o :: _ => o | [] => exo_a end | Err _ => exo_a end.
Definition exy_get : AtomicSwap.lookup := fun id => if listN_eqb id (o_id exy_out) then Ok (exy_out, false) else Err ExplorerNoContent.
Definition exy_ks : TxnSign.keys := [(ex_addr 9, ex_key 9)].
Example C78_ex : sent exy_contract = Some true /\
  is_ok (redeem ex_H2 exs_S ex_sign (ex_addr 9) exy_ks exy_get 100000000 (o_id exy_out) (BVBytes exs_secret) []) = true /\
  redeem ex_H2 exs_S ex_sign (ex_addr 9) exy_ks exy_get 100000000 (o_id exy_out) (BVBytes (repeat 6 32)) [] = Err AtomicSwapInvalidSecret /\
  is_ok (AtomicSwap.refund ex_H2 ex_sign 1600000000 (ex_addr 7) ex_ks exy_get 100000000 (o_id exy_out) []) = true /\
  AtomicSwap.refund ex_H2 ex_sign 1599999999 (ex_addr 7) ex_ks exy_get 100000000 (o_id exy_out) [] = Err AtomicSwapForbidden /\
  full_uh (ex_key_uh 9) /\ real_address ex_H2 (ex_key_uh 9) /\ wallet_ok ex_H2 (ex_addr 9) exy_ks /\ has_key ex_H2 exy_ks (ex_key_uh 9) /\ ~ has_key ex_H2 ex_ks (ex_key_uh 9).
Proof.
  do 5 (split; [vm_compute; reflexivity|]). split. { split; [vm_compute; split; congruence|]. vm_compute. split; [reflexivity|repeat constructor]. }
  split; [vm_compute; discriminate|]. split; [repeat constructor|]. split; [exists (ex_addr 9), (ex_key 9); split; [left; reflexivity|reflexivity]|].
  intros (a & k & [I|[I|[]]] & U); apply pair_equal_spec in I as [_ <-]; vm_compute in U; discriminate.
Qed.
