(** Properties C36 (conservation), C39 and C40: atomic swap contracts. *)
From Verif Require Import Base BaseFacts Encoders Primitive Types Conditions Fulfillments ThreeBotTypes Txn TxnSign Wallet AtomicSwap
  Spec_Types Spec_Fulfil Spec_Txn Spec_Sign Spec_Wallet Spec_Swap WalletFacts FundFacts FundFacts3 BuildFacts SignFacts4 SwapFacts SwapFacts2
  Prop_Fulfil Prop_Sign Prop_Wallet.

(** ** C39 *)
(** Verifying a contract by its output id succeeds exactly when the output exists and is unspent, is an atomic swap, and meets
    every expectation; the contract returned is the one of the output. *)
Theorem C39_verify : forall H primary ks, hash_ok H -> wallet_ok H primary ks ->
  forall t1 t2 get id amount secret_hash min_refund sender receiver k,
  verify H t1 t2 (map fst ks) get None id amount secret_hash min_refund sender receiver = Ok k <->
  (exists o, get id = Ok (o, false) /\ is_contract o k) /\ k_unspent k = true /\
  expectations H t1 t2 ks k amount secret_hash min_refund sender receiver.
Proof.
  intros H primary ks HH WO t1 t2 get id amount sh mr sender receiver k. unfold verify. split.
  - intro E. apply bind_ok in E as (k' & K & E). assert (k' = k) as ->.
    { clear -E. repeat (apply bind_ok in E as (? & _ & E)). now apply ok_inj in E. }
    apply (proj1 (checks_ok H primary ks HH WO t1 t2 k amount sh mr sender receiver)) in E.
    apply bind_ok in K as ([o spent] & F & K). apply (proj1 (fetch_ok _ _ _ _)) in F. destruct spent; [apply bind_ok in K as (? & _ & K); discriminate|].
    apply contract_new_ok in K as (C & U & _). split; [exists o; auto|]. auto.
  - intros ((o & G & C) & U & X). rewrite (proj2 (fetch_ok get id o false) G). cbn [bind]. rewrite (contract_new_is _ _ _ C U). cbn [bind].
    apply (checks_ok H primary ks HH WO t1 t2 k amount sh mr sender receiver). exact X.
Qed.
Print Assumptions C39_verify.
(** What is raised: not found, spent, or a mismatch. *)
Theorem C39_verify_not_found : forall H t1 t2 addrs get id amount secret_hash min_refund sender receiver,
  get id = Err ExplorerNoContent -> verify H t1 t2 addrs get None id amount secret_hash min_refund sender receiver = Err AtomicSwapContractNotFound.
Proof. intros. unfold verify, fetch. rewrite H0. reflexivity. Qed.
Print Assumptions C39_verify_not_found.
Theorem C39_verify_spent : forall H t1 t2 addrs get id amount secret_hash min_refund sender receiver o k,
  get id = Ok (o, true) -> is_contract o k -> verify H t1 t2 addrs get None id amount secret_hash min_refund sender receiver = Err AtomicSwapContractSpent.
Proof.
  intros H t1 t2 addrs get id amount sh mr sender receiver o k G C. unfold verify, fetch. rewrite G. cbn [bind].
  unfold contract_new. rewrite (proj1 C). reflexivity.
Qed.
Print Assumptions C39_verify_spent.
(** A contract the caller already has is checked in the same way, without a look at the chain. *)
Theorem C39_verify_given : forall H primary ks, hash_ok H -> wallet_ok H primary ks ->
  forall t1 t2 get k0 id amount secret_hash min_refund sender receiver k,
  verify H t1 t2 (map fst ks) get (Some k0) id amount secret_hash min_refund sender receiver = Ok k <->
  k = k0 /\ k_id k = id /\ expectations H t1 t2 ks k amount secret_hash min_refund sender receiver.
Proof.
  intros H primary ks HH WO t1 t2 get k0 id amount sh mr sender receiver k. unfold verify. split.
  - intro E. apply bind_ok in E as (k' & K & E). assert (k' = k) as ->.
    { clear -E. repeat (apply bind_ok in E as (? & _ & E)). now apply ok_inj in E. }
    apply (proj1 (checks_ok H primary ks HH WO t1 t2 k amount sh mr sender receiver)) in E.
    apply bind_ok in K as (? & G & K). apply guard_ok in G. apply listN_eqb_eq in G. apply ok_inj in K. subst. auto.
  - intros (-> & <- & X). assert (listN_eqb (k_id k0) (k_id k0) = true) as -> by now apply listN_eqb_eq. cbn [guard bind].
    apply (checks_ok H primary ks HH WO t1 t2 k0 amount sh mr sender receiver). exact X.
Qed.
Print Assumptions C39_verify_given.

(** A contract of 10 TFT from the owner of key 7 to the owner of key 8, with the wallet of Prop_Sign, which has both keys. *)
Definition exs_S : bytes -> bytes := fun b => map (fun x => x mod 256) (firstn 32 (b ++ repeat 9 32)).
Definition exs_secret : bytes := repeat 5 32.
Definition exs_out (s r : N) : output := mkout 10 (CSwap (ex_key_uh s) (ex_key_uh r) (Some (exs_S exs_secret)) 1600000000) (repeat 4 32).
Definition exs_get (s r : N) : lookup := fun id => if listN_eqb id (repeat 4 32) then Ok (exs_out s r, false) else Err ExplorerNoContent.
Lemma exs_wallet : wallet_ok ex_H2 (ex_addr 7) ex_ks.
Proof. repeat constructor. Qed.
Example C39_ex : is_ok (verify ex_H2 1500000000 1500000000 (map fst ex_ks) (exs_get 7 8) None (repeat 4 32) (Some 10)
    (Some (BVBytes (exs_S exs_secret))) (Some (LInt 1550000000)) true true) = true /\
  verify ex_H2 1500000000 1500000000 (map fst ex_ks) (exs_get 7 8) None (repeat 4 32) (Some 10) None (Some (LInt 1600000001)) false false = Err AtomicSwapContractInvalid.
Proof. split; vm_compute; reflexivity. Qed.

(** ** C40 *)
(** Redeeming succeeds only with the preimage of the contract's hash and with the key of the receiver in the wallet.  It gives the
    transaction which pays amount minus fee to the receiver and is signed by the receiver over the secret. *)
Theorem C40_redeem : forall H S256 sign primary ks, (forall k h, length (sign k h) = 64%nat) -> hash_ok H -> wallet_ok H primary ks ->
  (forall x, length (S256 x) = 32%nat) ->
  forall get fee id secret data t, redeem H S256 sign primary ks get fee id secret data = Ok t ->
  exists o k sec by_, get id = Ok (o, false) /\ is_contract o k /\ secret_new secret = Ok sec /\ k_hash k = Some (S256 sec) /\
    (exists a, In (a, by_) ks) /\ pk_unlockhash H by_ = Ok (k_receiver k) /\
    (real_address H (k_receiver k) ->
     claims H sign k o by_ (k_receiver k) (match secret with BVNone => None | _ => Some sec end) fee data t).
Proof. intros H S256 sign primary ks S64 HH WO L get fee id secret data t. exact (redeem_inv H S256 sign primary ks S64 HH WO get fee id secret data t L). Qed.
Print Assumptions C40_redeem.
(** Refunding succeeds only when the chain reached the refund time and with the key of the sender.  It gives the transaction which
    pays amount minus fee to the sender and is signed by the sender, unless the wallet has the receiver's key too. *)
Theorem C40_refund_partial : forall H sign primary ks, (forall k h, length (sign k h) = 64%nat) -> hash_ok H -> wallet_ok H primary ks ->
  forall now get fee id data t, refund H sign now primary ks get fee id data = Ok t ->
  exists o k by_, get id = Ok (o, false) /\ is_contract o k /\ (k_refund k <= now)%Z /\
    (exists a, In (a, by_) ks) /\ pk_unlockhash H by_ = Ok (k_sender k) /\
    (wallet_key H primary ks (k_receiver k) = None \/ k_sender k = k_receiver k -> claims H sign k o by_ (k_sender k) None fee data t).
Proof. intros H sign primary ks S64 HH WO. exact (refund_inv H (fun x => x) sign primary ks S64 HH WO). Qed.
Print Assumptions C40_refund_partial.
(** Missing: a wallet with both keys signs the refund as the receiver, without a secret. *)
Theorem C40_refund_refuted : exists now t,
  refund ex_H2 ex_sign now (ex_addr 7) ex_ks (exs_get 7 8) 3 (repeat 4 32) [] = Ok t /\
  coin_outputs t = [mkout 7 (CUnlockHash (ex_key_uh 7)) []] /\ option_map signers (get_ff t (CbCoin 0)) = Some [ex_key 8].
Proof. exists 1600000000%Z. eexists. split; [vm_compute; reflexivity|]. split; [reflexivity|]. vm_compute. reflexivity. Qed.
Print Assumptions C40_refund_refuted.
(** With the key, the secret and an encodable transaction redeeming succeeds; likewise refunding from the refund time on. *)
Theorem C40_redeem_succeeds : forall H S256 sign primary ks, (forall k h, length (sign k h) = 64%nat) -> hash_ok H -> wallet_ok H primary ks ->
  (forall x, length (S256 x) = 32%nat) ->
  forall get fee id secret sec data o k, get id = Ok (o, false) -> is_contract o k -> has_key H ks (k_receiver k) -> real_address H (k_receiver k) ->
  secret_new secret = Ok sec -> k_hash k = Some (S256 sec) -> fee <= k_amount k -> (length data <= 83)%nat ->
  printable (k_sender k) -> printable (k_receiver k) ->
  (let se := match secret with BVNone => None | _ => Some sec end in
   forall by_ : pubkey, (exists a, In (a, by_) ks) ->
   is_ok (sig_input H (claim_tx k fee (k_receiver k) data (FSwap pk_default None se)) (XInt 0 :: ff_extras (FSwap pk_default None se) by_)) = true) ->
  exists t, redeem H S256 sign primary ks get fee id secret data = Ok t.
Proof.
  intros H S256 sign primary ks S64 HH WO L get fee id secret sec data o k G C K R Sec Kh F Ld Ps Pr A. unfold redeem.
  rewrite (proj2 (fetch_ok get id o false) G). cbn [bind negb guard].
  set (k' := mkct (k_id k) (k_amount k) (k_sender k) (k_receiver k) (k_hash k) (k_refund k) false).
  rewrite (contract_new_is o false k' C eq_refl). cbn [bind]. unfold verify_secret. rewrite Sec. cbn [bind].
  rewrite (proj2 (TypesFacts.hash_new_ok (BVBytes (S256 sec)) (S256 sec)) (conj eq_refl (or_intror (L sec)))). cbn [bind].
  unfold hash_cmp. change (k_hash k') with (k_hash k). rewrite Kh. assert (listN_eqb (S256 sec) (S256 sec) = true) as -> by now apply listN_eqb_eq. cbn [bind guard].
  destruct (uh_in_ok H primary ks HH WO (k_receiver k)) as (b & B & I). change (k_receiver k') with (k_receiver k). rewrite B. cbn [bind].
  assert (b = true) as -> by now apply I. cbn [guard bind].
  assert (secret_opt secret = Ok (match secret with BVNone => None | _ => Some sec end)) as ->.
  { unfold secret_opt. rewrite Sec. now destruct secret. }
  cbn [bind]. destruct (has_key_wallet H primary ks HH WO _ K) as (kw & W & U & _).
  apply (claim_total H sign primary ks S64 HH WO fee k' false _ data kw (k_receiver k)); auto.
Qed.
Print Assumptions C40_redeem_succeeds.
Theorem C40_refund_succeeds : forall H sign primary ks, (forall k h, length (sign k h) = 64%nat) -> hash_ok H -> wallet_ok H primary ks ->
  forall now get fee id data o k, get id = Ok (o, false) -> is_contract o k -> has_key H ks (k_sender k) -> real_address H (k_sender k) ->
  (k_refund k <= now)%Z -> fee <= k_amount k -> (length data <= 83)%nat -> printable (k_sender k) -> printable (k_receiver k) ->
  (forall by_ : pubkey, (exists a, In (a, by_) ks) ->
   is_ok (sig_input H (claim_tx k fee (k_sender k) data (FSwap pk_default None None)) (XInt 0 :: ff_extras (FSwap pk_default None None) by_)) = true) ->
  exists t, refund H sign now primary ks get fee id data = Ok t.
Proof.
  intros H sign primary ks S64 HH WO now get fee id data o k G C K R T F Ld Ps Pr A. unfold refund.
  rewrite (proj2 (fetch_ok get id o false) G). cbn [bind negb guard].
  set (k' := mkct (k_id k) (k_amount k) (k_sender k) (k_receiver k) (k_hash k) (k_refund k) false).
  rewrite (contract_new_is o false k' C eq_refl). cbn [bind]. change (k_refund k') with (k_refund k).
  assert (negb (now <? k_refund k)%Z = true) as -> by (destruct (now <? k_refund k)%Z eqn:E; [apply Z.ltb_lt in E; lia|reflexivity]). cbn [guard bind].
  destruct (uh_in_ok H primary ks HH WO (k_sender k)) as (b & B & I). change (k_sender k') with (k_sender k). rewrite B. cbn [bind].
  assert (b = true) as -> by now apply I. cbn [guard bind].
  destruct (has_key_wallet H primary ks HH WO _ K) as (kw & W & U & _).
  apply (claim_total H sign primary ks S64 HH WO fee k' true None data kw (k_sender k)); auto.
Qed.
Print Assumptions C40_refund_succeeds.
(** Redeeming with another secret, refunding too early, or claiming without the key is refused. *)
Theorem C40_refused : forall H S256 sign primary ks get fee id data o k, hash_ok H -> wallet_ok H primary ks -> (forall x, length (S256 x) = 32%nat) ->
  get id = Ok (o, false) -> is_contract o k ->
  (forall secret sec h, secret_new secret = Ok sec -> k_hash k = Some h -> h <> S256 sec -> redeem H S256 sign primary ks get fee id secret data = Err AtomicSwapInvalidSecret) /\
  (forall secret sec, secret_new secret = Ok sec -> k_hash k = Some (S256 sec) -> ~ has_key H ks (k_receiver k) -> redeem H S256 sign primary ks get fee id secret data = Err AtomicSwapForbidden) /\
  (forall now, (now < k_refund k)%Z -> refund H sign now primary ks get fee id data = Err AtomicSwapForbidden) /\
  (forall now, ~ has_key H ks (k_sender k) -> refund H sign now primary ks get fee id data = Err AtomicSwapForbidden).
Proof.
  intros H S256 sign primary ks get fee id data o k HH WO L G C. unfold redeem, refund.
  rewrite (proj2 (fetch_ok get id o false) G). cbn [bind negb guard].
  set (k' := mkct (k_id k) (k_amount k) (k_sender k) (k_receiver k) (k_hash k) (k_refund k) false).
  rewrite (contract_new_is o false k' C eq_refl). cbn [bind]. unfold verify_secret.
  assert (HN : forall sec, hash_new (BVBytes (S256 sec)) = Ok (S256 sec)).
  { intro sec. exact (proj2 (TypesFacts.hash_new_ok (BVBytes (S256 sec)) (S256 sec)) (conj eq_refl (or_intror (L sec)))). }
  change (k_receiver k') with (k_receiver k). change (k_sender k') with (k_sender k). change (k_refund k') with (k_refund k).
  destruct (uh_in_ok H primary ks HH WO (k_receiver k)) as (br & Br & Ir). destruct (uh_in_ok H primary ks HH WO (k_sender k)) as (bs & Bs & Is).
  split; [|split; [|split]].
  - intros secret sec h Sec Kh N. rewrite Sec. cbn [bind]. rewrite HN. cbn [bind]. unfold hash_cmp. change (k_hash k') with (k_hash k). rewrite Kh. cbn [bind].
    destruct (listN_eqb h (S256 sec)) eqn:E; [apply listN_eqb_eq in E; contradiction|]. reflexivity.
  - intros secret sec Sec Kh N. rewrite Sec. cbn [bind]. rewrite HN. cbn [bind]. unfold hash_cmp. change (k_hash k') with (k_hash k). rewrite Kh. cbn [bind].
    assert (listN_eqb (S256 sec) (S256 sec) = true) as -> by now apply listN_eqb_eq. cbn [guard bind]. rewrite Br. cbn [bind].
    destruct br; [exfalso; apply N; now apply Ir|]. reflexivity.
  - intros now T. assert ((now <? k_refund k)%Z = true) as -> by now apply Z.ltb_lt. reflexivity.
  - intros now N. destruct (now <? k_refund k)%Z; [reflexivity|]. cbn [negb guard bind]. rewrite Bs. cbn [bind].
    destruct bs; [exfalso; apply N; now apply Is|]. reflexivity.
Qed.
Print Assumptions C40_refused.
Example C40_ex : exists t, redeem ex_H2 exs_S ex_sign (ex_addr 7) ex_ks (exs_get 9 8) 3 (repeat 4 32) (BVBytes exs_secret) [1; 2] = Ok t /\
  coin_outputs t = [mkout 7 (CUnlockHash (ex_key_uh 8)) []] /\ option_map signers (get_ff t (CbCoin 0)) = Some [ex_key 8] /\
  has_key ex_H2 ex_ks (ex_key_uh 8) /\ real_address ex_H2 (ex_key_uh 8).
Proof.
  eexists. split; [vm_compute; reflexivity|]. split; [reflexivity|]. split; [vm_compute; reflexivity|]. split.
  - exists (ex_addr 8), (ex_key 8). split; [vm_compute; tauto|vm_compute; reflexivity].
  - unfold real_address. intro E. vm_compute in E. discriminate.
Qed.
Example C40_ex_refund : exists t, refund ex_H2 ex_sign 1600000000 (ex_addr 7) ex_ks (exs_get 7 9) 3 (repeat 4 32) [] = Ok t /\
  option_map signers (get_ff t (CbCoin 0)) = Some [ex_key 7] /\ wallet_key ex_H2 (ex_addr 7) ex_ks (ex_key_uh 9) = None /\
  refund ex_H2 ex_sign 1599999999 (ex_addr 7) ex_ks (exs_get 7 9) 3 (repeat 4 32) [] = Err AtomicSwapForbidden.
Proof. eexists. split; [vm_compute; reflexivity|]. repeat split; vm_compute; reflexivity. Qed.
