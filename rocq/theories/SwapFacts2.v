(** Facts about claiming atomic swap contracts. *)
From Verif Require Import Base BaseFacts Encoders EncodersFacts Primitive Types Conditions
  Fulfillments ThreeBotTypes Txn TxnSign Wallet AtomicSwap Spec_Types Spec_Fulfil Spec_Txn Spec_Sign Spec_Swap TypesFacts TypesFacts2 ConditionFacts ConditionFacts2
  FulfilFacts TxnFacts TxnFacts2 SignFacts SignFacts2 SignFacts3 SignFacts4 SwapFacts.
From Coq Require Import ZifyBool ZifyNat ZifyN.
Ltac Zify.zify_post_hook ::= Z.div_mod_to_equations.

(** a standard transaction with one input *)
Definition one (id : bytes) (o : output) (outs : list output) (fees : list N) (d : bytes) (f : ff) : txn :=
  T1 (mkstd false [mkin id f (Some o)] outs [] [] fees d).
Definition ask (u : uh) : treq := mktq (CbCoin 0) [] (mkrq u false).

Section One.
Variables (H : bytes -> bytes) (sign : pubkey -> bytes -> bytes) (primary : pystr) (ks : keys).
Hypothesis sign64 : forall k h, length (sign k h) = 64%nat.
Variables (id : bytes) (o : output) (outs : list output) (fees : list N) (d : bytes).
Notation tx := (one id o outs fees d).

Lemma one_sig f g xs : sig_input H (tx f) xs = sig_input H (tx g) xs.
Proof. apply sig_input_content; reflexivity. Qed.
Lemma one_requests f : requests H (tx f) = do us <- ff_asked H f (o_cond o); Ok (map ask us).
Proof.
  unfold requests, one. cbn [coin_inputs s_cin bind in_requests i_out i_ff blockstake_inputs s_bin map own_requests].
  unfold ff_requests. destruct (ff_asked H f (o_cond o)) as [us|e]; [|reflexivity]. cbn [bind]. rewrite !app_nil_r, map_map. reflexivity.
Qed.
Lemma one_set f g : set_ff (tx f) (CbCoin 0) g = tx g.
Proof. reflexivity. Qed.
Lemma one_loop us : forall f n t' m, sign_loop H sign primary ks (map ask us) (tx f) n = (t', Ok m) ->
  exists f', t' = tx f' /\ signed_by H sign primary ks (tx f) (fun k => XInt 0 :: ff_extras f k) us f f'.
Proof.
  induction us as [|u us IH]; intros f n t' m E.
  - cbn in E. injection E as <- <-. exists f. split; [reflexivity|constructor].
  - cbn [map] in E. apply loop_step in E as [(W & E)|(k & dd & t1 & W & D & F & E)].
    + destruct (IH _ _ _ _ E) as (f' & -> & B). exists f'. split; [reflexivity|]. apply sb_foreign; assumption.
    + rewrite (q_extras_ff _ _ _ f) in D; [|discriminate|reflexivity].
      assert (t1 = tx (add_sig f k (sign k (H dd)))) as ->.
      { unfold t_fulfil in F. change (q_cb (ask u)) with (CbCoin 0) in F. cbn iota in F. change (get_ff (tx f) (CbCoin 0)) with (Some f) in F. cbn iota in F.
        destruct (fulfil H (q_rq (ask u)) f (Some k) (BVBytes (sign k (H dd)))) as [[r f1] rr] eqn:EF. injection F as <- ->.
        apply fulfil_accepted in EF as (_ & _ & _ & p & P & _ & A). injection P as <-. rewrite (sig_add_64 _ _ _ _ (sign64 _ _) A). reflexivity. }
      destruct (IH _ _ _ _ E) as (f' & -> & B). exists f'. split; [reflexivity|]. apply (sb_own H sign primary ks _ _ u us f f' k dd W D).
      eapply signed_by_ext; [| |exact B]; [intro xs; apply one_sig|]. intro k'. cbn beta. now rewrite add_sig_extras.
Qed.
(** a swap fulfilment ends up with the signature of the last address the wallet has a key of *)
Lemma signed_swap t ex us p g se f' : signed_by H sign primary ks t ex us (FSwap p g se) f' ->
  (owned H primary ks us = [] /\ f' = FSwap p g se) \/
  exists l k dd, owned H primary ks us = l ++ [k] /\ sig_input H t (ex k) = Ok dd /\ f' = FSwap k (Some (sign k (H dd))) se.
Proof.
  revert p g. induction us as [|u us IH]; intros p g B; inversion B as [|? ? ? ? W B'|? ? ? ? k dd W D B']; subst.
  - left. auto.
  - rewrite owned_cons, W. apply IH. exact B'.
  - rewrite owned_cons, W. cbn [add_sig] in B'. apply IH in B' as [(O & ->)|(l & k' & dd' & O & D' & ->)].
    + right. exists [], k, dd. rewrite O. auto.
    + right. exists (k :: l), k', dd'. rewrite O. auto.
Qed.
Lemma one_fulfilled f : t_is_fulfilled (tx f) = ff_is_fulfilled f (o_cond o).
Proof. unfold t_is_fulfilled, one. cbn. destruct (ff_is_fulfilled f (o_cond o)); reflexivity. Qed.
(** signing goes through when everything can be encoded *)
Hypothesis WO : wallet_ok H primary ks.
Lemma one_loop_total us : forall p g se n, Forall (fun u => is_ok (uh_str H u) = true) us ->
  (forall k, In k (owned H primary ks us) -> is_ok (sig_input H (tx (FSwap p g se)) (XInt 0 :: ff_extras (FSwap p g se) k)) = true) ->
  exists t' m, sign_loop H sign primary ks (map ask us) (tx (FSwap p g se)) n = (t', Ok m).
Proof.
  induction us as [|u us IH]; intros p g se n F A; [cbn; eauto|]. inversion F as [|? ? F1 F2]; subst. cbn [map sign_loop].
  change (rq_uh (q_rq (ask u))) with u. rewrite owned_cons in A. assert (W : wallet_key H primary ks u = match uh_str H u with Ok a => key_pair_get primary ks a | Err _ => None end) by reflexivity.
  destruct (uh_str H u) as [a|]; [|easy]. rewrite <- W. destruct (wallet_key H primary ks u) as [k|] eqn:K.
  - rewrite (q_extras_ff _ _ _ (FSwap p g se)); [|discriminate|reflexivity]. unfold signature_hash.
    specialize (A k (or_introl eq_refl)) as A1. change (ex_of (q_cb (ask u)) (FSwap p g se) k) with (XInt 0 :: ff_extras (FSwap p g se) k).
    destruct (sig_input H (tx (FSwap p g se)) (XInt 0 :: ff_extras (FSwap p g se) k)) as [dd|]; [|easy]. cbn [bind].
    destruct (t_fulfil_ok H sign primary ks sign64 WO (tx (FSwap p g se)) (ask u) k (sign k (H dd))) as (t1 & T).
    { reflexivity. } { exact K. } { apply sign64. } { discriminate. } { discriminate. } { discriminate. }
    rewrite T. destruct (t_fulfil_step H _ _ _ _ _ (sign64 _ _) T) as (_ & _ & _).
    assert (t1 = tx (FSwap k (Some (sign k (H dd))) se)) as ->.
    { unfold t_fulfil in T. change (q_cb (ask u)) with (CbCoin 0) in T. cbn iota in T.
      change (get_ff (tx (FSwap p g se)) (CbCoin 0)) with (Some (FSwap p g se)) in T. cbn iota in T.
      destruct (fulfil H (q_rq (ask u)) (FSwap p g se) (Some k) (BVBytes (sign k (H dd)))) as [[r f1] rr] eqn:EF. injection T as <- ->.
      apply fulfil_accepted in EF as (_ & _ & _ & q & P & _ & B). injection P as <-. rewrite (sig_add_64 _ _ _ _ (sign64 _ _) B). reflexivity. }
    apply IH; [exact F2|]. intros k' I. rewrite (one_sig _ (FSwap p g se)). apply (A k'). right. exact I.
  - apply IH; [exact F2|]. exact A.
Qed.
End One.

Section Claim.
Variables (H : bytes -> bytes) (S256 : bytes -> bytes) (sign : pubkey -> bytes -> bytes) (primary : pystr) (ks : keys).
Hypothesis sign64 : forall k h, length (sign k h) = 64%nat.
Hypothesis HH : hash_ok H.
Hypothesis WO : wallet_ok H primary ks.

(** the addresses asked for a swap without signature *)
Definition swap_asked (s r : uh) : res (list uh) :=
  do b <- pk_address H pk_default; do a1 <- uh_str H s; do a2 <- uh_str H r;
  Ok ((if listN_eqb a1 b then [] else [s]) ++ (if listN_eqb a2 b then [] else [r])).
Definition claim_tx (k : contract) (fee : N) (to : uh) (data : bytes) : ff -> txn :=
  one (k_id k) (contract_output k) [mkout (k_amount k - fee) (CUnlockHash to) []] [fee] data.
Lemma claim_inv fee k as_sender secret data t : claim H sign primary ks fee k as_sender secret data = Ok t ->
  let to := if as_sender then k_sender k else k_receiver k in
  fee <= k_amount k /\ (length data <= 83)%nat /\
  exists us l by_ dd, swap_asked (k_sender k) (k_receiver k) = Ok us /\ owned H primary ks us = l ++ [by_] /\
    sig_input H (claim_tx k fee to data (FSwap pk_default None secret)) (XInt 0 :: ff_extras (FSwap pk_default None secret) by_) = Ok dd /\
    t = claim_tx k fee to data (FSwap by_ (Some (sign by_ (H dd))) secret).
Proof.
  unfold claim. intro E. apply bind_ok in E as (d & Ed & E). unfold data_new in Ed. apply bind_ok in Ed as (? & G & Ed). apply guard_ok in G.
  apply ok_inj in Ed. subst d. apply bind_ok in E as (? & G2 & E). apply guard_ok in G2. cbv zeta in E |- *.
  set (to := if as_sender then k_sender k else k_receiver k) in *. split; [lia|]. split; [lia|].
  change (T1 _) with (claim_tx k fee to data (FSwap pk_default None secret)) in E. apply bind_ok in E as (qs & Q & E).
  unfold claim_tx in Q. rewrite one_requests in Q. change (ff_asked H (FSwap pk_default None secret) (o_cond (contract_output k))) with (swap_asked (k_sender k) (k_receiver k)) in Q.
  apply bind_ok in Q as (us & Us & Q). apply ok_inj in Q. subst qs. apply bind_ok in E as (? & _ & E).
  destruct (sign_loop H sign primary ks (map ask us) (claim_tx k fee to data (FSwap pk_default None secret)) 0) as [t1 [m|]] eqn:L; [|easy].
  apply (one_loop H sign primary ks sign64) in L as (f' & -> & B).
  apply signed_swap in B as [(_ & ->)|(l & by_ & dd & O & D & ->)].
  - rewrite one_fulfilled in E. cbn in E. easy.
  - rewrite one_fulfilled in E. cbn in E. apply ok_inj in E. subst t. exists us, l, by_, dd. auto.
Qed.
Lemma swap_asked_in s r us u : swap_asked s r = Ok us -> In u us -> u = s \/ u = r.
Proof.
  unfold swap_asked. intros E I. apply bind_ok in E as (b & _ & E). apply bind_ok in E as (a1 & _ & E). apply bind_ok in E as (a2 & _ & E).
  apply ok_inj in E. subst us. apply in_app_iff in I as [I|I]; destruct (listN_eqb _ _); cbn in I; intuition.
Qed.
Lemma real_asked u k a b : pk_unlockhash H k = Ok u -> real_address H u -> uh_str H u = Ok a -> pk_address H pk_default = Ok b -> listN_eqb a b = false.
Proof.
  intros U R A B. destruct (listN_eqb a b) eqn:E; [|reflexivity]. apply listN_eqb_eq in E. subst b. exfalso. apply R.
  unfold pk_address in B. apply bind_ok in B as (v & V & B). rewrite V. f_equal.
  eapply uh_str_inj; [exact HH|eapply (pk_uh_full H dsign d64 HH); eauto|eapply (pk_uh_full H dsign d64 HH); eauto|exact B|exact A].
Qed.
(** the last address asked: the receiver, if it is a real address *)
Lemma last_receiver s r us l by_ kr : swap_asked s r = Ok us -> owned H primary ks us = l ++ [by_] ->
  wallet_key H primary ks r = Some kr -> pk_unlockhash H kr = Ok r -> real_address H r -> by_ = kr.
Proof.
  unfold swap_asked. intros E O W U R. apply bind_ok in E as (b & B & E). apply bind_ok in E as (a1 & A1 & E). apply bind_ok in E as (a2 & A2 & E).
  apply ok_inj in E. subst us. rewrite (real_asked r kr a2 b U R A2 B) in O.
  assert (X : forall v, owned H primary ks (v ++ [r]) = owned H primary ks v ++ [kr]).
  { intro v. unfold owned. rewrite flat_map_app. cbn [flat_map]. rewrite W. reflexivity. }
  rewrite X in O. apply app_inj_tail in O as (_ & ->). reflexivity.
Qed.
Lemma last_sender s r us l by_ ksd : swap_asked s r = Ok us -> owned H primary ks us = l ++ [by_] ->
  wallet_key H primary ks s = Some ksd -> pk_unlockhash H ksd = Ok s ->
  wallet_key H primary ks r = None \/ s = r -> by_ = ksd.
Proof.
  unfold swap_asked. intros E O W U C. apply bind_ok in E as (b & B & E). apply bind_ok in E as (a1 & A1 & E). apply bind_ok in E as (a2 & A2 & E).
  apply ok_inj in E. subst us. assert (N : l ++ [by_] <> []) by (destruct l; discriminate).
  assert (Y : forall u x y, owned H primary ks (u ++ x :: y) = owned H primary ks u ++ owned H primary ks (x :: y)) by (intros; unfold owned; apply flat_map_app).
  destruct C as [C|<-].
  - destruct (listN_eqb a1 b), (listN_eqb a2 b); cbn [app] in O; rewrite ?owned_cons, ?C, ?W in O; cbn in O; try (symmetry in O; contradiction).
    + destruct l as [|x [|]]; inversion O; reflexivity.
    + destruct l as [|x [|]]; inversion O; reflexivity.
  - assert (a2 = a1) as -> by congruence. destruct (listN_eqb a1 b); cbn [app] in O; rewrite ?owned_cons, ?W in O; cbn in O; try (symmetry in O; contradiction).
    destruct l as [|x [|y [|]]]; inversion O; reflexivity.
Qed.
Lemma extras_swap secret by_ : ff_extras (FSwap pk_default None secret) by_ = XKey by_ :: match secret with Some s => [XSecret s] | None => [] end.
Proof. now destruct secret. Qed.
Lemma claims_intro k fee to data secret by_ dd : fee <= k_amount k -> (length data <= 83)%nat ->
  sig_input H (claim_tx k fee to data (FSwap pk_default None secret)) (XInt 0 :: ff_extras (FSwap pk_default None secret) by_) = Ok dd ->
  claims H sign k (contract_output k) by_ to secret fee data (claim_tx k fee to data (FSwap by_ (Some (sign by_ (H dd))) secret)).
Proof.
  intros F L D. exists dd. split; [reflexivity|]. split; [|auto]. rewrite extras_swap in D. rewrite <- D. apply one_sig.
Qed.

(** ** Redeem and refund *)
Lemma redeem_inv get fee id secret data t : (forall x, length (S256 x) = 32%nat) ->
  redeem H S256 sign primary ks get fee id secret data = Ok t ->
  exists o k sec by_, get id = Ok (o, false) /\ is_contract o k /\ secret_new secret = Ok sec /\ k_hash k = Some (S256 sec) /\
    (exists a, In (a, by_) ks) /\ pk_unlockhash H by_ = Ok (k_receiver k) /\
    (real_address H (k_receiver k) ->
     claims H sign k o by_ (k_receiver k) (match secret with BVNone => None | _ => Some sec end) fee data t).
Proof.
  intros L32. unfold redeem. intro E. apply bind_ok in E as ([o spent] & F & E). apply (proj1 (fetch_ok _ _ _ _)) in F. apply bind_ok in E as (k & K & E).
  apply contract_new_ok in K as (K & _ & KO). apply bind_ok in E as (? & G & E). apply guard_ok in G. apply negb_true_iff in G. subst spent.
  apply bind_ok in E as (b & V & E). apply bind_ok in E as (? & G & E). apply guard_ok in G. subst b.
  unfold verify_secret in V. apply bind_ok in V as (sec & Sec & V). apply bind_ok in V as (h & Hh & V).
  apply hash_new_ok in Hh as (Hh & _). cbn in Hh. apply ok_inj in Hh. subst h.
  apply bind_ok in E as (b & B & E). apply bind_ok in E as (? & G & E). apply guard_ok in G. subst b.
  destruct (uh_in_ok H primary ks HH WO (k_receiver k)) as (b & B' & I). rewrite B in B'. apply ok_inj in B'. subst b.
  destruct (has_key_wallet H primary ks HH WO _ (proj1 I eq_refl)) as (kr & W & U & Ik).
  apply bind_ok in E as (so & So & E). exists o, k, sec, kr. repeat split; auto; try apply K.
  { apply (hash_cmp_ok _ _ _ V). reflexivity. }
  intro R. apply claim_inv in E as (Fe & Ld & us & l & by_ & dd & Us & O & D & ->).
  rewrite (last_receiver _ _ _ _ _ kr Us O W U R) in *. rewrite <- KO.
  assert (so = match secret with BVNone => None | _ => Some sec end) as <-.
  { unfold secret_opt in So. rewrite Sec in So. cbn [bind] in So. destruct secret; now apply ok_inj in So. }
  apply claims_intro; assumption.
Qed.
Lemma refund_inv now get fee id data t :
  refund H sign now primary ks get fee id data = Ok t ->
  exists o k by_, get id = Ok (o, false) /\ is_contract o k /\ (k_refund k <= now)%Z /\
    (exists a, In (a, by_) ks) /\ pk_unlockhash H by_ = Ok (k_sender k) /\
    (wallet_key H primary ks (k_receiver k) = None \/ k_sender k = k_receiver k -> claims H sign k o by_ (k_sender k) None fee data t).
Proof.
  unfold refund. intro E. apply bind_ok in E as ([o spent] & F & E). apply (proj1 (fetch_ok _ _ _ _)) in F. apply bind_ok in E as (k & K & E).
  apply contract_new_ok in K as (K & _ & KO). apply bind_ok in E as (? & G & E). apply guard_ok in G. apply negb_true_iff in G. subst spent.
  apply bind_ok in E as (? & G & E). apply guard_ok in G.
  apply bind_ok in E as (b & B & E). apply bind_ok in E as (? & G2 & E). apply guard_ok in G2. subst b.
  destruct (uh_in_ok H primary ks HH WO (k_sender k)) as (b & B' & I). rewrite B in B'. apply ok_inj in B'. subst b.
  destruct (has_key_wallet H primary ks HH WO _ (proj1 I eq_refl)) as (kr & W & U & Ik).
  exists o, k, kr. split; [exact F|]. split; [exact K|]. split; [lia|]. split; [exact Ik|]. split; [exact U|].
  intro C. apply claim_inv in E as (Fe & Ld & us & l & by_ & dd & Us & O & D & ->).
  rewrite (last_sender _ _ _ _ _ kr Us O W U C) in *. rewrite <- KO. apply claims_intro; assumption.
Qed.
End Claim.

(** ** They succeed *)
Section Total.
Variables (H : bytes -> bytes) (sign : pubkey -> bytes -> bytes) (primary : pystr) (ks : keys).
Hypothesis sign64 : forall k h, length (sign k h) = 64%nat.
Hypothesis HH : hash_ok H.
Hypothesis WO : wallet_ok H primary ks.
Definition printable (u : uh) : Prop := (0 <= uh_type u < 256)%Z.
Lemma printable_ok u : printable u -> exists s, uh_str H u = Ok s.
Proof. intro P. destruct (uh_str_ok H u HH P) as (c & _ & E). eauto. Qed.
Lemma claim_total fee k (as_sender : bool) secret data kw u :
  fee <= k_amount k -> (length data <= 83)%nat -> printable (k_sender k) -> printable (k_receiver k) ->
  u = k_sender k \/ u = k_receiver k -> wallet_key H primary ks u = Some kw -> pk_unlockhash H kw = Ok u -> real_address H u ->
  (forall by_ : pubkey, (exists a : pystr, In (a, by_) ks) -> is_ok (sig_input H (claim_tx k fee (if as_sender then k_sender k else k_receiver k) data (FSwap pk_default None secret))
                           (XInt 0 :: ff_extras (FSwap pk_default None secret) by_)) = true) ->
  exists t, claim H sign primary ks fee k as_sender secret data = Ok t.
Proof.
  intros F L Ps Pr Hu W U R A. unfold claim. unfold data_new. assert ((length data <=? 83)%nat = true) as -> by lia. cbn [guard bind].
  assert ((fee <=? k_amount k) = true) as -> by lia. cbn [guard bind].
  set (to := if as_sender then k_sender k else k_receiver k) in *. change (T1 _) with (claim_tx k fee to data (FSwap pk_default None secret)).
  unfold claim_tx at 1. rewrite one_requests. change (ff_asked H (FSwap pk_default None secret) (o_cond (contract_output k))) with (swap_asked H (k_sender k) (k_receiver k)).
  destruct (printable_ok _ Ps) as (a1 & A1). destruct (printable_ok _ Pr) as (a2 & A2).
  destruct (pk_address_total H pk_default (or_introl eq_refl)) as (du & DU).
  destruct (printable_ok du) as (b & B). { apply pk_address_fun in DU as (T & _). unfold printable. lia. }
  assert (PB : pk_address H pk_default = Ok b) by (unfold pk_address; rewrite DU; exact B).
  assert (AS : exists us, swap_asked H (k_sender k) (k_receiver k) = Ok us /\ Forall (fun u => is_ok (uh_str H u) = true) us /\ owned H primary ks us <> [] /\ us <> []).
  { unfold swap_asked. rewrite PB, A1, A2. cbn [bind]. eexists. split; [reflexivity|].
    assert (In u ((if listN_eqb a1 b then [] else [k_sender k]) ++ (if listN_eqb a2 b then [] else [k_receiver k]))) as Iu.
    { apply in_app_iff. destruct Hu as [->| ->].
      - left. rewrite (real_asked H HH _ kw a1 b U R A1 PB). now left.
      - right. rewrite (real_asked H HH _ kw a2 b U R A2 PB). now left. }
    split; [|split].
    - clear Iu. apply Forall_app. split; [destruct (listN_eqb a1 b)|destruct (listN_eqb a2 b)]; repeat constructor; [rewrite A1|rewrite A2]; reflexivity.
    - intro O. assert (In kw (owned H primary ks ((if listN_eqb a1 b then [] else [k_sender k]) ++ (if listN_eqb a2 b then [] else [k_receiver k])))) as J.
      { unfold owned. apply in_flat_map. exists u. split; [exact Iu|]. rewrite W. now left. }
      rewrite O in J. exact J.
    - intro O. rewrite O in Iu. exact Iu. }
  destruct AS as (us & Us & Fu & Ou & Nu). rewrite Us. cbn [bind].
  assert (negb (length (map ask us) =? 0)%nat = true) as -> by (destruct us; [easy|reflexivity]). cbn [guard bind].
  destruct (one_loop_total H sign primary ks sign64 (k_id k) (contract_output k) [mkout (k_amount k - fee) (CUnlockHash to) []] [fee] data WO us pk_default None secret 0 Fu) as (t' & m & E).
  { intros by_ I. apply A. unfold owned in I. apply in_flat_map in I as (v & _ & I). unfold wallet_key in I. destruct (uh_str H v) as [av|]; [|easy].
    unfold key_pair_get in I. assert (KI : forall x k1, kfind x ks = Some k1 -> exists a : pystr, In (a, k1) ks).
    { clear. intros x k1. induction ks as [|[c y] l IH]; [easy|]. cbn. destruct (listN_eqb x c); intro E; [injection E as ->; exists c; now left|].
      destruct (IH E) as (a & J). exists a. now right. }
    destruct (listN_eqb _ _); match type of I with In _ (match ?z with _ => _ end) => destruct z eqn:Z end; try easy;
      destruct I as [<-|[]]; exact (KI _ _ Z). }
  unfold claim_tx. rewrite E. apply (one_loop H sign primary ks sign64) in E as (f' & -> & B').
  apply signed_swap in B' as [(O & _)|(l & k' & dd & _ & _ & ->)]; [contradiction|]. rewrite one_fulfilled. cbn. eauto.
Qed.
End Total.
