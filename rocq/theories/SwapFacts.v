(** Facts about atomic swaps. *)
From Verif Require Import Base BaseFacts Encoders EncodersFacts Primitive Types Conditions
  Fulfillments ThreeBotTypes Txn TxnSign Wallet AtomicSwap Spec_Types Spec_Fulfil Spec_Txn Spec_Sign Spec_Swap TypesFacts TypesFacts2 ConditionFacts ConditionFacts2
  FulfilFacts TxnFacts TxnFacts2 SignFacts SignFacts2 SignFacts3 SignFacts4.
From Coq Require Import ZifyBool ZifyNat ZifyN.
Ltac Zify.zify_post_hook ::= Z.div_mod_to_equations.

(** any signing function will do where none is used *)
Definition dsign : pubkey -> bytes -> bytes := fun _ _ => repeat 0 64.
Lemma d64 : forall k h, length (dsign k h) = 64%nat.
Proof. reflexivity. Qed.
Lemma bind_intro {A B} (r : res A) (f : A -> res B) a b : r = Ok a -> f a = Ok b -> bind r f = Ok b.
Proof. intros -> E. exact E. Qed.

Lemma fetch_ok get id o b : fetch get id = Ok (o, b) <-> get id = Ok (o, b).
Proof. unfold fetch. destruct (get id) as [x|[]]; split; congruence. Qed.
Lemma contract_new_ok o u k : contract_new o u = Ok k -> is_contract o k /\ k_unspent k = u /\ contract_output k = o.
Proof.
  unfold contract_new, is_contract, contract_output. destruct o as [v c i]. cbn. destruct c; try easy.
  intro E. apply ok_inj in E. subst k. cbn. auto.
Qed.
Lemma contract_new_is o u k : is_contract o k -> k_unspent k = u -> contract_new o u = Ok k.
Proof. intros (C & V & I) U. unfold contract_new. rewrite C, V, I. destruct k; cbn in *. subst. reflexivity. Qed.
Lemma hash_cmp_ok k h b : hash_cmp k h = Ok b -> (b = true <-> k_hash k = Some h).
Proof.
  unfold hash_cmp. destruct (k_hash k) as [x|]; [|easy]. intro E. apply ok_inj in E. subst b. rewrite listN_eqb_eq.
  split; intro E; [now subst|now injection E].
Qed.

Section Own.
Variables (H : bytes -> bytes) (primary : pystr) (ks : keys).
Hypothesis HH : hash_ok H.
Hypothesis WO : wallet_ok H primary ks.
Lemma pk_addr_parse k a : pk_address H k = Ok a -> exists u, pk_unlockhash H k = Ok u /\ uh_parse H a = Ok u /\ uh_str H u = Ok a.
Proof.
  unfold pk_address. intro E. apply bind_ok in E as (u & U & E). exists u. split; [exact U|].
  pose proof (pk_uh_full H dsign d64 HH _ _ U) as [_ F]. apply pk_address_fun in U as (T & _).
  destruct (address_round_trip H u HH) as (s & A & _ & B); [repeat split; try apply F; rewrite T; [auto|easy]|].
  rewrite E in A. apply ok_inj in A. subst s. auto.
Qed.
Lemma uh_in_ok u : exists b, uh_in H u (map fst ks) = Ok b /\ (b = true <-> has_key H ks u).
Proof.
  unfold wallet_ok in WO. unfold has_key. induction ks as [|[a k] l IH].
  - exists false. cbn. split; [reflexivity|]. split; [easy|]. intros (? & ? & [] & _).
  - inversion WO as [|? ? W1 W2]; subst. cbn in W1. destruct (pk_addr_parse _ _ W1) as (v & U & P & _). cbn [map fst uh_in]. rewrite P. cbn [bind].
    destruct (uh_eqb u v) eqn:E.
    + exists true. split; [reflexivity|]. split; [|reflexivity]. intros _. apply uh_eqb_eq in E. subst v. exists a, k. split; [now left|exact U].
    + destruct (IH W2) as (b & B & I). exists b. split; [exact B|]. rewrite I. split; intros (a' & k' & J & U').
      * exists a', k'. split; [now right|exact U'].
      * destruct J as [J|J]; [|exists a', k'; auto]. injection J as <- <-. rewrite U' in U. apply ok_inj in U. subst v.
        assert (uh_eqb u u = true) by now apply uh_eqb_eq. congruence.
Qed.
Lemma kfind_in a k : In (a, k) ks -> exists k', kfind a ks = Some k'.
Proof.
  induction ks as [|[b x] l IH]; [easy|]. cbn. destruct (listN_eqb a b) eqn:E; [eauto|]. intros [I|I].
  - injection I as -> ->. assert (listN_eqb a a = true) by now apply listN_eqb_eq. congruence.
  - apply IH; [|exact I]. now inversion WO.
Qed.
Lemma has_key_wallet u : has_key H ks u -> exists k, wallet_key H primary ks u = Some k /\ pk_unlockhash H k = Ok u /\ exists a, In (a, k) ks.
Proof.
  intros (a & k & I & U). assert (A : pk_address H k = Ok a) by (apply (proj1 (Forall_forall _ _) WO) in I; exact I).
  destruct (pk_addr_parse _ _ A) as (v & U' & _ & S). rewrite U in U'. apply ok_inj in U'. subst v.
  unfold wallet_key. rewrite S. unfold key_pair_get. destruct (listN_eqb (firstn 2 a) (s2b "00")) eqn:Z.
  - apply listN_eqb_eq in Z. apply (str_type_zero H dsign d64) in S; [|exact Z]. apply pk_address_fun in U as (T & _). lia.
  - destruct (kfind_in a k I) as (k' & K). rewrite K. exists k'. split; [reflexivity|].
    pose proof (kfind_ok H primary ks WO _ _ K) as A'. destruct (pk_addr_parse _ _ A') as (w & U2 & _ & S2).
    split; [|].
    + rewrite U2. f_equal. eapply uh_str_inj; [exact HH|eapply (pk_uh_full H dsign d64 HH); eauto|eapply (pk_uh_full H dsign d64 HH); eauto|exact S2|exact S].
    + clear -K. induction ks as [|[b x] l IH]; [easy|]. cbn in K. destruct (listN_eqb a b).
      * injection K as <-. exists b. now left.
      * destruct (IH K) as (c & C). exists c. now right.
Qed.
End Own.

(** ** Verification *)
Lemma guard_iff b e : guard b e = Ok tt <-> b = true.
Proof. unfold guard. destruct b; split; easy. Qed.
Lemma time_ok t1 t2 m l e : 
  (if (Z.max 0 (m - t1) <=? 0)%Z then guard ((if (l <=? t2)%Z then 0 else l - t2) =? 0)%Z e
   else guard (negb ((if (l <=? t2)%Z then 0 else l - t2) <? Z.max 0 (m - t1))%Z) e) = Ok tt <-> refund_as_expected t1 t2 m l.
Proof.
  unfold refund_as_expected. destruct (l <=? t2)%Z eqn:A; destruct (Z.max 0 (m - t1) <=? 0)%Z eqn:B; rewrite guard_iff; lia.
Qed.
Lemma unit_eta (r : res unit) x : r = Ok x -> r = Ok tt.
Proof. now destruct x. Qed.

Section Verify.
Variables (H : bytes -> bytes) (primary : pystr) (ks : keys).
Hypothesis HH : hash_ok H.
Hypothesis WO : wallet_ok H primary ks.
Lemma party_ok (flag : bool) u e :
  (if flag then do b <- uh_in H u (map fst ks); guard b e else Ok tt) = Ok tt <-> (flag = true -> has_key H ks u).
Proof.
  destruct flag; [|easy]. destruct (uh_in_ok H primary ks HH WO u) as (b & -> & I). cbn [bind]. rewrite guard_iff. tauto.
Qed.
Lemma checks_ok t1 t2 k amount sh mr sender receiver :
  (do _ <- match amount with None => Ok tt | Some a => guard (a =? k_amount k) AtomicSwapContractInvalid end;
   do _ <- match sh with
           | None => Ok tt
           | Some v => do h <- hash_new v; do b <- hash_cmp k h; guard b AtomicSwapContractInvalid
           end;
   do _ <- match mr with
           | None => Ok tt
           | Some v =>
               do m <- match v with LInt z => Ok z | LDuration _ | LDate _ => lock_new t1 v | _ => Err TypeError end;
               let min_duration := Z.max 0 (m - t1) in
               let duration := if (k_refund k <=? t2)%Z then 0%Z else (k_refund k - t2)%Z in
               if (min_duration <=? 0)%Z then guard (duration =? 0)%Z AtomicSwapContractInvalid
               else guard (negb (duration <? min_duration)%Z) AtomicSwapContractInvalid
           end;
   do _ <- (if sender : bool then do b <- uh_in H (k_sender k) (map fst ks); guard b AtomicSwapContractInvalid else Ok tt);
   do _ <- (if receiver : bool then do b <- uh_in H (k_receiver k) (map fst ks); guard b AtomicSwapContractInvalid else Ok tt);
   Ok k) = Ok k <-> expectations H t1 t2 ks k amount sh mr sender receiver.
Proof.
  unfold expectations. split.
  - intro E. apply bind_ok in E as (x1 & E1 & E). apply bind_ok in E as (x2 & E2 & E). apply bind_ok in E as (x3 & E3 & E).
    apply bind_ok in E as (x4 & E4 & E). apply bind_ok in E as (x5 & E5 & _). apply unit_eta in E1, E2, E3, E4, E5.
    pose proof (proj1 (party_ok _ _ _) E4) as E4'. pose proof (proj1 (party_ok _ _ _) E5) as E5'. split; [|split; [|split; [|split; assumption]]].
    + intros a ->. apply guard_iff in E1. lia.
    + intros v ->. apply bind_ok in E2 as (h & Eh & E2). apply bind_ok in E2 as (b & Eb & E2). apply guard_iff in E2. subst b.
      exists h. split; [exact Eh|]. apply (hash_cmp_ok _ _ _ Eb). reflexivity.
    + intros v ->. apply bind_ok in E3 as (m & Em & E3). exists m. cbv zeta in E3. apply time_ok in E3. split; [|exact E3].
      destruct v as [| |z|[z|]|[z|]| | |]; cbn in Em; try discriminate; apply ok_inj in Em; subst; reflexivity.
  - intros (E1 & E2 & E3 & E4 & E5).
    assert (match amount with None => Ok tt | Some a => guard (a =? k_amount k) AtomicSwapContractInvalid end = Ok tt) as ->.
    { destruct amount as [a|]; [|reflexivity]. apply guard_iff. rewrite (E1 _ eq_refl). apply N.eqb_refl. }
    cbn [bind].
    assert (match sh with None => Ok tt | Some v => do h <- hash_new v; do b <- hash_cmp k h; guard b AtomicSwapContractInvalid end = Ok tt) as ->.
    { destruct sh as [v|]; [|reflexivity]. destruct (E2 _ eq_refl) as (h & -> & K). cbn [bind]. unfold hash_cmp. rewrite K. cbn [bind].
      apply guard_iff. now apply listN_eqb_eq. }
    cbn [bind].
    rewrite (proj2 (party_ok sender _ _) E4), (proj2 (party_ok receiver _ _) E5).
    match goal with |- bind ?x _ = _ => assert (x = Ok tt) as -> end; [|reflexivity].
    destruct mr as [v|]; [|reflexivity]. destruct (E3 _ eq_refl) as (m & M & R). cbv zeta.
    apply bind_intro with m; [|apply time_ok; exact R].
    destruct v as [| |z|[z|]|[z|]| | |]; cbn in M |- *; try contradiction; subst; reflexivity.
Qed.
End Verify.
