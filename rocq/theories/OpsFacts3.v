(** Facts about 3Bot records (C42) and wallet operations (C36). *)
From Verif Require Import Base BaseFacts Encoders EncodersFacts Currency CurrencyFacts Primitive Types Conditions Fulfillments ThreeBotTypes Txn TxnSign Wallet Ops ConditionFacts TypesFacts TypesFacts2
  Spec_Types Spec_Fulfil Spec_Txn Spec_Sign FulfilFacts TxnFacts TxnFacts2 TxnFacts4 SignFacts SignFacts2 SignFacts3 Spec_Wallet WalletFacts WalletFacts2 FundFacts FundFacts2 FundFacts3
  BuildFacts Spec_ThreeBot ThreeBotFacts Spec_Ops OpsFacts ThreeBotFacts2 OpsFacts2.
From Coq Require Import ZifyBool ZifyNat ZifyN.
Ltac Zify.zify_post_hook ::= Z.div_mod_to_equations.

(** ** what the lists hold *)
Lemma add_all_Forall {X A} max (mk : X -> res A) (P : A -> Prop) vs : (forall v a, mk v = Ok a -> P a) -> forall l, Forall P l -> Forall P (fst (add_all max mk vs l)).
Proof.
  intros M. induction vs as [|v vs IH]; intros l F; cbn [add_all fst]; [exact F|]. destruct (length l =? max)%nat; [exact F|].
  destruct (mk v) as [a|e] eqn:E; [|exact F]. apply IH, Forall_app. split; [exact F | constructor; [exact (M _ _ E) | constructor]].
Qed.
Ltac fill ip I := match goal with
  | |- context [add_all ?m ?k ?v ?l] => let B := fresh "B" in
      first [ assert (B : Forall address_ok (fst (add_all m k v l))) by (apply add_all_Forall; [intros ? ?; apply (na_new_ok ip _ _ I) | assumption || constructor])
            | assert (B : Forall text_ok (fst (add_all m k v l))) by (apply add_all_Forall; [intros ? ?; apply bn_new_ok | assumption || constructor]) ];
      let p := fresh in destruct (add_all m k v l) as [p ?]; cbn [fst] in B; cbn; repeat split; assumption
  end.
Lemma edit_lists ip t e : ip_ok ip -> lists_ok t -> lists_ok (fst (edit_txn ip t e)).
Proof.
  intros I. unfold lists_ok. destruct t as [t|t|t|t|t|t|t|t]; try easy; intros L.
  - destruct L as (L1 & L2). cbn [edit_txn]. destruct e; unfold edit_bot; try fill ip I; try (cbn; repeat split; assumption).
    destruct ((n <? 1) || (24 <? n))%Z; cbn; repeat split; assumption.
  - destruct L as (L1 & L2 & L3 & L4). cbn [edit_txn]. destruct e; unfold edit_upd; try fill ip I; try (cbn; repeat split; assumption).
    + destruct ((n <? 0) || (24 <? n))%Z; cbn; repeat split; assumption.
    + destruct (bot_id i); cbn; repeat split; assumption.
  - cbn [edit_txn]. destruct e; unfold edit_name; try fill ip I; try (cbn; repeat split; assumption); destruct (bot_id i); cbn; assumption.
Qed.
Lemma run_lists ip es : ip_ok ip -> forall t, lists_ok t -> lists_ok (edit_run ip t es).
Proof. intro I. induction es as [|e es IH]; intros t L; [exact L|]. cbn [edit_run fold_left]. apply IH, edit_lists; assumption. Qed.
Lemma new_lists : lists_ok registration_new /\ lists_ok update_new /\ lists_ok transfer_new.
Proof. cbn. repeat split; constructor. Qed.

(** ** reading the records *)
Ltac chop E x := let a := fresh "a" in let b := fresh "b" in let A := fresh "A" in apply rapp_ok in E as (a & b & A & E & ->); rename a into x.
Lemma bot_read H b w : limits (T144 b) -> lists_ok (T144 b) -> data_bytes H (T144 b) = Ok w ->
  exists rest, read_registration w = Some (mkR (Z.to_N (b_months b)) (negb (length (b_addrs b) =? 0)%nat) (negb (length (b_names b) =? 0)%nat) (some (b_refund b)) (b_addrs b) (b_names b), rest).
Proof.
  intros (L1 & L2 & L3) (K1 & K2) E. cbn [data_bytes] in E. apply rapp_ok in E as (x & w1 & X & E & ->). apply maf_flags in X as (f & -> & F1 & F2 & F3 & F4).
  destruct (read_two_ok _ _ _ _ _ _ (b_addrs b) (b_names b) addr_read name_read ltac:(lia) ltac:(lia) K2 K1) as (v & V & R).
  apply rapp_ok in E as (x1 & w2 & X1 & E & ->). apply rapp_ok in E as (x2 & w3 & X2 & E & ->). apply rapp_ok in E as (x3 & w4 & X3 & E & ->).
  rewrite X1, X2, X3 in V. cbn [rapp bind] in V. apply ok_inj in V. exists w4. unfold read_registration. cbn [app byte then_].
  replace (x1 ++ x2 ++ x3 ++ w4) with (v ++ w4) by (rewrite <- V, <- !app_assoc; reflexivity). rewrite R. cbn [then_ fst snd].
  rewrite F1, F2, F3, F4, !nonempty_len. unfold some, is_some. destruct (b_refund b); reflexivity.
Qed.
Lemma group_read {A} (ea : A -> res bytes) ra (P : A -> Prop) la lb w (Ha : forall a, P a -> exists w, ea a = Ok w /\ forall rest, ra (w ++ rest) = Some (a, rest)) :
  (length la <= 15)%nat -> (length lb <= 15)%nat -> Forall P la -> Forall P lb ->
  (if nonempty la || nonempty lb then pair_len (length la) (length lb) +++ (rconcat (map ea la) +++ rconcat (map ea lb)) else nil_w) = Ok w ->
  forall rest, (if nonempty la || nonempty lb then read_two ra ra (w ++ rest) else Some (([], []), w ++ rest)) = Some ((la, lb), rest).
Proof.
  intros L1 L2 F1 F2 E rest. destruct (nonempty la || nonempty lb)%bool eqn:N.
  - destruct (read_two_ok _ _ _ _ _ _ la lb Ha Ha L1 L2 F1 F2) as (v & V & R). rewrite V in E. apply ok_inj in E. subst v. apply R.
  - apply ok_inj in E. subst w. destruct la, lb; try discriminate. reflexivity.
Qed.
Lemma upd_read H u w : limits (T145 u) -> lists_ok (T145 u) -> data_bytes H (T145 u) = Ok w ->
  exists rest, read_update w = Some (mkU (Z.to_N (u_id u)) (Z.to_N (u_months u)) (negb (length (u_addr_add u) + length (u_addr_del u) =? 0)%nat)
    (negb (length (u_name_add u) + length (u_name_del u) =? 0)%nat) (some (u_refund u)) (u_addr_add u, u_addr_del u) (u_name_add u, u_name_del u), rest).
Proof.
  intros (L1 & L2 & L3 & L4 & L5 & L6) (K1 & K2 & K3 & K4) E. cbn [data_bytes] in E. apply rapp_ok in E as (x0 & w0 & X0 & E & ->). apply rapp_ok in E as (x & w1 & X & E & ->).
  apply maf_flags in X as (f & -> & F1 & F2 & F3 & F4). apply rapp_ok in E as (x1 & w2 & X1 & E & ->). apply rapp_ok in E as (x2 & w3 & X2 & E & ->). exists w3. unfold read_update.
  rewrite (riv4 _ _ X0). cbn [then_ byte app]. rewrite F2, F3, F1, F4.
  rewrite (group_read _ _ _ (u_addr_add u) (u_addr_del u) _ addr_read ltac:(lia) ltac:(lia) K3 K4 X1). cbn [then_].
  rewrite (group_read _ _ _ (u_name_add u) (u_name_del u) _ name_read ltac:(lia) ltac:(lia) K1 K2 X2). cbn [then_].
  assert (N : forall A B (a : list A) (b : list B), nonempty a || nonempty b = negb (length a + length b =? 0)%nat) by (intros A B [|? ?] [|? ?]; reflexivity).
  rewrite !N. unfold some, is_some. destruct (u_refund u); reflexivity.
Qed.
Lemma skip_ok (x rest : bytes) : skip (length x) (x ++ rest) = Some (tt, rest).
Proof. unfold skip. rewrite app_length. replace (_ <? _)%nat with false by lia. now rewrite skipn_app_len. Qed.
Lemma array_skip s x rest : array64 s -> bsig_riv s = Ok x -> skip 64 (x ++ rest) = Some (tt, rest).
Proof. intros A E. destruct (array64_eq s A) as [B L]. rewrite B in E. apply ok_inj in E. rewrite <- L, E. apply skip_ok. Qed.
Lemma name_read_txn H n w : limits (T146 n) -> lists_ok (T146 n) -> array64 (n_ssig n) -> array64 (n_rsig n) -> data_bytes H (T146 n) = Ok w ->
  exists rest, read_transfer w = Some (mkT (Z.to_N (n_sender n)) (Z.to_N (n_receiver n)) (some (n_refund n)) (n_names n), rest).
Proof.
  intros (L1 & L2 & L3) K A1 A2 E. cbn [data_bytes] in E. apply rapp_ok in E as (x0 & w0 & X0 & E & ->). apply rapp_ok in E as (x1 & w1 & X1 & E & ->).
  apply rapp_ok in E as (x2 & w2 & X2 & E & ->). apply rapp_ok in E as (x3 & w3 & X3 & E & ->). apply rapp_ok in E as (x4 & w4 & X4 & E & ->). apply rapp_ok in E as (x5 & w5 & X5 & E & ->).
  exists w5. unfold read_transfer. rewrite (riv4 _ _ X0). cbn [then_]. rewrite (array_skip _ _ _ A1 X1). cbn [then_]. rewrite (riv4 _ _ X2). cbn [then_]. rewrite (array_skip _ _ _ A2 X3). cbn [then_].
  replace (if is_some (n_refund n) then 16 else 0) with (N.shiftl (b2n (is_some (n_refund n))) 4) in X4 by (destruct (n_refund n); reflexivity).
  rewrite lor_low in X4 by (change (2 ^ 4) with 16; lia). change (2 ^ 4) with 16 in X4. apply riv_int1_inv in X4 as [_ ->]. rewrite N2Z.id. cbn [app byte then_].
  assert (N.to_nat ((N.of_nat (length (n_names n)) + b2n (is_some (n_refund n)) * 16) mod 16) = length (n_names n)) as -> by (destruct (n_refund n); cbn [is_some b2n]; lia).
  destruct (read_many_ok _ _ _ name_read _ K) as (v & V & R). rewrite V in X5. apply ok_inj in X5. subst v. rewrite R. cbn [then_].
  repeat f_equal. unfold flag. destruct (n_refund n); cbn [is_some b2n some]; lia.
Qed.
