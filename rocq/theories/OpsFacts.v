(** Facts about 3Bot transactions: limits and fees (C41, C42). *)
From Verif Require Import Base BaseFacts Encoders Currency CurrencyFacts Primitive Types Conditions Fulfillments ThreeBotTypes Txn TxnSign Wallet Ops Spec_Ops.
From Coq Require Import ZifyBool ZifyNat ZifyN.
Ltac Zify.zify_post_hook ::= Z.div_mod_to_equations.

(** ** limits *)
Lemma add_all_bound {X A} max (mk : X -> res A) vs : forall l, (length l <= max)%nat -> (length (fst (add_all max mk vs l)) <= max)%nat.
Proof.
  induction vs as [|v vs IH]; intros l L; cbn [add_all fst]; [exact L|]. destruct (length l =? max)%nat eqn:E; [exact L|].
  destruct (mk v) as [a|e]; [|exact L]. apply IH. rewrite app_length. cbn [length]. lia.
Qed.
Lemma add_all_full {X A} max (mk : X -> res A) v vs l : length l = max -> add_all max mk (v :: vs) l = (l, Err RuntimeError).
Proof. intros L. cbn [add_all]. replace (length l =? max)%nat with true by lia. reflexivity. Qed.
Lemma add_all_ok {X A} max (mk : X -> res A) vs : forall l l', add_all max mk vs l = (l', Ok tt) ->
  exists r, l' = l ++ r /\ mapM mk vs = Ok r.
Proof.
  induction vs as [|v vs IH]; intros l l' E; cbn [add_all] in E.
  - injection E as <-. exists []. rewrite app_nil_r. auto.
  - destruct (length l =? max)%nat; [discriminate|]. destruct (mk v) as [a|e] eqn:M; [|discriminate].
    apply IH in E as (r & -> & F). exists (a :: r). rewrite <- app_assoc. split; [reflexivity|]. cbn [mapM]. rewrite M. cbn [bind]. rewrite F. reflexivity.
Qed.
Lemma bot_id_ok i z : bot_id i = Ok z -> (0 <= z)%Z.
Proof. destruct i as [x|]; cbn; intro E; [|apply ok_inj in E; lia]. apply bind_ok in E as (? & G & E). apply guard_ok in G. apply ok_inj in E. lia. Qed.

Ltac bounded := unfold MAX_NAMES, MAX_ADDRESSES; match goal with
  | |- context [add_all ?m ?k ?v ?l] => let B := fresh in assert (B : (length (fst (add_all m k v l)) <= m)%nat) by (apply add_all_bound; cbn; lia);
      let p := fresh in destruct (add_all m k v l) as [p ?]; cbn [fst] in B; cbn; repeat split; try assumption; try lia
  end.
Lemma edit_limits ip t e : limits t -> limits (fst (edit_txn ip t e)).
Proof.
  unfold limits. destruct t as [t|t|t|t|t|t|t|t]; try easy; intros L.
  - destruct L as (L1 & L2 & L3). cbn [edit_txn]. destruct e; unfold edit_bot; try bounded; try (cbn; repeat split; assumption || lia).
    destruct ((n <? 1) || (24 <? n))%Z eqn:E; cbn; repeat split; assumption || lia.
  - destruct L as (L1 & L2 & L3 & L4 & L5 & L6). cbn [edit_txn]. destruct e; unfold edit_upd; try bounded; try (cbn; repeat split; assumption || lia).
    + destruct ((n <? 0) || (24 <? n))%Z eqn:E; cbn; repeat split; assumption || lia.
    + destruct (bot_id i) as [z|] eqn:E; [apply bot_id_ok in E|]; cbn; repeat split; assumption || lia.
  - destruct L as (L1 & L2 & L3). cbn [edit_txn]. destruct e; unfold edit_name; try bounded; try (cbn; repeat split; assumption || lia).
    + destruct (bot_id i) as [z|] eqn:E; [apply bot_id_ok in E|]; cbn; repeat split; assumption || lia.
    + destruct (bot_id i) as [z|] eqn:E; [apply bot_id_ok in E|]; cbn; repeat split; assumption || lia.
Qed.
(** every attempt of a program, whatever becomes of it *)
Definition edit_run (ip : pystr -> res bytes) (t : txn) (es : list edit) : txn := fold_left (fun t e => fst (edit_txn ip t e)) es t.
Lemma run_limits ip es : forall t, limits t -> limits (edit_run ip t es).
Proof. induction es as [|e es IH]; intros t L; [exact L|]. cbn [edit_run fold_left]. apply IH, edit_limits, L. Qed.
Lemma edits_limits ip es : forall t t', limits t -> edits ip t es = Ok t' -> limits t'.
Proof.
  induction es as [|e es IH]; intros t t' L E; cbn [edits] in E; [apply ok_inj in E; subst; exact L|].
  destruct (edit_txn ip t e) as [u [[]|x]] eqn:F; [|discriminate]. pose proof (edit_limits ip t e L) as L'. rewrite F in L'. eapply IH; eauto.
Qed.
Lemma new_limits : limits registration_new /\ limits update_new /\ limits transfer_new.
Proof. cbn. repeat split; lia. Qed.

(** ** fees *)
Definition worth_of (r : res currency) (n : N) : Prop := exists c, r = Ok c /\ valid c /\ units c = n.
Lemma plus_ok a b m n : worth_of a m -> worth_of b n -> m + n < 10 ^ 28 -> worth_of (plus a b) (m + n).
Proof.
  intros (x & -> & Vx & <-) (y & -> & Vy & <-) L. unfold plus. cbn [bind]. destruct (cadd_exact x y Vx Vy L) as (c & E & V & U). exists c. auto.
Qed.
Lemma valid_dec_i n e : (-9 <= e)%Z -> valid_dec (mkdec false n e).
Proof. intros. split; [reflexivity | exact H]. Qed.
Lemma mul_int_ok c z : (0 <= z)%Z -> c * Z.to_N z < 10 ^ 28 -> cmul (Some (mkdec false c 0)) (COInt z) = Ok (Some (mkdec false (c * Z.to_N z) 0)).
Proof.
  intros Hz L. unfold cmul. cbn [as_currency cset]. assert (V : valid_dec (dec_of_Z z)) by (split; cbn; lia).
  rewrite (check_dec_valid _ V). cbn [bind cvalue]. unfold dmul, dec_of_Z. cbn [dneg dcoef dexp]. replace (z <? 0)%Z with false by lia. replace (Z.abs z) with z by lia.
  rewrite dfix_small by exact L. cbn [xorb]. apply check_dec_valid, valid_dec_i. lia.
Qed.
Lemma months_ok z : (0 <= z < 10 ^ 26)%Z -> worth_of (monthly_fees z) (month_price (Z.to_N z)).
Proof.
  intros B. unfold monthly_fees. change FEE_MONTH with (Ok (Some (mkdec false 10 0))). cbn [bind].
  rewrite mul_int_ok by lia. cbn [bind]. unfold month_price, TFT.
  destruct (z <? 12)%Z eqn:E1.
  - replace (Z.to_N z <? 12) with true by lia. eexists. split; [reflexivity|]. split; [apply valid_dec_i; lia|].
    unfold units. cbn [cvalue]. rewrite scaled9_exact by lia. change (Z.to_N (0 + 9)) with 9. change (10 ^ 9) with 1000000000. lia.
  - replace (Z.to_N z <? 12) with false by lia.
    assert (K : forall s k, as_currency (COFloat s) = Ok (Some (mkdec false k (-1))) -> k <= 7 ->
              worth_of (cmul (Some (mkdec false (10 * Z.to_N z) 0)) (COFloat s)) (k * Z.to_N z * 1000000000)).
    { intros s k As Hk. unfold cmul. rewrite As. cbn [bind cvalue cset]. unfold dmul. cbn [dneg dcoef dexp xorb].
      rewrite dfix_small by (cbn [dcoef]; assert (10 * Z.to_N z * k <= 10 * Z.to_N z * 7) by (apply N.mul_le_mono_l; exact Hk); change (10 ^ 26)%Z with 100000000000000000000000000%Z in B; change (10 ^ 28) with 10000000000000000000000000000; lia).
      rewrite check_dec_valid by (apply valid_dec_i; lia). eexists. split; [reflexivity|]. split; [apply valid_dec_i; lia|].
      unfold units. cbn [cvalue]. rewrite scaled9_exact by lia. change (Z.to_N (0 + -1 + 9)) with 8. change (10 ^ 8) with 100000000. lia. }
    destruct (z <? 24)%Z eqn:E2.
    + replace (Z.to_N z <? 24) with true by lia. apply K; [reflexivity | lia].
    + replace (Z.to_N z <? 24) with false by lia. apply K; [reflexivity | lia].
Qed.
Lemma names_ok z : (0 <= z < 10 ^ 26)%Z -> worth_of (name_fees z) (50 * Z.to_N z * TFT).
Proof.
  intros B. unfold name_fees. change FEE_NAME with (Ok (Some (mkdec false 50 0))). cbn [bind].
  rewrite mul_int_ok by lia. eexists. split; [reflexivity|]. split; [apply valid_dec_i; lia|].
  unfold units. cbn [cvalue]. rewrite scaled9_exact by lia. change (Z.to_N (0 + 9)) with 9. change (10 ^ 9) with 1000000000. unfold TFT. lia.
Qed.
Lemma month_price_bound m : month_price m <= 10 * m * TFT.
Proof. unfold month_price, TFT. destruct (m <? 12); [lia|]. destruct (m <? 24); lia. Qed.
(** how much may be in a transaction so that the sum stays exact *)
Definition moderate (t : txn) : Prop :=
  match t with
  | T144 b => (0 <= b_months b <= 10 ^ 9)%Z /\ (Z.of_nat (length (b_names b)) <= 10 ^ 9)%Z
  | T145 u => (0 <= u_months u <= 10 ^ 9)%Z /\ (Z.of_nat (length (u_name_add u)) <= 10 ^ 9)%Z
  | T146 n => (Z.of_nat (length (n_names n)) <= 10 ^ 9)%Z
  | _ => False
  end.
Lemma limits_moderate t : limits t -> moderate t.
Proof. destruct t; cbn; lia. Qed.
Lemma worth_eq r m n : worth_of r m -> m = n -> worth_of r n.
Proof. intros W <-. exact W. Qed.
Lemma fees_ok t : moderate t -> worth_of (required_bot_fees t) (price t).
Proof.
  destruct t as [t|t|t|t|t|b|u|n]; try easy; intros M; cbn [moderate] in M; cbn [required_bot_fees price]; unfold count.
  - destruct M as [M1 M2]. pose proof (months_ok (b_months b) ltac:(lia)) as W. pose proof (month_price_bound (Z.to_N (b_months b))) as MB. unfold TFT in MB.
    assert (R : worth_of (do r <- FEE_REGISTRATION; cadd r (COInt 0)) 90000000000).
    { eexists. split; [vm_compute; reflexivity|]. split; [apply valid_dec_i; lia | reflexivity]. }
    pose proof (plus_ok _ _ _ _ R W ltac:(lia)) as P.
    destruct (1 <? Z.of_nat (length (b_names b)))%Z eqn:E.
    + pose proof (names_ok (Z.of_nat (length (b_names b)) - 1) ltac:(lia)) as Q. unfold TFT in *.
      eapply worth_eq; [exact (plus_ok _ _ _ _ P Q ltac:(lia))|]. lia.
    + eapply worth_eq; [exact P|]. unfold TFT. lia.
  - destruct M as [M1 M2]. pose proof (months_ok (u_months u) ltac:(lia)) as W. pose proof (month_price_bound (Z.to_N (u_months u))) as MB. unfold TFT in MB.
    assert (R : worth_of (cset (CIInt 0)) 0).
    { eexists. split; [vm_compute; reflexivity|]. split; [apply valid_dec_i; lia | reflexivity]. }
    assert (R1 : worth_of (if (0 <? u_months u)%Z then plus (cset (CIInt 0)) (monthly_fees (u_months u)) else cset (CIInt 0)) (month_price (Z.to_N (u_months u)))).
    { destruct (0 <? u_months u)%Z eqn:E; [eapply worth_eq; [exact (plus_ok _ _ _ _ R W ltac:(lia))|]; lia|].
      eapply worth_eq; [exact R|]. replace (Z.to_N (u_months u)) with 0 by lia. reflexivity. }
    set (f1 := if (0 <? u_months u)%Z then _ else _) in *. clearbody f1.
    set (aa := N.of_nat (length (u_addr_add u)) + N.of_nat (length (u_addr_del u))).
    assert (R2 : worth_of (if nonempty (u_addr_add u) || nonempty (u_addr_del u) then plus f1 FEE_ADDRESSES else f1)
                  (month_price (Z.to_N (u_months u)) + (if aa =? 0 then 0 else 20 * TFT))).
    { assert (NE : nonempty (u_addr_add u) || nonempty (u_addr_del u) = negb (aa =? 0)).
      { unfold aa. destruct (u_addr_add u), (u_addr_del u); cbn [nonempty orb length]; lia. }
      rewrite NE. destruct (aa =? 0); cbn [negb].
      - eapply worth_eq; [exact R1 | lia].
      - apply plus_ok; [exact R1 | | unfold TFT; lia]. eexists. split; [vm_compute; reflexivity|]. split; [apply valid_dec_i; lia | reflexivity]. }
    set (f2 := if nonempty _ || _ then _ else _) in *. clearbody f2. clearbody aa.
    assert (B2 : month_price (Z.to_N (u_months u)) + (if aa =? 0 then 0 else 20 * TFT) <= 10 * Z.to_N (u_months u) * 1000000000 + 20000000000) by (unfold TFT; destruct (aa =? 0); lia).
    destruct (0 <? Z.of_nat (length (u_name_add u)))%Z eqn:E.
    + pose proof (names_ok (Z.of_nat (length (u_name_add u))) ltac:(lia)) as Q. unfold TFT in *.
      eapply worth_eq; [exact (plus_ok _ _ _ _ R2 Q ltac:(lia))|]. lia.
    + eapply worth_eq; [exact R2|]. unfold TFT. lia.
  - eapply worth_eq; [exact (names_ok (Z.of_nat (length (n_names n))) ltac:(lia))|]. lia.
Qed.
