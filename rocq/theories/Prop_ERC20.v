(** Property C44: ERC20 addresses. *)
From Verif Require Import Base BaseFacts Primitive Types ThreeBotTypes Spec_Types Spec_ERC20.
From Coq Require Import ZifyBool ZifyNat ZifyN.

Lemma drop_0x_spec s t : after_prefix s t -> drop_0x s = t /\ from_str KHexPrefix s = unhex t.
Proof.
  intros [->|[->|[N ->]]]; [split; reflexivity .. |]. unfold from_str, drop_0x. destruct t as [|a [|b t]]; [split; reflexivity .. |].
  destruct (a =? 48) eqn:A; [|split; reflexivity]. destruct (b =? 120) eqn:B; cbn [andb orb].
  - exfalso. apply N. exists t. left. apply N.eqb_eq in A, B. subst. reflexivity.
  - destruct (b =? 88) eqn:C; [|split; reflexivity]. exfalso. apply N. exists t. right. apply N.eqb_eq in A, C. subst. reflexivity.
Qed.
Lemma unhexdig_char c : hexchar c <-> exists d, unhexdig c = Some d.
Proof.
  unfold hexchar, unhexdig. split.
  - intros [X|[X|X]].
    + replace ((48 <=? c) && (c <=? 57)) with true by lia. eauto.
    + replace ((48 <=? c) && (c <=? 57)) with false by lia. replace ((97 <=? c) && (c <=? 102)) with false by lia. replace ((65 <=? c) && (c <=? 70)) with true by lia. eauto.
    + replace ((48 <=? c) && (c <=? 57)) with false by lia. replace ((97 <=? c) && (c <=? 102)) with true by lia. eauto.
  - intros [d E]. destruct ((48 <=? c) && (c <=? 57)) eqn:A; [lia|]. destruct ((97 <=? c) && (c <=? 102)) eqn:B; [lia|]. destruct ((65 <=? c) && (c <=? 70)) eqn:C; [lia | discriminate].
Qed.
Lemma hexchar_space c : hexchar c -> is_space c = false.
Proof. unfold hexchar, is_space. lia. Qed.
Lemma unhex_chars n t : length t = (2 * n)%nat -> Forall hexchar t -> exists b, unhex t = Ok b /\ length b = n.
Proof.
  revert t. induction n as [|n IH]; intros t L F.
  - destruct t; [|discriminate]. exists []. split; reflexivity.
  - destruct t as [|c [|d t]]; try (cbn in L; lia). inversion F as [|? ? C F1]; subst. inversion F1 as [|? ? D F2]; subst.
    destruct (IH t ltac:(cbn in L; lia) F2) as (b & E & Lb). cbn [unhex]. rewrite (hexchar_space c C).
    destruct (proj1 (unhexdig_char c) C) as [x ->], (proj1 (unhexdig_char d) D) as [y ->]. rewrite E. cbn [bind]. eexists. split; [reflexivity|]. cbn. lia.
Qed.
Lemma unhex_len : forall n t b, (length t <= n)%nat -> unhex t = Ok b -> (2 * length b <= length t)%nat /\ (length t = (2 * length b)%nat -> Forall hexchar t).
Proof.
  induction n as [|n IH]; intros t b L E.
  - destruct t; [|cbn in L; lia]. apply ok_inj in E. subst. cbn. split; [lia | constructor].
  - destruct t as [|c t]; [apply ok_inj in E; subst; cbn; split; [lia | constructor]|]. cbn [unhex length] in *. destruct (is_space c).
    + destruct (IH t b ltac:(lia) E) as [X _]. split; lia.
    + destruct t as [|d t]; [discriminate|]. destruct (unhexdig c) as [x|] eqn:C; [|discriminate]. destruct (unhexdig d) as [y|] eqn:D; [|discriminate].
      apply bind_ok in E as (r & E & F). apply ok_inj in F. subst b. cbn [length] in *. destruct (IH t r ltac:(lia) E) as [X Y]. split; [lia|]. intro G.
      constructor; [apply unhexdig_char; eauto|]. constructor; [apply unhexdig_char; eauto|]. apply Y. lia.
Qed.
Lemma hexint_all t : Forall hexchar t -> hexint_digits true t = true.
Proof. induction 1 as [|c t C F IH]; [reflexivity|]. cbn. destruct (proj1 (unhexdig_char c) C) as [x ->]. exact IH. Qed.
Lemma hexint_chars t : Forall hexchar t -> t <> [] -> hexint_digits false t = true.
Proof. intros F N. destruct F as [|c t C F]; [congruence|]. cbn. destruct (proj1 (unhexdig_char c) C) as [x ->]. apply hexint_all, F. Qed.
Lemma pyspace_char c : hexchar c -> is_pyspace c = false.
Proof. unfold hexchar, is_pyspace, is_space. lia. Qed.
Lemma lstrip_chars t : Forall hexchar t -> lstrip is_pyspace t = t.
Proof. intro F. destruct F as [|c t C F]; [reflexivity|]. cbn. rewrite (pyspace_char c C). reflexivity. Qed.
Lemma strip_chars t : Forall hexchar t -> strip t = t.
Proof.
  intro F. unfold strip, rstrip. rewrite (lstrip_chars t F), lstrip_chars, rev_involutive; [reflexivity|]. apply Forall_rev, F.
Qed.
Lemma hexint_ok_chars t : Forall hexchar t -> t <> [] -> hexint_ok t = true.
Proof.
  intros F N. unfold hexint_ok. rewrite (strip_chars t F).
  assert (D : drop_sign t = t).
  { destruct F as [|c t C F]; [congruence|]. unfold drop_sign. replace ((c =? 45) || (c =? 43)) with false by (unfold hexchar in C; lia). reflexivity. }
  rewrite D. destruct t as [|a [|b t]]; [congruence | apply hexint_chars; assumption |].
  replace ((b =? 120) || (b =? 88)) with false by (inversion F as [|? ? A F1]; inversion F1 as [|? ? B F2]; unfold hexchar in B; lia).
  rewrite andb_false_r. apply hexint_chars; assumption.
Qed.
Lemma eaddr_new_str s t b : after_prefix s t -> (eaddr_new (BVStr s) = Ok b <-> unhex t = Ok b /\ (length b = 0 \/ length b = 20)%nat).
Proof.
  intro A. destruct (drop_0x_spec s t A) as [_ E]. unfold eaddr_new, bd_new. change (strkind_of (Some (s2b "hexprefix"))) with (Ok KHexPrefix). cbn [bind guard].
  change (0 <=? 20)%Z with true. cbn [bind guard]. unfold bd_set, bd_norm. change (bd_kind (bd_enc (mkbd (Some (Z.to_N 20)) (Some (s2b "hexprefix")) []))) with KHexPrefix.
  rewrite E. destruct (unhex t) as [x|e]; cbn [bind bd_size bd_size_ok]; [|split; [discriminate | intros [X _]; discriminate]].
  unfold lenN. change (Z.to_N 20) with 20.
  destruct ((N.of_nat (length x) =? 0) || (N.of_nat (length x) =? 20)) eqn:G; cbn [guard bind bd_val]; split.
  - intro X. apply ok_inj in X. subst. split; [reflexivity | lia].
  - intros [X _]. exact X.
  - discriminate.
  - intros [X Y]. apply ok_inj in X. subst. lia.
Qed.

(** ** C44 *)
(** A text of hexadecimal digits, with or without 0x, is valid exactly when it is accepted as a (non-empty) address. *)
Theorem C44_digits_partial : forall s t, after_prefix s t -> Forall hexchar t ->
  (eaddr_valid (BVStr s) = true <-> exists b, b <> [] /\ eaddr_new (BVStr s) = Ok b).
Proof.
  intros s t A F. destruct (drop_0x_spec s t A) as [D _]. cbn [eaddr_valid]. rewrite D. split.
  - intro V. destruct (length t =? 40)%nat eqn:L; [|discriminate V]. apply Nat.eqb_eq in L. destruct (unhex_chars 20 t L F) as (b & E & Lb).
    exists b. split; [intros ->; discriminate Lb|]. apply (eaddr_new_str s t b A). auto.
  - intros (b & N & E). apply (eaddr_new_str s t b A) in E as [E [L|L]]; [destruct b; [congruence | discriminate L]|].
    assert (X : length t = 40%nat).
    { clear A D N. revert b t F E L. assert (G : forall n b t, (length t <= n)%nat -> Forall hexchar t -> unhex t = Ok b -> length t = (2 * length b)%nat).
      { induction n as [|n IH]; intros b t K F E; [destruct t; [apply ok_inj in E; subst; reflexivity | cbn in K; lia]|].
        destruct t as [|c [|d t]]; [apply ok_inj in E; subst; reflexivity | |].
        - inversion F as [|? ? C _]; subst. cbn [unhex] in E. rewrite (hexchar_space c C) in E. discriminate.
        - inversion F as [|? ? C F1]; subst. inversion F1 as [|? ? Dd F2]; subst. cbn [unhex] in E. rewrite (hexchar_space c C) in E.
          destruct (unhexdig c); [|discriminate]. destruct (unhexdig d); [|discriminate]. apply bind_ok in E as (r & E & X). apply ok_inj in X. subst b.
          cbn [length] in *. rewrite (IH r t ltac:(lia) F2 E). lia. }
      intros b t F E L. rewrite (G _ b t (le_n _) F E). lia. }
    rewrite X. change (40 =? 40)%nat with true. cbn [andb]. apply hexint_ok_chars; [exact F|]. intros ->. discriminate X.
Qed.
Print Assumptions C44_digits_partial.
(** Raw bytes, and addresses, likewise. *)
Theorem C44_bytes : forall b, eaddr_valid (BVBytes b) = true <-> b <> [] /\ eaddr_new (BVBytes b) = Ok b.
Proof.
  intro b. cbn [eaddr_valid]. unfold eaddr_new, bd_new. change (strkind_of (Some (s2b "hexprefix"))) with (Ok KHexPrefix). cbn [bind guard].
  change (0 <=? 20)%Z with true. cbn [bind guard]. unfold bd_set, bd_norm. cbn [bind bd_size bd_size_ok]. unfold lenN. change (Z.to_N 20) with 20.
  destruct ((N.of_nat (length b) =? 0) || (N.of_nat (length b) =? 20)) eqn:G; cbn [guard bind bd_val]; split.
  - intro X. split; [intros ->; discriminate X | reflexivity].
  - intros [X _]. destruct b; [congruence|]. cbn [length] in *. lia.
  - intro X. lia.
  - intros [_ X]. discriminate.
Qed.
Print Assumptions C44_bytes.
(** Of texts with 40 characters after the prefix, all accepted ones are valid. *)
Theorem C44_accepted_valid_partial : forall s t b, after_prefix s t -> length t = 40%nat -> b <> [] -> eaddr_new (BVStr s) = Ok b -> eaddr_valid (BVStr s) = true.
Proof.
  intros s t b A L N E. assert (F : Forall hexchar t).
  { apply (eaddr_new_str s t b A) in E as [E [K|K]]; [destruct b; [congruence | discriminate K]|]. apply (proj2 (unhex_len _ t b (le_n _) E)). lia. }
  apply (C44_digits_partial s t A F). eauto.
Qed.
Print Assumptions C44_accepted_valid_partial.
(** False in general.  Valid but not accepted: any 39 digits after a sign. *)
Theorem C44_sign_refuted : forall t, length t = 39%nat -> Forall hexchar t ->
  eaddr_valid (BVStr (43 :: t)) = true /\ eaddr_new (BVStr (43 :: t)) = Err ValueError.
Proof.
  intros t L F. assert (A : after_prefix (43 :: t) (43 :: t)).
  { right. right. split; [|reflexivity]. intros (u & [E|E]); discriminate E. }
  destruct (drop_0x_spec _ _ A) as [D E]. split.
  - cbn [eaddr_valid]. rewrite D. cbn [length]. rewrite L. change (40 =? 40)%nat with true. cbn [andb].
    unfold hexint_ok, strip, rstrip. cbn [lstrip]. change (is_pyspace 43) with false. cbn iota.
    assert (R : lstrip is_pyspace (rev (43 :: t)) = rev (43 :: t)).
    { cbn [rev]. destruct (rev t) as [|c r] eqn:R.
      - reflexivity.
      - cbn [app lstrip]. assert (C : hexchar c). { apply Forall_rev in F. rewrite R in F. inversion F. assumption. } rewrite (pyspace_char c C). reflexivity. }
    rewrite R, rev_involutive. cbn [drop_sign]. change ((43 =? 45) || (43 =? 43)) with true. cbn iota.
    assert (N : t <> []) by (intros ->; discriminate L).
    destruct t as [|a [|b t]]; [congruence | discriminate L|].
    replace ((b =? 120) || (b =? 88)) with false by (inversion F as [|? ? A' F1]; inversion F1 as [|? ? B F2]; unfold hexchar in B; lia).
    rewrite andb_false_r. apply hexint_chars; assumption.
  - destruct (eaddr_new (BVStr (43 :: t))) as [b|e] eqn:X.
    + apply (eaddr_new_str _ _ b A) in X as [X _]. cbn in X. destruct t; discriminate X.
    + assert (U : unhex (43 :: t) = Err ValueError) by (destruct t; reflexivity). rewrite U in E.
      unfold eaddr_new, bd_new in X. change (strkind_of (Some (s2b "hexprefix"))) with (Ok KHexPrefix) in X. cbn [bind guard] in X.
      change (0 <=? 20)%Z with true in X. cbn [bind guard] in X. unfold bd_set, bd_norm in X.
      change (bd_kind (bd_enc (mkbd (Some (Z.to_N 20)) (Some (s2b "hexprefix")) []))) with KHexPrefix in X. rewrite E in X. cbn in X. congruence.
Qed.
Print Assumptions C44_sign_refuted.
(** Accepted but not valid: the empty text, and any address written with a blank before it. *)
Theorem C44_empty_refuted : eaddr_new (BVStr []) = Ok [] /\ eaddr_valid (BVStr []) = false.
Proof. split; reflexivity. Qed.
Print Assumptions C44_empty_refuted.
Theorem C44_blank_refuted : forall t, length t = 40%nat -> Forall hexchar t ->
  (exists b, length b = 20%nat /\ eaddr_new (BVStr (32 :: t)) = Ok b) /\ eaddr_valid (BVStr (32 :: t)) = false.
Proof.
  intros t L F. assert (A : after_prefix (32 :: t) (32 :: t)).
  { right. right. split; [|reflexivity]. intros (u & [E|E]); discriminate E. }
  split.
  - destruct (unhex_chars 20 t L F) as (b & E & Lb). exists b. split; [exact Lb|]. apply (eaddr_new_str _ _ b A). split; [exact E | auto].
  - destruct (drop_0x_spec _ _ A) as [D _]. cbn [eaddr_valid]. rewrite D. cbn [length]. rewrite L. reflexivity.
Qed.
Print Assumptions C44_blank_refuted.
(** The address derived from a TFT address is valid, and its text is valid and read back as it. *)
Theorem C44_derived : forall H u a, hash_ok H -> eaddr_from_uh H u = Ok a ->
  eaddr_valid (BVBytes a) = true /\ eaddr_valid (BVStr (to_str KHexPrefix a)) = true /\ eaddr_new (BVStr (to_str KHexPrefix a)) = Ok a.
Proof.
  intros H u a HH E. unfold eaddr_from_uh in E. apply bind_ok in E as (d & _ & E).
  destruct (HH d) as [L W]. assert (K : length (skipn 12 (H d)) = 20%nat) by (rewrite skipn_length; lia).
  assert (V : eaddr_valid (BVBytes (skipn 12 (H d))) = true) by (cbn [eaddr_valid]; rewrite K; reflexivity).
  pose proof (proj2 (proj1 (C44_bytes _) V)) as X. rewrite E in X. apply ok_inj in X. subst a. split; [exact V|].
  assert (Wf : wf_bytes (skipn 12 (H d))). { rewrite <- (firstn_skipn 12 (H d)) in W. apply Forall_app in W. apply W. }
  set (a := skipn 12 (H d)) in *. assert (A : after_prefix (to_str KHexPrefix a) (hex a)) by (left; reflexivity).
  assert (Y : eaddr_new (BVStr (to_str KHexPrefix a)) = Ok a). { apply (eaddr_new_str _ _ a A). split; [apply unhex_hex, Wf | auto]. }
  split; [|exact Y]. apply (C44_accepted_valid_partial _ _ a A); [rewrite hex_length, K; reflexivity | intros X; rewrite X in K; discriminate K | exact Y].
Qed.
Print Assumptions C44_derived.
Example C44_ex : after_prefix (s2b "0x" ++ repeat 97 40) (repeat 97 40) /\ Forall hexchar (repeat 97 40) /\ eaddr_valid (BVStr (s2b "0x" ++ repeat 97 40)) = true /\
  eaddr_new (BVStr (s2b "0x" ++ repeat 97 40)) = Ok (repeat 170 20) /\ eaddr_valid (BVStr (repeat 97 38)) = false /\ eaddr_new (BVStr (repeat 97 38)) = Err ValueError.
Proof.
  split; [left; reflexivity|]. split; [|repeat split; reflexivity]. apply Forall_forall. intros x I. apply repeat_spec in I. subst. unfold hexchar. lia.
Qed.
