(** Ambiguities of signature data, and legacy transactions. *)
From Verif Require Import Base BaseFacts Encoders EncodersFacts Currency CurrencyFacts Primitive Types Conditions
  Fulfillments ThreeBotTypes Txn Spec_Types Spec_Fulfil Spec_Txn TypesFacts TypesFacts2 ConditionFacts ConditionFacts2 TxnFacts TxnFacts2.
From Coq Require Import ZifyBool ZifyNat ZifyN.
Ltac Zify.zify_post_hook ::= Z.div_mod_to_equations.

Definition ex_in (id : bytes) : input := mkin id (FSingle pk_default None) None.
Definition ex_out (v : N) (h : bytes) : output := mkout v (CUnlockHash (mkuh 1 h)) [].
Definition ex_key (x : N) : pubkey := mkpk PKEd25519 (repeat x 32).

(** Redeeming with a secret and refunding hash to the same data for two different payments. *)
Definition amb_id1 : bytes := repeat 5 24 ++ le 8 1.
Definition amb_secret : bytes := le 8 1 ++ repeat 5 24.
Definition amb_h1 : bytes := repeat 9 5 ++ le 8 0 ++ le 8 1 ++ repeat 6 11.
Definition amb_h2 : bytes := [7; 7] ++ le 8 0 ++ le 8 0 ++ le 8 38 ++ repeat 8 6.
Definition amb_t : tx_std := mkstd false [ex_in amb_id1] [ex_out 3 amb_h1; ex_out 4 amb_h2] [] [] [] [].
Definition amb_u : tx_std :=
  mkstd false [ex_in (le 8 2 ++ le 8 1 ++ [3] ++ [1] ++ le 8 33 ++ [1] ++ repeat 9 5)] []
        [ex_in (repeat 6 11 ++ le 8 1 ++ [4] ++ [1] ++ le 8 33 ++ [1] ++ [7; 7])] [] []
        (repeat 8 6 ++ le 8 0 ++ le 8 0 ++ le 8 0 ++ le 8 0).
Lemma hash32_b b : (length b =? 32)%nat && forallb (fun x => x <? 256) b = true -> hash32 b.
Proof.
  intros E. apply andb_true_iff in E as [E F]. split; [lia|]. rewrite forallb_forall in F. apply Forall_forall.
  intros x Hx. specialize (F x Hx). lia.
Qed.
Lemma secret_ambiguous : exists t u k s, forall H, exists d,
  sized (T1 t) /\ sized (T1 u) /\ key32 k /\ hash32 s /\
  sig_input H (T1 t) (extras_of (KeyInput 0 k)) = Ok d /\ sig_input H (T1 u) (extras_of (SecretInput 0 k s)) = Ok d /\
  content_of (T1 t) <> content_of (T1 u) /\ s_cin t <> [] /\ s_cin u <> [].
Proof.
  exists amb_t, amb_u, (ex_key 11), amb_secret. intros H. eexists.
  split; [|split; [|split; [|split; [|split; [|split; [|split; [|split]]]]]]].
  - repeat split; repeat apply Forall_cons; try apply Forall_nil; try (apply hash32_b; reflexivity); 
      try (split; [cbn; lia|apply hash32_b; reflexivity]).
  - repeat split; repeat apply Forall_cons; try apply Forall_nil; try (apply hash32_b; reflexivity).
  - apply hash32_b; reflexivity.
  - apply hash32_b; reflexivity.
  - vm_compute; reflexivity.
  - vm_compute; reflexivity.
  - discriminate.
  - discriminate.
  - discriminate.
Qed.

(** ** Legacy transactions *)
(** No input count is hashed: *)
Definition leg_in : input := mkin (le 8 0 ++ le 8 0 ++ le 8 0 ++ le 8 65) (FSingle (ex_key 11) None) None.
Definition leg_t : tx_std := mkstd true [leg_in] [] [] [] [] [].
Lemma legacy_ambiguous H : hash_ok H -> exists t u p d, s_legacy t = true /\ s_legacy u = true /\ (length (s_data u) <= 83)%nat /\
  sig_input H (T1 t) (extras_of p) = Ok d /\ sig_input H (T1 u) (extras_of p) = Ok d /\
  s_cin t <> [] /\ s_cin u = [] /\ s_data t = [].
Proof.
  intros HH. destruct (pk_uh_total (ex_key 11)) as (x & Ex); [right; reflexivity|].
  set (h := H x). destruct (HH x) as [L W]. fold h in L, W.
  exists leg_t, (mkstd true [] [] [] [] [] (1 :: h ++ zeros 32)), (PlainInput 0). eexists.
  split; [reflexivity|]. split; [reflexivity|]. split; [cbn [length s_data]; rewrite app_length, L; cbn; lia|].
  assert (A : legacy_in_sig H leg_in = Ok (i_parent leg_in ++ 1 :: h)).
  { unfold legacy_in_sig, leg_in. cbn [i_ff ff_pk bind i_parent]. unfold pk_unlockhash. rewrite Ex. cbn [bind].
    rewrite uh_sia_ok by (cbn [uh_type]; unfold UH_PUBLIC_KEY; lia). reflexivity. }
  split; [|split].
  - cbn [sig_input leg_t s_legacy s_cin s_cout s_bin s_bout s_fees s_data map rconcat]. rewrite A.
    unfold extras_of, xs_sia. cbn [map rconcat x_sia]. 
    rewrite (sia_int_total (Z.of_nat 0)) by (change (2 ^ 64)%Z with 18446744073709551616%Z; lia). rewrite sia_slice_ok' by reflexivity. unfold sia_list. cbn [map rconcat length].
    rewrite (sia_int_total (Z.of_nat 0)) by (change (2 ^ 64)%Z with 18446744073709551616%Z; lia). cbn [rapp bind]. reflexivity.
  - cbn [sig_input s_legacy s_cin s_cout s_bin s_bout s_fees s_data map rconcat]. 
    unfold extras_of, xs_sia. cbn [map rconcat x_sia]. 
    assert (LL : lenN (1 :: h ++ zeros 32) = 65) by (unfold lenN; cbn [length]; rewrite app_length, L; reflexivity).
    rewrite (sia_int_total (Z.of_nat 0)) by (change (2 ^ 64)%Z with 18446744073709551616%Z; lia). rewrite sia_slice_ok' by (rewrite LL; reflexivity). rewrite LL.
    unfold sia_list. cbn [map rconcat length].
    rewrite (sia_int_total (Z.of_nat 0)) by (change (2 ^ 64)%Z with 18446744073709551616%Z; lia). cbn [rapp bind]. f_equal.
    change (Z.to_N (Z.of_nat 0)) with 0. unfold leg_in. cbn [i_parent].
    rewrite <- !app_assoc. cbn [app]. rewrite ?app_nil_r. 
    change (le 8 (lenN (@nil N)) ++ []) with (le 8 0). change (le 8 (lenN (@nil N))) with (le 8 0).
    replace (zeros 32) with (le 8 0 ++ le 8 0 ++ le 8 0 ++ le 8 0) by reflexivity. rewrite <- ?app_assoc. reflexivity.
  - repeat split; discriminate.
Qed.

(** With the numbers of inputs fixed, legacy signature data do determine the payment to addresses. *)

Definition lp_enc (p : N * res uh) : res bytes := amt_sia (fst p) +++ (do u <- snd p; uh_sia u).
Definition lp_ok (p : N * res uh) : Prop := exists u, snd p = Ok u /\ full_uh u.
Lemma lp_uniq : uniq lp_ok lp_enc.
Proof.
  intros [a ra] [b rb] x y r s (u & Eu & Fu) (v & Ev & Fv) Ea Eb E. cbn [snd] in *. subst. unfold lp_enc in *. cbn [fst snd bind] in *.
  destruct (peel _ _ amt_sia_uniq _ _ _ _ _ _ _ _ I I Ea Eb E) as (-> & x' & y' & F1 & F2 & F).
  destruct (uh_sia_uniq _ _ _ _ _ _ Fu Fv F1 F2 F) as [-> ->]. auto.
Qed.
Definition ls_enc (p : bytes * res uh) : res bytes := Ok (fst p) +++ (do u <- snd p; uh_sia u).
Definition ls_ok (p : bytes * res uh) : Prop := hash32 (fst p) /\ forall u, snd p = Ok u -> full_uh u.
Lemma ls_uniq : uniq ls_ok ls_enc.
Proof.
  intros [a ra] [b rb] x y r s [[La _] Fa] [[Lb _] Fb] Ea Eb E. unfold ls_enc in *. cbn [fst snd] in *.
  destruct (peel _ _ (arr_uniq 32) a b _ _ _ _ _ _ La Lb Ea Eb E) as (-> & x' & y' & F1 & F2 & F).
  apply bind_ok in F1 as (u & -> & F1). apply bind_ok in F2 as (v & -> & F2).
  destruct (uh_sia_uniq _ _ _ _ _ _ (Fa _ eq_refl) (Fb _ eq_refl) F1 F2 F) as [-> ->]. auto.
Qed.
Lemma legacy_in_enc H i : legacy_in_sig H i = ls_enc (legacy_spend H i).
Proof. unfold legacy_in_sig, ls_enc, legacy_spend. cbn [fst snd]. destruct (ff_pk (i_ff i)); reflexivity. Qed.
Lemma legacy_ins_enc H is : rconcat (map (legacy_in_sig H) is) = rconcat (map ls_enc (map (legacy_spend H) is)).
Proof. rewrite map_map. f_equal. apply map_ext. apply legacy_in_enc. Qed.
Lemma legacy_outs_enc H os : sia_list (legacy_out H) os = sia_list lp_enc (map (legacy_pay H) os).
Proof. exact (sia_list_map (legacy_pay H) lp_enc os). Qed.
Lemma legacy_ins_ok H is : hash_ok H -> Forall in_ok is -> Forall ls_ok (map (legacy_spend H) is).
Proof.
  intros HH F. apply Forall_map. eapply Forall_impl; [|exact F]. intros i O. split; [exact O|].
  intros u E. unfold legacy_spend in E. cbn [snd] in E. apply bind_ok in E as (p & _ & E). unfold pk_unlockhash in E.
  apply bind_ok in E as (d & _ & E). apply ok_inj in E. subst u. split; [cbn [uh_type]; unfold UH_PUBLIC_KEY; lia|]. exact (HH d).
Qed.
Lemma peel_concat {A} (P : A -> Prop) enc la lb ra rb x y (r s : bytes) : uniq P enc -> Forall P la -> Forall P lb -> length la = length lb ->
  rconcat (map enc la) +++ ra = Ok x -> rconcat (map enc lb) +++ rb = Ok y -> x ++ r = y ++ s ->
  la = lb /\ exists x' y', ra = Ok x' /\ rb = Ok y' /\ x' ++ r = y' ++ s.
Proof.
  intros U Fa Fb L Ea Eb E. apply rapp_ok in Ea as (a1 & a2 & E1 & E2 & ->). apply rapp_ok in Eb as (b1 & b2 & E3 & E4 & ->).
  rewrite <- !app_assoc in E.
  assert (X : la = lb /\ a2 ++ r = b2 ++ s) by (eapply (uniq_concat U); eauto). destruct X as [-> X]. eauto 8.
Qed.
Lemma legacy_commits H t u p q d : hash_ok H -> s_legacy t = true -> s_legacy u = true ->
  length (s_cin t) = length (s_cin u) -> length (s_bin t) = length (s_bin u) ->
  Forall in_ok (s_cin t ++ s_bin t ++ s_cin u ++ s_bin u) ->
  Forall (legacy_out_ok H) (s_cout t ++ s_bout t ++ s_cout u ++ s_bout u) ->
  same_kind p q -> place_ok p -> place_ok q ->
  sig_input H (T1 t) (extras_of p) = Ok d -> sig_input H (T1 u) (extras_of q) = Ok d ->
  p = q /\ map (legacy_spend H) (s_cin t) = map (legacy_spend H) (s_cin u) /\
  map (legacy_spend H) (s_bin t) = map (legacy_spend H) (s_bin u) /\
  map (legacy_pay H) (s_cout t) = map (legacy_pay H) (s_cout u) /\
  map (legacy_pay H) (s_bout t) = map (legacy_pay H) (s_bout u) /\ s_fees t = s_fees u /\ s_data t = s_data u.
Proof.
  intros HH Lt Lu L1 L2 FI FO K Op Oq Et Eu. destruct (place_extras _ _ K Op Oq) as (SX & _ & _).
  cbn [sig_input] in Et, Eu. rewrite Lt in Et. rewrite Lu in Eu. rewrite !legacy_ins_enc, !legacy_outs_enc in Et, Eu.
  rewrite !Forall_app in FI, FO. destruct FI as (I1 & I2 & I3 & I4), FO as (O1 & O2 & O3 & O4).
  assert (LP : forall os, Forall (legacy_out_ok H) os -> Forall lp_ok (map (legacy_pay H) os)) by (intros os F; apply Forall_map; exact F).
  apply (legacy_ins_ok H _ HH) in I1, I2, I3, I4. apply LP in O1, O2, O3, O4.
  destruct (peel_xs_sia _ _ _ _ _ _ [] [] SX Et Eu eq_refl) as (QX & x & y & F1 & F2 & F). clear Et Eu. apply extras_inj in QX.
  destruct (peel_concat _ _ _ _ _ _ _ _ _ _ ls_uniq I1 I3 ltac:(rewrite !map_length; exact L1) F1 F2 F) as (Q1 & x' & y' & F3 & F4 & F').
  clear F1 F2 F. pose proof (sia_list_uniq _ _ lp_uniq) as PU. step PU.
  destruct (peel_concat _ _ _ _ _ _ _ _ _ _ ls_uniq I2 I4 ltac:(rewrite !map_length; exact L2) F3 F4 F') as (Q3 & x2 & y2 & F5 & F6 & F7).
  clear F3 F4 F'. step PU. step fees_uniq. last sia_slice_uniq. auto 10.
Qed.

(** A legacy transaction hashes the key of each fulfilment, so a signature disturbs the others. *)
Lemma legacy_disturbed : exists H t i f d d', hash_ok H /\ s_legacy t = true /\ from_condition (CUnlockHash (ex_uh 1 7)) = Ok (i_ff i) /\
  s_cin t = [i] /\
  sig_input H (T1 t) (extras_of (PlainInput 0)) = Ok d /\
  sig_input H (T1 (mkstd true [mkin (i_parent i) f (i_out i)] [] [] [] [] [])) (extras_of (PlainInput 0)) = Ok d' /\
  signature_add (i_ff i) (ex_key 7) (BVBytes (repeat 1 64)) = (f, Ok tt) /\ d <> d'.
Proof.
  exists ex_H, (mkstd true [ex_in (repeat 3 32)] [] [] [] [] []), (ex_in (repeat 3 32)), (FSingle (ex_key 7) (Some (repeat 1 64))).
  eexists _, _. split; [exact ex_H_ok|]. split; [reflexivity|]. split; [reflexivity|]. split; [reflexivity|].
  split; [vm_compute; reflexivity|]. split; [vm_compute; reflexivity|]. split; [vm_compute; reflexivity|]. discriminate.
Qed.
