(** Distinct transactions and outputs have distinct identifier data. *)
From Verif Require Import Base BaseFacts Encoders EncodersFacts Currency CurrencyFacts Primitive Types Conditions
  Fulfillments ThreeBotTypes Txn Spec_Types Spec_Fulfil Spec_Txn TypesFacts TypesFacts2 ConditionFacts TxnFacts TxnFacts3 TxnFacts4.
From Coq Require Import ZifyBool ZifyNat ZifyN.
Ltac Zify.zify_post_hook ::= Z.div_mod_to_equations.

Lemma spec_len t : length (specifier t) = match t with T1 _ => 0%nat | _ => 16%nat end.
Proof. destruct t as [t|t|t|t|t|t|t|t]; try reflexivity. cbn [specifier]. destruct (m_new t); reflexivity. Qed.
Lemma spec_inj t u : specifier t = specifier u -> version t = version u.
Proof.
  destruct t as [t|t|t|t|t|t|t|t], u as [u|u|u|u|u|u|u|u]; cbn [specifier version];
    try destruct (m_new t); try destruct (m_new u); intros E; try reflexivity; exfalso; vm_compute in E; discriminate E.
Qed.
Lemma id_split H t d : (forall s, t <> T1 s) -> id_input H t = Ok d -> exists x, data_bytes H t = Ok x /\ d = specifier t ++ x.
Proof.
  intros N E. destruct t as [s|t|t|t|t|t|t|t]; [contradiction (N s eq_refl)|..]; unfold id_input in E;
    apply rapp_ok in E as (a & b & E1 & E2 & ->); apply ok_inj in E1; subst; eauto.
Qed.
Lemma id_head_std H s d : s_legacy s = false -> id_input H (T1 s) = Ok d -> exists x, d = 1 :: x.
Proof.
  intros L E. unfold id_input, binary_encode in E. rewrite L in E. apply rapp_ok in E as (a & b & E1 & E2 & ->).
  apply ok_inj in E1; subst. eexists; reflexivity.
Qed.
Lemma id_head_other H t d : (forall s, t <> T1 s) -> id_input H t = Ok d -> exists c x, d = c :: x /\ 98 <= c.
Proof.
  intros N E. destruct (id_split _ _ _ N E) as (x & _ & ->).
  destruct t as [s|t|t|t|t|t|t|t]; [contradiction (N s eq_refl)|..]; cbn [specifier]; try destruct (m_new t); 
    (eexists; eexists; split; [reflexivity | apply N.leb_le; reflexivity]).
Qed.
Lemma is_std t : (exists s, t = T1 s) \/ (forall s, t <> T1 s).
Proof. destruct t; [left; eauto | right; intros; discriminate ..]. Qed.

Lemma id_version H t u d : is_legacy t = false -> is_legacy u = false -> 
  id_input H t = Ok d -> id_input H u = Ok d -> version t = version u.
Proof.
  intros Lt Lu Et Eu. destruct (is_std t) as [[s ->]|Nt], (is_std u) as [[s' ->]|Nu].
  - reflexivity.
  - destruct (id_head_std _ _ _ Lt Et) as (x & ->). destruct (id_head_other _ _ _ Nu Eu) as (c & y & E & G). injection E as <- _. lia.
  - destruct (id_head_std _ _ _ Lu Eu) as (x & ->). destruct (id_head_other _ _ _ Nt Et) as (c & y & E & G). injection E as <- _. lia.
  - destruct (id_split _ _ _ Nt Et) as (x & _ & ->). destruct (id_split _ _ _ Nu Eu) as (y & _ & E).
    apply app_inj_len in E as [E _]; [apply spec_inj; exact E|]. rewrite !spec_len.
    destruct t as [s|?|?|?|?|?|?|?]; [contradiction (Nt s eq_refl)|..]; destruct u as [s|?|?|?|?|?|?|?]; try reflexivity; contradiction (Nu s eq_refl).
Qed.

Lemma names_uniq : uniq ascii_str bn_riv.
Proof. exact bn_riv_uniq. Qed.
Lemma nonempty_len {A} (l : list A) : nonempty l = negb (Nat.eqb (length l) 0).
Proof. destruct l; reflexivity. Qed.

(** the two optional groups of V145 *)
Lemma group_inj {A} (P : A -> Prop) enc (a b a' b' : list A) ra rb x y (r s : bytes) : uniq P enc -> Forall P a -> Forall P b -> Forall P a' -> Forall P b' ->
  le15 a -> le15 b -> le15 a' -> le15 b' ->
  nonempty a || nonempty b = nonempty a' || nonempty b' ->
  (if nonempty a || nonempty b then pair_len (length a) (length b) +++ (rconcat (map enc a) +++ rconcat (map enc b)) else nil_w) +++ ra = Ok x ->
  (if nonempty a' || nonempty b' then pair_len (length a') (length b') +++ (rconcat (map enc a') +++ rconcat (map enc b')) else nil_w) +++ rb = Ok y ->
  x ++ r = y ++ s -> a = a' /\ b = b' /\ exists x' y', ra = Ok x' /\ rb = Ok y' /\ x' ++ r = y' ++ s.
Proof.
  intros U Pa Pb Pa' Pb' L1 L2 L3 L4 G E1 E2 E. rewrite <- G in E2. destruct (nonempty a || nonempty b) eqn:N.
  - rewrite !rapp_assoc in E1, E2.
    apply rapp_ok in E1 as (p1 & x1 & F1 & E1 & ->). apply rapp_ok in E2 as (p2 & y1 & F2 & E2 & ->).
    rewrite <- !app_assoc in E. destruct (pair_len_inj _ _ _ _ _ _ _ _ L1 L3 F1 F2 E) as (Q1 & Q2 & E').
    destruct (peel_concat _ _ _ _ _ _ _ _ _ _ U Pa Pa' Q1 E1 E2 E') as (-> & x2 & y2 & G1 & G2 & G3).
    destruct (peel_concat _ _ _ _ _ _ _ _ _ _ U Pb Pb' Q2 G1 G2 G3) as (-> & X). auto.
  - assert (ZA : a = [] /\ b = []) by (destruct a, b; try discriminate N; auto).
    assert (ZB : a' = [] /\ b' = []) by (symmetry in G; destruct a', b'; try discriminate G; auto).
    destruct ZA as [-> ->], ZB as [-> ->]. split; [reflexivity|]. split; [reflexivity|].
    apply rapp_ok in E1 as (p1 & x1 & F1 & E1 & ->). apply rapp_ok in E2 as (p2 & y1 & F2 & E2 & ->).
    apply ok_inj in F1, F2. subst. eauto 8.
Qed.

Lemma fin_spends i j : fulfilled_inputs i = fulfilled_inputs j -> spends i = spends j.
Proof. intros E. rewrite !spends_fin, E. reflexivity. Qed.

Lemma nonempty_some {A B} (f : A -> B) o o' : is_some o = is_some o' -> is_some (option_map f o) = is_some (option_map f o').
Proof. rewrite !option_map_some. auto. Qed.

Lemma data_commits H t u x : is_legacy t = false -> is_legacy u = false -> version t = version u ->
  sized t -> sized u -> encodable t -> encodable u ->
  data_bytes H t = Ok x -> data_bytes H u = Ok x -> content_of t = content_of u /\ witnesses t = witnesses u.
Proof.
  intros Lt Lu V St Su Xt Xu Et Eu.
  assert (E : x ++ [] = x ++ []) by reflexivity.
  remember x as y eqn:Y in Eu, E at 2. clear Y.
  destruct t as [t|t|t|t|t|t|t|t], u as [u|u|u|u|u|u|u|u];
    try (exfalso; cbn [version] in V; try destruct (m_new t); try destruct (m_new u); discriminate V);
    cbn [is_legacy sized encodable] in *; cbn [data_bytes] in Et, Eu; cbn [content_of witnesses].
  - rewrite Lt in Et. rewrite Lu in Eu. destruct St as (A1 & A2 & A3 & A4), Su as (B1 & B2 & B3 & B4).
    rewrite !outs_sia, !ins_sia_eq in Et, Eu. apply fin_sia in A1, A3, B1, B3. apply outs_ok in A2, A4, B2, B4.
    step ins_sia_uniq. step pays_uniq. step ins_sia_uniq. step pays_uniq. step fees_uniq. last sia_slice_uniq.
    apply fin_spends in Q as P1. apply fin_spends in Q1 as P2. split; congruence.
  - destruct St as (A1 & A2), Su as (B1 & B2). cbn [version specifier] in *.
    rewrite (ff_sia_plain (match m_ff t with Some f => f | None => _ end)) in Et.
    rewrite (ff_sia_plain (match m_ff u with Some f => f | None => _ end)) in Eu.
    match type of Et with context [ff_sia (plain_ff ?f)] => pose proof (plain_idem f : is_plain (plain_ff f)) as I1 end.
    match type of Eu with context [ff_sia (plain_ff ?f)] => pose proof (plain_idem f : is_plain (plain_ff f)) as I2 end.
    destruct (m_new t) as [c|os], (m_new u) as [c'|os']; try discriminate V.
    + step (arr_uniq 8). step ff_sia_uniq. step cond_sia_uniq. step fees_uniq. last sia_slice_uniq. split; congruence.
    + rewrite !outs_sia in Et, Eu. apply outs_ok in A2, B2.
      step (arr_uniq 8). step ff_sia_uniq. step pays_uniq. step fees_uniq. last sia_slice_uniq. split; congruence.
  - destruct St as (A1 & A2 & A3), Su as (B1 & B2 & B3). rewrite ins_riv_eq, refund_eq in Et, Eu.
    pose proof (fin_riv _ A2 Xt). pose proof (fin_riv _ B2 Xu). apply refund_pay_ok in A3, B3.
    step (arr_uniq 20). step amt_riv_uniq. step amt_riv_uniq. step ins_riv_uniq. last refund_uniq.
    apply fin_spends in Q2 as P1. split; congruence.
  - destruct St as (A1 & A2 & A3), Su as (B1 & B2 & B3). apply arr_ok32 in A2, A3, B2, B3.
    step uh_riv_uniq. step amt_riv_uniq. step amt_riv_uniq. step (arr_uniq 32). last (arr_uniq 32). split; congruence.
  - destruct St as (A1 & A2 & A3), Su as (B1 & B2 & B3), Xt as (X1 & X2), Xu as (Y1 & Y2).
    apply array64_eq in X2 as [X2 X3]. apply array64_eq in Y2 as [Y2 Y3]. rewrite X2 in Et. rewrite Y2 in Eu.
    rewrite refund_eq in Et, Eu. apply refund_pay_ok in A3, B3.
    step pk_riv_uniq. step (arr_uniq 64). step amt_riv_uniq. step amt_riv_uniq.
    destruct (r_cin t) as [ci|]; [|discriminate Et]. destruct (r_cin u) as [cj|]; [|discriminate Eu]. cbn [ins_riv olist] in *.
    rewrite ins_riv_eq in Et, Eu. pose proof (fin_riv _ A2 X1). pose proof (fin_riv _ B2 Y1).
    step ins_riv_uniq. last refund_uniq. apply fin_spends in Q3 as P1. split; congruence.
  - destruct St as (A1 & A2 & A3 & A4 & A5), Su as (B1 & B2 & B3 & B4 & B5), Xt as (X1 & X2 & X3 & X4), Xu as (Y1 & Y2 & Y3 & Y4).
    apply array64_eq in X2 as [X2 X5]. apply array64_eq in Y2 as [Y2 Y5]. rewrite X2 in Et. rewrite Y2 in Eu.
    rewrite maybe_out_eq, ins_riv_eq in Et, Eu.
    pose proof (fin_riv _ A3 X1). pose proof (fin_riv _ B3 Y1). apply refund_pay_ok in A4, B4.
    apply rapp_ok in Et as (p1 & x1 & F1 & Et & ->). apply rapp_ok in Eu as (p2 & y1 & F2 & Eu & ->). rewrite <- !app_assoc in E.
    destruct (maf_inj _ _ _ _ _ _ _ _ _ _ _ _ F1 F2 E) as (QM & QA & QN & QR & E'). clear F1 F2 E.
    apply rapp_ok in Et as (p3 & x2 & F1 & Et & ->). apply rapp_ok in Eu as (p4 & y2 & F2 & Eu & ->). rewrite <- !app_assoc in E'.
    destruct (pair_len_inj _ _ _ _ _ _ _ _ X3 Y3 F1 F2 E') as (QL & QL' & E). clear F1 F2 E'.
    destruct (peel_concat _ _ _ _ _ _ _ _ _ _ na_riv_uniq A1 B1 QL Et Eu E) as (QX & x3 & y3 & F1 & F2 & F). clear Et Eu E.
    destruct (peel_concat _ _ _ _ _ _ _ _ _ _ names_uniq A2 B2 QL' F1 F2 F) as (QY & x4 & y4 & G1 & G2 & G). clear F1 F2 F.
    step amt_riv_uniq. step ins_riv_uniq.
    destruct (mo_inj _ _ _ _ _ _ _ _ A4 B4 (nonempty_some pay _ _ QR) G1 G2 G) as (QZ & x7 & y7 & F1 & F2 & F). clear G1 G2 G.
    step pk_riv_uniq. last (arr_uniq 64). apply fin_spends in Q0 as P1. split; congruence.
  - destruct St as (A1 & A2 & A3 & A4 & A5 & A6), Su as (B1 & B2 & B3 & B4 & B5 & B6),
      Xt as (X1 & X2 & X3 & X4 & X5 & X6), Xu as (Y1 & Y2 & Y3 & Y4 & Y5 & Y6).
    apply array64_eq in X2 as [X2 X7]. apply array64_eq in Y2 as [Y2 Y7]. rewrite X2 in Et. rewrite Y2 in Eu.
    rewrite maybe_out_eq, ins_riv_eq in Et, Eu.
    pose proof (fin_riv _ A5 X1). pose proof (fin_riv _ B5 Y1). apply refund_pay_ok in A6, B6.
    step (riv_int_uniq 4).
    apply rapp_ok in Et as (p1 & x1 & F1 & Et & ->). apply rapp_ok in Eu as (p2 & y1 & F2 & Eu & ->). rewrite <- !app_assoc in E.
    destruct (maf_inj _ _ _ _ _ _ _ _ _ _ _ _ F1 F2 E) as (QM & QA & QN & QR & E'). clear F1 F2 E.
    destruct (group_inj _ _ _ _ _ _ _ _ _ _ _ _ na_riv_uniq A1 A2 B1 B2 X3 X4 Y3 Y4 QA Et Eu E') as (G1 & G2 & x3 & y3 & F1 & F2 & F). clear Et Eu E'.
    destruct (group_inj _ _ _ _ _ _ _ _ _ _ _ _ names_uniq A3 A4 B3 B4 X5 X6 Y5 Y6 QN F1 F2 F) as (G3 & G4 & x4 & y4 & F3 & F4 & F'). clear F1 F2 F.
    step amt_riv_uniq. step ins_riv_uniq.
    destruct (mo_inj _ _ _ _ _ _ _ _ A6 B6 (nonempty_some pay _ _ QR) F3 F4 F') as (QZ & x7 & y7 & F1 & F2 & F). clear F3 F4 F'.
    last (arr_uniq 64). apply fin_spends in Q1 as P1. split; congruence.
  - destruct St as (A1 & A2 & A3), Su as (B1 & B2 & B3), Xt as (X1 & X2 & X3 & X4), Xu as (Y1 & Y2 & Y3 & Y4).
    apply array64_eq in X2 as [X2 X5]. apply array64_eq in Y2 as [Y2 Y5]. apply array64_eq in X3 as [X3 X6]. apply array64_eq in Y3 as [Y3 Y6].
    rewrite X2, X3 in Et. rewrite Y2, Y3 in Eu.
    rewrite maybe_out_eq in Et, Eu. apply refund_pay_ok in A3, B3.
    step (riv_int_uniq 4). step (arr_uniq 64). step (riv_int_uniq 4). step (arr_uniq 64).
    apply rapp_ok in Et as (p1 & x6 & F1 & Et & ->). apply rapp_ok in Eu as (p2 & y6 & F2 & Eu & ->). rewrite <- !app_assoc in E.
    destruct (count_flag_inj _ _ _ _ _ _ _ _ X4 Y4 F1 F2 E) as (QL & QR & E'). clear F1 F2 E.
    destruct (peel_concat _ _ _ _ _ _ _ _ _ _ names_uniq A1 B1 QL Et Eu E') as (QX & x7 & y7 & F1 & F2 & F). clear Et Eu E'.
    step amt_riv_uniq.
    destruct (n_cin t) as [ci|]; [|discriminate F1]. destruct (n_cin u) as [cj|]; [|discriminate F2]. cbn [ins_riv olist] in *.
    rewrite ins_riv_eq in F1, F2. pose proof (fin_riv _ A2 X1). pose proof (fin_riv _ B2 Y1).
    step ins_riv_uniq.
    rewrite <- (rapp_nil_r (mo_riv _)) in F1. rewrite <- (rapp_nil_r (mo_riv _)) in F2.
    destruct (mo_inj _ _ _ _ _ _ _ _ A3 B3 (nonempty_some pay _ _ QR) F1 F2 F) as (QZ & _).
    apply fin_spends in Q4 as P1. split; congruence.
Qed.

Lemma id_commits H t u d : is_legacy t = false -> is_legacy u = false -> sized t -> sized u -> encodable t -> encodable u ->
  id_input H t = Ok d -> id_input H u = Ok d -> content_of t = content_of u /\ witnesses t = witnesses u.
Proof.
  intros Lt Lu St Su Xt Xu Et Eu. pose proof (id_version _ _ _ _ Lt Lu Et Eu) as V.
  destruct (is_std t) as [[s ->]|Nt], (is_std u) as [[s' ->]|Nu].
  - cbn [is_legacy] in *. unfold id_input, binary_encode in Et, Eu. rewrite Lt in Et. rewrite Lu in Eu.
    apply rapp_ok in Et as (a1 & x & F1 & Et & ->). apply rapp_ok in Eu as (a2 & y & F2 & Eu & E).
    apply ok_inj in F1, F2. subst. injection E as ->.
    apply bind_ok in Et as (dt & Dt & Et). apply bind_ok in Eu as (du & Du & Eu).
    destruct (sia_slice_uniq _ _ _ _ [] [] I I Et Eu eq_refl) as [-> _].
    apply (data_commits H (T1 s) (T1 s') du); auto.
  - exfalso. destruct u as [s'|u|?|?|?|?|?|?]; [exact (Nu s' eq_refl)|..]; try discriminate V. cbn in V. destruct (m_new u); discriminate V.
  - exfalso. destruct t as [s|t|?|?|?|?|?|?]; [exact (Nt s eq_refl)|..]; try discriminate V. cbn in V. destruct (m_new t); discriminate V.
  - destruct (id_split _ _ _ Nt Et) as (x & Dx & ->). destruct (id_split _ _ _ Nu Eu) as (y & Dy & E).
    apply app_inj_len in E as [_ ->].
    + apply (data_commits H t u y); auto.
    + rewrite !spec_len. destruct t as [s|?|?|?|?|?|?|?]; [contradiction (Nt s eq_refl)|..]; destruct u as [s|?|?|?|?|?|?|?]; try reflexivity; contradiction (Nu s eq_refl).
Qed.
