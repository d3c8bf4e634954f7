(** Output identifiers; legacy identifiers. *)
From Verif Require Import Base BaseFacts Encoders EncodersFacts Currency CurrencyFacts Primitive Types Conditions
  Fulfillments ThreeBotTypes Txn Spec_Types Spec_Fulfil Spec_Txn TypesFacts TypesFacts2 ConditionFacts TxnFacts TxnFacts3 TxnFacts4 TxnFacts5.
From Coq Require Import ZifyBool ZifyNat ZifyN.
Ltac Zify.zify_post_hook ::= Z.div_mod_to_equations.

Lemma output_id_ok H k t i h : output_id H k t i = Ok h ->
  (0 <= i < Z.of_nat (length (coin_outputs t)))%Z /\ exists d, output_id_data H k t i d /\ h = H d.
Proof.
  unfold output_id, output_id_data, coin_outputid, blockstake_outputid. intros E.
  destruct k; apply bind_ok in E as (g & G & E); apply guard_ok in G; apply bind_ok in E as (d & D & E); apply ok_inj in E; subst;
    (split; [lia | eauto]).
Qed.
Lemma output_id_refused H k t i : ~ (0 <= i < Z.of_nat (length (coin_outputs t)))%Z -> output_id H k t i = Err ValueError.
Proof.
  intros N. unfold output_id, coin_outputid, blockstake_outputid.
  assert (G : (0 <=? i)%Z && (i <? Z.of_nat (length (coin_outputs t)))%Z = false) by lia.
  destruct k; rewrite G; reflexivity.
Qed.

Lemma od_split H k t i d : output_id_data H k t i d -> exists x n, id_input H t = Ok x /\ sia_int i = Ok n /\
  d = (match k with CoinOut => coin_spec t | StakeOut => stake_spec t end ++ x) ++ n.
Proof.
  intros E. unfold output_id_data, outputid_input in E. apply rapp_ok in E as (a & b & E1 & E & ->).
  apply ok_inj in E1. subst a. apply rapp_ok in E as (x & n & E1 & E2 & ->). exists x, n. rewrite <- app_assoc. auto.
Qed.
Lemma kspec_len k t : length (match k with CoinOut => coin_spec t | StakeOut => stake_spec t end) = if is_legacy t then 15%nat else 16%nat.
Proof. unfold coin_spec, stake_spec. destruct k, (is_legacy t); reflexivity. Qed.
Lemma kspec_inj k l t u : is_legacy t = is_legacy u -> (match k with CoinOut => coin_spec t | StakeOut => stake_spec t end) =
  (match l with CoinOut => coin_spec u | StakeOut => stake_spec u end) -> k = l.
Proof.
  unfold coin_spec, stake_spec. intros ->. destruct k, l, (is_legacy u); intros E; try reflexivity; exfalso; vm_compute in E; discriminate E.
Qed.
Lemma sia_int_len i n : sia_int i = Ok n -> length n = 8%nat.
Proof. intros E. apply sia_int_ok in E as [_ ->]. apply le_length. Qed.

Lemma output_id_data_inj H k l t u i j d : is_legacy t = is_legacy u -> output_id_data H k t i d -> output_id_data H l u j d ->
  k = l /\ i = j /\ exists x, id_input H t = Ok x /\ id_input H u = Ok x.
Proof.
  intros L Et Eu. destruct (od_split _ _ _ _ _ Et) as (x & n & E1 & E2 & ->). destruct (od_split _ _ _ _ _ Eu) as (y & m & E3 & E4 & E).
  apply app_inj_len_r in E as [E N]; [|rewrite (sia_int_len _ _ E2), (sia_int_len _ _ E4); reflexivity].
  apply app_inj_len in E as [E X]; [|rewrite !kspec_len, L; reflexivity].
  apply kspec_inj in E; [|exact L]. subst. 
  destruct (sia_int_uniq _ _ _ _ [] [] I I E2 E4 eq_refl) as [-> _]. eauto.
Qed.

(** ** Legacy against the rest *)
Lemma legacy_id H s d : s_legacy s = true -> id_input H (T1 s) = Ok d -> exists x, data_bytes H (T1 s) = Ok x /\ d = 0 :: x.
Proof.
  intros L E. unfold id_input, binary_encode in E. rewrite L in E. apply rapp_ok in E as (a & b & E1 & E2 & ->).
  apply ok_inj in E1; subst. eauto.
Qed.
Lemma id_legacy_apart H s u d : s_legacy s = true -> is_legacy u = false -> id_input H (T1 s) = Ok d -> id_input H u = Ok d -> False.
Proof.
  intros L Lu Es Eu. destruct (legacy_id _ _ _ L Es) as (x & _ & ->). destruct (is_std u) as [[s' ->]|Nu].
  - destruct (id_head_std _ _ _ Lu Eu) as (y & E). discriminate E.
  - destruct (id_head_other _ _ _ Nu Eu) as (c & y & E & G). injection E as <- _. lia.
Qed.
Lemma legacy_in_len i x : in_ok i -> legacy_in i = Ok x -> (32 <= length x)%nat.
Proof.
  intros [L _] E. unfold legacy_in in E. apply rapp_ok in E as (a & b & E1 & E2 & ->). apply ok_inj in E1. subst a.
  rewrite app_length. lia.
Qed.
Lemma legacy_ins_len l : forall x, Forall in_ok l -> rconcat (map legacy_in l) = Ok x -> (32 * length l <= length x)%nat.
Proof.
  induction l as [|i l IH]; intros x F E; cbn [map rconcat length] in *; [lia|]. inversion F; subst.
  apply rapp_ok in E as (a & b & E1 & E2 & ->). apply legacy_in_len in E1; [|assumption]. apply IH in E2; [|assumption].
  rewrite app_length. lia.
Qed.
Lemma legacy_data_head H s x : s_legacy s = true -> Forall in_ok (s_cin s) -> data_bytes H (T1 s) = Ok x ->
  exists n r, x = le 8 (N.of_nat n) ++ r /\ (N.of_nat n < 2 ^ 64) /\ (32 * n <= length r)%nat.
Proof.
  intros L F E. cbn [data_bytes] in E. rewrite L in E. apply rapp_ok in E as (a & b & E1 & _ & ->).
  unfold sia_list in E1. apply rapp_ok in E1 as (a1 & a2 & E1 & E2 & ->). apply sia_int_ok in E1 as [R ->].
  apply legacy_ins_len in E2; [|exact F]. exists (length (s_cin s)), (a2 ++ b).
  rewrite <- app_assoc, app_length. split; [|split; [|lia]].
  - f_equal. f_equal. lia.
  - change (2 ^ 64)%Z with 18446744073709551616%Z in R. change (2 ^ 64) with 18446744073709551616. lia.
Qed.
Lemma le_app k j : forall n, le (k + j) n = le k n ++ le j (n / 256 ^ N.of_nat k).
Proof.
  induction k as [|k IH]; intros n; cbn [Nat.add le app].
  - change (256 ^ N.of_nat 0) with 1. rewrite N.div_1_r. reflexivity.
  - f_equal. rewrite IH. f_equal. f_equal. rewrite N.div_div by (try discriminate; apply N.pow_nonzero; discriminate).
    f_equal. rewrite Nat2N.inj_succ, N.pow_succ_r'. reflexivity.
Qed.
Lemma le_dec_app_eq (n m : N) k (a b : bytes) : le k n ++ a = le k m ++ b -> n < 256 ^ N.of_nat k -> m < 256 ^ N.of_nat k -> n = m.
Proof.
  intros E A B. apply app_inj_len in E as [E _]; [|rewrite !le_length; reflexivity].
  apply (f_equal le_dec) in E. rewrite !le_dec_le in E by assumption. exact E.
Qed.
Lemma legacy_output_apart H k l s u i j d : s_legacy s = true -> is_legacy u = false -> Forall in_ok (s_cin s) ->
  output_id_data H k (T1 s) i d -> output_id_data H l u j d -> 2 ^ 56 <= lenN d.
Proof.
  intros Ls Lu F Es Eu. destruct (N.le_gt_cases (2 ^ 56) (lenN d)) as [G|G]; [exact G | exfalso].
  change (2 ^ 56) with 72057594037927936 in G. unfold lenN in G.
  destruct (od_split _ _ _ _ _ Es) as (x & n & E1 & E2 & D). destruct (od_split _ _ _ _ _ Eu) as (y & m & E3 & E4 & D').
  pose proof (sia_int_len _ _ E2) as Ln. pose proof (sia_int_len _ _ E4) as Lm.
  rewrite D in D'. apply app_inj_len_r in D' as [D' _]; [|congruence].
  destruct (legacy_id _ _ _ Ls E1) as (z & Z & ->).
  destruct (legacy_data_head _ _ _ Ls F Z) as (c & r & -> & C1 & C2).
  assert (LD : (length d = 15 + S (length (le 8 (N.of_nat c) ++ r)) + 8)%nat).
  { rewrite D, !app_length, kspec_len. cbn [is_legacy]. rewrite Ls, Ln. cbn [length]. rewrite ?app_length. lia. }
  rewrite app_length, le_length in LD.
  replace (match k with CoinOut => coin_spec (T1 s) | StakeOut => stake_spec (T1 s) end ++ 0 :: le 8 (N.of_nat c) ++ r)
    with ((match k with CoinOut => coin_spec (T1 s) | StakeOut => stake_spec (T1 s) end ++ [0]) ++ le 8 (N.of_nat c) ++ r) in D'
    by (rewrite <- app_assoc; reflexivity).
  assert (LY : length y = (8 + length r)%nat).
  { apply (f_equal (@length _)) in D'. rewrite !app_length, !kspec_len in D'. cbn [is_legacy] in D'. rewrite Ls, Lu, le_length in D'. cbn [length] in D'. lia. }
  apply app_inj_len in D' as [_ D']; [|rewrite app_length, !kspec_len; cbn [is_legacy]; rewrite Ls, Lu; reflexivity].
  destruct (is_std u) as [[s' ->]|Nu].
  - cbn [is_legacy] in Lu. unfold id_input, binary_encode in E3. rewrite Lu in E3. apply rapp_ok in E3 as (a & b & A & B & ->).
    apply ok_inj in A. subst a. apply bind_ok in B as (v & V & B). rewrite sia_slice_spec in B.
    apply rapp_ok in B as (b1 & b2 & B1 & B2 & ->). apply ok_inj in B2. subst b2. apply sia_int_ok in B1 as [R ->].
    rewrite !app_length, le_length in LY. cbn [length] in LY.
    replace (N.of_nat c) with (N.of_nat c) in D' by reflexivity.
    assert (V1 : (1 <= length v)%nat).
    { cbn [data_bytes] in V. rewrite Lu in V. apply rapp_ok in V as (v1 & v2 & V1 & _ & ->). unfold sia_list in V1.
      apply rapp_ok in V1 as (v3 & v4 & V1 & _ & ->). apply sia_int_len in V1. rewrite !app_length. lia. }
    set (w := N.of_nat (length v)) in *.
    assert (W : Z.to_N (Z.of_nat (length v)) = w) by (unfold w; lia). rewrite W in D'.
    assert (E9 : le 8 (N.of_nat c) ++ r = le 8 (1 + 256 * w) ++ (w / 2 ^ 56) mod 256 :: v).
    { rewrite D'. assert (LE : [1] ++ le 8 w = le 9 (1 + 256 * w)).
      { cbn [le app]. replace ((1 + 256 * w) mod 256) with 1 by lia. replace ((1 + 256 * w) / 256) with w by lia. reflexivity. }
      rewrite app_assoc, LE. change 9%nat with (8 + 1)%nat. rewrite le_app. rewrite <- app_assoc. f_equal.
      cbn [le app]. f_equal. change (256 ^ N.of_nat 8) with (256 * 2 ^ 56). rewrite <- N.div_div by (try discriminate; lia).
      replace ((1 + 256 * w) / 256) with w by lia. reflexivity. }
    assert (NW : N.of_nat c = 1 + 256 * w).
    { eapply le_dec_app_eq; [exact E9 | exact C1 |]. change (256 ^ N.of_nat 8) with 18446744073709551616. unfold w. lia. }
    unfold w in NW. lia.
  - destruct (id_split _ _ _ Nu E3) as (v & V & ->).
    assert (S8 : exists b7 q rest, specifier u = b7 ++ q :: rest /\ length b7 = 7%nat /\ 1 <= q < 256).
    { destruct u as [s'|u|u|u|u|u|u|u]; [contradiction (Nu s' eq_refl)|..]; cbn [specifier]; try destruct (m_new u);
        match goal with |- exists b7 q rest, ?S = _ /\ _ =>
          exists (firstn 7 S), (nth 7 S 0), (skipn 8 S); vm_compute; repeat split; discriminate end. }
    destruct S8 as (b7 & q & rest & S1 & S2 & S3). rewrite S1 in D'.
    assert (E9 : le 7 (N.of_nat c) ++ (N.of_nat c / 256 ^ 7) mod 256 :: r = b7 ++ q :: rest ++ v).
    { rewrite <- app_assoc in D'. cbn [app] in D'. rewrite <- D'. change 8%nat with (7 + 1)%nat. rewrite le_app.
      rewrite <- app_assoc. reflexivity. }
    apply app_inj_len in E9 as [_ E9]; [|rewrite le_length; lia]. injection E9 as E9 _.
    change (256 ^ 7) with 72057594037927936 in E9. lia.
Qed.

(** ** Legacy against legacy *)
Definition li_enc (w : option (bytes * pubkey * bytes)) : res bytes :=
  match w with
  | Some (p, k, s) => Ok p +++ (Ok [1] +++ ((do d <- pk_sia k; sia_slice d) +++ sig_sia s))
  | None => Err AttributeError
  end.
Lemma legacy_in_li i x : legacy_in i = Ok x -> li_enc (legacy_input i) = Ok x.
Proof.
  unfold legacy_in, li_enc, legacy_input. intros E. destruct (i_ff i) as [p s|p s e|ps]; cbn [ff_pk bind] in *; try exact E.
Qed.
Lemma rconcat_map_ok {A B} (f : A -> res bytes) (g : B -> res bytes) (h : A -> B) (W : forall a x, f a = Ok x -> g (h a) = Ok x) l :
  forall x, rconcat (map f l) = Ok x -> rconcat (map g (map h l)) = Ok x.
Proof.
  induction l as [|a l IH]; intros x E; cbn [map rconcat] in *; [exact E|].
  apply rapp_ok in E as (u & v & E1 & E2 & ->). apply W in E1. apply IH in E2. rewrite E1, E2. reflexivity.
Qed.
Lemma sia_list_ok_map {A B} (f : A -> res bytes) (g : B -> res bytes) (h : A -> B) (W : forall a x, f a = Ok x -> g (h a) = Ok x) l x :
  sia_list f l = Ok x -> sia_list g (map h l) = Ok x.
Proof.
  unfold sia_list. rewrite map_length. intros E. apply rapp_ok in E as (u & v & E1 & E2 & ->).
  apply (rconcat_map_ok f g h W) in E2. rewrite E1, E2. reflexivity.
Qed.
Definition li_ok (w : option (bytes * pubkey * bytes)) : Prop := forall p k s, w = Some (p, k, s) -> length p = 32%nat.
Lemma li_uniq : uniq li_ok li_enc.
Proof.
  intros [[[p k] s]|] [[[p' k'] s']|] x y r q Pa Pb E1 E2 E; try discriminate. cbn [li_enc] in *.
  pose proof (Pa _ _ _ eq_refl) as L1. pose proof (Pb _ _ _ eq_refl) as L2.
  destruct (peel _ _ (arr_uniq 32) p p' _ _ _ _ _ _ L1 L2 E1 E2 E) as (-> & x1 & y1 & F1 & F2 & F).
  destruct (peel _ _ (arr_uniq 1) [1] [1] _ _ _ _ _ _ eq_refl eq_refl F1 F2 F) as (_ & x2 & y2 & G1 & G2 & G).
  apply rapp_ok in G1 as (a1 & a2 & G1 & G3 & ->). apply rapp_ok in G2 as (b1 & b2 & G2 & G4 & ->).
  rewrite <- !app_assoc in G. apply bind_ok in G1 as (d & D & G1). apply bind_ok in G2 as (d' & D' & G2).
  destruct (sia_slice_uniq _ _ _ _ _ _ I I G1 G2 G) as [-> G'].
  destruct (pk_sia_uniq _ _ _ _ [] [] I I D D' eq_refl) as [-> _].
  destruct (sia_slice_uniq _ _ _ _ _ _ I I G3 G4 G') as [-> ->]. auto.
Qed.
Definition lo_enc (w : option (N * uh)) : res bytes := match w with Some (n, u) => amt_sia n +++ uh_sia u | None => Err AttributeError end.
Lemma legacy_out_lo H o x : legacy_out H o = Ok x -> lo_enc (legacy_output H o) = Ok x.
Proof.
  unfold legacy_out, lo_enc, legacy_output. intros E. destruct (cond_unlockhash H (o_cond o)) as [u|e]; [exact E|].
  apply rapp_ok in E as (a & b & _ & E & _). discriminate E.
Qed.
Definition lo_ok (w : option (N * uh)) : Prop := forall n u, w = Some (n, u) -> full_uh u.
Lemma lo_uniq : uniq lo_ok lo_enc.
Proof.
  intros [[n u]|] [[n' u']|] x y r q Pa Pb E1 E2 E; try discriminate. cbn [lo_enc] in *.
  destruct (peel _ _ amt_sia_uniq _ _ _ _ _ _ _ _ I I E1 E2 E) as (-> & x1 & y1 & F1 & F2 & F).
  destruct (uh_sia_uniq _ _ _ _ _ _ (Pa _ _ eq_refl) (Pb _ _ eq_refl) F1 F2 F) as [-> ->]. auto.
Qed.
Lemma lis_ok l : Forall in_ok l -> Forall li_ok (map legacy_input l).
Proof.
  intros F. apply Forall_map. eapply Forall_impl; [|exact F]. intros i [L _] p k s E. unfold legacy_input in E.
  destruct (i_ff i); inversion E; subst; exact L.
Qed.
Lemma los_ok H l : Forall (legacy_out_ok H) l -> Forall lo_ok (map (legacy_output H) l).
Proof.
  intros F. apply Forall_map. eapply Forall_impl; [|exact F]. intros o (u & E & V) n v W. unfold legacy_output in W. rewrite E in W.
  injection W as _ <-. exact V.
Qed.
Lemma legacy_id_commits H t u d : s_legacy t = true -> s_legacy u = true ->
  Forall in_ok (s_cin t ++ s_bin t ++ s_cin u ++ s_bin u) ->
  Forall (legacy_out_ok H) (s_cout t ++ s_bout t ++ s_cout u ++ s_bout u) ->
  id_input H (T1 t) = Ok d -> id_input H (T1 u) = Ok d ->
  map legacy_input (s_cin t) = map legacy_input (s_cin u) /\ map legacy_input (s_bin t) = map legacy_input (s_bin u) /\
  map (legacy_output H) (s_cout t) = map (legacy_output H) (s_cout u) /\
  map (legacy_output H) (s_bout t) = map (legacy_output H) (s_bout u) /\ s_fees t = s_fees u /\ s_data t = s_data u.
Proof.
  intros Lt Lu FI FO Et Eu.
  rewrite !Forall_app in FI, FO. destruct FI as (I1 & I2 & I3 & I4), FO as (O1 & O2 & O3 & O4).
  apply lis_ok in I1, I2, I3, I4. apply los_ok in O1, O2, O3, O4.
  destruct (legacy_id _ _ _ Lt Et) as (x & Dx & ->). destruct (legacy_id _ _ _ Lu Eu) as (y & Dy & E). injection E as ->.
  cbn [data_bytes] in Dx, Dy. rewrite Lt in Dx. rewrite Lu in Dy.
  assert (W : forall s z, (sia_list legacy_in (s_cin s) +++ (sia_list (legacy_out H) (s_cout s) +++ (sia_list legacy_in (s_bin s)
        +++ (sia_list (legacy_out H) (s_bout s) +++ (sia_list amt_sia (s_fees s) +++ sia_slice (s_data s)))))) = Ok z ->
     (sia_list li_enc (map legacy_input (s_cin s)) +++ (sia_list lo_enc (map (legacy_output H) (s_cout s)) +++ (sia_list li_enc (map legacy_input (s_bin s))
        +++ (sia_list lo_enc (map (legacy_output H) (s_bout s)) +++ (sia_list amt_sia (s_fees s) +++ sia_slice (s_data s)))))) = Ok z).
  { intros s z Z. apply rapp_ok in Z as (z1 & z2 & Z1 & Z2 & ->). apply (sia_list_ok_map _ _ _ legacy_in_li) in Z1. rewrite Z1.
    apply rapp_ok in Z2 as (z3 & z4 & Z3 & Z4 & ->). apply (sia_list_ok_map _ _ _ (legacy_out_lo H)) in Z3. rewrite Z3.
    apply rapp_ok in Z4 as (z5 & z6 & Z5 & Z6 & ->). apply (sia_list_ok_map _ _ _ legacy_in_li) in Z5. rewrite Z5.
    apply rapp_ok in Z6 as (z7 & z8 & Z7 & Z8 & ->). apply (sia_list_ok_map _ _ _ (legacy_out_lo H)) in Z7. rewrite Z7. rewrite Z8. reflexivity. }
  apply W in Dx. apply W in Dy. clear W. assert (E : y ++ [] = y ++ []) by reflexivity. remember y as y' eqn:Y in Dy, E at 2. clear Y.
  pose proof (sia_list_uniq _ _ li_uniq) as LI. pose proof (sia_list_uniq _ _ lo_uniq) as LO.
  step LI. step LO. step LI. step LO. step fees_uniq. last sia_slice_uniq. auto 10.
Qed.
