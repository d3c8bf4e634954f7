(** Property C79: the owners of multi-signature wallets sign a transaction in any order, and it is complete as soon as enough of them have. *)
From Verif Require Import Base BaseFacts Encoders Primitive Types Conditions Fulfillments ThreeBotTypes Txn TxnSign Spec_Types Spec_Fulfil Spec_Txn Spec_Sign Spec_Swap Spec_Ops Spec_Fits Spec_Together
  TypesFacts ConditionFacts FulfilFacts SignFacts SignFacts2 SignFacts3 OpsFacts2 TogetherFacts Prop_Fulfil Prop_Sign.
From Coq Require Import ZifyBool ZifyNat ZifyN Permutation.
Ltac Zify.zify_post_hook ::= Z.div_mod_to_equations.

(** *** Lemmas *)
Lemma exactly_quorum H ws us ps n : signed_exactly H ws us ps -> ((n <= Z.of_nat (length ps))%Z <-> quorum H ws us n).
Proof.
  intros (as_ & M & ND & I). pose proof (mapM_ok_length _ _ M) as L. split.
  - intro Q. exists as_. split; [exact ND|]. split; [intro u; apply I|]. lia.
  - intros (held & N & J & Q). assert (X : (length held <= length as_)%nat) by (apply NoDup_incl_length; [exact N|]; intros u Iu; apply I, J, Iu). lia.
Qed.
Lemma state_fulfilled H sign chain s ws t : state H sign chain s ws t -> (forall l, coin_inputs t = Ok l -> Forall (fun x => i_out x <> None) l) ->
  exists b, t_is_fulfilled t = Ok b /\ (b = true <-> Forall (fun x => forall o us n, multi chain x o us n -> quorum H ws us n) (s_cin s)).
Proof.
  intros (l & -> & Ln & G) A. specialize (A l eq_refl).
  assert (Fi : forall j x0 x, nth_error (s_cin s) j = Some x0 -> nth_error l j = Some x -> exists o us n ps, multi chain x0 o us n /\ i_out x = Some o /\ i_ff x = FMulti ps /\ signed_exactly H ws us ps).
  { intros j x0 x N0 N. destruct (G _ _ _ N0 N) as (_ & o & us & n & ps & M & _ & Io & E & SE & _). exists o, us, n, ps. split; [exact M|]. split; [|auto].
    rewrite Forall_forall in A. specialize (A _ (nth_error_In _ _ N)). destruct Io as [Io|Io]; [contradiction|exact Io]. }
  assert (T : exists b, t_is_fulfilled (shape s l) = Ok b).
  { unfold t_is_fulfilled. cbn [own_is_fulfilled shape coin_inputs s_cin bind].
    assert (Q : forall m acc, (forall x, In x m -> exists b, in_is_fulfilled x = Ok b) -> exists b, all_fulfilled acc m = Ok b).
    { induction m as [|x m IH]; intros acc Q; [eexists; reflexivity|]. cbn [all_fulfilled]. destruct (Q x (or_introl eq_refl)) as (b & B). destruct acc; [rewrite B|]; cbn [bind]; apply IH; intros y Y; apply Q; now right. }
    apply Q. intros x I. apply In_nth_error in I as (j & N). destruct (nth_error (s_cin s) j) as [x0|] eqn:N0; [|apply nth_error_None in N0; assert (nth_error l j <> None) as Z by congruence; apply nth_error_Some in Z; lia].
    destruct (Fi _ _ _ N0 N) as (o & us & n & ps & (_ & C) & Io & E & _). unfold in_is_fulfilled. rewrite Io, E. cbn [ff_is_fulfilled]. rewrite C. eauto. }
  destruct T as (b & T). exists b. split; [exact T|]. rewrite (fulfilled_complete _ _ T). unfold complete. cbn [coin_inputs shape s_cin own_slots]. split.
  - intros ((ins & E & F) & _). apply ok_inj in E. subst ins. apply Forall_forall. intros x0 I0. apply In_nth_error in I0 as (j & N0).
    destruct (nth_error l j) as [x|] eqn:N; [|apply nth_error_None in N; assert (nth_error (s_cin s) j <> None) as Z by congruence; apply nth_error_Some in Z; lia].
    destruct (Fi _ _ _ N0 N) as (o & us & n & ps & (M1 & M2) & Io & E & SE). intros o' us' n' (M1' & M2'). rewrite M1 in M1'. injection M1' as <-. rewrite M2 in M2'. injection M2' as <- <-.
    rewrite Forall_forall in F. destruct (F _ (nth_error_In _ _ N)) as (o' & Io' & En). rewrite Io in Io'. injection Io' as <-. rewrite E in En. unfold enough in En. rewrite M2 in En. cbn [signatures] in En. rewrite map_length in En.
    apply (exactly_quorum _ _ _ _ _ SE). exact En.
  - intro F. split; [|split; [constructor|exact I]]. exists l. split; [reflexivity|]. apply Forall_forall. intros x I. apply In_nth_error in I as (j & N).
    destruct (nth_error (s_cin s) j) as [x0|] eqn:N0; [|apply nth_error_None in N0; assert (nth_error l j <> None) as Z by congruence; apply nth_error_Some in Z; lia].
    destruct (Fi _ _ _ N0 N) as (o & us & n & ps & M & Io & E & SE). exists o. split; [exact Io|]. rewrite E. unfold enough. rewrite (proj2 M). cbn [signatures]. rewrite map_length.
    apply (exactly_quorum _ _ _ _ _ SE). rewrite Forall_forall in F. exact (F _ (nth_error_In _ _ N0) _ _ _ M).
Qed.
(** *** The property *)
(** After the wallets have signed in turn, everything but the signatures is as before, and each input carries exactly the signatures of the owners the wallets have keys of,
    each over the data of the transaction, the position of the input and the signer's key. *)
Theorem C79_signed : forall H (sign : pubkey -> bytes -> bytes), (forall k h, length (sign k h) = 64%nat) -> hash_ok H -> forall chain s ws t',
  shared chain s -> Forall (takes_part H chain s) ws -> in_turn H sign ws (T1 s) t' ->
  exists l, t' = T1 (mkstd false l (s_cout s) [] (s_bout s) (s_fees s) (s_data s)) /\ map i_parent l = map i_parent (s_cin s) /\
  forall j x o us n, nth_error l j = Some x -> multi chain x o us n ->
  exists ps, i_ff x = FMulti ps /\ signed_exactly H ws us ps /\
  Forall (fun p => exists d, sig_input H (T1 s) [XInt (Z.of_nat j); XKey (fst p)] = Ok d /\ snd p = sign (fst p) (H d)) ps.
Proof.
  intros H sign S64 HH chain s ws t' Sh TP T. destruct Sh as (L & B & F). pose proof (state_start H sign chain s (conj L (conj B F))) as S0.
  pose proof (state_turn H sign S64 HH chain s ws [] _ _ L B TP S0 T) as (l & -> & Ln & G). cbn [app] in G. exists l. split; [reflexivity|].
  assert (P : map i_parent l = map i_parent (s_cin s)).
  { apply nth_ext with (d := []) (d' := []); [rewrite !map_length; exact Ln|]. intros j J. rewrite map_length in J.
    destruct (nth_error l j) as [x|] eqn:X; [|apply nth_error_None in X; lia]. destruct (nth_error (s_cin s) j) as [x0|] eqn:X0; [|apply nth_error_None in X0; lia].
    rewrite (nth_error_nth (map i_parent l) j [] (map_nth_error i_parent _ _ X)), (nth_error_nth (map i_parent (s_cin s)) j [] (map_nth_error i_parent _ _ X0)). exact (proj1 (G _ _ _ X0 X)). }
  split; [exact P|]. intros j x o us n X (M1 & M2). destruct (nth_error (s_cin s) j) as [x0|] eqn:X0; [|apply nth_error_None in X0; assert (nth_error l j <> None) as Z by congruence; apply nth_error_Some in Z; lia].
  destruct (G _ _ _ X0 X) as (Pp & o' & us' & n' & ps & (M1' & M2') & _ & _ & E & SE & FS). rewrite <- Pp, M1 in M1'. injection M1' as <-. rewrite M2 in M2'. injection M2' as <- <-.
  exists ps. split; [exact E|]. split; [exact SE|]. eapply Forall_impl; [|exact FS]. cbn. tauto.
Qed.
Print Assumptions C79_signed.
(** Nobody is refused, whoever signed before. *)
Theorem C79_works : forall H (sign : pubkey -> bytes -> bytes), (forall k h, length (sign k h) = 64%nat) -> hash_ok H -> forall chain s ws w t t1 mc submit,
  shared chain s -> fits (T1 s) -> Forall (takes_part H chain s) ws -> takes_part H chain s w -> in_turn H sign ws (T1 s) t -> (t1 = t \/ t1 = loose t) ->
  exists t2 r, transaction_sign H sign (g_primary w) (g_keys w) (g_known w) mc submit t1 = (t2, Ok r).
Proof.
  intros H sign S64 HH chain s ws w t t1 mc submit Sh Fi TP Tw T Q. destruct Sh as (L & B & F). pose proof (state_start H sign chain s (conj L (conj B F))) as S0.
  pose proof (state_turn H sign S64 HH chain s ws [] _ _ L B TP S0 T) as St. cbn [app] in St. eapply (state_total H sign S64 HH chain s ws w mc submit t1 Fi B Tw).
  destruct Q as [-> | ->]; [exact St|apply state_loose; exact St].
Qed.
Print Assumptions C79_works.
(** The transaction, with its inputs looked up, is complete exactly if every input has a quorum of its owners among the wallets that signed. *)
Theorem C79_complete : forall H (sign : pubkey -> bytes -> bytes), (forall k h, length (sign k h) = 64%nat) -> hash_ok H -> forall chain s ws t',
  shared chain s -> Forall (takes_part H chain s) ws -> in_turn H sign ws (T1 s) t' ->
  exists b, t_is_fulfilled (set_cin t' (attach chain)) = Ok b /\
  (b = true <-> Forall (fun x => forall o us n, multi chain x o us n -> quorum H ws us n) (s_cin s)).
Proof.
  intros H sign S64 HH chain s ws t' Sh TP T. pose proof Sh as (L & B & F). pose proof (state_start H sign chain s Sh) as S0.
  pose proof (state_turn H sign S64 HH chain s ws [] _ _ L B TP S0 T) as St. cbn [app] in St. apply (state_fulfilled H sign).
  - apply (state_attach H sign chain s ws t' (mksigner [] [] chain) St). split; [constructor|]. split; [constructor|]. apply Forall_forall. intros x _ o us n (M & _). left. exact M.
  - destruct St as (l & -> & Ln & G). intros m E. apply ok_inj in E. subst m. apply Forall_forall. intros x I. cbn [s_cin shape] in I. unfold attach in I. apply in_map_iff in I as (y & <- & I).
    apply In_nth_error in I as (j & N). destruct (nth_error (s_cin s) j) as [x0|] eqn:N0; [|apply nth_error_None in N0; assert (nth_error l j <> None) as Z by congruence; apply nth_error_Some in Z; lia].
    destruct (G _ _ _ N0 N) as (P & o & us & n & ps & (M & _) & _). rewrite P, M. discriminate.
Qed.
Print Assumptions C79_complete.
(** The order does not matter: any order of the same wallets, indeed any wallets with keys of the same owners, end with signatures of the same owners, and as complete. *)
Theorem C79_order : forall H (sign : pubkey -> bytes -> bytes), (forall k h, length (sign k h) = 64%nat) -> hash_ok H -> forall chain s ws ws' t t',
  shared chain s -> Forall (takes_part H chain s) ws -> Forall (takes_part H chain s) ws' -> in_turn H sign ws (T1 s) t -> in_turn H sign ws' (T1 s) t' ->
  (Permutation ws ws' \/ forall u, holder H ws u <-> holder H ws' u) ->
  t_is_fulfilled (set_cin t (attach chain)) = t_is_fulfilled (set_cin t' (attach chain)) /\
  exists l l', coin_inputs t = Ok l /\ coin_inputs t' = Ok l' /\ Forall2 (fun x x' => i_parent x = i_parent x' /\
    exists ps ps' as_ as_', i_ff x = FMulti ps /\ i_ff x' = FMulti ps' /\
    mapM (fun p => pk_unlockhash H (fst p)) ps = Ok as_ /\ mapM (fun p => pk_unlockhash H (fst p)) ps' = Ok as_' /\ Permutation as_ as_') l l'.
Proof.
  intros H sign S64 HH chain s ws ws' t t' Sh TP TP' T T' Q.
  assert (Q' : forall u, holder H ws u <-> holder H ws' u).
  { destruct Q as [Q|Q]; [|exact Q]. intro u. unfold holder. split; intros (w & I & K); exists w; (split; [|exact K]); [exact (Permutation_in _ Q I) | exact (Permutation_in _ (Permutation_sym Q) I)]. }
  destruct (C79_complete H sign S64 HH chain s ws t Sh TP T) as (b & B & Bi). destruct (C79_complete H sign S64 HH chain s ws' t' Sh TP' T') as (b' & B' & Bi'). split.
  - rewrite B, B'. f_equal. assert (X : b = true <-> b' = true).
    { rewrite Bi, Bi'. split; intro F; (eapply Forall_impl; [|exact F]); intros x G o us n M; destruct (G o us n M) as (held & N & J & C); exists held; (split; [exact N|]); (split; [|exact C]); intros u Iu; destruct (J u Iu) as (A1 & A2); (split; [exact A1|]); apply Q'; exact A2. }
    destruct b, b'; try reflexivity; [symmetry; apply X; reflexivity|apply X; reflexivity].
  - destruct Sh as (L & Bn & F). pose proof (state_start H sign chain s (conj L (conj Bn F))) as S0.
    pose proof (state_turn H sign S64 HH chain s ws [] _ _ L Bn TP S0 T) as (l & -> & Ln & G). pose proof (state_turn H sign S64 HH chain s ws' [] _ _ L Bn TP' S0 T') as (l' & -> & Ln' & G'). cbn [app] in G, G'.
    exists l, l'. split; [reflexivity|]. split; [reflexivity|]. rewrite <- Ln in Ln'. assert (E : forall j x x', nth_error l j = Some x -> nth_error l' j = Some x' -> i_parent x = i_parent x' /\
      exists ps ps' as_ as_', i_ff x = FMulti ps /\ i_ff x' = FMulti ps' /\ mapM (fun p => pk_unlockhash H (fst p)) ps = Ok as_ /\ mapM (fun p => pk_unlockhash H (fst p)) ps' = Ok as_' /\ Permutation as_ as_').
    { intros j x x' N N'. destruct (nth_error (s_cin s) j) as [x0|] eqn:N0; [|apply nth_error_None in N0; assert (nth_error l j <> None) as Z by congruence; apply nth_error_Some in Z; lia].
      destruct (G _ _ _ N0 N) as (P & o & us & n & ps & (M1 & M2) & _ & _ & E & (as_ & A1 & A2 & A3) & _). destruct (G' _ _ _ N0 N') as (P' & o' & us' & n' & ps' & (M1' & M2') & _ & _ & E' & (as_' & A1' & A2' & A3') & _).
      rewrite M1 in M1'. injection M1' as <-. rewrite M2 in M2'. injection M2' as <- <-. split; [congruence|]. exists ps, ps', as_, as_'. repeat (split; [assumption|]).
      apply NoDup_Permutation; [exact A2|exact A2'|]. intro u. rewrite A3, A3', Q'. tauto. }
    clear -E Ln'. revert l' Ln' E. induction l as [|x l IH]; intros [|x' l'] Ln' E; try discriminate; constructor; [exact (E 0%nat _ _ eq_refl eq_refl)|]. apply IH; [now injection Ln'|]. intros j y y' N N'. exact (E (S j) _ _ N N').
Qed.
Print Assumptions C79_order.
(** A wallet asked to submit does so exactly if the transaction is complete then and some owner's signature was still missing before: a transaction every owner has signed already is not submitted. *)
Theorem C79_submitted : forall H (sign : pubkey -> bytes -> bytes), (forall k h, length (sign k h) = 64%nat) -> hash_ok H -> forall chain s ws w t t1 mc t2 sg sb,
  shared chain s -> Forall (takes_part H chain s) ws -> takes_part H chain s w -> Forall (fun x => g_known w (i_parent x) = chain (i_parent x)) (s_cin s) ->
  in_turn H sign ws (T1 s) t -> (t1 = t \/ t1 = loose t) ->
  transaction_sign H sign (g_primary w) (g_keys w) (g_known w) mc true t1 = (t2, Ok (sg, sb)) ->
  (sb = true <-> (exists x o us n u, In x (s_cin s) /\ multi chain x o us n /\ In u us /\ ~ holder H ws u) /\
                 Forall (fun x => forall o us n, multi chain x o us n -> quorum H (ws ++ [w]) us n) (s_cin s)).
Proof.
  intros H sign S64 HH chain s ws w t t1 mc t2 sg sb Sh TP Tw Kw T Q E. pose proof Sh as (L & B & F). pose proof (state_start H sign chain s Sh) as S0.
  pose proof (state_turn H sign S64 HH chain s ws [] _ _ L B TP S0 T) as St. cbn [app] in St.
  assert (S1 : state H sign chain s ws t1) by (destruct Q as [-> | ->]; [exact St|apply state_loose; exact St]).
  pose proof (state_step H sign S64 HH chain s ws w mc true t1 t2 _ L B Tw S1 E) as S2. pose proof (state_attach H sign chain s ws t1 w S1 Tw) as Sa.
  assert (Lg : is_legacy t1 = false) by (destruct S1 as (l & -> & _); reflexivity).
  destruct (C53_reported H sign _ _ S64 _ _ _ _ _ _ _ Lg E) as (qs & R & _ & SB). rewrite SB. clear SB.
  destruct S1 as (l & -> & Ln & G). destruct Sa as (la & Ea & Lna & Ga). cbn [set_cin shape s_cin s_legacy s_cout s_bin s_bout s_fees s_data] in Ea. injection Ea as Ea. subst la.
  change (prepared (g_known w) mc (shape s l)) with (shape s (attach (g_known w) l)) in R.
  assert (All : forall j x0 x, nth_error (s_cin s) j = Some x0 -> nth_error (attach (g_known w) l) j = Some x -> i_out x = chain (i_parent x0) /\ i_out x <> None).
  { intros j x0 x N0 N. unfold attach in N. rewrite nth_error_map in N. destruct (nth_error l j) as [y|] eqn:Y; [|discriminate]. cbn [option_map] in N.
    destruct (G _ _ _ N0 Y) as (P & o & us & n & ps & (M & _) & _). rewrite Forall_forall in Kw. rewrite P, (Kw _ (nth_error_In _ _ N0)), M in N. injection N as <-. cbn. rewrite M. split; [reflexivity|discriminate]. }
  assert (Ql : qs <> [] <-> exists x o us n u, In x (s_cin s) /\ multi chain x o us n /\ In u us /\ ~ holder H ws u).
  { assert (SL : forall j x0, nth_error (s_cin s) j = Some x0 -> exists o us n, multi chain x0 o us n /\ forall u, In u (asked_of (CbCoin j) qs) <-> In u us /\ ~ holder H ws u).
    { intros j x0 N0. assert (J : (j < length (attach (g_known w) l))%nat) by (rewrite Lna; apply nth_error_Some; congruence).
      destruct (nth_error (attach (g_known w) l) j) as [x|] eqn:X; [|apply nth_error_None in X; lia].
      pose proof (requests_slot H _ _ (CbCoin j) R ltac:(discriminate)) as W. cbn [slot shape coin_inputs s_cin] in W. rewrite X in W. cbn [option_map] in W.
      destruct (Ga _ _ _ N0 X) as (P & o & us & n & ps & M & O & Io & Ef & SE & _). destruct (All _ _ _ N0 X) as (_ & NN). destruct Io as [Io|Io]; [contradiction|]. rewrite Ef, Io in W. cbn [wanted option_map] in W.
      destruct (wanted_is H sign S64 HH ws us n ps o SE O (proj2 M)) as (rs & A & I & _). rewrite A in W. apply ok_inj in W. subst rs. exists o, us, n. split; [exact M|exact I]. }
    split.
    - intro NE. destruct qs as [|q qs]; [contradiction|]. pose proof R as R'. apply requests_inv in R' as (m & ra & rb & rc & Em & Era & Erb & Erc & Eq). cbn in Em. apply ok_inj in Em. subst m. cbn in Erb. apply ok_inj in Erb. subst rb. cbn in Erc. apply ok_inj in Erc. subst rc. cbn [app] in Eq. rewrite app_nil_r in Eq. subst ra.
      destruct (Prop_SignWorks.in_requests_lt _ _ _ _ _ q Era (or_introl eq_refl)) as (j & J & Qc). cbn [Nat.add] in J. rewrite Lna in J. destruct (nth_error (s_cin s) j) as [x0|] eqn:N0; [|apply nth_error_None in N0; lia].
      destruct (SL _ _ N0) as (o & us & n & M & I). exists x0, o, us, n, (rq_uh (q_rq q)). split; [exact (nth_error_In _ _ N0)|]. split; [exact M|]. apply I. rewrite asked_cons, Qc. destruct (cb_eq_dec (CbCoin j) (CbCoin j)); [now left|contradiction].
    - intros (x0 & o & us & n & u & I0 & M & Iu & Nu) ->. apply In_nth_error in I0 as (j & N0). destruct (SL _ _ N0) as (o' & us' & n' & M' & I). destruct M as (M1 & M2), M' as (M1' & M2'). rewrite M1 in M1'. injection M1' as <-. rewrite M2 in M2'. injection M2' as <- <-.
      exact (proj2 (I u) (conj Iu Nu)). }
  rewrite Ql. destruct (state_fulfilled H sign chain s (ws ++ [w]) t2 S2) as (b & Tb & Bi).
  - destruct (sign_shape H sign s w mc true l t2 _ E) as (l' & -> & Bl). intros m Em. apply ok_inj in Em. subst m. apply Forall_forall. intros x I. cbn [s_cin] in I. apply In_nth_error in I as (j & N).
    assert (X : nth_error (map blank l') j = Some (blank x)) by exact (map_nth_error blank _ _ N). rewrite Bl, nth_error_map in X. destruct (nth_error (attach (g_known w) l) j) as [y|] eqn:Y; [|discriminate]. cbn [option_map] in X. injection X as _ X. rewrite <- X.
    destruct (nth_error (s_cin s) j) as [x0|] eqn:N0; [|apply nth_error_None in N0; assert (nth_error (attach (g_known w) l) j <> None) as Z by congruence; apply nth_error_Some in Z; lia]. exact (proj2 (All _ _ _ N0 Y)).
  - rewrite Tb, <- Bi. split; [intros (_ & A & C); split; [exact A|now apply ok_inj in C]|intros (A & ->); auto].
Qed.
Print Assumptions C79_submitted.

(** *** A wallet of two out of three: key 9 alone, keys 7 and 8 together; the latter sign after the former, or before *)
Definition ext_out : output := mkout 50 (CMulti [ex_key_uh 9; ex_key_uh 8; ex_key_uh 7] 2) (repeat 1 32).
Definition ext_chain (p : bytes) : option output := if listN_eqb p (repeat 1 32) then Some ext_out else None.
Definition ext_one : signer := mksigner (ex_addr 9) [(ex_addr 9, ex_key 9)] ext_chain.
Definition ext_two : signer := mksigner (ex_addr 7) ex_ks ext_chain.
Definition ext_tx : tx_std := mkstd false [mkin (repeat 1 32) (FMulti []) None] [mkout 40 (CUnlockHash (ex_key_uh 7)) []] [] [] [10] [].
Lemma ext_shared : shared ext_chain ext_tx.
Proof.
  split; [reflexivity|]. split; [reflexivity|]. constructor; [|constructor]. split; [reflexivity|]. exists ext_out, [ex_key_uh 9; ex_key_uh 8; ex_key_uh 7], 2%Z. split; [split; reflexivity|]. split; [|now left]. split.
  - apply NoDup_cons_iff. split; [vm_compute; intuition discriminate|]. apply NoDup_cons_iff. split; [vm_compute; intuition discriminate|]. apply NoDup_cons_iff. split; [intros []|constructor].
  - assert (X : forall x u, pk_unlockhash ex_H2 (ex_key x) = Ok u -> full_uh u /\ uh_type u <> 0%Z).
    { intros x u U. pose proof (pk_uh_full ex_H2 ex_sign ex_sign64 ex_H2_ok _ _ U). split; [assumption|]. apply ConditionFacts2.pk_address_fun in U as (Ty & _). rewrite Ty. discriminate. }
    constructor; [apply (X 9); vm_compute; reflexivity|]. constructor; [apply (X 8); vm_compute; reflexivity|]. constructor; [apply (X 7); vm_compute; reflexivity|constructor].
Qed.
Lemma ext_key32 x : x < 256 -> key32 (ex_key x).
Proof. intro L. split; [reflexivity|]. unfold ex_key. cbn [pk_hash]. apply Forall_forall. intros y I. apply repeat_spec in I. subst. exact L. Qed.
Lemma ext_part : takes_part ex_H2 ext_chain ext_tx ext_one /\ takes_part ex_H2 ext_chain ext_tx ext_two.
Proof.
  split; (split; [repeat constructor|]).
  - split; [constructor; [apply ext_key32; reflexivity|constructor]|]. constructor; [|constructor]. intros o us n (M & _). left. exact M.
  - split; [constructor; [apply ext_key32; reflexivity|constructor; [apply ext_key32; reflexivity|constructor]]|]. constructor; [|constructor]. intros o us n (M & _). left. exact M.
Qed.
Definition ext_sign (w : signer) (submit : bool) (t : txn) := transaction_sign ex_H2 ex_sign (g_primary w) (g_keys w) (g_known w) (Err RuntimeError) submit t.
(** One of three: not complete.  Then the other wallet: complete, submitted.  The two alone: complete, too.  A third time: nothing outstanding, nothing submitted. *)
Example C79_ex : let a := ext_sign ext_one true (T1 ext_tx) in let b := ext_sign ext_two true (loose (fst a)) in let c := ext_sign ext_two true (T1 ext_tx) in
  snd a = Ok (true, false) /\ snd b = Ok (true, true) /\ snd c = Ok (true, true) /\ snd (ext_sign ext_one true (loose (fst b))) = Ok (false, false) /\
  option_map signers (get_ff (fst b) (CbCoin 0)) = Some [ex_key 9; ex_key 8; ex_key 7] /\ option_map signers (get_ff (fst c) (CbCoin 0)) = Some [ex_key 8; ex_key 7].
Proof. vm_compute. repeat split. Qed.
Example C79_ex_turn : exists t, in_turn ex_H2 ex_sign [ext_one; ext_two] (T1 ext_tx) t.
Proof.
  eexists. eapply it_next with (mc := Err RuntimeError) (submit := true); [now left|vm_compute; reflexivity|].
  eapply it_next with (mc := Err RuntimeError) (submit := true); [right; reflexivity|vm_compute; reflexivity|]. apply it_done.
Qed.
Example C79_ex_fits : fits (T1 ext_tx).
Proof.
  assert (F : forall A (l : list A), (length l <= 83)%nat -> few l) by (intros A l X; unfold few; lia).
  assert (M : forall n, n <= 1000 -> modest n) by (intros n L; unfold modest; eapply N.le_lt_trans; [exact L|]; change 1000 with (10 ^ 3) at 1; apply N.pow_lt_mono_r; lia).
  unfold ext_tx. cbn [fits s_legacy s_cin s_bin s_cout s_bout s_fees s_data].
  split; [reflexivity|]. split; [apply F; repeat constructor|]. split; [apply F; repeat constructor|]. split; [apply F; repeat constructor|]. split; [apply F; repeat constructor|].
  split; [constructor; [|constructor]; split; [apply M; cbn; lia|]; cbn [o_cond fits_cond]; split; [vm_compute; split; [discriminate|reflexivity]|vm_compute; repeat constructor]|].
  split; [constructor|]. split; [apply F; repeat constructor|]. split; [constructor; [apply M; lia|constructor]|]. apply F; repeat constructor.
Qed.
