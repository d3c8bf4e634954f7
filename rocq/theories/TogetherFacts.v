(** Several wallets signing one transaction. *)
From Verif Require Import Base BaseFacts Encoders Primitive Types Conditions Fulfillments ThreeBotTypes Txn TxnSign Spec_Types Spec_Fulfil Spec_Txn Spec_Sign Spec_Swap Spec_Ops Spec_Fits Spec_Together
  TypesFacts TypesFacts2 ConditionFacts ConditionFacts2 FulfilFacts FulfilFacts2 TxnFacts2 SignFacts SignFacts2 SignFacts3 SignFacts4 OpsFacts2 SwapFacts Prop_Sign Prop_SwapTwo Prop_SignWorks.
From Coq Require Import ZifyBool ZifyNat ZifyN.
Ltac Zify.zify_post_hook ::= Z.div_mod_to_equations.

Definition shape (s : tx_std) (l : list input) : txn := T1 (mkstd false l (s_cout s) [] (s_bout s) (s_fees s) (s_data s)).
Lemma pk_str_inj k k' : key32 k -> key32 k' -> pk_str k = pk_str k' -> k = k'.
Proof. intros K K' E. apply pk_round_trip in K. apply pk_round_trip in K'. rewrite E in K. rewrite K in K'. now apply ok_inj in K'. Qed.
Lemma holder_app H a b u : holder H (a ++ b) u <-> holder H a u \/ holder H b u.
Proof.
  unfold holder. split.
  - intros (w & I & K). apply in_app_or in I as [I|I]; [left|right]; eauto.
  - intros [(w & I & K)|(w & I & K)]; exists w; (split; [apply in_or_app; auto|exact K]).
Qed.
Lemma mapM_app_ok {A B} (f : A -> res B) l m a b : mapM f l = Ok a -> mapM f m = Ok b -> mapM f (l ++ m) = Ok (a ++ b).
Proof.
  revert a. induction l as [|x l IH]; intros a E F; cbn in *; [apply ok_inj in E; subst; exact F|].
  apply bind_ok in E as (y & Ey & E). apply bind_ok in E as (r & Er & E). apply ok_inj in E. subst a. rewrite Ey. cbn [bind]. rewrite (IH _ Er F). reflexivity.
Qed.

Section Together.
Variables (H : bytes -> bytes) (sign : pubkey -> bytes -> bytes).
Hypothesis S64 : forall k h, length (sign k h) = 64%nat.
Hypothesis HH : hash_ok H.
Variables (chain : bytes -> option output) (s : tx_std).

(** what has become of input [x0], the [j]-th, after the wallets [ws] *)
Definition good (ws : list signer) (j : nat) (x0 x : input) : Prop :=
  i_parent x = i_parent x0 /\ exists o us n ps, multi chain x0 o us n /\ owners us /\ (i_out x = None \/ i_out x = Some o) /\ i_ff x = FMulti ps /\
  signed_exactly H ws us ps /\ Forall (fun p => key32 (fst p) /\ exists d, sig_input H (T1 s) [XInt (Z.of_nat j); XKey (fst p)] = Ok d /\ snd p = sign (fst p) (H d)) ps.
Definition state (ws : list signer) (t : txn) : Prop :=
  exists l, t = shape s l /\ length l = length (s_cin s) /\ forall j x0 x, nth_error (s_cin s) j = Some x0 -> nth_error l j = Some x -> good ws j x0 x.

Lemma state_start : shared chain s -> state [] (T1 s).
Proof.
  intros (L & B & F). exists (s_cin s). split; [unfold shape; destruct s; cbn in *; subst; reflexivity|]. split; [reflexivity|].
  intros j x0 x N0 N. rewrite N0 in N. injection N as <-. apply nth_error_In in N0. rewrite Forall_forall in F. destruct (F _ N0) as (E & o & us & n & M & O & I).
  split; [reflexivity|]. exists o, us, n, []. split; [exact M|]. split; [exact O|]. split; [exact I|]. split; [exact E|]. split; [|constructor].
  exists []. split; [reflexivity|]. split; [constructor|]. intro u. split; [intros []|]. intros (_ & w & [] & _).
Qed.
Lemma state_loose ws t : state ws t -> state ws (loose t).
Proof.
  intros (l & -> & Ln & G). exists (map (fun x => mkin (i_parent x) (i_ff x) None) l). split; [reflexivity|]. split; [rewrite map_length; exact Ln|].
  intros j x0 x N0 N. rewrite nth_error_map in N. destruct (nth_error l j) as [y|] eqn:Y; [|discriminate]. injection N as <-.
  destruct (G _ _ _ N0 Y) as (P & o & us & n & ps & M & O & I & E & SE & FS). split; [exact P|]. exists o, us, n, ps. cbn. auto 9.
Qed.
Lemma state_attach ws t w : state ws t -> takes_part H chain s w -> state ws (set_cin t (attach (g_known w))).
Proof.
  intros (l & -> & Ln & G) (_ & _ & TP). exists (attach (g_known w) l). split; [reflexivity|]. split; [unfold attach; rewrite map_length; exact Ln|].
  intros j x0 x N0 N. unfold attach in N. rewrite nth_error_map in N. destruct (nth_error l j) as [y|] eqn:Y; [|discriminate]. cbn [option_map] in N.
  destruct (G _ _ _ N0 Y) as (P & o & us & n & ps & M & O & I & E & SE & FS). rewrite Forall_forall in TP. destruct (TP x0 (nth_error_In _ _ N0) o us n M) as [K|[K _]]; rewrite P, K in N; injection N as <-.
  - split; [reflexivity|]. exists o, us, n, ps. cbn. auto 9.
  - split; [exact P|]. exists o, us, n, ps. auto 9.
Qed.

(** who is asked *)
Lemma asked_multi_is (as_ : list uh) us : Forall full_uh as_ -> Forall full_uh us ->
  exists rs, asked_multi H (map (ustr H) as_) us = Ok rs /\ (forall u, In u rs <-> In u us /\ ~ In u as_) /\ (NoDup us -> NoDup rs).
Proof.
  intros Fa. induction 1 as [|u us Fu Fus (rs & E & I & ND)]; cbn [asked_multi]; [exists []; split; [reflexivity|]; split; [cbn; tauto|constructor]|].
  rewrite (uh_str_total H u HH Fu). cbn [bind]. rewrite E. cbn [bind].
  assert (X : existsb (listN_eqb (ustr H u)) (map (ustr H) as_) = true <-> In u as_).
  { rewrite existsb_exists. split.
    - intros (y & Iy & Q). apply listN_eqb_eq in Q. apply in_map_iff in Iy as (v & <- & Iv). rewrite Forall_forall in Fa. pose proof (Fa _ Iv) as Fv.
      assert (u = v) as -> by (eapply uh_str_inj; [exact HH|exact Fu|exact Fv|exact (uh_str_total H u HH Fu)|rewrite Q; exact (uh_str_total H v HH Fv)]). exact Iv.
    - intro Iu. exists (ustr H u). split; [apply in_map; exact Iu | apply listN_eqb_eq; reflexivity]. }
  destruct (existsb (listN_eqb (ustr H u)) (map (ustr H) as_)).
  - exists rs. split; [reflexivity|]. split.
    + intro v. rewrite I. cbn [In]. split; [tauto|]. intros [[<-|Iv] N]; [exfalso; apply N; tauto|tauto].
    + intro N. inversion N; subst. auto.
  - exists (u :: rs). split; [reflexivity|]. split.
    + intro v. cbn [In]. rewrite I. split; [|tauto]. intros [<-|Q]; [|tauto]. split; [now left|]. intro Q. apply X in Q. discriminate.
    + intro N. inversion N; subst. constructor; [|auto]. rewrite I. tauto.
Qed.
Lemma signers_text (ps : list (pubkey * bytes)) : forall as_, mapM (fun p => pk_unlockhash H (fst p)) ps = Ok as_ ->
  Forall full_uh as_ /\ mapM (fun p => pk_address H (fst p)) ps = Ok (map (ustr H) as_).
Proof.
  induction ps as [|p ps IH]; intros as_ E; cbn in *; [apply ok_inj in E; subst; split; [constructor|reflexivity]|].
  apply bind_ok in E as (u & U & E). apply bind_ok in E as (r & R & E). apply ok_inj in E. subst as_. destruct (IH _ R) as (F & M).
  pose proof (pk_uh_full H sign S64 HH _ _ U) as Fu. split; [constructor; auto|]. unfold pk_address at 1. rewrite U. cbn [bind]. rewrite (uh_str_total H u HH Fu). cbn [bind]. rewrite M. reflexivity.
Qed.
Lemma owners_full us : owners us -> Forall full_uh us.
Proof. intros (_ & F). eapply Forall_impl; [|exact F]. cbn. tauto. Qed.
Lemma wanted_is ws us n ps o : signed_exactly H ws us ps -> owners us -> cond_unwrap (o_cond o) = CMulti us n ->
  exists rs, ff_asked H (FMulti ps) (o_cond o) = Ok rs /\ (forall u, In u rs <-> In u us /\ ~ holder H ws u) /\ NoDup rs.
Proof.
  intros (as_ & M & ND & I) O C. destruct (signers_text _ _ M) as (F & T). destruct (asked_multi_is as_ us F (owners_full _ O)) as (rs & E & J & N).
  exists rs. cbn [ff_asked]. rewrite C, T. cbn [bind]. split; [exact E|]. split; [|apply N, O]. intro u. rewrite J, I. tauto.
Qed.
(** the keys a wallet signs with *)
Lemma owned_is w rs : wallet_ok H (g_primary w) (g_keys w) -> Forall (fun k => key32 (snd k)) (g_keys w) -> Forall (fun u => full_uh u /\ uh_type u <> 0%Z) rs -> NoDup rs ->
  exists bs, mapM (pk_unlockhash H) (owned H (g_primary w) (g_keys w) rs) = Ok bs /\ NoDup bs /\ (forall u, In u bs <-> In u rs /\ has_key H (g_keys w) u) /\
  Forall key32 (owned H (g_primary w) (g_keys w) rs).
Proof.
  intros WO K32. induction 1 as [|u rs (Fu & Ty) Frs IH]; intro ND; [exists []; split; [reflexivity|]; split; [constructor|]; split; [cbn; tauto|constructor]|].
  inversion ND; subst. destruct (IH H3) as (bs & M & N & I & K). rewrite owned_cons. destruct (wallet_key H (g_primary w) (g_keys w) u) as [k|] eqn:W.
  - assert (HK : has_key H (g_keys w) u).
    { destruct (key_in _ _ _ _ _ W) as (a & Ia). exists a, k. split; [exact Ia|]. destruct (wallet_key_ok H sign _ _ S64 WO _ _ W) as (b & A & [Z|Ow]); [contradiction|].
      unfold pk_address in A. apply bind_ok in A as (v & V & A). destruct Ow as (c & A1 & A2). unfold pk_address in A1. rewrite V in A1. cbn [bind] in A1. rewrite V. f_equal.
      eapply uh_str_inj; [exact HH|exact (pk_uh_full H sign S64 HH _ _ V)|exact Fu|exact A1|exact A2]. }
    destruct (has_key_wallet H (g_primary w) (g_keys w) HH WO u HK) as (k' & W' & U & a & Ia). rewrite W in W'. injection W' as <-.
    exists (u :: bs). split; [cbn [mapM]; rewrite U; cbn [bind]; rewrite M; reflexivity|]. split; [constructor; [rewrite I; tauto|exact N]|]. split.
    + intro v. cbn [In]. rewrite I. split; [intros [<-|Q]; tauto|tauto].
    + constructor; [|exact K]. rewrite Forall_forall in K32. exact (K32 _ Ia).
  - exists bs. split; [exact M|]. split; [exact N|]. split; [|exact K]. intro v. rewrite I. cbn [In]. split; [tauto|]. intros [[<-|Iv] Q]; [|tauto].
    destruct (has_key_wallet H (g_primary w) (g_keys w) HH WO u Q) as (k' & W' & _). congruence.
Qed.
(** one input, one wallet *)
Lemma good_step ws w j x0 x y us : takes_part H chain s w -> In x0 (s_cin s) -> good ws j x0 x -> (i_out x = None -> g_known w (i_parent x0) = None) ->
  wanted H (i_ff x) (option_map o_cond (i_out x)) = Ok us -> i_parent y = i_parent x -> i_out y = i_out x ->
  forall t ex, (forall k, ex k = XInt (Z.of_nat j) :: ff_extras (i_ff x) k) -> (forall xs, sig_input H t xs = sig_input H (T1 s) xs) ->
  signed_by H sign (g_primary w) (g_keys w) t ex us (i_ff x) (i_ff y) -> good (ws ++ [w]) j x0 y.
Proof.
  intros TP I0 (P & o & os & n & ps & M & O & Io & E & SE & FS) Kn W Py Oy t ex X TS SB. destruct TP as (WO & K32 & TP). rewrite Forall_forall in TP. specialize (TP _ I0 _ _ _ M).
  split; [congruence|]. rewrite E in SB, W, X. apply signed_multi in SB as (qs & Ey & Mq & Fq). exists o, os, n, (ps ++ qs).
  split; [exact M|]. split; [exact O|]. split; [rewrite Oy; exact Io|]. split; [exact Ey|].
  assert (B : exists bs, mapM (fun p => pk_unlockhash H (fst p)) qs = Ok bs /\ NoDup bs /\ (forall u, In u bs <-> (In u os /\ ~ holder H ws u) /\ has_key H (g_keys w) u) /\ Forall key32 (map fst qs)).
  { assert (MM : forall q : list (pubkey * bytes), mapM (fun p => pk_unlockhash H (fst p)) q = mapM (pk_unlockhash H) (map fst q)) by (induction q as [|a q IH]; [reflexivity|cbn; rewrite IH; reflexivity]).
    rewrite MM, Mq. destruct Io as [Io|Io]; rewrite Io in W; cbn [option_map wanted] in W.
    - apply ok_inj in W. subst us. exists []. split; [reflexivity|]. split; [constructor|]. split; [|constructor]. intro u. split; [intros []|]. intros ((Iu & _) & K).
      destruct TP as [K'|(_ & N)]; [rewrite (Kn Io) in K'; discriminate|]. exact (N _ Iu K).
    - destruct (wanted_is _ _ _ _ o SE O (proj2 M)) as (rs & A & I & ND). rewrite A in W. apply ok_inj in W. subst us.
      destruct (owned_is w rs WO K32) as (bs & M1 & M2 & M3 & M4); [|exact ND|].
      + apply Forall_forall. intros u Iu. apply I in Iu as (Iu & _). destruct O as (_ & O). rewrite Forall_forall in O. exact (O _ Iu).
      + exists bs. split; [exact M1|]. split; [exact M2|]. split; [|exact M4]. intro u. rewrite M3, I. tauto. }
  destruct B as (bs & B1 & B2 & B3 & B4). split.
  - destruct SE as (as_ & A1 & A2 & A3). exists (as_ ++ bs). split; [apply mapM_app_ok; assumption|].
    assert (D : forall u, In u as_ -> ~ In u bs) by (intros u Ia Ib; apply A3 in Ia; apply B3 in Ib; tauto). split.
    + clear -A2 B2 D. induction as_ as [|a l IH]; [exact B2|]. inversion A2; subst. cbn [app]. constructor; [|apply IH; [assumption|intros u Iu; apply D; now right]].
      rewrite in_app_iff. intros [Q|Q]; [contradiction|]. exact (D a (or_introl eq_refl) Q).
    + intro u. rewrite in_app_iff, A3, B3, holder_app. assert (HW : holder H [w] u <-> has_key H (g_keys w) u) by (unfold holder; split; [intros (v & [<-|[]] & K); exact K|intro K; exists w; split; [now left|exact K]]).
      rewrite HW. split; [tauto|]. intros (Iu & [Q|Q]); [tauto|]. destruct (proj1 (Forall_forall _ _) (proj2 O) u Iu) as (_ & _).
      (* held before or not: decided by whether its signature is there *)
      destruct (in_dec (fun a b : uh => ltac:(decide equality; [apply list_eq_dec, N.eq_dec | apply Z.eq_dec])) u as_) as [Ia|Na]; [left; apply A3; exact Ia|].
      right. split; [|exact Q]. split; [exact Iu|]. intro Hh. apply Na, A3. tauto.
  - apply Forall_app. split; [exact FS|]. apply Forall_forall. intros q Iq. rewrite Forall_forall in Fq. destruct (Fq _ Iq) as (d & D & S). split.
    + rewrite Forall_forall in B4. apply B4, in_map, Iq.
    + exists d. split; [|exact S]. rewrite <- TS. rewrite (X (fst q)) in D. exact D.
Qed.

Lemma sign_shape w mc submit l t' r : transaction_sign H sign (g_primary w) (g_keys w) (g_known w) mc submit (shape s l) = (t', r) ->
  exists l', t' = shape s l' /\ map blank l' = map blank (attach (g_known w) l).
Proof.
  intro E. assert (U : unsigned t' = unsigned (shape s (attach (g_known w) l))).
  { unfold transaction_sign in E. change (coin_inputs (shape s l)) with (Ok l) in E. change (mint_prepare mc (set_cin (shape s l) (attach (g_known w)))) with (shape s (attach (g_known w) l), Ok tt) in E. cbv iota beta in E.
    destruct (requests H (shape s (attach (g_known w) l))) as [qs|]; [|inversion E; reflexivity]. destruct qs as [|q qs]; [inversion E; reflexivity|].
    destruct (sign_loop H sign (g_primary w) (g_keys w) (q :: qs) (shape s (attach (g_known w) l)) 0) as [t2 [m|e]] eqn:L; apply pair_equal_spec in E as [<- _]; exact (loop_unsigned _ _ _ _ _ _ _ _ _ L). }
  destruct t' as [t'|t'|t'|t'|t'|t'|t'|t']; try discriminate. cbn in U. injection U as U1 U2 U3 U4 U5 U6 U7. exists (s_cin t'). split; [|exact U2].
  unfold shape. destruct t' as [a b c d e f g]. cbn in *. subst. destruct d; [reflexivity|discriminate].
Qed.
Lemma state_sig ws t : s_legacy s = false -> s_bin s = [] -> state ws t -> forall xs, sig_input H t xs = sig_input H (T1 s) xs.
Proof.
  intros L B (l & -> & Ln & G) xs. apply sig_input_content; [reflexivity|exact L| |reflexivity]. cbn. rewrite B. cbn [s_cin s_cout s_bin s_bout s_fees s_data]. f_equal.
  unfold spends. apply nth_ext with (d := []) (d' := []); [rewrite !map_length; exact Ln|]. intros j J. rewrite map_length in J.
  destruct (nth_error l j) as [x|] eqn:X; [|apply nth_error_None in X; lia]. destruct (nth_error (s_cin s) j) as [x0|] eqn:X0; [|apply nth_error_None in X0; lia].
  rewrite (nth_error_nth (map i_parent l) j [] (map_nth_error i_parent _ _ X)), (nth_error_nth (map i_parent (s_cin s)) j [] (map_nth_error i_parent _ _ X0)). exact (proj1 (G _ _ _ X0 X)).
Qed.
Lemma state_step ws w mc submit t t' r : s_legacy s = false -> s_bin s = [] -> takes_part H chain s w -> state ws t ->
  transaction_sign H sign (g_primary w) (g_keys w) (g_known w) mc submit t = (t', Ok r) -> state (ws ++ [w]) t'.
Proof.
  intros L B TP St E. pose proof (state_attach _ _ _ St TP) as Sa. pose proof (state_sig _ _ L B Sa) as TS. destruct St as (l & -> & Ln & G). destruct Sa as (la & Ea & Lna & Ga).
  cbn [set_cin shape s_cin s_legacy s_cout s_bin s_bout s_fees s_data] in Ea. injection Ea as Ea. subst la.
  destruct (sign_shape _ _ _ _ _ _ E) as (l' & -> & Bl). exists l'. split; [reflexivity|].
  assert (Ll : length l' = length (s_cin s)) by (apply (f_equal (@length input)) in Bl; rewrite !map_length in Bl; unfold attach in Bl; rewrite map_length in Bl; lia). split; [exact Ll|].
  intros j x0 y N0 Ny. pose proof (sign_slots H sign (g_primary w) (g_keys w) S64 HH _ _ _ _ _ _ (eq_refl : is_legacy (shape s l) = false) E) as (_ & SL & _).
  specialize (SL (CbCoin j) ltac:(discriminate)). unfold prepared in SL. cbn [slot shape set_cin mint_prepare fst coin_inputs s_cin] in SL.
  assert (J : (j < length (attach (g_known w) l))%nat) by (rewrite Lna; apply nth_error_Some; congruence).
  destruct (nth_error (attach (g_known w) l) j) as [x|] eqn:X; [|apply nth_error_None in X; lia]. cbn [option_map] in SL. destruct SL as (us & f' & W & Gf & SB).
  unfold get_ff in Gf. cbn [shape coin_inputs s_cin] in Gf. rewrite Ny in Gf. cbn [option_map] in Gf. injection Gf as <-.
  assert (Bx : blank y = blank x). { apply (f_equal (fun m => nth_error m j)) in Bl. rewrite !nth_error_map, Ny, X in Bl. cbn [option_map] in Bl. congruence. }
  injection Bx as P O.
  eapply (good_step ws w j x0 x y us TP (nth_error_In _ _ N0) (Ga _ _ _ N0 X)); [|exact W|exact P|exact O|intro; reflexivity|exact TS|exact SB].
  intro N. unfold attach in X. rewrite nth_error_map in X. destruct (nth_error l j) as [z|] eqn:Z; [|discriminate]. cbn in X. pose proof (proj1 (G _ _ _ N0 Z)) as Pz. rewrite <- Pz.
  destruct (g_known w (i_parent z)); [injection X as <-; discriminate|reflexivity].
Qed.
Lemma state_turn ws : forall done t t', s_legacy s = false -> s_bin s = [] -> Forall (takes_part H chain s) ws -> state done t -> in_turn H sign ws t t' -> state (done ++ ws) t'.
Proof.
  induction ws as [|w ws IH]; intros done t t' L B F St T; inversion T; subst; [rewrite app_nil_r; exact St|]. inversion F; subst.
  change (w :: ws) with ([w] ++ ws). rewrite app_assoc. eapply IH; [exact L|exact B|assumption| |eassumption].
  eapply state_step; [exact L|exact B|assumption| |eassumption]. match goal with Q : _ \/ _ |- _ => destruct Q as [-> | ->] end; [exact St|apply state_loose; exact St].
Qed.

(** nobody is refused *)
Lemma state_total ws w mc submit t : fits (T1 s) -> s_bin s = [] -> takes_part H chain s w -> state ws t ->
  exists t' r, transaction_sign H sign (g_primary w) (g_keys w) (g_known w) mc submit t = (t', Ok r).
Proof.
  intros F B TP St. pose proof (state_attach _ _ _ St TP) as Sa. destruct St as (l & -> & Ln & _). destruct Sa as (la & Ea & Lna & Ga).
  cbn [set_cin shape s_cin s_legacy s_cout s_bin s_bout s_fees s_data] in Ea. injection Ea as Ea. subst la. destruct TP as (WO & K32 & TP).
  cbn [fits] in F. destruct F as (F1 & F2 & F3 & F4 & F5 & F6 & F7 & F8 & F9 & F10).
  apply (C53_works_partial H sign _ _ S64 HH WO).
  - eapply Forall_impl; [|exact K32]. intros k (K & _). unfold small_key. lia.
  - cbn [fits shape s_legacy s_cin s_bin s_cout s_bout s_fees s_data]. rewrite B in F3. unfold few in F2 |- *. rewrite Ln. repeat (split; [assumption || reflexivity|]). exact F10.
  - reflexivity.
  - reflexivity.
  - unfold prepared. cbn [set_cin shape mint_prepare fst s_cin s_legacy s_cout s_bin s_bout s_fees s_data]. unfold requests. cbn [coin_inputs blockstake_inputs own_requests s_cin s_bin map in_requests bind].
    assert (G : forall m i, (forall x, In x m -> exists us, wanted H (i_ff x) (option_map o_cond (i_out x)) = Ok us) -> is_ok (in_requests H CbCoin i m) = true).
    { induction m as [|x m IH]; intros i Q; [reflexivity|]. cbn [in_requests]. destruct (Q x (or_introl eq_refl)) as (us & W). specialize (IH (Datatypes.S i) (fun z Z => Q z (or_intror Z))).
      destruct (in_requests H CbCoin (Datatypes.S i) m) as [rr|]; [|discriminate]. destruct (i_out x) as [o|]; [|reflexivity]. cbn in W. unfold ff_requests. rewrite W. reflexivity. }
    assert (W : forall x, In x (attach (g_known w) l) -> exists us, wanted H (i_ff x) (option_map o_cond (i_out x)) = Ok us).
    { intros x I. apply In_nth_error in I as (j & X). destruct (nth_error (s_cin s) j) as [x0|] eqn:X0; [|apply nth_error_None in X0; assert (nth_error (attach (g_known w) l) j <> None) by congruence; apply nth_error_Some in H0; lia].
      destruct (Ga _ _ _ X0 X) as (P & o & us & n & ps & M & O & Io & Eff & SE & FS). rewrite Eff. destruct Io as [-> | ->]; [exists []; reflexivity|]. cbn [option_map wanted].
      destruct (wanted_is _ _ _ _ o SE O (proj2 M)) as (rs & A & _). eauto. }
    pose proof (G _ 0%nat W) as G0. destruct (in_requests H CbCoin 0 (attach (g_known w) l)); [reflexivity|discriminate].
  - constructor.
  - intros c ps p ex us S W. change (prepared (g_known w) mc (shape s l)) with (shape s (attach (g_known w) l)) in S.
    destruct c as [j|j| |]; [|destruct j; discriminate|discriminate|discriminate]. cbn [slot shape coin_inputs s_cin] in S. destruct (nth_error (attach (g_known w) l) j) as [x|] eqn:X; [|discriminate]. cbn [option_map] in S. injection S as S1 S2 _.
    destruct (nth_error (s_cin s) j) as [x0|] eqn:X0; [|apply nth_error_None in X0; assert (nth_error (attach (g_known w) l) j <> None) by congruence; apply nth_error_Some in H0; lia].
    destruct (Ga _ _ _ X0 X) as (P & o & os & n & ps' & M & O & Io & Eff & SE & FS). rewrite Eff in S1. injection S1 as ->. subst p.
    assert (KP : Forall key32 (map fst ps)) by (apply Forall_forall; intros k Ik; apply in_map_iff in Ik as (q & <- & Iq); rewrite Forall_forall in FS; exact (proj1 (FS _ Iq))).
    assert (R : exists bs, mapM (pk_unlockhash H) (map fst ps ++ owned H (g_primary w) (g_keys w) us) = Ok bs /\ NoDup bs /\ Forall key32 (map fst ps ++ owned H (g_primary w) (g_keys w) us)).
    { pose proof SE as (as_ & A1 & A2 & A3).
      assert (MM : forall q : list (pubkey * bytes), mapM (fun p => pk_unlockhash H (fst p)) q = mapM (pk_unlockhash H) (map fst q)) by (induction q as [|a q IH]; [reflexivity|cbn; rewrite IH; reflexivity]).
      rewrite MM in A1. destruct Io as [Io|Io]; rewrite Io in W; cbn [option_map wanted] in W.
      - apply ok_inj in W. subst us. cbn [owned flat_map]. rewrite app_nil_r. exists as_. auto.
      - destruct (wanted_is _ _ _ _ o SE O (proj2 M)) as (rs & A & I & ND). rewrite A in W. apply ok_inj in W. subst us.
        destruct (owned_is w rs WO K32) as (bs & M1 & M2 & M3 & M4); [|exact ND|].
        + apply Forall_forall. intros u Iu. apply I in Iu as (Iu & _). destruct O as (_ & O). rewrite Forall_forall in O. exact (O _ Iu).
        + exists (as_ ++ bs). split; [apply mapM_app_ok; assumption|]. split; [|apply Forall_app; auto].
          assert (D : forall u, In u as_ -> ~ In u bs) by (intros u Ia Ib; apply A3 in Ia; apply M3 in Ib as (Ib & _); apply I in Ib; tauto).
          clear -A2 M2 D. induction as_ as [|a m IH]; [exact M2|]. inversion A2; subst. cbn [app]. constructor; [|apply IH; [assumption|intros u Iu; apply D; now right]].
          rewrite in_app_iff. intros [Q|Q]; [contradiction|]. exact (D a (or_introl eq_refl) Q). }
    destruct R as (bs & R1 & R2 & R3). clear -R1 R2 R3. revert bs R1 R2. induction R3 as [|k ks Kk Kks IH]; intros bs R1 R2; [constructor|].
    cbn in R1. apply bind_ok in R1 as (u & U & R1). apply bind_ok in R1 as (r & R & R1). apply ok_inj in R1. subst bs. inversion R2; subst. cbn [map]. constructor; [|exact (IH _ R H3)].
    intro I. apply in_map_iff in I as (k' & E & I). rewrite Forall_forall in Kks. assert (k = k') as <- by (apply pk_str_inj; [exact Kk|exact (Kks _ I)|now symmetry]).
    apply H2. clear -R I U. revert r R. induction ks as [|x ks IH]; intros r R; [destruct I|]. cbn in R. apply bind_ok in R as (v & V & R). apply bind_ok in R as (r' & R' & R). apply ok_inj in R. subst r.
    destruct I as [->|I]; [left; congruence|right; exact (IH I _ R')].
Qed.
End Together.
