From Verif Require Import Base BaseFacts Encoders EncodersFacts Primitive Types Conditions Fulfillments Spec_Types Spec_Fulfil
  TypesFacts TypesFacts2 ConditionFacts ConditionFacts2 FulfilFacts.
From Coq Require Import ZifyBool ZifyNat ZifyN.
Ltac Zify.zify_post_hook ::= Z.div_mod_to_equations.

(** ** C20: histories of a multi-signature input *)
Definition text_of (p : pubkey * bytes) : pystr := pk_str (fst p).

Definition minv (H : bytes -> bytes) (us : list uh) (st : sstate) : Prop :=
  Forall (fun r => In (rq_uh r) us) (fst st) /\
  exists ps, snd st = FMulti ps /\ NoDup (map text_of ps) /\
  Forall (fun p => exists u, In u us /\ (uh_type u = 0%Z \/ owns H (fst p) u)) ps.

Lemma ff_asked_multi H ps c us n rs : cond_unwrap c = CMulti us n -> ff_asked H (FMulti ps) c = Ok rs ->
  forall u, In u rs -> In u us.
Proof.
  intros C. cbn [ff_asked]. rewrite C. intros E. apply bind_ok in E as (sg & _ & E). clear C. revert rs E.
  induction us as [|u us IH]; intros rs E w I; cbn [asked_multi] in E.
  - apply ok_inj in E. subst. contradiction.
  - apply bind_ok in E as (a & _ & E). apply bind_ok in E as (r & R & E). apply ok_inj in E. subst rs.
    destruct (existsb (listN_eqb a) sg); [right; eauto|]. destruct I as [->|I]; [left; reflexivity | right; eauto].
Qed.

Lemma Forall_upd {A} (P : A -> Prop) l i x : Forall P l -> P x -> Forall P (upd l i x).
Proof.
  revert i; induction l as [|y l IH]; intros [|i] F Px; cbn; auto; inversion F; subst; constructor; auto.
Qed.

Lemma NoDup_snoc {A} (l : list A) x : NoDup l -> ~ In x l -> NoDup (l ++ [x]).
Proof.
  intros N I. apply NoDup_rev in N. rewrite <- (rev_involutive (l ++ [x])). apply NoDup_rev.
  rewrite rev_app_distr. cbn. constructor; [rewrite <- in_rev; exact I | exact N].
Qed.

Lemma minv_step H c us n st o st' a : cond_unwrap c = CMulti us n -> minv H us st -> sstep H c st o = (st', a) -> minv H us st'.
Proof.
  intros C (FR & ps & Ef & ND & FO). destruct st as [rs f]. cbn [fst snd] in *. subst f.
  destruct o as [|i pk v]; cbn [sstep fst snd].
  - unfold ff_requests. destruct (ff_asked H (FMulti ps) c) as [l|e] eqn:A; cbn [bind]; intros E; inversion E; subst.
    + split; [|exists ps; auto]. cbn [fst]. apply Forall_app. split; [exact FR|]. apply Forall_forall. intros r I.
      apply in_map_iff in I as (u & <- & I). cbn. eapply ff_asked_multi; eauto.
    + split; [exact FR | exists ps; auto].
  - destruct (nth_error rs i) as [r|] eqn:G; [|intros E; inversion E; subst; split; [exact FR | exists ps; auto]].
    assert (Ir : In (rq_uh r) us) by (rewrite Forall_forall in FR; apply FR; eapply nth_error_In; eauto).
    destruct (fulfil H r (FMulti ps) pk v) as [[r' f'] a0] eqn:F. intros E; inversion E; subst. unfold minv. cbn [fst snd].
    destruct a0 as [[]|e].
    + apply fulfil_accepted in F as (_ & _ & U & p & -> & O & SA). cbn [signature_add] in SA.
      destruct (existsb _ ps) eqn:EX; [discriminate|]. destruct (pair_sig v) as [s|e0]; [|discriminate].
      inversion SA; subst f'. split; [apply Forall_upd; [exact FR | rewrite U; exact Ir]|].
      exists (ps ++ [(p, s)]). split; [reflexivity|]. split.
      * rewrite map_app. apply NoDup_snoc; [exact ND|]. intros I. apply in_map_iff in I as (q & Eq & I).
        apply Bool.not_true_iff_false in EX. apply EX. apply existsb_exists. exists q. split; [exact I|].
        apply listN_eqb_eq. exact Eq.
      * apply Forall_app. split; [exact FO|]. constructor; [|constructor]. exists (rq_uh r). auto.
    + unfold fulfil in F. destruct (fulfil_check H r pk) as [p|e1].
      * cbn [signature_add] in F. destruct (existsb _ ps); [inversion F; subst|destruct (pair_sig v); inversion F; subst];
          (split; [apply Forall_upd; [exact FR | exact Ir] | exists ps; auto]).
      * inversion F; subst. split; [apply Forall_upd; [exact FR | exact Ir] | exists ps; auto].
Qed.

Lemma minv_run H c us n os : cond_unwrap c = CMulti us n -> forall st st' t, minv H us st -> srun H c st os = (st', t) -> minv H us st'.
Proof.
  intros C. induction os as [|o os IH]; intros st st' t I E; cbn [srun] in E.
  - inversion E; subst. exact I.
  - destruct (sstep H c st o) as [st1 a] eqn:S1. destruct (srun H c st1 os) as [st2 t1] eqn:R. inversion E; subst.
    eapply IH; [|exact R]. eapply minv_step; eauto.
Qed.

Lemma multi_history H c us n os st t : cond_unwrap c = CMulti us n -> srun H c ([], FMulti []) os = (st, t) ->
  exists ps, snd st = FMulti ps /\ NoDup (map fst ps) /\
  Forall (fun p => exists u, In u us /\ (uh_type u = 0%Z \/ owns H (fst p) u)) ps /\
  ff_is_fulfilled (snd st) c = Ok (n <=? Z.of_nat (length ps))%Z.
Proof.
  intros C R. assert (I : minv H us ([], FMulti [])) by (split; [constructor | exists []; repeat constructor]).
  apply (minv_run _ _ _ _ _ C _ _ _ I) in R as (_ & ps & E & ND & FO). exists ps. split; [exact E|]. split.
  - unfold text_of in ND. rewrite <- (map_map fst pk_str) in ND. apply NoDup_map_inv in ND. exact ND.
  - split; [exact FO|]. rewrite E. cbn [ff_is_fulfilled]. rewrite C. reflexivity.
Qed.

Lemma multi_history_owned H c us n os st t : cond_unwrap c = CMulti us n -> Forall (fun u => uh_type u <> 0%Z) us ->
  srun H c ([], FMulti []) os = (st, t) ->
  NoDup (signers (snd st)) /\ Forall (fun p => Exists (owns H p) us) (signers (snd st)) /\
  ff_is_fulfilled (snd st) c = Ok (n <=? Z.of_nat (length (signatures (snd st))))%Z.
Proof.
  intros C NZ R. destruct (multi_history _ _ _ _ _ _ _ C R) as (ps & E & ND & FO & FF). rewrite FF. rewrite E.
  cbn [signers signatures]. rewrite map_length. split; [exact ND|]. split; [|reflexivity].
  apply Forall_map. eapply Forall_impl; [|exact FO]. intros p (u & I & O). apply Exists_exists. exists u. split; [exact I|].
  destruct O as [O|O]; [|exact O]. rewrite Forall_forall in NZ. apply NZ in I. contradiction.
Qed.

(** *** completeness: owners that all sign *)
Lemma asked_fresh H us n c : cond_unwrap c = CMulti us n -> Forall (fun u => is_ok (uh_str H u) = true) us ->
  ff_requests H (FMulti []) c = Ok (map (fun u => mkrq u false) us).
Proof.
  intros C F. unfold ff_requests. cbn [ff_asked]. rewrite C. cbn [mapM bind].
  assert (G : asked_multi H [] us = Ok us); [|rewrite G; reflexivity]. clear C.
  induction F as [|u us E F IH]; [reflexivity|]. cbn [asked_multi]. destruct (uh_str H u) as [a|]; [|discriminate]. cbn [bind].
  rewrite IH. reflexivity.
Qed.

Fixpoint tries (i : nat) (ks : list (pubkey * bytes)) : list sop :=
  match ks with [] => [] | (p, s) :: ks => Try i (Some p) (BVBytes s) :: tries (S i) ks end.

Lemma tries_run H c ks : forall (pre : list request) us ps, Forall2 (fun k u => owns H (fst k) u) ks us ->
  Forall (fun k => length (snd k) = 64%nat) ks -> NoDup (map text_of (ps ++ ks)) ->
  exists rs t, srun H c (pre ++ map (fun u => mkrq u false) us, FMulti ps) (tries (length pre) ks) = ((pre ++ rs, FMulti (ps ++ ks)), t).
Proof.
  induction ks as [|[p s] ks IH]; intros pre us ps F2 FL ND.
  - inversion F2; subst. cbn. rewrite !app_nil_r. exists [], []. rewrite app_nil_r. reflexivity.
  - inversion F2 as [|? u ? us' O F2']; subst. inversion FL as [|? ? L FL']; subst. cbn [fst snd] in *.
    cbn [tries srun sstep fst snd map]. rewrite nth_error_app2, Nat.sub_diag by lia. cbn [nth_error].
    destruct (fulfil_total H (mkrq u false) (FMulti ps) p s eq_refl O L) as (f' & FU & ->).
    { intros ps' E. inversion E; subst ps'. rewrite map_app in ND. cbn [map] in ND. apply NoDup_remove_2 in ND. intros I.
      apply ND. apply in_or_app. left. exact I. }
    rewrite FU. cbn [rq_uh]. set (r1 := mkrq u true).
    assert (EU : upd (pre ++ mkrq u false :: map (fun u0 => mkrq u0 false) us') (length pre) r1
                 = (pre ++ [r1]) ++ map (fun u0 => mkrq u0 false) us').
    { rewrite <- app_assoc. cbn. clear. induction pre as [|x pre IH]; cbn; [reflexivity | rewrite IH; reflexivity]. }
    rewrite EU. replace (S (length pre)) with (length (pre ++ [r1])) by (rewrite app_length; cbn; lia).
    destruct (IH (pre ++ [r1]) us' (ps ++ [(p, s)]) F2' FL') as (rs & t & R).
    { rewrite <- app_assoc. exact ND. }
    match goal with |- context [srun H c ?a ?b] =>
      replace (srun H c a b) with ((pre ++ [r1]) ++ rs, FMulti ((ps ++ [(p, s)]) ++ ks), t) by (symmetry; exact R) end.
    exists (r1 :: rs), ((Try (length pre) (Some p) (BVBytes s), Some (Ok tt)) :: t).
    rewrite <- !app_assoc. reflexivity.
Qed.

Lemma owns_str_ok H p u : owns H p u -> is_ok (uh_str H u) = true.
Proof. intros (a & _ & E). rewrite E. reflexivity. Qed.

Lemma multi_all_sign H c us n ks : cond_unwrap c = CMulti us n -> (n <= Z.of_nat (length us))%Z ->
  Forall2 (fun k u => owns H (fst k) u) ks us -> Forall (fun k => length (snd k) = 64%nat) ks ->
  NoDup (map (fun k => pk_str (fst k)) ks) ->
  exists os st t, srun H c ([], FMulti []) os = (st, t) /\ snd st = FMulti ks /\ ff_is_fulfilled (snd st) c = Ok true.
Proof.
  intros C N F2 FL ND. exists (Ask :: tries 0 ks).
  destruct (tries_run H c ks [] us [] F2 FL ND) as (rs & t & R). cbn [app length] in R.
  exists (rs, FMulti ks), ((Ask, None) :: t). split.
  - cbn [srun sstep fst snd]. rewrite (asked_fresh _ us n); [|exact C|].
    + match goal with |- context [srun H c ?a ?b] =>
        replace (srun H c a b) with (rs, FMulti ks, t) by (symmetry; exact R) end. reflexivity.
    + clear -F2. induction F2 as [|k u ks us O F IH]; constructor; eauto using owns_str_ok.
  - split; [reflexivity|]. cbn [snd ff_is_fulfilled]. rewrite C. f_equal. apply Forall2_length in F2. unfold bytes in *. lia.
Qed.

(** ** C21 *)
Lemma jpair_rt p s l : key32 p -> sig64 s \/ s = [] -> jpair_from (JObj (jpair (p, s) ++ l)) = Ok (p, s).
Proof.
  intros K S0. unfold jpair_from, jpair. cbn [fst snd app jget]. cbn [jfind String.eqb Ascii.eqb Bool.eqb]. cbn [bind].
  rewrite (pk_round_trip _ K). cbn [bind]. rewrite (sig_json_rt _ S0). reflexivity.
Qed.
Lemma jpairs_rt ps : Forall (fun p => key32 (fst p) /\ (sig64 (snd p) \/ snd p = [])) ps ->
  mapM jpair_from (map (fun p => JObj (jpair p)) ps) = Ok ps.
Proof.
  induction 1 as [|[p s] ps [K S0] F IH]; [reflexivity|]. cbn [map mapM]. rewrite <- (app_nil_r (jpair (p, s))).
  rewrite jpair_rt by assumption. cbn [bind]. rewrite IH. reflexivity.
Qed.

Lemma ff_json_rt f : signed_ff f -> ff_from_json (ff_json f) = Ok f.
Proof.
  intros S0. unfold ff_from_json, ff_json. cbn [jget_d jfind String.eqb Ascii.eqb Bool.eqb bind].
  destruct f as [p [s|]|p [s|] se|ps]; cbn [signed_ff] in S0; try contradiction; cbn [ff_type odef].
  - change (jeq_int (JNum 1) 1) with true. cbn beta iota. rewrite <- (app_nil_r (jpair (p, s))).
    destruct S0 as [K S0]. rewrite jpair_rt by auto. reflexivity.
  - change (jeq_int (JNum 2) 1) with false. change (jeq_int (JNum 2) 3) with false. change (jeq_int (JNum 2) 2) with true.
    cbn beta iota. destruct S0 as (K & S0 & SE). destruct se as [x|].
    + rewrite jpair_rt by auto. cbn [bind fst snd]. unfold jhas, jpair. cbn [fst snd app].
      cbn [jget jfind String.eqb Ascii.eqb Bool.eqb bind]. cbn [secret_from_json].
      rewrite (secret_new_hex _ (SE x eq_refl)). reflexivity.
    + rewrite <- (app_nil_r (jpair (p, s))). rewrite jpair_rt by auto. reflexivity.
  - change (jeq_int (JNum 3) 1) with false. change (jeq_int (JNum 3) 3) with true. cbn beta iota.
    cbn [jget jfind String.eqb Ascii.eqb Bool.eqb bind jelems]. rewrite (jpairs_rt _ S0). reflexivity.
Qed.

Lemma ff_json_unsigned_refuted : exists f g c, from_condition c = Ok f /\ ff_from_json (ff_json f) = Ok g /\
  ff_is_fulfilled f c = Ok false /\ ff_is_fulfilled g c = Ok true.
Proof.
  exists (FSingle pk_default None), (FSingle (mkpk PKNil (zeros 32)) (Some [])), (CUnlockHash (ex_uh 1 7)).
  vm_compute. auto.
Qed.
(** Two pairs with the same key are accepted from JSON and count twice. *)
Lemma ff_json_duplicate : exists j f c us, ff_from_json j = Ok f /\ c = CMulti us 2 /\ ff_is_fulfilled f c = Ok true /\
  exists p, forall q, In q (signers f) -> q = p.
Proof.
  set (p := mkpk PKEd25519 (repeat 7 32)). set (f := FMulti [(p, repeat 1 64); (p, repeat 1 64)]).
  exists (ff_json f), f, (CMulti [ex_uh 1 1; ex_uh 1 2] 2), [ex_uh 1 1; ex_uh 1 2].
  split; [apply ff_json_rt; unfold f; cbn; repeat constructor; unfold key32; cbn; try (apply hash32_repeat; lia);
          left; (split; [reflexivity | apply Forall_forall; intros y Hy; apply (repeat_spec 64 1 y) in Hy; lia])|].
  split; [reflexivity|]. split; [reflexivity|]. exists p. cbn. intuition.
Qed.

(** ** counterexamples for C19/C20 *)
(** A refused signature (63 bytes) leaves the key behind: no new request is issued and the input stays unsigned. *)
Lemma bad_signature_refuted : exists H c f0 r p f1, hash_ok H /\ from_condition c = Ok f0 /\ ff_requests H f0 c = Ok [r] /\
  fulfil H r f0 (Some p) (BVBytes (repeat 1 63)) = (r, f1, Err ValueError) /\ f1 <> f0 /\
  ff_is_fulfilled f1 c = Ok false /\ ff_requests H f1 c = Ok [].
Proof.
  set (p := mkpk PKEd25519 (repeat 7 32)).
  destruct (pk_unlockhash ex_H p) as [u|e] eqn:E; [|discriminate E]. vm_compute in E. apply ok_inj in E.
  exists ex_H, (CUnlockHash u), (FSingle pk_default None), (mkrq u false), p, (FSingle p None). subst u.
  split; [exact ex_H_ok|]. repeat split; try (vm_compute; reflexivity). unfold p. discriminate.
Qed.

Lemma nil_owner_refuted : exists H us c os p, hash_ok H /\ c = CMulti us 1 /\
  ff_is_fulfilled (snd (fst (srun H c ([], FMulti []) os))) c = Ok true /\
  signers (snd (fst (srun H c ([], FMulti []) os))) = [p] /\ Forall (fun u => ~ owns H p u) us.
Proof.
  set (p := mkpk PKEd25519 (repeat 7 32)).
  exists ex_H, [mkuh 0 (zeros 32)], (CMulti [mkuh 0 (zeros 32)] 1), [Ask; Try 0 (Some p) (BVBytes (repeat 1 64))], p.
  split; [exact ex_H_ok|]. split; [reflexivity|]. split; [vm_compute; reflexivity|]. split; [vm_compute; reflexivity|].
  constructor; [|constructor]. intros (a & A & B). vm_compute in A, B. apply ok_inj in A. apply ok_inj in B. congruence.
Qed.
