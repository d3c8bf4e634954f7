From Verif Require Import Base BaseFacts Encoders EncodersFacts Primitive Types Conditions Fulfillments Spec_Types Spec_Fulfil
  TypesFacts TypesFacts2 ConditionFacts ConditionFacts2.
From Coq Require Import ZifyBool ZifyNat ZifyN.
Ltac Zify.zify_post_hook ::= Z.div_mod_to_equations.

(** ** signatures *)
Lemma sig_new_eq v : sig_new v = do b <- bd_norm KHex v; do _ <- guard (bd_size_ok (Some 64) b) ValueError; Ok b.
Proof.
  unfold sig_new, bd_new. change (strkind_of (Some (s2b "hex"))) with (Ok KHex). cbn [bind guard].
  change (0 <=? 64)%Z with true. cbn [guard bind]. unfold bd_set. cbn [bd_enc bd_size].
  change (bd_kind (Some (s2b "hex"))) with KHex. destruct (bd_norm KHex v) as [b|e]; [|reflexivity]. cbn [bind].
  change (Z.to_N 64) with 64. destruct (bd_size_ok (Some 64) b); reflexivity.
Qed.
Lemma size64 b : bd_size_ok (Some 64) b = true <-> b = [] \/ length b = 64%nat.
Proof.
  unfold bd_size_ok, lenN. split; intros G.
  - destruct b; [auto|]. right. cbn [length] in *. lia.
  - destruct G as [->|G]; [reflexivity|]. lia.
Qed.
Lemma sig_new_ok v b : sig_new v = Ok b <-> bd_norm KHex v = Ok b /\ (b = [] \/ length b = 64%nat).
Proof.
  rewrite sig_new_eq. split.
  - intros E. apply bind_ok in E as (x & E1 & E). apply bind_ok in E as (u & E2 & E). apply ok_inj in E. subst x.
    apply guard_ok in E2. rewrite size64 in E2. auto.
  - intros [E G]. rewrite E. cbn [bind]. apply size64 in G. rewrite G. reflexivity.
Qed.
Lemma sig_new_bytes s : length s = 64%nat -> sig_new (BVBytes s) = Ok s.
Proof. intros L. apply sig_new_ok. auto. Qed.
Lemma sig_json_rt s : sig64 s \/ s = [] -> sig_from_json (sig_json s) = Ok s.
Proof.
  intros [[L W]| ->]; [|reflexivity]. unfold sig_from_json, sig_json.
  destruct (hex s) as [|c t] eqn:E; [destruct s; discriminate|]. rewrite <- E.
  apply sig_new_ok. cbn [bd_norm from_str]. rewrite unhex_hex by exact W. auto.
Qed.
Lemma secret_new_hex s : hash32 s -> secret_new (BVStr (hex s)) = Ok s.
Proof. exact (hash_new_hex s). Qed.

(** ** requests *)
Lemma fulfil_check_ok H r pk p : fulfil_check H r pk = Ok p ->
  rq_signed r = false /\ pk = Some p /\ (uh_type (rq_uh r) = 0%Z \/ owns H p (rq_uh r)).
Proof.
  unfold fulfil_check. intros E. apply bind_ok in E as (u & G & E). apply guard_ok in G.
  apply Bool.negb_true_iff in G. split; [exact G|]. destruct pk as [q|]; [|discriminate].
  apply bind_ok in E as (a & Ea & E). destruct (uh_type (rq_uh r) =? 0)%Z eqn:Z0.
  - apply ok_inj in E. subst q. split; [reflexivity|]. left. lia.
  - apply bind_ok in E as (w & Ew & E). apply bind_ok in E as (u' & G' & E). apply ok_inj in E. subst q.
    split; [reflexivity|]. right. apply guard_ok in G'. apply listN_eqb_eq in G'. subst w. exists a. auto.
Qed.
Lemma fulfil_check_complete H r p a : rq_signed r = false -> pk_address H p = Ok a ->
  (uh_type (rq_uh r) = 0%Z \/ uh_str H (rq_uh r) = Ok a) -> fulfil_check H r (Some p) = Ok p.
Proof.
  intros S0 A O. unfold fulfil_check. rewrite S0. cbn [negb guard bind]. rewrite A. cbn [bind].
  destruct (uh_type (rq_uh r) =? 0)%Z eqn:Z0; [reflexivity|]. destruct O as [O|O]; [lia|].
  rewrite O. cbn [bind]. rewrite listN_eqb_refl. reflexivity.
Qed.

Lemma fulfil_accepted H r f pk v r' f' : fulfil H r f pk v = (r', f', Ok tt) ->
  rq_signed r = false /\ rq_signed r' = true /\ rq_uh r' = rq_uh r /\
  exists p, pk = Some p /\ (uh_type (rq_uh r) = 0%Z \/ owns H p (rq_uh r)) /\ signature_add f p v = (f', Ok tt).
Proof.
  unfold fulfil. destruct (fulfil_check H r pk) as [p|e] eqn:C; [|discriminate].
  apply fulfil_check_ok in C as (S0 & -> & O). destruct (signature_add f p v) as [f1 [[]|e]] eqn:A; [|discriminate].
  intros E. inversion E; subst. repeat split; auto. exists p. auto.
Qed.

Lemma signature_add_err f p v f' e : signature_add f p v = (f', Err e) ->
  signatures f' = signatures f /\ (is_ok (opt_sig v) = true -> f' = f).
Proof.
  destruct f as [q sg|q sg se|ps]; cbn [signature_add].
  - destruct (opt_sig v) as [s|e0]; [discriminate|]. intros E. inversion E; subst. split; [reflexivity|]. discriminate.
  - destruct (opt_sig v) as [s|e0]; [discriminate|]. intros E. inversion E; subst. split; [reflexivity|]. discriminate.
  - destruct (existsb _ ps); [intros E; inversion E; subst; auto|].
    destruct (pair_sig v) as [s|e0]; [discriminate|]. intros E; inversion E; subst; auto.
Qed.

Lemma fulfil_refused H r f pk v r' f' e : fulfil H r f pk v = (r', f', Err e) ->
  r' = r /\ signatures f' = signatures f /\ (is_ok (opt_sig v) = true -> f' = f).
Proof.
  unfold fulfil. destruct (fulfil_check H r pk) as [p|e0] eqn:C.
  - destruct (signature_add f p v) as [f1 [[]|e1]] eqn:A; [discriminate|]. intros E. inversion E; subst.
    apply signature_add_err in A as [A1 A2]. auto.
  - intros E; inversion E; subst. auto.
Qed.
Lemma fulfil_not_owner H r f p v : uh_type (rq_uh r) <> 0%Z -> ~ owns H p (rq_uh r) ->
  exists e, fulfil H r f (Some p) v = (r, f, Err e).
Proof.
  intros NZ NO. unfold fulfil. destruct (fulfil_check H r (Some p)) as [q|e] eqn:C; [|eauto].
  apply fulfil_check_ok in C as (_ & E & [O|O]); [lia|]. inversion E; subst. contradiction.
Qed.
Lemma fulfil_used H r f pk v : rq_signed r = true -> fulfil H r f pk v = (r, f, Err DoubleSignError).
Proof. intros S0. unfold fulfil, fulfil_check. rewrite S0. reflexivity. Qed.

Lemma fulfil_total H r f p s : rq_signed r = false -> owns H p (rq_uh r) -> length s = 64%nat ->
  (forall ps, f = FMulti ps -> ~ In (pk_str p) (map (fun q => pk_str (fst q)) ps)) ->
  exists f', fulfil H r f (Some p) (BVBytes s) = (mkrq (rq_uh r) true, f', Ok tt) /\
  match f with
  | FSingle _ _ => f' = FSingle p (Some s)
  | FSwap _ _ se => f' = FSwap p (Some s) se
  | FMulti ps => f' = FMulti (ps ++ [(p, s)])
  end.
Proof.
  intros S0 (a & A & U) L N. unfold fulfil. rewrite (fulfil_check_complete _ _ _ a) by auto.
  destruct f as [q sg|q sg se|ps]; cbn [signature_add opt_sig pair_sig]; rewrite (sig_new_bytes _ L); cbn [bind]; eauto.
  replace (existsb _ ps) with false; [eauto|]. symmetry. apply Bool.not_true_iff_false. rewrite existsb_exists.
  intros ((q & s') & I & E). cbn [fst] in E. apply listN_eqb_eq in E. apply (N ps eq_refl). rewrite <- E.
  apply in_map_iff. exists (q, s'). auto.
Qed.

(** *** histories *)
Lemma upd_length {A} (l : list A) i x : length (upd l i x) = length l.
Proof. revert i; induction l as [|y l IH]; intros [|i]; cbn; auto. Qed.
Lemma upd_same {A} (l : list A) i x y : nth_error l i = Some y -> nth_error (upd l i x) i = Some x.
Proof. revert i; induction l as [|z l IH]; intros [|i]; cbn; try discriminate; auto. Qed.
Lemma upd_other {A} (l : list A) i j x : i <> j -> nth_error (upd l i x) j = nth_error l j.
Proof. revert i j; induction l as [|z l IH]; intros [|i] [|j] N; cbn; auto; congruence. Qed.

Definition used (st : sstate) (i : nat) : nat :=
  match nth_error (fst st) i with Some r => if rq_signed r then 1 else 0 | None => 0 end%nat.

Lemma sstep_used H c st o st' a i : sstep H c st o = (st', a) ->
  (match o, a with Try j _ _, Some (Ok _) => if (i =? j)%nat then 1 else 0 | _, _ => 0 end + used st i <= used st' i)%nat.
Proof.
  destruct st as [rs f]. destruct o as [|j pk v]; cbn [sstep fst snd].
  - destruct (ff_requests H f c) as [l|e]; intros E; inversion E; subst; [|lia].
    unfold used. cbn [fst]. destruct (nth_error rs i) as [r|] eqn:G; [|lia].
    rewrite nth_error_app1, G by (apply nth_error_Some; congruence). lia.
  - destruct (nth_error rs j) as [r|] eqn:G; [|intros E; inversion E; subst; lia].
    destruct (fulfil H r f pk v) as [[r' f'] a0] eqn:F. intros E; inversion E; subst. unfold used. cbn [fst].
    destruct a0 as [[]|e].
    + apply fulfil_accepted in F as (S0 & S1 & _). destruct (i =? j)%nat eqn:IJ.
      * apply Nat.eqb_eq in IJ. subst j. rewrite (upd_same _ _ _ _ G), G, S0, S1. lia.
      * rewrite upd_other by lia. lia.
    + apply fulfil_refused in F as (-> & _). destruct (Nat.eq_dec j i) as [->|N].
      * rewrite (upd_same _ _ _ _ G), G. lia.
      * rewrite upd_other by exact N. lia.
Qed.
Lemma srun_once H c os : forall st st' t i, srun H c st os = (st', t) -> (accepted i t + used st i <= used st' i)%nat.
Proof.
  induction os as [|o os IH]; intros st st' t i E; cbn [srun] in E.
  - inversion E; subst. cbn. lia.
  - destruct (sstep H c st o) as [st1 a] eqn:S1. destruct (srun H c st1 os) as [st2 t1] eqn:R. inversion E; subst.
    apply (sstep_used _ _ _ _ _ _ i) in S1. apply (IH _ _ _ i) in R. cbn [accepted].
    destruct o as [|j pk v]; [lia|]. destruct a as [[[]|e]|]; lia.
Qed.
Lemma used_le1 st i : (used st i <= 1)%nat.
Proof. unfold used. destruct (nth_error _ _) as [r|]; [destruct (rq_signed r)|]; lia. Qed.
Lemma srun_at_most_once H c os st st' t i : srun H c st os = (st', t) -> (accepted i t <= 1)%nat.
Proof. intros R. apply (srun_once _ _ _ _ _ _ i) in R. pose proof (used_le1 st' i). lia. Qed.
