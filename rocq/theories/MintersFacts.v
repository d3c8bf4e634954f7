(** Several minters signing one minting transaction. *)
From Verif Require Import Base BaseFacts Encoders Primitive Types Conditions Fulfillments ThreeBotTypes Txn TxnSign Wallet Ops Spec_Types Spec_Fulfil Spec_Txn Spec_Sign Spec_Swap Spec_Ops Spec_Fits Spec_Together Spec_Shared Spec_Minters
  TypesFacts TypesFacts2 ConditionFacts ConditionFacts2 FulfilFacts FulfilFacts2 TxnFacts2 SigTotal SignFacts SignFacts2 SignFacts3 SignFacts4 OpsFacts2 OpsFacts4 SwapFacts Prop_Sign Prop_SwapTwo Prop_SignWorks TogetherFacts JointlyFacts.
From Coq Require Import ZifyBool ZifyNat ZifyN.
Ltac Zify.zify_post_hook ::= Z.div_mod_to_equations.

Section Minters.
Variables (H : bytes -> bytes) (sign : pubkey -> bytes -> bytes).
Hypothesis S64 : forall k h, length (sign k h) = 64%nat.
Hypothesis HH : hash_ok H.
Variable m0 : tx_mint.

Definition mshape (f : option ff) (p : option cond) : txn := TMint (mkmint f (m_new m0) (m_fees m0) (m_data m0) (m_nonce m0) p).
(** the signatures are of those who signed, each once *)
Definition msigned (ts : list turn) (ps : list (pubkey * bytes)) : Prop :=
  exists as_, mapM (fun p => pk_unlockhash H (fst p)) ps = Ok as_ /\ NoDup as_ /\ forall u, In u as_ <-> has_signed H ts u.
Definition msigs (ps : list (pubkey * bytes)) : Prop :=
  Forall (fun p => key32 (fst p) /\ exists d, sig_input H (TMint m0) [XKey (fst p)] = Ok d /\ snd p = sign (fst p) (H d)) ps.
Definition mstate (ts : list turn) (t : txn) : Prop :=
  exists f p ps, t = mshape f p /\ (f = Some (FMulti ps) \/ (f = None /\ ps = [])) /\ msigned ts ps /\ msigs ps.

Lemma mstate_start : blank_mint m0 -> mstate [] (TMint m0).
Proof.
  intro B. exists (m_ff m0), (m_parent m0), []. split; [unfold mshape; destruct m0; reflexivity|]. split; [destruct B as [-> | ->]; auto|]. split; [|constructor].
  exists []. split; [reflexivity|]. split; [constructor|]. intro u. split; [intros []|]. intros (tn & us & n & [] & _).
Qed.
Lemma mstate_received ts t t1 : (t1 = t \/ t1 = received t) -> mstate ts t -> mstate ts t1.
Proof.
  intros Q (f & p & ps & -> & F & MS & MG). destruct Q as [-> | ->]; [exists f, p, ps; auto|]. exists f, None, ps. auto.
Qed.
Lemma mstate_prepared ts t known c us n : mstate ts t -> minters c us n -> exists ps, prepared known (Ok c) t = mshape (Some (FMulti ps)) (Some c) /\ snd (mint_prepare (Ok c) (set_cin t (attach known))) = Ok tt /\ msigned ts ps /\ msigs ps.
Proof.
  intros (f & p & ps & -> & F & MS & MG) (A & _). exists ps. unfold prepared, mshape. cbn [set_cin mint_prepare m_ff].
  destruct F as [-> | (-> & ->)]; [auto|]. rewrite (asks_from _ _ _ A). cbn. auto.
Qed.
Lemma mwanted ts us n c ps : msigned ts ps -> minters c us n ->
  exists rs, ff_asked H (FMulti ps) c = Ok rs /\ (forall u, In u rs <-> In u us /\ ~ has_signed H ts u) /\ NoDup rs /\ Forall (fun u => full_uh u /\ uh_type u <> 0%Z) rs.
Proof.
  intros (as_ & M & ND & I) (A & O). destruct (signers_text H sign S64 HH _ _ M) as (F & T). destruct (asked_multi_is H HH as_ us F (owners_full _ O)) as (rs & E & J & N).
  exists rs. cbn [ff_asked]. rewrite (asks_unwrap _ _ _ A), T. cbn [bind]. split; [exact E|]. split; [|split; [apply N, O|]].
  - intro u. rewrite J, I. tauto.
  - apply Forall_forall. intros u Iu. apply J in Iu as (Iu & _). destruct O as (_ & O). rewrite Forall_forall in O. exact (O _ Iu).
Qed.
Lemma has_signed_app a b u : has_signed H (a ++ b) u <-> has_signed H a u \/ has_signed H b u.
Proof.
  unfold has_signed. split.
  - intros (tn & us & n & I & K). apply in_app_or in I as [I|I]; [left|right]; eauto.
  - intros [(tn & us & n & I & K)|(tn & us & n & I & K)]; exists tn, us, n; (split; [apply in_or_app; auto|exact K]).
Qed.
Lemma has_signed_one w c us n u : minters c us n -> (has_signed H [mkturn w c] u <-> In u us /\ has_key H (g_keys w) u).
Proof.
  intro M. split.
  - intros (tn & us' & n' & [<-|[]] & (A & _) & I & K). cbn [tn_rule tn_who] in *. destruct (asks_same _ _ _ _ _ A (proj1 M)) as (-> & _). auto.
  - intros (I & K). exists (mkturn w c), us, n. split; [now left|]. auto.
Qed.
Lemma msig_same f p xs : sig_input H (mshape f p) xs = sig_input H (TMint m0) xs.
Proof. reflexivity. Qed.

Lemma mstate_step ts w c submit t t' r : proper_turn H (mkturn w c) -> mstate ts t ->
  transaction_sign H sign (g_primary w) (g_keys w) (g_known w) (Ok c) submit t = (t', Ok r) ->
  exists ps, t' = mshape (Some (FMulti ps)) (Some c) /\ msigned (ts ++ [mkturn w c]) ps /\ msigs ps.
Proof.
  intros (WO & K32 & us & n & M) St E. cbn [tn_who tn_rule] in *. destruct (mstate_prepared ts t (g_known w) c us n St M) as (ps & P & _ & MS & MG).
  assert (Lg : is_legacy t = false) by (destruct St as (f & p & ps' & -> & _); reflexivity).
  destruct (sign_slots H sign (g_primary w) (g_keys w) S64 HH _ _ _ _ _ _ Lg E) as (_ & SL & _). specialize (SL CbMint ltac:(discriminate)). rewrite P in SL. cbn [slot mshape m_ff m_parent option_map] in SL.
  destruct SL as (rs & f' & W & G & SB). cbn [wanted] in W. destruct (mwanted ts us n c ps MS M) as (rs' & A & I & ND & FU). rewrite A in W. apply ok_inj in W. subst rs'.
  apply signed_multi in SB as (qs & -> & Mq & Fq).
  assert (U : unsigned t' = unsigned (mshape (Some (FMulti ps)) (Some c))).
  { unfold transaction_sign in E. assert (CI : coin_inputs t = Ok []) by (destruct St as (f & p & ps' & -> & _); reflexivity). rewrite CI in E.
    unfold prepared in P. destruct (mint_prepare (Ok c) (set_cin t (attach (g_known w)))) as [t1 [[]|e]]; [|discriminate E]. cbn [fst] in P. subst t1.
    destruct (requests H (mshape (Some (FMulti ps)) (Some c))) as [q|]; [|inversion E; reflexivity]. destruct q as [|q ql]; [inversion E; reflexivity|].
    destruct (sign_loop H sign (g_primary w) (g_keys w) (q :: ql) (mshape (Some (FMulti ps)) (Some c)) 0) as [t2 [k|e]] eqn:L; apply pair_equal_spec in E as [<- _]; exact (loop_unsigned H sign _ _ _ _ _ _ _ L). }
  assert (Et : t' = mshape (Some (FMulti (ps ++ qs))) (Some c)).
  { destruct t' as [t'|t'|t'|t'|t'|t'|t'|t']; try discriminate U. cbn in U, G. injection U as _ U2 U3 U4 U5 U6. unfold mshape. destruct t' as [a b d e f g]. cbn in *. congruence. }
  exists (ps ++ qs). split; [exact Et|].
  destruct (owned_is H sign S64 HH (fun _ => None) (mksigner (g_primary w) (g_keys w) (g_known w)) rs WO K32 FU ND) as (bs & B1 & B2 & B3 & B4). cbn [g_primary g_keys] in *.
  assert (MM : forall q : list (pubkey * bytes), mapM (fun p => pk_unlockhash H (fst p)) q = mapM (pk_unlockhash H) (map fst q)) by (induction q as [|a q IH]; [reflexivity|cbn; rewrite IH; reflexivity]).
  split.
  - destruct MS as (as_ & A1 & A2 & A3). exists (as_ ++ bs). split; [apply mapM_app_ok; [exact A1|rewrite MM, Mq; exact B1]|].
    assert (D : forall u, In u as_ -> ~ In u bs) by (intros u Ia Ib; apply A3 in Ia; apply B3 in Ib as (Ib & _); apply I in Ib; tauto). split.
    + clear -A2 B2 D. induction as_ as [|a l IH]; [exact B2|]. inversion A2; subst. cbn [app]. constructor; [|apply IH; [assumption|intros u Iu; apply D; now right]].
      rewrite in_app_iff. intros [Q|Q]; [contradiction|]. exact (D a (or_introl eq_refl) Q).
    + intro u. rewrite in_app_iff, A3, B3, I, has_signed_app, (has_signed_one w c us n u M). split; [tauto|]. intros [Q|(Iu & K)]; [tauto|].
      destruct (in_dec (fun a b : uh => ltac:(decide equality; [apply list_eq_dec, N.eq_dec | apply Z.eq_dec])) u as_) as [Ia|Na]; [left; apply A3; exact Ia|].
      right. split; [|exact K]. split; [exact Iu|]. intro Q. apply Na, A3. exact Q.
  - apply Forall_app. split; [exact MG|]. apply Forall_forall. intros q Iq. rewrite Forall_forall in Fq. destruct (Fq _ Iq) as (d & D & Sg). split.
    + rewrite Forall_forall in B4. apply B4. rewrite <- Mq. apply in_map, Iq.
    + exists d. split; [|exact Sg]. exact D.
Qed.
Lemma mstate_turn ts : forall done t t', Forall (proper_turn H) ts -> mstate done t -> minted H sign ts t t' -> mstate (done ++ ts) t'.
Proof.
  induction ts as [|tn ts IH]; intros done t t' F St T; inversion T; subst; [rewrite app_nil_r; exact St|]. inversion F; subst.
  change (mkturn w c :: ts) with ([mkturn w c] ++ ts). rewrite app_assoc. eapply IH; [assumption| |eassumption].
  match goal with E : transaction_sign _ _ _ _ _ _ _ _ = _, Q : _ \/ _ |- _ => pose proof (mstate_received _ _ _ Q St) as S1; destruct (mstate_step done w c submit _ _ _ ltac:(assumption) S1 E) as (ps & -> & MS & MG) end.
  exists (Some (FMulti ps)), (Some c), ps. auto.
Qed.
Lemma msigned_enough ts ps n : msigned ts ps -> ((n <= Z.of_nat (length ps))%Z <-> enough_signed H ts n).
Proof.
  intros (as_ & M & ND & I). pose proof (mapM_ok_length _ _ M) as L. split.
  - intro Q. exists as_. split; [exact ND|]. split; [intro u; apply I|]. lia.
  - intros (held & N & J & Q). assert (X : (length held <= length as_)%nat) by (apply NoDup_incl_length; [exact N|]; intros u Iu; apply I, J, Iu). lia.
Qed.
Lemma mcomplete ts ps c us n : msigned ts ps -> minters c us n -> exists b, t_is_fulfilled (mshape (Some (FMulti ps)) (Some c)) = Ok b /\ (b = true <-> enough_signed H ts n).
Proof.
  intros MS (A & _). exists (n <=? Z.of_nat (length ps))%Z. split.
  - unfold t_is_fulfilled, mshape. cbn [own_is_fulfilled m_parent m_ff ff_is_fulfilled]. rewrite (asks_unwrap _ _ _ A). reflexivity.
  - rewrite <- (msigned_enough _ _ n MS). lia.
Qed.
(** nobody is refused *)
Lemma mstate_total ts w c submit t : fits (TMint m0) -> proper_turn H (mkturn w c) -> mstate ts t ->
  exists t' r, transaction_sign H sign (g_primary w) (g_keys w) (g_known w) (Ok c) submit t = (t', Ok r).
Proof.
  intros Ft (WO & K32 & us & n & M) St. cbn [tn_who tn_rule] in *. destruct (mstate_prepared ts t (g_known w) c us n St M) as (ps & P & Pk & MS & MG).
  destruct (mwanted ts us n c ps MS M) as (rs & A & I & ND & FU).
  apply (C53_works_partial H sign _ _ S64 HH WO).
  - eapply Forall_impl; [|exact K32]. intros k (K & _). unfold small_key. lia.
  - destruct St as (f & p & ps' & -> & _). exact Ft.
  - destruct St as (f & p & ps' & -> & _). reflexivity.
  - exact Pk.
  - rewrite P. unfold requests, mshape. cbn [coin_inputs bind in_requests blockstake_inputs map own_requests m_parent m_ff]. unfold ff_requests. rewrite A. reflexivity.
  - rewrite P. constructor.
  - intros cb qs q ex vs Sl W. rewrite P in Sl. destruct cb as [i|i| |]; [destruct i; discriminate|destruct i; discriminate| |discriminate]. cbn [slot mshape m_ff option_map m_parent] in Sl. injection Sl as E1 E2 _. subst q qs. cbn [wanted] in W.
    rewrite A in W. apply ok_inj in W. subst vs. pose proof MS as (as_ & A1 & A2 & A3).
    assert (MM : forall q : list (pubkey * bytes), mapM (fun p => pk_unlockhash H (fst p)) q = mapM (pk_unlockhash H) (map fst q)) by (induction q as [|a q IH]; [reflexivity|cbn; rewrite IH; reflexivity]).
    rewrite MM in A1. destruct (owned_is H sign S64 HH (fun _ => None) (mksigner (g_primary w) (g_keys w) (g_known w)) rs WO K32 FU ND) as (bs & B1 & B2 & B3 & B4). cbn [g_primary g_keys] in *.
    assert (KP : Forall key32 (map fst ps)) by (apply Forall_forall; intros k Ik; apply in_map_iff in Ik as (q & <- & Iq); unfold msigs in MG; rewrite Forall_forall in MG; exact (proj1 (MG _ Iq))).
    assert (R : exists bs, mapM (pk_unlockhash H) (map fst ps ++ owned H (g_primary w) (g_keys w) rs) = Ok bs /\ NoDup bs /\ Forall key32 (map fst ps ++ owned H (g_primary w) (g_keys w) rs)).
    { exists (as_ ++ bs). split; [apply mapM_app_ok; assumption|]. split; [|apply Forall_app; auto].
      assert (D : forall u, In u as_ -> ~ In u bs) by (intros u Ia Ib; apply A3 in Ia; apply B3 in Ib as (Ib & _); apply I in Ib; tauto).
      clear -A2 B2 D. induction as_ as [|a m IH]; [exact B2|]. inversion A2; subst. cbn [app]. constructor; [|apply IH; [assumption|intros u Iu; apply D; now right]].
      rewrite in_app_iff. intros [Q|Q]; [contradiction|]. exact (D a (or_introl eq_refl) Q). }
    destruct R as (cs & R1 & R2 & R3). clear -R1 R2 R3. revert cs R1 R2. induction R3 as [|k ks Kk Kks IH]; intros bs R1 R2; [constructor|].
    cbn in R1. apply bind_ok in R1 as (u & U & R1). apply bind_ok in R1 as (r & R & R1). apply ok_inj in R1. subst bs. inversion R2; subst. cbn [map]. constructor; [|exact (IH _ R ltac:(assumption))].
    intro I. apply in_map_iff in I as (k' & E & I). rewrite Forall_forall in Kks. assert (k = k') as <- by (apply pk_str_inj; [exact Kk|exact (Kks _ I)|now symmetry]).
    match goal with Q : ~ In u r |- _ => apply Q end. clear -R I U. revert r R. induction ks as [|x ks IH]; intros r R; [destruct I|]. cbn in R. apply bind_ok in R as (v & V & R). apply bind_ok in R as (r' & R' & R). apply ok_inj in R. subst r.
    destruct I as [->|I]; [left; congruence|right; exact (IH I _ R')].
Qed.
End Minters.
