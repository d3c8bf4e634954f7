(** Facts about wallet balances: dictionaries, the history of observations (C30, C32), locks (C31), merging (C33). *)
From Verif Require Import Base BaseFacts Encoders Primitive Types Conditions Fulfillments ThreeBotTypes Txn Wallet Spec_Wallet.
From Coq Require Import ZifyBool ZifyNat ZifyN.
Ltac Zify.zify_post_hook ::= Z.div_mod_to_equations.

(** ** Dictionaries *)
Section D.
Context {A : Type}.
Implicit Types d e : dict A.
Definition keys d := map fst d.
Lemma listN_cases (a b : list N) : (listN_eqb a b = true /\ a = b) \/ (listN_eqb a b = false /\ a <> b).
Proof. destruct (listN_eqb a b) eqn:E; [left|right]; split; auto; [apply listN_eqb_eq|apply listN_eqb_neq]; auto. Qed.
Lemma dset_keys d k x j : In j (keys (dset d k x)) <-> j = k \/ In j (keys d).
Proof.
  induction d as [|[i y] d IH]; cbn; [intuition congruence|]. destruct (listN_cases k i) as [[-> <-]|[-> Hne]]; cbn; [intuition congruence|].
  unfold keys in IH. rewrite IH. tauto.
Qed.
Lemma dset_nodup d k x : NoDup (keys d) -> NoDup (keys (dset d k x)).
Proof.
  induction d as [|[i y] d IH]; cbn; intro N.
  - constructor; [easy|constructor].
  - inversion_clear N as [|? ? N1 N2]. destruct (listN_cases k i) as [[-> <-]|[-> Hne]]; cbn; constructor; auto.
    intro I. apply (dset_keys d k x) in I as [->|I]; [now apply Hne|auto].
Qed.
Lemma dpop_keys d k j : NoDup (keys d) -> (In j (keys (dpop d k)) <-> j <> k /\ In j (keys d)).
Proof.
  induction d as [|[i y] d IH]; cbn; intro N; [tauto|]. inversion_clear N as [|? ? N1 N2].
  destruct (listN_cases k i) as [[-> <-]|[-> Hne]]; cbn.
  - split; [|intros [E [->|I]]; [now elim E|auto]]. intro I. split; [|tauto]. intros ->. auto.
  - unfold keys in IH. rewrite (IH N2). split; [intros [->|[E I]]; [split; [congruence|auto]|tauto]|intros [E [->|I]]; tauto].
Qed.
Lemma dpop_nodup d k : NoDup (keys d) -> NoDup (keys (dpop d k)).
Proof.
  induction d as [|[i y] d IH]; cbn; intro N; [constructor|]. inversion_clear N as [|? ? N1 N2].
  destruct (listN_cases k i) as [[-> <-]|[-> Hne]]; cbn; auto. constructor; auto.
  intro I. apply (dpop_keys d k i N2) in I. tauto.
Qed.
Lemma din_keys d k : din d k = true <-> In k (keys d).
Proof.
  unfold din. induction d as [|[i y] d IH]; cbn; [easy|]. destruct (listN_cases k i) as [[-> <-]|[-> Hne]]; [tauto|].
  unfold keys in IH. rewrite IH. split; [tauto|]. intros [->|I]; [now elim Hne|auto].
Qed.
Lemma din_keys_f d k : din d k = false <-> ~ In k (keys d).
Proof. rewrite <- din_keys. destruct (din d k); split; congruence. Qed.
Lemma dget_in d k x : dget d k = Some x -> In (k, x) d.
Proof.
  induction d as [|[i y] d IH]; cbn; [easy|]. destruct (listN_cases k i) as [[-> <-]|[-> Hne]]; [|auto].
  intro E; injection E as ->; auto.
Qed.
Lemma dget_some d k : In k (keys d) <-> exists x, dget d k = Some x.
Proof. rewrite <- din_keys. unfold din. destruct (dget d k) as [x|]; split; try easy; [eauto|]. intros [x E]; easy. Qed.
Lemma dget_none d k : ~ In k (keys d) <-> dget d k = None.
Proof. rewrite dget_some. destruct (dget d k); split; try easy; [intro E; elim E; eauto|intros _ [x E]; easy]. Qed.
Lemma in_dget d k x : NoDup (keys d) -> In (k, x) d -> dget d k = Some x.
Proof.
  induction d as [|[i y] d IH]; cbn; intros N I; [easy|]. inversion_clear N as [|? ? N1 N2].
  destruct (listN_cases k i) as [[-> <-]|[-> Hne]].
  - destruct I as [I|I]; [now injection I as ->|]. elim N1. now apply (in_map fst) in I.
  - destruct I as [I|I]; [now injection I as ->|auto].
Qed.
Lemma dget_dset d k x j : dget (dset d k x) j = if listN_eqb j k then Some x else dget d j.
Proof.
  induction d as [|[i y] d IH]; cbn; [easy|]. destruct (listN_cases k i) as [[-> <-]|[-> Hne]]; cbn.
  - destruct (listN_eqb j k); auto.
  - rewrite IH. destruct (listN_cases j i) as [[-> ->]|[-> Hj]]; auto.
    destruct (listN_cases i k) as [[_ ->]|[-> _]]; [now elim Hne|auto].
Qed.
Lemma dget_dpop d k j : NoDup (keys d) -> dget (dpop d k) j = if listN_eqb j k then None else dget d j.
Proof.
  induction d as [|[i y] d IH]; cbn; intro N; [now destruct (listN_eqb j k)|]. inversion_clear N as [|? ? N1 N2].
  destruct (listN_cases k i) as [[-> <-]|[-> Hne]]; cbn.
  - destruct (listN_cases j k) as [[-> ->]|[-> Hj]]; auto. now apply dget_none.
  - rewrite (IH N2). destruct (listN_cases j i) as [[-> ->]|[-> Hj]]; auto.
    destruct (listN_cases i k) as [[_ ->]|[-> _]]; [now elim Hne|auto].
Qed.
Lemma dget_dmerge e d j : NoDup (keys e) -> dget (dmerge d e) j = match dget e j with Some x => Some x | None => dget d j end.
Proof.
  unfold dmerge. revert d. induction e as [|[i y] e IH]; intros d N; cbn; [easy|]. inversion_clear N as [|? ? N1 N2].
  rewrite (IH _ N2), dget_dset. destruct (listN_cases j i) as [[-> ->]|[-> Hj]]; [|auto].
  apply dget_none in N1. now rewrite N1.
Qed.
Lemma dmerge_nodup e d : NoDup (keys d) -> NoDup (keys (dmerge d e)).
Proof. unfold dmerge. revert d. induction e as [|[i y] e IH]; intros d N; cbn; auto. apply IH, dset_nodup, N. Qed.
Lemma dmerge_keys e d j : In j (keys (dmerge d e)) <-> In j (keys d) \/ In j (keys e).
Proof.
  unfold dmerge. revert d. induction e as [|[i y] e IH]; intros d; cbn; [tauto|].
  rewrite IH, dset_keys. unfold keys. intuition congruence.
Qed.
Lemma dset_new d k x : ~ In k (keys d) -> dset d k x = d ++ [(k, x)].
Proof.
  induction d as [|[i y] d IH]; cbn; intro N; [easy|].
  destruct (listN_cases k i) as [[-> <-]|[-> Hne]]; [elim N; auto|]. rewrite IH; auto.
Qed.
Lemma dmerge_new e d : NoDup (keys e) -> (forall k, In k (keys e) -> ~ In k (keys d)) -> dmerge d e = d ++ e.
Proof.
  unfold dmerge. revert d. induction e as [|[i y] e IH]; intros d N F; cbn; [now rewrite app_nil_r|].
  inversion_clear N as [|? ? N1 N2]. rewrite dset_new by (apply F; now left).
  rewrite IH; auto; [now rewrite <- app_assoc|].
  intros k I. unfold keys. rewrite map_app, in_app_iff. cbn. intros [J|[J|[]]]; [eapply F; eauto; now right|].
  subst k. auto.
Qed.
End D.

(** ** The history *)
Record inv (h : list obs) (b : bal) : Prop := {
  i_n1 : NoDup (keys (w_outs b)); i_n2 : NoDup (keys (w_spent b)); i_n3 : NoDup (keys (w_unc b)); i_n4 : NoDup (keys (w_uncspent b));
  i_spent : forall id, has (w_spent b) id <-> seen h true true id;
  i_uncspent : forall id, has (w_uncspent b) id <-> ~ seen h true true id /\ seen h false true id;
  i_outs : forall id, has (w_outs b) id <-> ~ seen_spent h id /\ seen h true false id;
  i_unc : forall id, has (w_unc b) id <-> ~ seen_spent h id /\ last_created_unconfirmed h id;
  i_val : forall d, d = w_outs b \/ d = w_spent b \/ d = w_unc b \/ d = w_uncspent b ->
          forall id o, In (id, o) d -> o_id o = id /\ exists x, In x h /\ ob_out x = o }.

Lemma seen_app h1 h2 c s id : seen (h1 ++ h2) c s id <-> seen h1 c s id \/ seen h2 c s id.
Proof.
  unfold seen. split.
  - intros (x & I & R). apply in_app_iff in I as [I|I]; [left|right]; eauto.
  - intros [(x & I & R)|(x & I & R)]; exists x; rewrite in_app_iff; auto.
Qed.
Lemma seen_nil c s id : ~ seen [] c s id.
Proof. intros (x & [] & _). Qed.
Lemma seen_one x c s id : seen [x] c s id <-> o_id (ob_out x) = id /\ ob_confirmed x = c /\ ob_spent x = s.
Proof. unfold seen, about. split; [intros (y & [->|[]] & R); exact R|]. intro R. exists x. cbn. auto. Qed.
Lemma seen_dec h c s id : seen h c s id \/ ~ seen h c s id.
Proof.
  induction h as [|x h IH]; [right; apply seen_nil|].
  change (x :: h) with ([x] ++ h). rewrite seen_app, seen_one.
  destruct IH as [IH|IH]; [auto|].
  destruct (listN_cases (o_id (ob_out x)) id) as [[_ E]|[_ E]]; [|right; tauto].
  destruct (ob_confirmed x), (ob_spent x), c, s; try (left; left; auto; fail); right; intros [(?&?&?)|?]; easy.
Qed.
Lemma lcu_snoc h x id : last_created_unconfirmed (h ++ [x]) id <->
  (about id x /\ ob_confirmed x = false /\ ob_spent x = false) \/
  (last_created_unconfirmed h id /\ ~ (about id x /\ ob_confirmed x = true /\ ob_spent x = false)).
Proof.
  unfold last_created_unconfirmed. split.
  - intros (h1 & y & h2 & E & A & C & S & N). destruct h2 as [|z h2] using rev_ind.
    + apply app_inj_tail in E as [-> ->]. left; auto.
    + clear IHh2. rewrite app_comm_cons, app_assoc in E. apply app_inj_tail in E as [-> ->]. right. split.
      * exists h1, y, h2. repeat split; auto. intro D. apply N. rewrite seen_app. auto.
      * intro D. apply N. rewrite seen_app, seen_one. auto.
  - intros [(A & C & S)|[(h1 & y & h2 & -> & A & C & S & N) D]].
    + exists h, x, []. repeat split; auto. apply seen_nil.
    + exists h1, y, (h2 ++ [x]). rewrite <- app_assoc. repeat split; auto. rewrite seen_app, seen_one.
      intros [D'|D']; auto.
Qed.

Lemma inv_new : inv [] bal_new.
Proof.
  assert (L : forall id, ~ last_created_unconfirmed [] id) by (intros id (h1 & x & h2 & E & _); now destruct h1).
  constructor; cbn; try apply NoDup_nil.
  - intro id; unfold has; cbn. pose proof (seen_nil true true id). tauto.
  - intro id; unfold has; cbn. pose proof (seen_nil false true id). tauto.
  - intro id; unfold has; cbn. pose proof (seen_nil true false id). tauto.
  - intro id; unfold has; cbn. pose proof (L id). tauto.
  - intros d D id o I. intuition; subst; easy.
Qed.

Lemma has_keys (d : odict) id : has d id <-> In id (keys d).
Proof. reflexivity. Qed.
Lemma dset_val (d : odict) k o id x : In (id, x) (dset d k o) -> (id = k /\ x = o) \/ In (id, x) d.
Proof.
  induction d as [|[i y] d IH]; cbn; [intros [E|[]]; injection E as <- <-; auto|].
  destruct (listN_cases k i) as [[-> <-]|[-> Hne]]; cbn.
  - intros [E|I]; [injection E as <- <-; auto|auto].
  - intros [E|I]; [auto|apply IH in I as [I|I]; auto].
Qed.
Lemma dpop_val (d : odict) k id x : In (id, x) (dpop d k) -> In (id, x) d.
Proof. induction d as [|[i y] d IH]; cbn; [easy|]. destruct (listN_eqb k i); cbn; intuition. Qed.

Lemma inv_step h b x : inv h b -> inv (h ++ [x]) (dicts_add b (ob_out x) (ob_confirmed x) (ob_spent x)).
Proof.
  intros [N1 N2 N3 N4 S1 S2 S3 S4 V]. destruct x as [o c s]. cbn [ob_out ob_confirmed ob_spent].
  assert (VV : forall d', (forall id y, In (id, y) d' -> (id = o_id o /\ y = o) \/ exists d, (d = w_outs b \/ d = w_spent b \/ d = w_unc b \/ d = w_uncspent b) /\ In (id, y) d) ->
     forall id y, In (id, y) d' -> o_id y = id /\ exists x, In x (h ++ [mkobs o c s]) /\ ob_out x = y).
  { intros d' Hd id y I. apply Hd in I as [[-> ->]|(d & Dd & I)].
    - split; auto. exists (mkobs o c s). rewrite in_app_iff. cbn. auto.
    - destruct (V d Dd id y I) as [E (x & I' & E')]. split; auto. exists x. rewrite in_app_iff. auto. }
  unfold dicts_add.
  set (k := o_id o) in *.
  assert (Dspent := S1 k). assert (Duncspent := S2 k).
  destruct c; [destruct s|destruct (negb (din (w_spent b) k)) eqn:Ds; [destruct s|]].
  all: try (destruct (negb (din (w_spent b) k) && negb (din (w_uncspent b) k)) eqn:Dx;
            [apply andb_true_iff in Dx as [D1 D2]; rewrite negb_true_iff in D1, D2; apply din_keys_f in D1; apply din_keys_f in D2
            |apply andb_false_iff in Dx; rewrite !negb_false_iff, !din_keys in Dx]).
  all: try (rewrite negb_true_iff in Ds; apply din_keys_f in Ds).
  all: try (rewrite negb_false_iff, din_keys in Ds).
  all: try (destruct (negb (din (w_uncspent b) k)) eqn:Du;
            [rewrite negb_true_iff in Du; apply din_keys_f in Du | rewrite negb_false_iff, din_keys in Du]).
  all: constructor; cbn [w_outs w_spent w_unc w_uncspent]; auto using dset_nodup, dpop_nodup.
  all: try (intros d Dd; apply VV; intros id y I; clear VV;
    repeat (match goal with Dd : _ \/ _ |- _ => destruct Dd as [Dd|Dd] end); subst d;
    try (apply dset_val in I as [[-> ->]|I]; [left; auto|]); try apply dpop_val in I; right;
      first [exists (w_outs b); auto; fail | exists (w_spent b); auto; fail | exists (w_unc b); auto; fail | exists (w_uncspent b); auto; fail]).
  all: intro id; unfold has in *; fold (keys (A:=output)) in *.
  all: unfold seen_spent in *; rewrite ?lcu_snoc, ?seen_app, ?seen_one; cbn [ob_out ob_confirmed ob_spent]; unfold about; cbn [ob_out]; fold k.
  all: change (map (A:=bytes * output) fst) with (keys (A:=output)) in *.
  all: rewrite ?dset_keys, ?dpop_keys by auto.
  all: try (rewrite S1 in Ds); try (rewrite S1 in D1); try (rewrite S2 in D2); try (rewrite S1, S2 in Dx); try (rewrite S2 in Du).
  all: rewrite ?S1, ?S2, ?S3, ?S4; clear S1 S2 S3 S4 Dspent Duncspent.
  all: clear V VV N1 N2 N3 N4.
  all: assert (TT : true = true <-> True) by tauto; assert (FF : false = false <-> True) by tauto.
  all: assert (TF : true = false <-> False) by easy; assert (FT : false = true <-> False) by easy.
  all: rewrite ?TT, ?FF, ?TF, ?FT; clear TT FF TF FT.
  all: destruct (listN_cases id k) as [[_ Ei]|[_ Ei]];
    [subst id; assert (KK : k = k <-> True) by tauto; rewrite ?KK; clear KK
    |assert (K1 : k = id <-> False) by (split; [congruence|tauto]); assert (K2 : id = k <-> False) by (split; [congruence|tauto]);
     rewrite ?K1, ?K2; clear K1 K2 Ei; try clear Ds; try clear D1; try clear D2; try clear Dx; try clear Du; tauto].
  all: try (destruct (seen_dec h true true k); destruct (seen_dec h false true k)).
  all: clearbody k.
  all: tauto.
Qed.
Lemma observe_snoc b h x : observe b (h ++ [x]) = dicts_add (observe b h) (ob_out x) (ob_confirmed x) (ob_spent x).
Proof. unfold observe. now rewrite fold_left_app. Qed.
Lemma inv_observe h : inv h (observe bal_new h).
Proof. induction h as [|x h IH] using rev_ind; [apply inv_new|]. rewrite observe_snoc. now apply inv_step. Qed.
