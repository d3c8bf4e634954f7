(** Property C33 in full: what balance_add does, for balances of all three classes. *)
From Verif Require Import Base BaseFacts Encoders Primitive Types Conditions Txn Wallet Merging Spec_Wallet Spec_Merge WalletFacts WalletFacts2 FundFacts3 Prop_Wallet.
From Coq Require Import ZifyBool ZifyNat ZifyN.

Lemma in_dget (d : odict) id o : NoDup (map fst d) -> In (id, o) d <-> dget d id = Some o.
Proof.
  induction d as [|[j y] d IH]; cbn [map fst In dget]; intro N; [split; [easy|discriminate]|]. inversion_clear N as [|? ? N1 N2]. destruct (listN_cases id j) as [[-> <-]|[-> Hne]].
  - split; [intros [E|I]; [congruence|elim N1; apply (in_map fst) in I; exact I]|intro E; left; congruence].
  - rewrite <- (IH N2). split; [intros [E|I]; [congruence|exact I]|auto].
Qed.
Lemma has_dget (d : odict) id : ~ has d id <-> dget d id = None.
Proof. unfold has. change (map fst d) with (keys d). apply dget_none. Qed.
Lemma overlay_dmerge (a b : odict) : NoDup (map fst a) -> NoDup (map fst b) -> overlay a b (dmerge a b) /\ NoDup (map fst (dmerge a b)).
Proof.
  intros Na Nb. pose proof (dmerge_nodup b a Na) as Nc. change (keys (dmerge a b)) with (map fst (dmerge a b)) in Nc. split; [|exact Nc]. intros id o.
  rewrite (in_dget _ _ _ Nc), (in_dget _ _ _ Na), (in_dget _ _ _ Nb), has_dget. rewrite dget_dmerge by exact Nb. destruct (dget b id) as [x|]; split; [auto|intros [E|[_ E]]; [exact E|discriminate]|auto|intros [E|[E _]]; [discriminate|exact E]].
Qed.
Lemma set_merge_in : forall b a x, In x (set_merge a b) <-> In x a \/ In x b.
Proof.
  unfold set_merge. induction b as [|y b IH]; intros a x; cbn [fold_left In]; [tauto|]. rewrite IH. unfold addr_add. destruct (existsb (listN_eqb y) a) eqn:E.
  - apply existsb_exists in E as (z & Iz & Ez). apply listN_eqb_eq in Ez. subst z. split; [tauto|intros [I|[<-|I]]; auto].
  - rewrite in_app_iff. cbn. tauto.
Qed.

(** ** C33 *)
(** The sum of two plain balances exists exactly if the clock of each is consistent with its height, seen from the first; it has the lists of the second
    laid over those of the first, the addresses of both and the later chain context. *)
Theorem C33_merge_iff : forall a b : bal,
  (exists c, balance_add a b = Ok c) <-> ((w_height b <= w_height a -> w_time b <= w_time a) /\ (w_height a < w_height b -> w_time a < w_time b))%Z.
Proof.
  intros a b. unfold balance_add. destruct (w_height b <=? w_height a)%Z eqn:L.
  - destruct (w_time a <? w_time b)%Z eqn:T; cbn; split; intro E; [destruct E as [c E]; discriminate|lia|lia|eauto].
  - destruct (w_time b <=? w_time a)%Z eqn:T; cbn; split; intro E; [destruct E as [c E]; discriminate|lia|lia|eauto].
Qed.
Print Assumptions C33_merge_iff.
Theorem C33_merge_exact : forall a b c : bal, listed_once a -> listed_once b -> balance_add a b = Ok c -> merged a b c /\ listed_once c.
Proof.
  intros a b c (A1 & A2 & A3 & A4) (B1 & B2 & B3 & B4) E. assert (G : exists c, balance_add a b = Ok c) by eauto. apply C33_merge_iff in G. unfold balance_add in E.
  apply bind_ok in E as ([[t h] k] & X & E). apply ok_inj in E. subst c. unfold merged, listed_once. cbn [w_outs w_spent w_unc w_uncspent w_addrs w_height w_time].
  destruct (overlay_dmerge _ _ A1 B1) as (O1 & U1), (overlay_dmerge _ _ A2 B2) as (O2 & U2), (overlay_dmerge _ _ A3 B3) as (O3 & U3), (overlay_dmerge _ _ A4 B4) as (O4 & U4).
  split; [|auto]. split; [exact O1|]. split; [exact O2|]. split; [exact O3|]. split; [exact O4|]. split; [apply set_merge_in|].
  destruct (w_height b <=? w_height a)%Z eqn:L; apply bind_ok in X as (g & _ & X); apply ok_inj in X; apply pair_equal_spec in X as [X _]; apply pair_equal_spec in X as [<- <-]; lia.
Qed.
Print Assumptions C33_merge_exact.
(** Nothing is lost: what either knows is known by the sum. *)
Theorem C33_keeps : forall a b c : bal, listed_once a -> listed_once b -> no_conflict a b -> balance_add a b = Ok c ->
  forall x, (In x (w_outs c) <-> In x (w_outs a) \/ In x (w_outs b)) /\ (In x (w_spent c) <-> In x (w_spent a) \/ In x (w_spent b)) /\
            (In x (w_unc c) <-> In x (w_unc a) \/ In x (w_unc b)) /\ (In x (w_uncspent c) <-> In x (w_uncspent a) \/ In x (w_uncspent b)).
Proof.
  intros a b c Ha Hb (G1 & G2 & G3 & G4) E. destruct (C33_merge_exact a b c Ha Hb E) as ((O1 & O2 & O3 & O4 & _) & _).
  assert (Q : forall p q r : odict, overlay p q r -> agree_on p q -> forall x, In x r <-> In x p \/ In x q).
  { intros p q r O G [id o]. rewrite (O id o). split; [tauto|]. intros [I|I]; [|now left]. destruct (in_dec (list_eq_dec N.eq_dec) id (map fst q)) as [J|J]; [|right; auto].
    apply in_map_iff in J as ((j & o') & J1 & J2). cbn in J1. subst j. left. rewrite (G _ _ _ I J2). exact J2. }
  intro x. split; [now apply Q|]. split; [now apply Q|]. split; now apply Q.
Qed.
Print Assumptions C33_keeps.
(** The order does not matter to what the sum has, if what both know is the same; *)
Theorem C33_order_partial : forall a b c d : bal, listed_once a -> listed_once b -> no_conflict a b -> balance_add a b = Ok c -> balance_add b a = Ok d -> same_lists c d.
Proof.
  intros a b c d Ha Hb G E F. assert (G' : no_conflict b a). { destruct G as (G1 & G2 & G3 & G4). repeat split; intros id o o' I J; symmetry; [eapply G1|eapply G2|eapply G3|eapply G4]; eassumption. }
  pose proof (C33_keeps a b c Ha Hb G E) as K. pose proof (C33_keeps b a d Hb Ha G' F) as K'.
  destruct (C33_merge_exact a b c Ha Hb E) as ((_ & _ & _ & _ & A & Hh & Ht) & _), (C33_merge_exact b a d Hb Ha F) as ((_ & _ & _ & _ & A' & Hh' & Ht') & _).
  unfold same_lists. split; [intro x; destruct (K x) as (X & _), (K' x) as (Y & _); rewrite X, Y; tauto|].
  split; [intro x; destruct (K x) as (_ & X & _), (K' x) as (_ & Y & _); rewrite X, Y; tauto|].
  split; [intro x; destruct (K x) as (_ & _ & X & _), (K' x) as (_ & _ & Y & _); rewrite X, Y; tauto|].
  split; [intro x; destruct (K x) as (_ & _ & _ & X), (K' x) as (_ & _ & _ & Y); rewrite X, Y; tauto|].
  split; [intro x; rewrite A, A'; tauto|]. lia.
Qed.
Print Assumptions C33_order_partial.
(** but it may decide whether there is a sum: two balances of the same height, the second of an earlier time, can be added in one order only. *)
Theorem C33_order_refuted : forall a b : bal, w_height a = w_height b -> (w_time b < w_time a)%Z -> (exists c, balance_add a b = Ok c) /\ forall d, balance_add b a <> Ok d.
Proof.
  intros a b Hh Ht. split; [apply C33_merge_iff; lia|]. intros d E. assert (G : exists d, balance_add b a = Ok d) by eauto. apply C33_merge_iff in G. lia.
Qed.
Print Assumptions C33_order_refuted.

(** ** balances with multi-signature wallets *)
(** Nothing can be added to the balance of a multi-signature wallet: neither a balance of the same wallet nor any other. *)
Theorem C33_multisig_never_refuted : forall H m other c, any_add H (BMulti m) (Some other) <> Ok c.
Proof.
  intros H m other c. unfold any_add.
  assert (V : forall k, (do w <- wallets_add H wallets_new (BMulti m); do v <- wallets_add H w (BMulti m); Ok (BWallets v)) <> Ok k).
  { intros k E. apply bind_ok in E as (w & Ew & E). apply bind_ok in E as (v & Ev & _). unfold wallets_add in Ew, Ev. destruct (ms_address H m) as [u|e]; [|discriminate Ew].
    cbn in Ew. apply ok_inj in Ew. subst w. cbn [bind wb_ms ms_merge existsb ms_addr] in Ev. rewrite uh_eqb_refl in Ev. discriminate Ev. }
  destruct other; [apply V| |apply V]. destruct (ms_address H m); discriminate.
Qed.
Print Assumptions C33_multisig_never_refuted.
(** Otherwise, if there is a sum, its personal part is that of both and it has the multi-signature wallets of both, none of which is known by both. *)
Theorem C33_any_partial : forall H a b c, (forall m, In m (multi_part b) -> ms_address H m = Ok (ms_addr m)) -> any_add H a (Some b) = Ok c ->
  (match b with BMulti _ => own_part c = own_part a \/ balance_add bal_new (own_part a) = Ok (own_part c)
   | _ => balance_add (own_part a) (own_part b) = Ok (own_part c) \/
          exists d, balance_add bal_new (own_part a) = Ok d /\ balance_add d (own_part b) = Ok (own_part c) end) /\
  multi_part c = multi_part a ++ multi_part b /\
  forall m n, In m (multi_part a) -> In n (multi_part b) -> ms_addr m <> ms_addr n.
Proof.
  intros H a b c P E.
  assert (MM : forall l r k, ms_merge l r = Ok k -> k = l ++ r /\ forall m n, In m l -> In n r -> ms_addr m <> ms_addr n).
  { intros l r. revert l. induction r as [|x r IH]; intros l k M; cbn [ms_merge] in M; [apply ok_inj in M; subst k; rewrite app_nil_r; split; [reflexivity|easy]|].
    destruct (existsb (fun y => uh_eqb (ms_addr y) (ms_addr x)) l) eqn:X; [discriminate|]. apply IH in M as (-> & D). rewrite <- app_assoc. split; [reflexivity|].
    intros m n Im [<-|In']; [|apply D; [apply in_app_iff; now left|exact In']]. intro Q. assert (existsb (fun y => uh_eqb (ms_addr y) (ms_addr x)) l = true); [|congruence].
    apply existsb_exists. exists m. split; [exact Im|rewrite Q; apply uh_eqb_refl]. }
  assert (WA : forall w v, wallets_add H w b = Ok v ->
    (match b with BMulti _ => wb_own v = wb_own w | _ => balance_add (wb_own w) (own_part b) = Ok (wb_own v) end) /\ wb_ms v = wb_ms w ++ multi_part b /\
    forall m n, In m (wb_ms w) -> In n (multi_part b) -> ms_addr m <> ms_addr n).
  { intros w v F. destruct b as [b|m|w']; cbn [wallets_add own_part multi_part] in *.
    - apply bind_ok in F as (o & Eo & F). apply ok_inj in F. subst v. cbn [wb_own wb_ms]. rewrite app_nil_r. split; [exact Eo|]. split; [reflexivity|easy].
    - rewrite (P m (or_introl eq_refl)) in F. cbn [bind] in F. replace (mkms (ms_addr m) (ms_owners m) (ms_count m) (ms_bal m)) with m in F by (destruct m; reflexivity).
      apply bind_ok in F as (l & M & F). apply ok_inj in F. subst v. apply MM in M as (-> & D). cbn [wb_own wb_ms]. auto.
    - unfold wb_balance_add in F. apply bind_ok in F as (o & Eo & F). apply bind_ok in F as (l & M & F). apply ok_inj in F. subst v. apply MM in M as (-> & D). cbn [wb_own wb_ms]. auto. }
  destruct a as [a|m|w].
  - destruct b as [b|m|w'].
    + cbn [any_add] in E. apply bind_ok in E as (d & Ed & E). apply ok_inj in E. subst c. cbn [own_part multi_part]. split; [now left|]. split; [reflexivity|easy].
    + cbn [any_add] in E. apply bind_ok in E as (w & Ew & E). apply bind_ok in E as (v & Ev & E). apply ok_inj in E. subst c. apply WA in Ev as (A & B & C).
      cbn [wallets_add] in Ew. apply bind_ok in Ew as (o & Eo & Ew). apply ok_inj in Ew. subst w. cbn [wb_own wb_ms wallets_new] in *. cbn [own_part multi_part]. rewrite A, B. split; [now right|]. split; [reflexivity|exact C].
    + cbn [any_add] in E. apply bind_ok in E as (w & Ew & E). apply bind_ok in E as (v & Ev & E). apply ok_inj in E. subst c. apply WA in Ev as (A & B & C).
      cbn [wallets_add] in Ew. apply bind_ok in Ew as (o & Eo & Ew). apply ok_inj in Ew. subst w. cbn [wb_own wb_ms wallets_new] in *. cbn [own_part multi_part] in *. rewrite B. split; [right; eauto|]. split; [reflexivity|exact C].
  - exfalso. exact (C33_multisig_never_refuted _ _ _ _ E).
  - cbn [any_add] in E. apply bind_ok in E as (v & Ev & E). apply ok_inj in E. subst c. apply WA in Ev as (A & B & C). cbn [own_part multi_part]. split; [destruct b; [now left|now left|now left]|]. split; [exact B|exact C].
Qed.
Print Assumptions C33_any_partial.
(** Two balances, the second knowing an output of the first. *)
Example C33_ex_merge : let a := observe bal_new [mkobs exw_o1 true false; mkobs exw_o2 true true] in let b := observe bal_new [mkobs exw_o1 true false; mkobs exw_o3 true false] in
  listed_once a /\ listed_once b /\ no_conflict a b /\ exists c, balance_add a b = Ok c /\ values (w_outs c) = [exw_o1; exw_o3] /\ values (w_spent c) = [exw_o2].
Proof.
  cbv zeta. assert (N0 : NoDup (A:=bytes) []) by constructor.
  split; [split; [|split; [|split]]; vm_compute; repeat apply NoDup_cons; try exact N0; cbn; intuition discriminate|].
  split; [split; [|split; [|split]]; vm_compute; repeat apply NoDup_cons; try exact N0; cbn; intuition discriminate|].
  split; [split; [|split; [|split]]; intros id o o' I J; vm_compute in I, J; intuition congruence|]. eexists. split; [reflexivity|]. split; vm_compute; reflexivity.
Qed.
