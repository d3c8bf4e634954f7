(** Lemmas about the keys of a wallet. *)
From Verif Require Import Base BaseFacts Encoders EncodersFacts KeyScan Spec_Keys.
From Coq Require Import ZifyBool ZifyNat ZifyN.
Ltac Zify.zify_post_hook ::= Z.div_mod_to_equations.

Lemma NoDup_app_l {A} (a b : list A) : NoDup (a ++ b) -> NoDup a.
Proof. induction a as [|y a IH]; intro Q; [constructor|]. inversion Q as [|? ? N1 N2]; subst. constructor; [intro I; apply N1, in_or_app; auto | exact (IH N2)]. Qed.
Lemma NoDup_app_single {A} (a : list A) x : NoDup a -> ~ In x a -> NoDup (a ++ [x]).
Proof.
  induction a as [|y a IH]; intros N NI; cbn [app]; [constructor; [tauto|constructor]|]. inversion N as [|? ? N1 N2]; subst. constructor.
  - intro I. apply in_app_or in I as [I|[<-|[]]]; [tauto|]. apply NI. left. reflexivity.
  - apply IH; [exact N2|]. intro I. apply NI. right. exact I.
Qed.

Section Keys.
Variable addr : nat -> pystr.
Hypothesis NC : no_collision addr.

Lemma pair_add_eq k i a o : pair_add addr k i a o =
  if existsb (Nat.eqb i) (k_pairs k) then (k, Err KeyError)
  else (mkkw (if a then k_count k + (1 + o) else k_count k)%nat (k_pairs k ++ [i]) (k_unused k), Ok tt).
Proof.
  unfold pair_add. replace (existsb (fun j => listN_eqb (addr j) (addr i)) (k_pairs k)) with (existsb (Nat.eqb i) (k_pairs k)); [reflexivity|].
  induction (k_pairs k) as [|j l IH]; [reflexivity|]. cbn [existsb]. rewrite IH. f_equal.
  destruct (Nat.eqb_spec i j) as [->|N]; symmetry; [apply listN_eqb_refl|]. apply listN_eqb_neq. intro E. apply NC in E. congruence.
Qed.
Lemma pair_add_ok k i a o : ~ In i (k_pairs k) -> pair_add addr k i a o =
  (mkkw (if a then k_count k + (1 + o) else k_count k)%nat (k_pairs k ++ [i]) (k_unused k), Ok tt).
Proof.
  intro N. rewrite pair_add_eq. destruct (existsb (Nat.eqb i) (k_pairs k)) eqn:E; [|reflexivity]. apply existsb_exists in E as (j & I & Q). apply Nat.eqb_eq in Q. subst. contradiction.
Qed.

(** ** The invariant *)
Definition kinv (k : kw) : Prop := NoDup (k_pairs k ++ k_unused k) /\ (forall i, In i (k_pairs k ++ k_unused k) -> (i < k_count k)%nat).
Lemma key_new_spec k : kinv k -> exists i, key_new addr k =
  (mkkw (match k_unused k with [] => S (k_count k) | _ => k_count k end) (k_pairs k ++ [i]) (tl (k_unused k)), Ok i) /\
  i = hd (k_count k) (k_unused k) /\ ~ In i (k_pairs k).
Proof.
  intros (N & B). unfold key_new. destruct (k_unused k) as [|i l] eqn:U.
  - exists (k_count k). rewrite pair_add_ok.
    + cbn [fst snd bind hd tl]. rewrite U. replace (k_count k + (1 + 0))%nat with (S (k_count k)) by lia. split; [reflexivity|]. split; [reflexivity|]. intro I.
      assert (Q : (k_count k < k_count k)%nat) by (apply B; apply in_or_app; auto). lia.
    + intro I. assert (Q : (k_count k < k_count k)%nat) by (apply B; apply in_or_app; auto). lia.
  - assert (NI : ~ In i (k_pairs k)). { apply NoDup_remove_2 in N. intro I. apply N. apply in_or_app. auto. }
    exists i. rewrite pair_add_ok by exact NI. cbn [fst snd bind hd tl k_count k_pairs k_unused]. auto.
Qed.
Lemma key_new_inv k : kinv k -> kinv (fst (key_new addr k)).
Proof.
  intro V. destruct (key_new_spec k V) as (i & E & Hi & NI). rewrite E. cbn [fst]. destruct V as (N & B). unfold kinv. cbn [k_pairs k_unused k_count].
  destruct (k_unused k) as [|j l] eqn:U; cbn [hd tl] in *; subst i.
  - rewrite app_nil_r in *. split.
    + apply NoDup_app_single; auto.
    + intros i I. apply in_app_or in I as [I|[<-|[]]]; [|lia]. specialize (B i I). lia.
  - rewrite <- app_assoc. cbn [app]. split; [exact N|]. exact B.
Qed.

(** ** One round of scanning *)
Fixpoint last_of (idx last : nat) (used : list bool) : nat :=
  match used with [] => last | u :: used => last_of (S idx) (if u then idx else last) used end.
Definition found (used : nat -> bool) (l : list nat) : list nat := filter used l.
Definition missed (used : nat -> bool) (l : list nat) : list nat := filter (fun i => negb (used i)) l.
Lemma sort_out_spec used pairs : forall k idx last, NoDup (k_pairs k ++ pairs) ->
  sort_out addr k idx last pairs (map used pairs) =
  (mkkw (k_count k) (k_pairs k ++ found used pairs) (k_unused k ++ missed used pairs), Ok (last_of idx last (map used pairs))).
Proof.
  induction pairs as [|i pairs IH]; intros k idx last N; cbn [sort_out map last_of found missed filter].
  - rewrite !app_nil_r. destruct k; reflexivity.
  - pose proof (NoDup_remove_2 _ _ _ N) as Ni. pose proof (NoDup_remove_1 _ _ _ N) as Np. destruct (used i) eqn:U; cbn [negb].
    + rewrite pair_add_ok by (intro I; apply Ni, in_or_app; auto). cbn [fst snd]. rewrite IH; cbn [k_count k_pairs k_unused].
      * unfold found, missed. rewrite <- app_assoc. reflexivity.
      * rewrite <- app_assoc. exact N.
    + rewrite IH by exact Np. cbn [k_count k_pairs k_unused]. unfold found, missed. rewrite <- app_assoc. reflexivity.
Qed.
(** where the last used one is *)
Lemma last_of_none idx last l : existsb (fun u => u) l = false -> last_of idx last l = last.
Proof.
  revert idx last. induction l as [|u l IH]; intros idx last; cbn [existsb last_of]; [reflexivity|]. destruct u; [discriminate|]. apply IH.
Qed.
Lemma last_of_some l : forall idx last, existsb (fun u => u) l = true ->
  exists a b, l = a ++ true :: b /\ existsb (fun u => u) b = false /\ last_of idx last l = (idx + length a)%nat.
Proof.
  induction l as [|u l IH]; intros idx last; cbn [existsb last_of]; [discriminate|]. intro E.
  destruct (existsb (fun u => u) l) eqn:Q.
  - destruct (IH (S idx) (if u then idx else last) eq_refl) as (a & b & -> & Nb & L). exists (u :: a), b. rewrite L. cbn [app length]. repeat split; auto; lia.
  - destruct u; [|discriminate]. exists [], l. rewrite last_of_none by exact Q. cbn [app length]. repeat split; auto; lia.
Qed.
Lemma seq_split_at a b c x : seq c x = a ++ b -> a = seq c (length a) /\ b = seq (c + length a) (length b).
Proof.
  revert c x. induction a as [|i a IH]; intros c x E; cbn [app length] in *.
  - subst b. rewrite seq_length. replace (c + 0)%nat with c by lia. auto.
  - destruct x as [|x]; [discriminate|]. cbn [seq] in E. injection E as <- E. apply IH in E as (-> & ->). cbn [seq]. rewrite !seq_length. split; [reflexivity|].
    f_equal. lia.
Qed.
Lemma window_eq c n : map (fun o => c + o)%nat (seq 0 n) = seq c n.
Proof.
  revert c. induction n as [|n IH]; intro c; [reflexivity|]. cbn [seq map]. f_equal; [lia|]. rewrite <- seq_shift, map_map, <- (IH (S c)). apply map_ext. intro; lia.
Qed.
Lemma existsb_map_used (used : nat -> bool) l : existsb (fun u => u) (map used l) = existsb used l.
Proof. induction l as [|i l IH]; [reflexivity|]. cbn. rewrite IH. reflexivity. Qed.
Lemma missed_all used l : existsb used l = false -> missed used l = l.
Proof.
  unfold missed. induction l as [|i l IH]; cbn; [reflexivity|]. destruct (used i); [discriminate|]. cbn. intro E. rewrite (IH E). reflexivity.
Qed.
Lemma found_none used l : existsb used l = false -> found used l = [].
Proof. unfold found. induction l as [|i l IH]; cbn; [reflexivity|]. destruct (used i); [discriminate|]. exact IH. Qed.
Lemma firstn_in {A} n (l : list A) x : In x (firstn n l) -> In x l.
Proof. revert l. induction n as [|n IH]; intros [|y l] I; cbn in *; try tauto. destruct I as [->|I]; auto. Qed.

Section Chain.
Variable probe : pystr -> res unit.
(** what the lookups say, when they say something *)
Definition says (i : nat) : bool := match known addr probe i with Ok b => b | Err _ => false end.
Lemma knowns_says l bs : mapM (known addr probe) l = Ok bs -> bs = map says l.
Proof.
  revert bs. induction l as [|i l IH]; intros bs E; cbn [mapM map] in *; [apply ok_inj in E; auto|]. apply bind_ok in E as (x & Ex & E). apply bind_ok in E as (y & Ey & E).
  apply ok_inj in E. subst bs. rewrite <- (IH _ Ey). unfold says at 1. rewrite Ex. reflexivity.
Qed.
Variable used : nat -> bool.

(** what one round does when something is found: [n] is the offset of the last used key of the window *)
Definition round (count : nat) (k : kw) (n : nat) : kw :=
  mkkw (k_count k + (n + 1)) (k_pairs k ++ found used (seq (k_count k) (n + 1)))
       (drop_last 1 (k_unused k ++ missed used (seq (k_count k) (n + 1)))).
Lemma round_ok count k fuel : kinv k -> mapM (known addr probe) (seq (k_count k) count) = Ok (map used (seq (k_count k) count)) -> scan_loop addr probe (S fuel) count k =
  if existsb used (seq (k_count k) count) then
    let n := last_of 0 0 (map used (seq (k_count k) count)) in
    if (n =? count - 1)%nat then scan_loop addr probe fuel count (round count k n) else Some (round count k n, Ok tt)
  else Some (k, Ok tt).
Proof.
  intros (N & B) KN. cbn [scan_loop]. rewrite window_eq, KN, existsb_map_used.
  destruct (existsb used (seq (k_count k) count)) eqn:X; [|reflexivity].
  assert (ND : NoDup (k_pairs k ++ seq (k_count k) count)).
  { clear -N B. pose proof (NoDup_app_l _ _ N) as NP.
    revert NP. assert (BP : forall i, In i (k_pairs k) -> (i < k_count k)%nat) by (intros i I; apply B; auto; apply in_or_app; auto).
    clear N B. induction (k_pairs k) as [|i l IH]; intro NP; [apply seq_NoDup|]. inversion NP as [|? ? N1 N2]; subst. cbn [app]. constructor.
    - intro I. apply in_app_or in I as [I|I]; [contradiction|]. apply in_seq in I. specialize (BP i (or_introl eq_refl)). lia.
    - apply IH; [intros j J; apply BP; right; exact J | exact N2]. }
  rewrite sort_out_spec by exact ND. cbn [fst snd k_count k_pairs k_unused]. cbv zeta.
  destruct (last_of_some (map used (seq (k_count k) count)) 0 0) as (a & b & E & Nb & L); [rewrite existsb_map_used; exact X|].
  rewrite L. cbn [Nat.add].
  apply map_eq_app in E as (wa & wb & Ew & Ea & Eb). apply map_eq_cons in Eb as (i & wb' & -> & Ui & Eb). subst a b.
  rewrite map_length in *. rewrite existsb_map_used in Nb.
  assert (LC : count = (length wa + S (length wb'))%nat).
  { apply (f_equal (@length nat)) in Ew. rewrite seq_length, app_length in Ew. cbn [length] in Ew. exact Ew. }
  assert (ES : seq (k_count k) (length wa + 1) = wa ++ [i]).
  { change (wa ++ i :: wb') with (wa ++ [i] ++ wb') in Ew. rewrite app_assoc in Ew. apply seq_split_at in Ew as (Ew & _).
    rewrite app_length in Ew. cbn [length] in Ew. symmetry. exact Ew. }
  assert (EF : found used (seq (k_count k) count) = found used (seq (k_count k) (length wa + 1))).
  { rewrite Ew, ES. unfold found. rewrite !filter_app. cbn [filter]. rewrite Ui. fold (found used wb'). rewrite (found_none used wb' Nb). reflexivity. }
  assert (EM : drop_last (count - length wa) (k_unused k ++ missed used (seq (k_count k) count)) = drop_last 1 (k_unused k ++ missed used (seq (k_count k) (length wa + 1)))).
  { rewrite Ew, ES. unfold missed. rewrite !filter_app. cbn [filter]. rewrite Ui. cbn [negb]. fold (missed used wb'). rewrite (missed_all used wb' Nb).
    rewrite app_nil_r, app_assoc. set (q := k_unused k ++ filter _ wa). unfold drop_last. rewrite app_length.
    replace (length q + length wb' - (count - length wa))%nat with (length q - 1)%nat by lia. rewrite firstn_app.
    replace (length q - 1 - length q)%nat with 0%nat by lia. cbn [firstn]. rewrite app_nil_r. reflexivity. }
  rewrite EM, EF. fold (round count k (length wa)).
  replace (List.last (map used (seq (k_count k) count)) false) with (length wa =? count - 1)%nat; [reflexivity|].
  rewrite Ew, map_app. cbn [map]. destruct wb' as [|j wb'].
  - cbn [map]. rewrite last_last. rewrite Ui. cbn [length] in LC. apply Nat.eqb_eq. lia.
  - transitivity false; [apply Nat.eqb_neq; cbn [length] in LC; lia|]. symmetry.
    destruct (exists_last (l := j :: wb') ltac:(discriminate)) as (w & z & Ez). rewrite Ez, map_app. cbn [map].
    change (used i :: map used w ++ [used z]) with ((used i :: map used w) ++ [used z]). rewrite app_assoc, last_last.
    rewrite Ez, existsb_app in Nb. cbn [existsb] in Nb. apply orb_false_iff in Nb as (_ & Nb). apply orb_false_iff in Nb. tauto.
Qed.
Lemma last_bound count k : existsb used (seq (k_count k) count) = true ->
  let n := last_of 0 0 (map used (seq (k_count k) count)) in
  (n < count)%nat /\ used (k_count k + n)%nat = true /\ (forall i, (k_count k + n < i)%nat -> (i < k_count k + count)%nat -> used i = false).
Proof.
  intro X. cbv zeta. destruct (last_of_some (map used (seq (k_count k) count)) 0 0) as (a & b & E & Nb & L); [rewrite existsb_map_used; exact X|].
  rewrite L. cbn [Nat.add]. apply map_eq_app in E as (wa & wb & Ew & Ea & Eb). apply map_eq_cons in Eb as (i & wb' & -> & Ui & Eb). subst a b.
  rewrite map_length. rewrite existsb_map_used in Nb. pose proof Ew as Ew'. apply seq_split_at in Ew' as (E1 & E2).
  apply (f_equal (@length nat)) in Ew. rewrite seq_length, app_length in Ew. cbn [length] in Ew, E2. cbn [seq] in E2. injection E2 as Ei E2.
  split; [lia|]. split; [rewrite <- Ei; exact Ui|]. intros j J1 J2. destruct (used j) eqn:U; [|reflexivity].
  assert (existsb used wb' = true); [|congruence]. apply existsb_exists. exists j. split; [|exact U]. rewrite E2. apply in_seq. lia.
Qed.
Lemma round_inv count k n : kinv k -> kinv (round count k n).
Proof.
  intros (N & B). unfold kinv, round. cbn [k_pairs k_unused k_count].
  assert (P : Permutation (k_pairs k ++ found used (seq (k_count k) (n + 1)) ++ k_unused k ++ missed used (seq (k_count k) (n + 1)))
                          ((k_pairs k ++ k_unused k) ++ seq (k_count k) (n + 1))).
  { rewrite <- app_assoc. apply Permutation_app_head. rewrite (Permutation_app_comm (k_unused k) (missed _ _)), app_assoc.
    rewrite (Permutation_app_comm (k_unused k) (seq _ _)). apply Permutation_app_tail. unfold found, missed.
    induction (seq (k_count k) (n + 1)) as [|i l IH]; [constructor|]. cbn [filter]. destruct (used i); cbn [negb app]; [constructor; exact IH|].
    rewrite <- Permutation_middle. constructor. exact IH. }
  assert (ND : NoDup ((k_pairs k ++ k_unused k) ++ seq (k_count k) (n + 1))).
  { clear P. revert N B. generalize (k_pairs k ++ k_unused k). induction l as [|i l IH]; intros N B; [apply seq_NoDup|]. inversion N; subst. cbn [app]. constructor.
    - intro I. apply in_app_or in I as [I|I]; [contradiction|]. apply in_seq in I. specialize (B i (or_introl eq_refl)). lia.
    - apply IH; [assumption|]. intros j J. apply B. right. exact J. }
  assert (D : forall (A : Type) (l : list A), exists r, l = drop_last 1 l ++ r).
  { intros A l. exists (skipn (length l - 1) l). unfold drop_last. symmetry. apply firstn_skipn. }
  destruct (D nat (k_unused k ++ missed used (seq (k_count k) (n + 1)))) as (r & Er). split.
  - apply (Permutation_NoDup (Permutation_sym P)) in ND. rewrite Er in ND. rewrite !app_assoc in ND. apply NoDup_app_l in ND. exact ND.
  - intros i I. assert (In i ((k_pairs k ++ k_unused k) ++ seq (k_count k) (n + 1))).
    { apply (Permutation_in _ P). rewrite <- app_assoc in I. apply in_app_or in I as [I|I]; [apply in_or_app; auto|]. apply in_or_app. right.
      apply in_app_or in I as [I|I]; [apply in_or_app; auto|]. apply in_or_app. right. unfold drop_last in I. exact (firstn_in _ _ _ I). }
    apply in_app_or in H as [H|H]; [specialize (B i H); lia | apply in_seq in H; lia].
Qed.
End Chain.

(** ** A whole scan keeps the invariant, whatever the lookups do *)
Lemma known_err probe i e : known addr probe i = Err e -> probe (addr i) = Err e.
Proof. unfold known. intro E. destruct (probe (addr i)) as [[]|x]; [discriminate|]. destruct x; try discriminate; injection E as <-; reflexivity. Qed.
Lemma knowns_err probe l e : mapM (known addr probe) l = Err e -> exists i, In i l /\ probe (addr i) = Err e.
Proof.
  induction l as [|i l IH]; intro E; cbn [mapM] in E; [discriminate|]. apply bind_err in E as [E|(a & Ea & E)].
  - exists i. split; [left; reflexivity|]. exact (known_err _ _ _ E).
  - apply bind_err in E as [E|(b & Eb & E)]; [|discriminate]. destruct (IH E) as (j & J & Q). exists j. split; [right; exact J|exact Q].
Qed.
Lemma scan_loop_kinv probe count fuel : forall k k' r, kinv k -> scan_loop addr probe fuel count k = Some (k', r) ->
  kinv k' /\ (k_count k <= k_count k')%nat /\ (exists new, k_pairs k' = k_pairs k ++ new) /\
  (forall e, r = Err e -> exists i, probe (addr i) = Err e).
Proof.
  induction fuel as [|fuel IH]; intros k k' r V E; [discriminate|].
  destruct (mapM (known addr probe) (seq (k_count k) count)) as [bs|e] eqn:M.
  - pose proof (knowns_says _ _ _ M) as ->. rewrite (round_ok probe (says probe) count k fuel V M) in E.
    destruct (existsb (says probe) (seq (k_count k) count)).
    + cbv zeta in E. set (n := last_of _ _ _) in *. pose proof (round_inv (says probe) count k n V) as V'. destruct (n =? count - 1)%nat.
      * apply IH in E; [|exact V'].
        assert (C : (k_count k <= k_count (round (says probe) count k n))%nat) by (cbn [round k_count]; lia).
        destruct E as (A & B & (new & D) & R). split; [exact A|]. split; [lia|]. split; [|exact R].
        cbn [round k_pairs] in D. rewrite <- app_assoc in D. eauto.
      * injection E as <- <-. split; [exact V'|]. cbn [round k_count k_pairs]. split; [lia|]. split; [eauto|discriminate].
    + injection E as <- <-. split; [exact V|]. split; [lia|]. split; [exists []; rewrite app_nil_r; reflexivity|discriminate].
  - cbn [scan_loop] in E. rewrite window_eq, M in E. injection E as <- <-.
    split; [exact V|]. split; [lia|]. split; [exists []; rewrite app_nil_r; reflexivity|].
    intros e' Q. injection Q as <-. apply knowns_err in M as (i & _ & M). eauto.
Qed.
Lemma key_scan_kinv probe fuel count k k' r : kinv k -> key_scan addr probe fuel count k = Some (k', r) ->
  kinv k' /\ (k_count k <= k_count k')%nat /\ (exists new, k_pairs k' = k_pairs k ++ new) /\
  (forall e, r = Err e -> exists i, probe (addr i) = Err e).
Proof.
  unfold key_scan. intros V E. destruct (_ || _).
  - injection E as <- <-. split; [exact V|]. split; [lia|]. split; [exists []; rewrite app_nil_r; reflexivity|discriminate].
  - destruct (scan_loop addr probe fuel count k) as [[k1 r1]|] eqn:L; [|discriminate]. injection E as <- <-.
    apply scan_loop_kinv in L as (A & B & C & D); [|exact V]. split; [exact A|]. split; [exact B|]. split; [exact C|].
    intros e Q. apply bind_err in Q as [Q|(x & _ & Q)]; [exact (D e Q)|discriminate].
Qed.
Lemma kinv_empty : kinv (mkkw 0 [] []).
Proof. split; [constructor|intros i []]. Qed.
Lemma key_news_spec n : forall k, kinv k -> kinv (fst (key_news addr n k)) /\ snd (key_news addr n k) = Ok tt /\ exists new, k_pairs (fst (key_news addr n k)) = k_pairs k ++ new.
Proof.
  induction n as [|n IH]; intros k V; cbn [key_news fst snd].
  - split; [exact V|]. split; [reflexivity|]. exists []. rewrite app_nil_r. reflexivity.
  - pose proof (key_new_inv k V) as V'. destruct (key_new_spec k V) as (i & E & Hi & NI). rewrite E in *. cbn [fst snd] in *.
    destruct (IH _ V') as (A & B & new & C). split; [exact A|]. split; [exact B|]. exists (i :: new). rewrite C. cbn [k_pairs]. rewrite <- app_assoc. reflexivity.
Qed.
Lemma key_news_seq n : forall k, k_unused k = [] -> kinv k ->
  key_news addr n k = (mkkw (k_count k + n) (k_pairs k ++ seq (k_count k) n) [], Ok tt).
Proof.
  induction n as [|n IH]; intros k U V; cbn [key_news].
  - rewrite app_nil_r, Nat.add_0_r. destruct k; cbn in *; subst; reflexivity.
  - pose proof (key_new_inv k V) as V'. destruct (key_new_spec k V) as (i & E & Hi & NI). rewrite E in *. cbn [fst snd] in *. rewrite U in *. cbn [hd tl] in *. subst i.
    rewrite IH by (try reflexivity; exact V'). cbn [k_count k_pairs]. rewrite <- app_assoc. cbn [app seq]. replace (S (k_count k) + n)%nat with (k_count k + S n)%nat by lia. reflexivity.
Qed.

(** ** Scanning an unchanging chain *)
Section Static.
Variable probe : pystr -> res unit.
Variable used : nat -> bool.
Hypothesis CH : chain addr used probe.
Lemma known_ok i : known addr probe i = Ok (used i).
Proof. unfold known. rewrite CH. destruct (used i); reflexivity. Qed.
Lemma knowns l : mapM (known addr probe) l = Ok (map used l).
Proof. induction l as [|i l IH]; [reflexivity|]. cbn [mapM map]. rewrite known_ok, IH. reflexivity. Qed.
Lemma found_in l i : In i (found used l) <-> In i l /\ used i = true.
Proof. unfold found. apply filter_In. Qed.
Lemma missed_in l i : In i (missed used l) <-> In i l /\ used i = false.
Proof. unfold missed. rewrite filter_In, negb_true_iff. reflexivity. Qed.
(** what a whole scan does *)
Lemma scan_loop_static count fuel : forall k k' r, (0 < count)%nat -> kinv k -> scan_loop addr probe fuel count k = Some (k', r) ->
  r = Ok tt /\ (k_count k <= k_count k')%nat /\
  (forall i, In i (k_pairs k') <-> In i (k_pairs k) \/ (k_count k <= i < k_count k')%nat /\ used i = true) /\
  (forall i, In i (k_unused k') -> In i (k_unused k) \/ (k_count k <= i < k_count k')%nat /\ used i = false) /\
  (exists c, (k_count k <= c <= k_count k')%nat /\ (k_count k' < c + count)%nat /\ (forall i, (k_count k' <= i < c + count)%nat -> used i = false)) /\
  (k_count k < k_count k' -> used (k_count k' - 1) = true)%nat.
Proof.
  induction fuel as [|fuel IH]; intros k k' r C0 V E; [discriminate|].
  rewrite (round_ok probe used count k fuel V (knowns _)) in E.
  destruct (existsb used (seq (k_count k) count)) eqn:X.
  - cbv zeta in E. destruct (last_bound used count k X) as (B1 & B2 & B3). set (n := last_of 0 0 _) in *. pose proof (round_inv used count k n V) as V'.
    assert (P : forall i, In i (k_pairs (round used count k n)) <-> In i (k_pairs k) \/ (k_count k <= i < k_count k + (n + 1))%nat /\ used i = true).
    { intro i. cbn [round k_pairs]. rewrite in_app_iff, found_in, in_seq. reflexivity. }
    assert (Q : forall i, In i (k_unused (round used count k n)) -> In i (k_unused k) \/ (k_count k <= i < k_count k + (n + 1))%nat /\ used i = false).
    { intros i I. cbn [round k_unused] in I. apply firstn_in in I. rewrite in_app_iff, missed_in, in_seq in I. exact I. }
    destruct (Nat.eqb_spec n (count - 1)) as [En|Nn].
    + apply IH in E; [|exact C0|exact V']. destruct E as (R & L & P' & Q' & (c & S1 & S2 & S3) & U). cbn [round k_count] in L, P', Q', S1, U.
      split; [exact R|]. split; [lia|]. split; [|split; [|split; [|]]].
      * intro i. rewrite P'. rewrite P. destruct (Nat.lt_ge_cases i (k_count k + (n + 1))); intuition lia.
      * intros i I. destruct (Q' i I) as [J|J]; [destruct (Q i J) as [K|K]; [left; exact K|right; intuition lia]|right; intuition lia].
      * exists c. split; [lia|]. split; [exact S2|exact S3].
      * intros _. destruct (Nat.eq_dec (k_count k') (k_count k + (n + 1))) as [Eq|Ne]; [|apply U; lia].
        rewrite Eq. replace (k_count k + (n + 1) - 1)%nat with (k_count k + n)%nat by lia. exact B2.
    + injection E as <- <-. split; [reflexivity|]. cbn [round k_count]. split; [lia|]. split; [exact P|]. split; [exact Q|]. split.
      * exists (k_count k). split; [lia|]. split; [lia|]. intros i I. apply B3; lia.
      * intros _. replace (k_count k + (n + 1) - 1)%nat with (k_count k + n)%nat by lia. exact B2.
  - injection E as <- <-. split; [reflexivity|]. split; [lia|]. split; [|split; [|split; [|]]].
    + intro i. intuition lia.
    + intros i I. left. exact I.
    + exists (k_count k). split; [lia|]. split; [lia|]. intros i I. destruct (used i) eqn:Ui; [|reflexivity].
      assert (existsb used (seq (k_count k) count) = true); [|congruence]. apply existsb_exists. exists i. split; [apply in_seq; lia|exact Ui].
    + lia.
Qed.
Lemma scan_loop_ends count m : none_from used m -> forall fuel k, (0 < count)%nat -> kinv k -> (m < k_count k + fuel)%nat -> (0 < fuel)%nat -> exists x, scan_loop addr probe fuel count k = Some x.
Proof.
  intro NF. induction fuel as [|fuel IH]; intros k C0 V B F.
  - exfalso. lia.
  - rewrite (round_ok probe used count k fuel V (knowns _)). destruct (existsb used (seq (k_count k) count)) eqn:X; [|eauto].
    assert (K : (k_count k < m)%nat).
    { apply existsb_exists in X as (i & I & U). apply in_seq in I. destruct (Nat.lt_ge_cases (k_count k) m) as [?|G]; [assumption|]. rewrite NF in U by lia. discriminate. }
    cbv zeta. set (n := last_of 0 0 _) in *. pose proof (round_inv used count k n V) as V'. destruct (n =? count - 1)%nat; [|eauto].
    apply IH; [exact C0|exact V'| |]; cbn [round k_count]; lia.
Qed.
End Static.
End Keys.
