(** C38, C59, C60: the keys of a wallet, and finding them again. *)
From Verif Require Import Base BaseFacts Encoders EncodersFacts KeyScan Spec_Keys KeyFacts.
From Coq Require Import ZifyBool ZifyNat ZifyN.
Ltac Zify.zify_post_hook ::= Z.div_mod_to_equations.

(** ** C59 *)
(** Two different (seed, index) pairs never give the same bytes to hash for the private key. *)
Theorem C59_derivation s i s' i' b : key_seed s i = Ok b -> key_seed s' i' = Ok b -> s = s' /\ i = i'.
Proof.
  unfold key_seed. intros E E'. apply bind_ok in E as (x & Ex & E). apply bind_ok in E' as (y & Ey & E'). apply ok_inj in E, E'. subst b.
  apply sia_int_ok in Ex as (B1 & ->). apply sia_int_ok in Ey as (B2 & ->). apply app_inj_len_r in E' as (-> & E'); [|rewrite !le_length; reflexivity].
  split; [reflexivity|]. apply le_inj in E'; change (256 ^ N.of_nat 8)%N with (2 ^ 64)%N; lia.
Qed.
(** ... and every index a wallet can count to has such bytes. *)
Theorem C59_total s i : (Z.of_nat i < 2 ^ 64)%Z -> exists b, key_seed s i = Ok b /\ length b = (length s + 8)%nat.
Proof.
  intro B. unfold key_seed. rewrite sia_int_spec. replace ((0 <=? Z.of_nat i) && (Z.of_nat i <? 2 ^ 64))%Z with true by lia. cbn [bind].
  eexists. split; [reflexivity|]. rewrite app_length, le_length. reflexivity.
Qed.
(** So, unless two hashed texts collide, all keys of all seeds are different. *)
Theorem C59_keys (hash : bytes -> bytes) s i s' i' b b' :
  key_seed s i = Ok b -> key_seed s' i' = Ok b' -> hash b = hash b' -> (s = s' /\ i = i') \/ (b <> b' /\ hash b = hash b').
Proof.
  intros E E' Q. destruct (list_eq_dec N.eq_dec b b') as [<-|N]; [left; exact (C59_derivation _ _ _ _ _ E E')|right; auto].
Qed.
Example exk_seed : key_seed [9; 8; 7]%N 258 = Ok [9; 8; 7; 2; 1; 0; 0; 0; 0; 0; 0]%N.
Proof. vm_compute. reflexivity. Qed.
Print Assumptions C59_derivation.
Print Assumptions C59_total.
Print Assumptions C59_keys.

(** ** C60 *)
Section C60.
Variable addr : nat -> pystr.
Hypothesis NC : no_collision addr.
Lemma kstep_kinv probe count k o k' r : kinv k -> kstep addr probe count k o = Some (k', r) ->
  kinv k' /\ exists new, k_pairs k' = k_pairs k ++ new.
Proof.
  intros V E. destruct o as [|fuel]; cbn [kstep] in E.
  - injection E as <- _. unfold address_new. cbn [fst]. split; [exact (key_new_inv addr NC k V)|]. destruct (key_new_spec addr NC k V) as (i & Q & _). rewrite Q. cbn. eauto.
  - destruct (key_scan addr probe fuel count k) as [[k1 r1]|] eqn:S1; [|discriminate]. injection E as <- _.
    apply (key_scan_kinv addr NC) in S1 as (A & _ & B & _); auto.
Qed.
Lemma khistory_kinv count k k' : khistory addr count k k' -> kinv k -> kinv k' /\ exists new, k_pairs k' = k_pairs k ++ new.
Proof.
  induction 1 as [k|k probe o k1 r k2 E T IH]; intro V; [split; [exact V|exists []; rewrite app_nil_r; reflexivity]|].
  apply kstep_kinv in E as (V1 & n1 & Q1); [|exact V]. destruct (IH V1) as (V2 & n2 & Q2). split; [exact V2|]. exists (n1 ++ n2). rewrite Q2, Q1, app_assoc. reflexivity.
Qed.
Lemma open_ok probe fuel n start scan k0 r : wallet_keys addr probe fuel n start scan = Some (k0, r) ->
  kinv k0 /\ (exists new, k_pairs k0 = seq 0 (Z.to_nat (Z.max 1 n)) ++ new) /\
  key_scan addr probe fuel (scan_count scan) (mkkw (Z.to_nat (Z.max 1 n)) (seq 0 (Z.to_nat (Z.max 1 n))) []) = Some (k0, match r with Ok _ => Ok (Z.to_nat (Z.max 1 n) <? k_count k0)%nat | Err e => Err e end) /\
  (forall a, r = Ok a -> a = addr 0).
Proof.
  unfold wallet_keys. intro E. pose proof kinv_empty as V0.
  destruct (key_new_spec addr NC _ V0) as (i & Q & Hi & _). pose proof (key_new_inv addr NC _ V0) as V1. rewrite Q in E, V1. cbn [k_unused k_count hd tl k_pairs app fst snd] in *. subst i.
  rewrite (key_news_seq addr NC _ (mkkw 1 [0%nat] []) eq_refl V1) in E. cbn [k_count k_pairs app fst snd] in E.
  pose proof (key_news_spec addr NC (Z.to_nat (Z.max 1 n) - 1) _ V1) as (V2 & _). rewrite (key_news_seq addr NC _ (mkkw 1 [0%nat] []) eq_refl V1) in V2. cbn [k_count k_pairs app fst] in V2.
  change (0%nat :: seq 1 (Z.to_nat (Z.max 1 n) - 1)) with (seq 0 (S (Z.to_nat (Z.max 1 n) - 1))) in *.
  replace (1 + (Z.to_nat (Z.max 1 n) - 1))%nat with (Z.to_nat (Z.max 1 n)) in * by lia.
  replace (S (Z.to_nat (Z.max 1 n) - 1))%nat with (Z.to_nat (Z.max 1 n)) in * by lia.
  destruct (key_scan addr probe fuel (scan_count scan) _) as [[k1 r1]|] eqn:SC; [|discriminate]. injection E as <- <-.
  pose proof (key_scan_kinv addr NC _ _ _ _ _ _ V2 SC) as (A & _ & B & _). split; [exact A|]. split; [exact B|]. split.
  - f_equal. f_equal. unfold key_scan in SC. cbn [k_unused length k_count] in SC. destruct (_ || _).
    + injection SC as <- <-. cbn [bind k_count]. f_equal. lia.
    + destruct (scan_loop _ _ _ _ _) as [[k2 r2]|]; [|discriminate]. injection SC as <- <-. destruct r2; reflexivity.
  - intros a Ea. apply bind_ok in Ea as (? & _ & Ea). apply ok_inj in Ea. auto.
Qed.
Lemma reachable_kinv k : reachable addr k -> kinv k.
Proof.
  intros (probe & fuel & n & start & scan & k0 & r & E & HH). apply open_ok in E as (V & _). exact (proj1 (khistory_kinv _ _ _ HH V)).
Qed.
(** A new address is always given, is not yet one of the wallet's, and is one of them afterwards. *)
Theorem C60_new_address k : reachable addr k ->
  exists a, snd (address_new addr k) = Ok a /\ ~ In a (map addr (k_pairs k)) /\ map addr (k_pairs (fst (address_new addr k))) = map addr (k_pairs k) ++ [a].
Proof.
  intro R. apply reachable_kinv in R as V. destruct (key_new_spec addr NC k V) as (i & E & _ & NI). exists (addr i). unfold address_new. rewrite E. cbn [fst snd bind k_pairs].
  split; [reflexivity|]. split; [|rewrite map_app; reflexivity]. intro I. apply in_map_iff in I as (j & Q & J). apply NC in Q. subst j. contradiction.
Qed.
(** The addresses of a wallet are all different ... *)
Theorem C60_distinct k : reachable addr k -> NoDup (map addr (k_pairs k)).
Proof.
  intro R. apply reachable_kinv in R as (N & _). apply NoDup_app_l in N. induction N as [|i l NI N IH]; cbn [map]; [constructor|]. constructor; [|exact IH].
  intro I. apply in_map_iff in I as (j & Q & J). apply NC in Q. subst j. contradiction.
Qed.
(** ... whatever happens a wallet never loses a key, and the address at the front, its primary address, stays that of key 0. *)
Theorem C60_never_lost count k k' i : reachable addr k -> khistory addr count k k' -> loaded k i -> loaded k' i.
Proof.
  intros R HH L. apply reachable_kinv in R as V. destruct (khistory_kinv _ _ _ HH V) as (_ & new & E). unfold loaded in *. rewrite E. apply in_or_app. auto.
Qed.
Theorem C60_primary k : reachable addr k -> exists l, map addr (k_pairs k) = addr 0 :: l.
Proof.
  intros (probe & fuel & n & start & scan & k0 & r & E & HH). apply open_ok in E as (V & (new & E) & _). destruct (khistory_kinv _ _ _ HH V) as (_ & new' & E').
  rewrite E', E. replace (Z.to_nat (Z.max 1 n)) with (S (Z.to_nat (Z.max 1 n) - 1)) by lia. cbn [seq app map]. eauto.
Qed.
(** Scanning raises only what the lookups raise. *)
Theorem C60_scan_errors probe fuel count k k' e : reachable addr k -> key_scan addr probe fuel count k = Some (k', Err e) -> exists i, probe (addr i) = Err e.
Proof. intros R E. apply reachable_kinv in R as V. apply (key_scan_kinv addr NC) in E as (_ & _ & _ & Q); auto. Qed.
(** Right after a scan of an unchanging chain the next new address is one the chain has not seen. *)
Theorem C60_unseen probe used fuel count k k' r : reachable addr k -> chain addr used probe -> (0 < count)%nat -> k_unused k = [] ->
  key_scan addr probe fuel count k = Some (k', r) -> exists i, snd (address_new addr k') = Ok (addr i) /\ used i = false.
Proof.
  intros R CH C0 U E. apply reachable_kinv in R as V. pose proof (key_scan_kinv addr NC _ _ _ _ _ _ V E) as (V' & _).
  unfold key_scan in E. rewrite U in E. replace (_ || _) with false in E by (symmetry; apply orb_false_iff; split; [reflexivity|apply Nat.eqb_neq; lia]).
  destruct (scan_loop addr probe fuel count k) as [[k1 r1]|] eqn:L; [|discriminate]. injection E as <- _.
  apply (scan_loop_static addr NC probe used CH) in L as (_ & _ & _ & Q & (c & _ & S2 & S3) & _); [|exact C0|exact V].
  destruct (key_new_spec addr NC k1 V') as (i & E & Hi & NI). exists i. unfold address_new. rewrite E. cbn [snd bind]. split; [reflexivity|].
  destruct (k_unused k1) as [|j l] eqn:U1; cbn [hd] in Hi; subst i.
  - apply S3. lia.
  - destruct (Q j) as [J|(_ & J)]; [left; reflexivity| |exact J]. rewrite U in J. destruct J.
Qed.
End C60.
Print Assumptions C60_new_address.
Print Assumptions C60_distinct.
Print Assumptions C60_never_lost.
Print Assumptions C60_primary.
Print Assumptions C60_scan_errors.
Print Assumptions C60_unseen.

(** Listing the addresses gives the address of every key loaded by then and no other; it raises only what a lookup raises. *)
Theorem C60_addresses addr probe fuel count k k' r : no_collision addr -> reachable addr k -> addresses addr probe fuel count k = Some (k', r) ->
  (forall l, r = Ok l -> NoDup l /\ forall a, In a l <-> exists i, loaded k' i /\ a = addr i) /\
  (forall e, r = Err e -> exists i, probe (addr i) = Err e).
Proof.
  intros NC R E. unfold addresses in E. destruct (key_scan addr probe fuel count k) as [[k1 r1]|] eqn:SC; [|discriminate]. injection E as <- <-.
  split; intros x X.
  - destruct r1 as [b|e]; [|discriminate]. apply ok_inj in X. subst x. split.
    + apply (reachable_kinv addr NC) in R as V. apply (key_scan_kinv addr NC) in SC as ((N & _) & _); [|exact V]. apply NoDup_app_l in N. clear - N NC.
      induction N as [|i l NI N IH]; cbn [map]; [constructor|]. constructor; [|exact IH]. intro I. apply in_map_iff in I as (j & Q & J). apply NC in Q. subst j. contradiction.
    + intro a. rewrite in_map_iff. unfold loaded. split; intros (i & A & B); exists i; auto.
  - destruct r1 as [b|e]; [discriminate|]. injection X as <-. exact (C60_scan_errors addr NC _ _ _ _ _ _ R SC).
Qed.
Print Assumptions C60_addresses.
(** Should two keys have the same address after all, no key is listed twice: the new address is refused, and the keys stay as they were. *)
Theorem C60_collision addr k :
  match snd (address_new addr k) with
  | Ok a => ~ In a (map addr (k_pairs k)) /\ map addr (k_pairs (fst (address_new addr k))) = map addr (k_pairs k) ++ [a]
  | Err e => e = KeyError /\ k_pairs (fst (address_new addr k)) = k_pairs k
  end.
Proof.
  assert (P : forall k i c o, match snd (pair_add addr k i c o) with
    | Ok _ => ~ In (addr i) (map addr (k_pairs k)) /\ k_pairs (fst (pair_add addr k i c o)) = k_pairs k ++ [i]
    | Err e => e = KeyError /\ k_pairs (fst (pair_add addr k i c o)) = k_pairs k end).
  { clear k. intros k i c o. unfold pair_add. destruct (existsb _ _) eqn:X; cbn [fst snd k_pairs]; [auto|]. split; [|reflexivity].
    intro I. apply in_map_iff in I as (j & Q & J). assert (false = true); [|discriminate]. rewrite <- X. apply existsb_exists. exists j. split; [exact J|]. apply listN_eqb_eq. exact Q. }
  unfold address_new, key_new. destruct (k_unused k) as [|i l].
  - specialize (P k (k_count k) true 0%nat). cbn [fst snd]. destruct (snd (pair_add addr k (k_count k) true 0)) as [u|e]; cbn [bind]; [|exact P]. destruct P as (P1 & P2). split; [exact P1|]. rewrite P2, map_app. reflexivity.
  - specialize (P (mkkw (k_count k) (k_pairs k) l) i false 0%nat). cbn [fst snd k_pairs] in *. destruct (snd (pair_add addr _ i false 0)) as [u|e]; cbn [bind]; [|exact P]. destruct P as (P1 & P2). split; [exact P1|]. rewrite P2, map_app. reflexivity.
Qed.
Print Assumptions C60_collision.

(** ** C38 *)
Section C38.
Variable addr : nat -> pystr.
Hypothesis NC : no_collision addr.
Variable probe : pystr -> res unit.
Variable used : nat -> bool.
Hypothesis CH : chain addr used probe.
Lemma key_scan_loop fuel count k k' r : (0 < count)%nat -> k_unused k = [] -> key_scan addr probe fuel count k = Some (k', r) ->
  exists r', scan_loop addr probe fuel count k = Some (k', r') /\ r = (do _ <- r'; Ok (k_count k <? k_count k')%nat).
Proof.
  intros C0 U E. unfold key_scan in E. rewrite U in E. replace (_ || _) with false in E by (symmetry; apply orb_false_iff; split; [reflexivity|apply Nat.eqb_neq; lia]).
  destruct (scan_loop addr probe fuel count k) as [[k1 r1]|] eqn:L; [|discriminate]. injection E as <- <-. eauto.
Qed.
(** A scan that is not skipped adds exactly the used keys among those it counts past, never fails, and what it keeps
    for later use are unused keys. *)
Theorem C38_scan_exact fuel count k k' r : reachable addr k -> (0 < count)%nat -> k_unused k = [] -> key_scan addr probe fuel count k = Some (k', r) ->
  r = Ok (k_count k <? k_count k')%nat /\
  (forall i, loaded k' i <-> loaded k i \/ (k_count k <= i < k_count k')%nat /\ used i = true) /\
  (forall i, In i (k_unused k') -> (k_count k <= i < k_count k')%nat /\ used i = false) /\
  (k_count k < k_count k' -> loaded k' (k_count k' - 1))%nat.
Proof.
  intros R C0 U E. apply (reachable_kinv addr NC) in R as V. apply key_scan_loop in E as (r' & L & ->); [|exact C0|exact U].
  apply (scan_loop_static addr NC probe used CH) in L as (-> & A & P & Q & _ & Z); [|exact C0|exact V]. split; [reflexivity|]. split; [exact P|]. split.
  - intros i I. destruct (Q i I) as [J|J]; [rewrite U in J; destruct J|exact J].
  - intro B. apply P. right. split; [lia|exact (Z B)].
Qed.
(** All used keys of the first window are found, and it stops at a stretch of unused keys. *)
Theorem C38_window fuel count k k' r : reachable addr k -> (0 < count)%nat -> k_unused k = [] -> key_scan addr probe fuel count k = Some (k', r) ->
  (forall i, (k_count k <= i < k_count k + count)%nat -> used i = true -> loaded k' i) /\ used (k_count k') = false.
Proof.
  intros R C0 U E. apply (reachable_kinv addr NC) in R as V. apply key_scan_loop in E as (r' & L & ->); [|exact C0|exact U].
  apply (scan_loop_static addr NC probe used CH) in L as (-> & A & P & Q & (c & S1 & S2 & S3) & Z); [|exact C0|exact V]. split.
  - intros i I Ui. apply P. right. split; [|exact Ui]. destruct (Nat.lt_ge_cases i (k_count k')) as [B|B]; [lia|]. rewrite S3 in Ui by lia. discriminate.
  - apply S3. lia.
Qed.
(** Keys used without gaps are all found, whatever the window, and nothing is left aside. *)
Theorem C38_no_gaps fuel count k k' r m : reachable addr k -> (0 < count)%nat -> k_unused k = [] -> (k_count k <= m)%nat ->
  (forall i, (k_count k <= i < m)%nat -> used i = true) -> none_from used m -> key_scan addr probe fuel count k = Some (k', r) ->
  k_count k' = m /\ (forall i, loaded k' i <-> loaded k i \/ (k_count k <= i < m)%nat) /\ k_unused k' = [].
Proof.
  intros R C0 U B CU NF E. apply (reachable_kinv addr NC) in R as V. apply key_scan_loop in E as (r' & L & ->); [|exact C0|exact U].
  apply (scan_loop_static addr NC probe used CH) in L as (-> & A & P & Q & (c & S1 & S2 & S3) & Z); [|exact C0|exact V].
  assert (Em : k_count k' = m).
  { destruct (Nat.lt_trichotomy (k_count k') m) as [T|[T|T]]; [|exact T|].
    - specialize (S3 (k_count k') ltac:(lia)). rewrite CU in S3 by lia. discriminate.
    - rewrite NF in Z by lia. assert (false = true) by (apply Z; lia). discriminate. }
  split; [exact Em|]. split.
  - intro i. unfold loaded. rewrite P, Em. split; [intuition|]. intros [I|I]; [auto|]. right. split; [exact I|]. apply CU. lia.
  - destruct (k_unused k') as [|i l] eqn:U'; [reflexivity|]. exfalso. destruct (Q i) as [J|(J1 & J2)]; [left; reflexivity|rewrite U in J; destruct J|].
    rewrite CU in J2 by lia. discriminate.
Qed.
(** A scan ends when finitely many keys are used ... *)
Theorem C38_ends count k m : reachable addr k -> none_from used m -> exists fuel x, key_scan addr probe fuel count k = Some x.
Proof.
  intros R NF. apply (reachable_kinv addr NC) in R as V. exists (S m). unfold key_scan. destruct (_ || _) eqn:G; [eauto|]. apply orb_false_iff in G as (_ & G). apply Nat.eqb_neq in G.
  destruct (scan_loop_ends addr NC probe used CH count m NF (S m) k) as ((k' & r) & E); [lia|exact V|lia|lia|]. rewrite E. eauto.
Qed.
(** With a window of one or two keys no key is ever put aside; asking again until nothing new is found then loads every
    used key, if there are no longer gaps than the window allows. *)
Lemma small_round k n count : kinv k -> (count <= 2)%nat -> k_unused k = [] -> (n < count)%nat -> used (k_count k + n)%nat = true -> k_unused (round used count k n) = [].
Proof.
  intros V C2 U Bn Un. cbn [round k_unused]. rewrite U. cbn [app]. destruct n as [|[|n]]; [| |lia].
  - cbn [seq Nat.add missed filter]. rewrite Nat.add_0_r in Un. rewrite Un. reflexivity.
  - cbn [seq Nat.add missed filter]. replace (S (k_count k)) with (k_count k + 1)%nat by lia. rewrite Un. cbn [negb]. destruct (negb (used (k_count k))); reflexivity.
Qed.
Lemma small_loop count fuel : (0 < count <= 2)%nat -> forall k k' r, kinv k -> k_unused k = [] -> scan_loop addr probe fuel count k = Some (k', r) -> k_unused k' = [].
Proof.
  intro C2. induction fuel as [|fuel IH]; intros k k' r V U E; [discriminate|]. rewrite (round_ok addr NC probe used count k fuel V (knowns addr probe used CH _)) in E.
  destruct (existsb used (seq (k_count k) count)) eqn:X; [|injection E as <- <-; exact U].
  cbv zeta in E. destruct (last_bound addr NC used count k X) as (B1 & B2 & B3). set (n := last_of 0 0 _) in *. pose proof (round_inv used count k n V) as V'.
  assert (U' : k_unused (round used count k n) = []) by (apply small_round; auto; lia).
  destruct (n =? count - 1)%nat; [exact (IH _ _ _ V' U' E)|]. injection E as <- <-. exact U'.
Qed.
Theorem C38_small_window_partial count k m fuel : reachable addr k -> (0 < count <= 2)%nat -> k_unused k = [] -> none_from used m ->
  gaps_within used count (k_count k) m -> (m < fuel)%nat ->
  exists k', rescans addr probe fuel count m k = Some k' /\ forall i, (k_count k <= i)%nat -> used i = true -> loaded k' i.
Proof.
  intros R C2 U NF G F. apply (reachable_kinv addr NC) in R as V. clear R.
  assert (Gen : forall n k0, kinv k0 -> k_unused k0 = [] -> (k_count k <= k_count k0)%nat -> (m <= k_count k0 + n)%nat ->
    (forall i, (k_count k <= i < k_count k0)%nat -> used i = true -> loaded k0 i) ->
    exists k', rescans addr probe fuel count n k0 = Some k' /\ forall i, (k_count k <= i)%nat -> used i = true -> loaded k' i).
  { induction n as [|n IH]; intros k0 V0 U0 B0 M0 L0.
    - exists k0. split; [reflexivity|]. intros i I Ui. destruct (Nat.lt_ge_cases i (k_count k0)) as [T|T]; [apply L0; [lia|exact Ui]|]. rewrite NF in Ui by lia. discriminate.
    - cbn [rescans]. destruct (scan_loop_ends addr NC probe used CH count m NF fuel k0) as ((k1 & r1) & E); [lia|exact V0|lia|lia|].
      unfold key_scan. rewrite U0. replace (_ || _) with false by (symmetry; apply orb_false_iff; split; [reflexivity|apply Nat.eqb_neq; lia]). rewrite E.
      pose proof (small_loop count fuel C2 _ _ _ V0 U0 E) as U1. pose proof (scan_loop_kinv addr NC _ _ _ _ _ _ V0 E) as (V1 & _).
      pose proof E as E'. apply (scan_loop_static addr NC probe used CH) in E' as (-> & A & P & _ & (c & S1 & S2 & S3) & Z); [|lia|exact V0]. cbn [bind].
      apply IH; [exact V1|exact U1|lia| |].
      + destruct (Nat.le_gt_cases m (k_count k1)) as [T|T]; [lia|]. destruct (Nat.eq_dec (k_count k1) (k_count k0)) as [Q|Q]; [|lia].
        exfalso. assert (c = k_count k0) by lia. subst c. destruct (G (k_count k0)) as (j & J1 & J2); [lia|]. rewrite S3 in J2 by lia. discriminate.
      + intros i I Ui. apply P. destruct (Nat.lt_ge_cases i (k_count k0)) as [T|T]; [left; apply L0; [lia|exact Ui]|right; split; [lia|exact Ui]]. }
  apply Gen; [exact V|exact U|lia|lia|]. intros i I. lia.
Qed.
(** Opening a wallet loads the keys asked for, and the used ones of the window that follows. *)
Theorem C38_open fuel n start scan k a : (0 < scan_count scan)%nat -> wallet_keys addr probe fuel n start scan = Some (k, a) ->
  a = Ok (addr 0) /\ (forall i, (i < Z.to_nat (Z.max 1 n))%nat -> loaded k i) /\
  (forall i, (i < Z.to_nat (Z.max 1 n) + scan_count scan)%nat -> used i = true -> loaded k i).
Proof.
  intros C0 E. set (m := Z.to_nat (Z.max 1 n)) in *. apply (open_ok addr NC) in E as (V & (new & EN) & SC & A). fold m in EN, SC.
  assert (V0 : kinv (mkkw m (seq 0 m) [])). { split; cbn [k_pairs k_unused k_count]; rewrite app_nil_r; [apply seq_NoDup|]. intros i I. apply in_seq in I. lia. }
  assert (L : forall i, (i < m)%nat -> loaded k i). { intros i I. unfold loaded. rewrite EN. apply in_or_app. left. apply in_seq. lia. }
  apply key_scan_loop in SC as (r' & SC & Er); [|exact C0|reflexivity].
  apply (scan_loop_static addr NC probe used CH) in SC as (-> & B & P & Q & (c & S1 & S2 & S3) & Z); [|exact C0|exact V0]. cbn [bind k_count k_pairs] in *.
  split; [destruct a as [a|e]; [f_equal; apply A; reflexivity|discriminate]|]. split; [exact L|].
  intros i I Ui. destruct (Nat.lt_ge_cases i m) as [T|T]; [exact (L i T)|]. apply P. right. split; [|exact Ui].
  destruct (Nat.lt_ge_cases i (k_count k)) as [W|W]; [lia|]. rewrite S3 in Ui by lia. discriminate.
Qed.
End C38.
Print Assumptions C38_scan_exact.
Print Assumptions C38_window.
Print Assumptions C38_no_gaps.
Print Assumptions C38_ends.
Print Assumptions C38_small_window_partial.
Print Assumptions C38_open.
(** The index to start from makes no difference. *)
Theorem C38_start_index_ignored addr probe fuel n s s' scan : wallet_keys addr probe fuel n s scan = wallet_keys addr probe fuel n s' scan.
Proof. reflexivity. Qed.

(** ** Examples *)
Definition exk_addr (i : nat) : pystr := repeat 97%N i.
Definition exk_used (l : list nat) (i : nat) : bool := existsb (Nat.eqb i) l.
Definition exk_probe (l : list nat) (a : pystr) : res unit := if exk_used l (length a) then Ok tt else Err ExplorerNoContent.
Lemma exk_nc : no_collision exk_addr.
Proof. intros i j E. apply (f_equal (@length N)) in E. unfold exk_addr in E. rewrite !repeat_length in E. exact E. Qed.
Lemma exk_chain l : chain exk_addr (exk_used l) (exk_probe l).
Proof. intro i. unfold exk_probe, exk_addr. rewrite repeat_length. reflexivity. Qed.
(** no gaps: keys 0-4 used, all found with the default window *)
Example exk_contiguous : wallet_keys exk_addr (exk_probe [0; 1; 2; 3; 4]%nat) 9 1 0 (-1) = Some (mkkw 5 [0; 1; 2; 3; 4]%nat [], Ok (exk_addr 0)).
Proof. vm_compute. reflexivity. Qed.
Example exk_small : rescans exk_addr (exk_probe [0; 2; 4; 5; 7]%nat) 9 2 8 (mkkw 1 [0%nat] []) = Some (mkkw 8 [0; 2; 4; 5; 7]%nat []).
Proof. vm_compute. reflexivity. Qed.
Example exk_reachable : reachable exk_addr (mkkw 5 [0; 1; 2; 3; 4]%nat []).
Proof. exists (exk_probe [0; 1; 2; 3; 4]%nat), 9%nat, 1%Z, 0%Z, (-1)%Z, (mkkw 5 [0; 1; 2; 3; 4]%nat []), (Ok (exk_addr 0)). split; [exact exk_contiguous|constructor]. Qed.
(** The claim as stated fails: with gaps of at most two keys and the default window of three, a used key is missed, and
    asking again never finds it, as keys put aside prevent any further scan. *)
Theorem C38_missed_refuted : exists used k, gaps_within used 3 1 8 /\
  wallet_keys exk_addr (exk_probe [0; 3; 5; 7]%nat) 9 1 0 (-1) = Some (k, Ok (exk_addr 0)) /\ chain exk_addr used (exk_probe [0; 3; 5; 7]%nat) /\
  used 7%nat = true /\ forall n, exists k', rescans exk_addr (exk_probe [0; 3; 5; 7]%nat) 9 3 n k = Some k' /\ ~ loaded k' 7.
Proof.
  exists (exk_used [0; 3; 5; 7]%nat), (mkkw 6 [0; 3; 5]%nat [1%nat]). split; [|split; [|split; [|split]]].
  - intros i I. destruct (Nat.le_gt_cases i 3); [exists 3%nat; split; [lia|reflexivity]|]. destruct (Nat.le_gt_cases i 5); [exists 5%nat|exists 7%nat]; (split; [lia|reflexivity]).
  - vm_compute. reflexivity.
  - apply exk_chain.
  - reflexivity.
  - intro n. exists (mkkw 6 [0; 3; 5]%nat [1%nat]). split; [|intros [?|[?|[?|[]]]]; discriminate]. induction n as [|n IH]; [reflexivity|exact IH].
Qed.
(** An unused key between used ones is not loaded, and may not even be handed out later: here new addresses skip key 1. *)
Theorem C38_gap_refuted : exists k, wallet_keys exk_addr (exk_probe [0; 2]%nat) 9 1 0 (-1) = Some (k, Ok (exk_addr 0)) /\ loaded k 2 /\ ~ loaded k 1 /\
  forall n, ~ loaded (fst (key_news exk_addr n k)) 1.
Proof.
  exists (mkkw 3 [0; 2]%nat []). split; [vm_compute; reflexivity|]. split; [right; left; reflexivity|]. split; [intros [?|[?|[]]]; discriminate|].
  intro n. rewrite (key_news_seq exk_addr exk_nc n (mkkw 3 [0; 2]%nat [])); [|reflexivity|].
  - unfold loaded. cbn [fst k_pairs k_count]. intro I. apply in_app_or in I as [[?|[?|[]]]|I]; [discriminate|discriminate|]. apply in_seq in I. lia.
  - split; cbn [k_pairs k_unused k_count app]; [repeat constructor; cbn; intuition discriminate|]. intros i [<-|[<-|[]]]; lia.
Qed.
Print Assumptions C38_start_index_ignored.
Print Assumptions C38_missed_refuted.
Print Assumptions C38_gap_refuted.
(** ... and a case of each *)
Example exk_addresses : addresses exk_addr (exk_probe [0; 1; 2; 3; 4]%nat) 9 3 (mkkw 1 [0%nat] []) = Some (mkkw 5 [0; 1; 2; 3; 4]%nat [], Ok (map exk_addr [0; 1; 2; 3; 4]%nat)).
Proof. vm_compute. reflexivity. Qed.
Example exk_collision : address_new (fun _ => [97%N]) (mkkw 1 [0%nat] []) = (mkkw 1 [0%nat] [], Err KeyError).
Proof. vm_compute. reflexivity. Qed.
