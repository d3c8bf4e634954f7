(** Facts about the balance and the transactions of a whole wallet. *)
From Coq Require Import Sorting.Sorted.
From Verif Require Import Base BaseFacts Encoders Currency Primitive Types Conditions Fulfillments ThreeBotTypes Txn TxnJson Wallet Explorer WalletLoad
  Spec_Types Spec_Wallet Spec_Explorer Spec_Load TypesFacts WalletFacts WalletFacts2 ExplorerFacts ExplorerFacts2 ExplorerFacts3 Prop_Wallet Prop_Explorer.
From Coq Require Import ZifyBool ZifyNat ZifyN.
Ltac Zify.zify_post_hook ::= Z.div_mod_to_equations.

Section Hash.
Variable H : bytes -> bytes.
Variable ip_parse : pystr -> res bytes.
Variable now : Z.
Variable net : nat -> pystr -> res json.
Notation look := (lookup H ip_parse now net).

Lemma unlockhash_get_inv a j r : unlockhash_get H ip_parse now a j = Ok r ->
  uh_parse H a = Ok (h_uh r) /\ Forall (fun u => uh_type u = 3%Z /\ exists s, uh_parse H s = Ok u) (h_multisigs r).
Proof.
  intro E. unfold unlockhash_get in E. apply key_error_ok in E. apply bind_ok in E as (u0 & _ & E).
  apply bind_ok in E as (ts & Ets & E). apply bind_ok in E as (es & Ees & E). apply bind_ok in E as (xs & Exs & E). apply bind_ok in E as (ms & Ems & E).
  apply bind_ok in E as (u1 & G & E). apply bind_ok in E as (i & Ei & E). apply bind_ok in E as (u & Eu & E). apply ok_inj in E. subst r. cbn [h_uh h_multisigs].
  split; [exact Eu|]. apply guard_ok in G. apply bind_ok in Ems as (l & _ & Ems). apply mapM_Forall2_iff in Ems.
  apply Forall_forall. intros v Iv. split.
  - rewrite forallb_forall in G. apply G in Iv. lia.
  - clear G. induction Ems as [|s w l ms Q F IH]; [destruct Iv|]. destruct Iv as [->|Iv]; [|auto]. unfold uh_from_json in Q. destruct s; try discriminate Q. eauto.
Qed.
Lemma lookup_inv n a r : look n a = Ok r -> uh_parse H a = Ok (h_uh r) /\ Forall (fun u => uh_type u = 3%Z /\ exists s, uh_parse H s = Ok u) (h_multisigs r).
Proof. unfold lookup. intro E. apply bind_ok in E as (j & _ & E). exact (unlockhash_get_inv a j r E). Qed.
Lemma parsed_hash s u : uh_parse H s = Ok u -> uh_hash u = [] \/ hash32 (uh_hash u).
Proof. intro E. apply uh_parse_sound in E as (_ & _ & E & [D|D] & _); [left; exact D|right; split; [exact D | exact (unhex_wf _ _ E)]]. Qed.
(** the text of a multi-signature address, as far as it can be read back *)
Lemma multi_text v a u : hash_ok H -> uh_type v = 3%Z -> uh_hash v = [] \/ hash32 (uh_hash v) -> uh_str H v = Ok a -> uh_parse H a = Ok u ->
  address u /\ uh_type u = 3%Z /\ uh_str H u = Ok a.
Proof.
  intros HH T D Ea Eu. destruct D as [D|D].
  - destruct v as [t h]. cbn [uh_type uh_hash] in T, D. subst t h.
    assert (Sa : exists c, a = hex [3] ++ repeatN 48 64 ++ c).
    { unfold uh_str in Ea. cbn [uh_type uh_hash] in Ea. apply bind_ok in Ea as (c & _ & Ea). apply bind_ok in Ea as (g & _ & Ea). apply ok_inj in Ea. eauto. }
    destruct Sa as (c & Sa). pose proof (uh_parse_sound H a u Eu) as (_ & E1 & E2 & _ & E3).
    rewrite Sa in E1, E2. change (py_int (firstn 2 (hex [3] ++ repeatN 48 64 ++ c))) with (@Ok Z 3%Z) in E1. apply ok_inj in E1.
    change (unhex (firstn 64 (skipn 2 (hex [3] ++ repeatN 48 64 ++ c)))) with (Ok (zeros 32)) in E2. apply ok_inj in E2.
    destruct u as [t h]. cbn [uh_type uh_hash] in *. subst t h.
    assert (A : address (mkuh 3 (zeros 32))). { split; [cbn; auto|]. split; [split; [reflexivity | repeat constructor] | reflexivity]. }
    split; [exact A|]. split; [reflexivity|]. destruct (address_round_trip H _ HH A) as (s & Es & _ & _). rewrite Es.
    unfold uh_str in Es. cbn [uh_type uh_hash] in Es. apply bind_ok in Es as (k & Ek & Es). apply bind_ok in Es as (g & _ & Es). apply ok_inj in Es. subst s.
    destruct E3 as [(E3 & _)|(_ & E3)]; [discriminate E3|]. rewrite Sa in E3 |- *.
    change (skipn 66 (hex [3] ++ repeatN 48 64 ++ c)) with c in E3. rewrite E3. unfold checksum_text.
    unfold uh_checksum in Ek. cbn [uh_type] in Ek. apply bind_ok in Ek as (d & Ed & Ek). apply ok_inj in Ek. subst k.
    vm_compute in Ed. apply ok_inj in Ed. rewrite <- Ed. reflexivity.
  - assert (A : address v) by (repeat split; try apply D; [auto | intro Q; rewrite Q in T; discriminate T]).
    destruct (address_round_trip H v HH A) as (s & Es & _ & Er). rewrite Ea in Es. apply ok_inj in Es. subst s. rewrite Er in Eu. apply ok_inj in Eu. subst u. auto.
Qed.
Lemma lookup_text t n a r : hash_ok H -> text_of H t a -> look n a = Ok r -> address (h_uh r) /\ uh_type (h_uh r) = t /\ uh_str H (h_uh r) = Ok a.
Proof.
  intros HH (u & A & T & E) L. apply lookup_inv in L as (P & _). destruct (address_round_trip H u HH A) as (s & Es & _ & Er). rewrite E in Es. apply ok_inj in Es. subst s.
  rewrite Er in P. apply ok_inj in P. rewrite <- P. auto.
Qed.

(** ** What the loops do *)
Inductive merged : bal -> list bal -> bal -> Prop :=
| M_nil b : merged b [] b
| M_cons a b c l d : balance_add a b = Ok c -> merged c l d -> merged a (b :: l) d.
Definition plain (info : Z * Z * bytes) (r : uhresult) (b : bal) : Prop := result_balance H r (Some info) = Ok (None, b).

Lemma plain_type info r x : uh_type (h_uh r) <> 3%Z -> result_balance H r (Some info) = Ok x -> fst x = None.
Proof.
  intros T E. unfold result_balance in E. destruct (uh_type (h_uh r) =? 3)%Z eqn:Q; [lia|]. apply bind_ok in E as (b & _ & E). apply ok_inj in E. subst. reflexivity.
Qed.
Lemma multisigs_ok r l : mapM (uh_str H) (h_multisigs r) = Ok l -> l = multisigs H r.
Proof.
  unfold multisigs. generalize (h_multisigs r). intro us. revert l. induction us as [|u us IH]; intros l E; cbn in E |- *; [apply ok_inj in E; auto|].
  apply bind_ok in E as (s & Es & E). apply bind_ok in E as (l' & El & E). apply ok_inj in E. rewrite Es, <- (IH _ El). auto.
Qed.
Lemma load_own_inv info addrs : forall n w ms w' ms', hash_ok H -> Forall (text_of H 1) addrs -> load_own H ip_parse now net info n addrs w ms = Ok (w', ms') ->
  exists own bs, answers look n addrs own /\ Forall2 (fun ar b => plain info (snd ar) b) own bs /\ merged (wb_own w) bs (wb_own w') /\
    wb_ms w' = wb_ms w /\ ms' = ms ++ flat_map (fun ar => multisigs H (snd ar)) own /\
    Forall (fun ar => uh_type (h_uh (snd ar)) = 1%Z /\ uh_str H (h_uh (snd ar)) = Ok (fst ar)) own.
Proof.
  induction addrs as [|a addrs IH]; intros n w ms w' ms' HH T E; cbn [load_own] in E.
  - apply ok_inj in E. injection E as <- <-. exists [], []. repeat split; try constructor. cbn. rewrite app_nil_r. reflexivity.
  - inversion T as [|? ? Ta T']; subst. destruct (look n a) as [r|e] eqn:L.
    + apply bind_ok in E as (x & Ex & E). apply bind_ok in E as (w1 & Ew & E). apply bind_ok in E as (l & El & E).
      destruct (lookup_text 1 n a r HH Ta L) as (_ & Ty & Str). pose proof (plain_type info r x ltac:(lia) Ex) as Pl.
      unfold wb_add in Ew. rewrite Pl in Ew. apply bind_ok in Ew as (o & Eo & Ew). apply ok_inj in Ew. subst w1.
      apply IH in E as (own & bs & An & F & M & Ems & Em & Fo); [|exact HH|exact T']. cbn [wb_own wb_ms] in *.
      exists ((a, r) :: own), (snd x :: bs). split; [constructor; assumption|]. split; [constructor; [|exact F]|].
      { unfold plain. cbn [snd]. rewrite Ex. destruct x as [m b]; cbn in *; subst. reflexivity. }
      split; [econstructor; eassumption|]. split; [exact Ems|]. split; [|constructor; [cbn; auto | exact Fo]].
      rewrite Em, (multisigs_ok r l El). cbn [flat_map snd]. rewrite app_assoc. reflexivity.
    + destruct e; try discriminate E. apply IH in E as (own & bs & An & R); [|exact HH|exact T']. exists own, bs. split; [constructor; assumption | exact R].
Qed.
Lemma multi_new_address a l b b' : madd_txns H a b l = Ok b' -> Forall (fun x => no_definition (e_txn x)) l ->
  (forall us n x, b = Some ((us, n), x) -> exists u, cond_unlockhash H (CMulti us n) = Ok u /\ uh_str H u = Ok a) ->
  (forall us n x, b' = Some ((us, n), x) -> exists u, cond_unlockhash H (CMulti us n) = Ok u /\ uh_str H u = Ok a).
Proof.
  set (good := fun b : option mbal => forall us n x, b = Some ((us, n), x) -> exists u, cond_unlockhash H (CMulti us n) = Ok u /\ uh_str H u = Ok a).
  change (madd_txns H a b l = Ok b' -> Forall (fun x => no_definition (e_txn x)) l -> good b -> good b').
  assert (M : forall c s os b b', madd_matching H a c s b os = Ok b' -> good b -> good b').
  { intros c s os. induction os as [|o os IH]; intros b0 b1 E G; cbn [madd_matching] in E; [apply ok_inj in E; subst; exact G|].
    apply bind_ok in E as (t & Et & E). apply bind_ok in E as (b2 & E2 & E). apply IH in E; [exact E|]. clear IH E.
    destruct (listN_eqb t a) eqn:Q; [|apply ok_inj in E2; subst; exact G]. apply listN_eqb_eq in Q. subst t.
    apply bind_ok in E2 as (m & Em & E2). apply bind_ok in E2 as (y & Ey & E2). apply bind_ok in E2 as (x & Ex & E2). apply ok_inj in E2. subst b2.
    intros us n x' D. injection D as D _. destruct b0 as [y0|].
    - apply ok_inj in Ey. subst y0. apply (G us n (snd y)). destruct y; cbn in *; subst; reflexivity.
    - unfold ms_new in Ey. apply bind_ok in Ey as (g1 & _ & Ey). apply bind_ok in Ey as (g2 & _ & Ey). apply ok_inj in Ey. subst y. cbn in D. subst m.
      unfold cond_address in Et. apply bind_ok in Et as (u & Eu & Et). exists u. split; [|exact Et].
      unfold multi_of in Em. clear - Em Eu. revert Em Eu. generalize (o_cond o). intros c Em Eu.
      destruct c as [|?|? ? ? ?|z i|vs k]; cbn [cond_unwrap cond_unlockhash] in Em, Eu; try discriminate Em; [destruct i; try discriminate Em|]; apply ok_inj in Em; injection Em as -> ->; exact Eu. }
  revert b. induction l as [|x l IH]; intros b E D G; cbn [madd_txns] in E; [apply ok_inj in E; subst; exact G|].
  inversion D; subst. apply bind_ok in E as (b1 & E1 & E). apply IH in E; [exact E|assumption|]. unfold madd_txn in E1.
  apply bind_ok in E1 as (ins & Ei & E1). apply bind_ok in E1 as (b2 & E2 & E1). apply bind_ok in E1 as (b3 & E3 & E1).
  apply M in E2; [|exact G]. apply M in E3; [|exact E2].
  destruct (e_txn x) as [t|t|t|t|t|t|t|t]; try (apply ok_inj in E1; subst; exact E3). cbn in H2. destruct (m_new t); [contradiction|]. apply ok_inj in E1; subst; exact E3.
Qed.

(** ** Merging, id by id *)
Lemma merged_has a bs c id : merged a bs c ->
  (has (w_outs c) id <-> has (w_outs a) id \/ exists b, In b bs /\ has (w_outs b) id) /\
  (has (w_unc c) id <-> has (w_unc a) id \/ exists b, In b bs /\ has (w_unc b) id) /\
  (has (w_spent c) id <-> has (w_spent a) id \/ exists b, In b bs /\ has (w_spent b) id) /\
  (has (w_uncspent c) id <-> has (w_uncspent a) id \/ exists b, In b bs /\ has (w_uncspent b) id).
Proof.
  induction 1 as [b|a b c l d E M IH].
  - repeat split; try tauto; (intros [?|(? & [] & _)]; assumption).
  - assert (K : w_outs c = dmerge (w_outs a) (w_outs b) /\ w_spent c = dmerge (w_spent a) (w_spent b) /\ w_unc c = dmerge (w_unc a) (w_unc b) /\
                w_uncspent c = dmerge (w_uncspent a) (w_uncspent b)).
    { unfold balance_add in E. apply bind_ok in E as ([[t h] k] & _ & E). apply ok_inj in E. subst c. auto. }
    destruct K as (K1 & K2 & K3 & K4). rewrite K1, K2, K3, K4 in IH. rewrite !has_keys, !dmerge_keys in IH. rewrite !has_keys.
    destruct IH as (I1 & I2 & I3 & I4).
    assert (G : forall f : bal -> odict, (exists x, In x (b :: l) /\ has (f x) id) <-> In id (keys (f b)) \/ exists x, In x l /\ has (f x) id).
    { intro f. split; [intros (x & [->|I] & Q); [left; apply has_keys; exact Q | right; eauto] | intros [Q|(x & I & Q)]; [exists b; split; [now left | apply has_keys; exact Q] | exists x; split; [now right | exact Q]]]. }
    rewrite !G, I1, I2, I3, I4. tauto.
Qed.
Lemma merged_app a l b m c : merged a l b -> merged b m c -> merged a (l ++ m) c.
Proof. induction 1; intro M; [exact M|]. cbn. econstructor; eauto. Qed.
Lemma ms_merge_one l m l' : ms_merge l [m] = Ok l' -> l' = l ++ [m] /\ ~ In (ms_addr m) (map ms_addr l).
Proof.
  cbn [ms_merge]. destruct (existsb _ l) eqn:Q; [discriminate|]. intro E. apply ok_inj in E. split; [auto|]. intro I.
  apply in_map_iff in I as (x & Ex & Ix). apply not_true_iff_false in Q. apply Q. apply existsb_exists. exists x. split; [exact Ix|].
  rewrite Ex. unfold uh_eqb. rewrite Z.eqb_refl, listN_eqb_refl. reflexivity.
Qed.
Definition entry (info : Z * Z * bytes) (ar : pystr * uhresult) (m : msbal) : Prop :=
  result_balance H (snd ar) (Some info) = Ok (Some (ms_owners m, ms_count m), ms_bal m) /\
  cond_unlockhash H (CMulti (ms_owners m) (ms_count m)) = Ok (ms_addr m).
Lemma load_multi_inv info addrs : forall n w w', load_multi H ip_parse now net info n addrs w = Ok w' ->
  exists multi ps ars ms, answers look n addrs multi /\ merged (wb_own w) ps (wb_own w') /\
    (forall b, In b ps -> exists ar, In ar multi /\ plain info (snd ar) b) /\
    wb_ms w' = wb_ms w ++ ms /\ Forall2 (entry info) ars ms /\
    (forall ar, In ar ars -> In ar multi) /\ (forall ar, In ar multi -> (exists b, plain info (snd ar) b) \/ In ar ars) /\
    (NoDup (map ms_addr (wb_ms w)) -> NoDup (map ms_addr (wb_ms w'))).
Proof.
  induction addrs as [|a addrs IH]; intros n w w' E; cbn [load_multi] in E.
  - apply ok_inj in E. subst w'. exists [], [], [], []. rewrite app_nil_r. split; [constructor|]. split; [constructor|]. split; [intros ? []|].
    split; [reflexivity|]. split; [constructor|]. split; [intros ? []|]. split; [intros ? [] | auto].
  - destruct (look n a) as [r|e] eqn:L.
    + apply bind_ok in E as ([m b] & Ex & E). apply bind_ok in E as (w1 & Ew & E).
      apply IH in E as (multi & ps & ars & ms & An & M & Pp & Ems & F & In1 & In2 & ND).
      destruct m as [[us k]|].
      * unfold wb_add in Ew. cbn [fst snd] in Ew. apply bind_ok in Ew as (u & Eu & Ew). apply bind_ok in Ew as (l & El & Ew). apply ok_inj in Ew. subst w1.
        cbn [wb_own wb_ms] in *. apply ms_merge_one in El as (-> & Nw).
        exists ((a, r) :: multi), ps, ((a, r) :: ars), (mkms u us k b :: ms). split; [constructor; assumption|]. split; [exact M|].
        split; [intros b' I; destruct (Pp b' I) as (ar & Iar & P); exists ar; split; [now right | exact P]|].
        split; [rewrite Ems, <- app_assoc; reflexivity|]. split; [constructor; [split; assumption | exact F]|].
        split; [intros ar [->|I]; [now left | right; auto]|].
        split; [intros ar [<-|I]; [right; now left | destruct (In2 ar I) as [?|?]; [now left | right; now right]]|].
        intro N. apply ND. rewrite map_app. apply NoDup_app_iff. split; [exact N|]. split; [repeat constructor; auto|].
        intros x Ix [<-|[]]. exact (Nw Ix).
      * unfold wb_add in Ew. cbn [fst snd] in Ew. apply bind_ok in Ew as (o & Eo & Ew). apply ok_inj in Ew. subst w1. cbn [wb_own wb_ms] in *.
        exists ((a, r) :: multi), (b :: ps), ars, ms. split; [constructor; assumption|]. split; [econstructor; eassumption|].
        split; [intros b' [<-|I]; [exists (a, r); split; [now left | exact Ex] | destruct (Pp b' I) as (ar & Iar & P); exists ar; split; [now right | exact P]]|].
        split; [exact Ems|]. split; [exact F|]. split; [intros ar I; right; auto|].
        split; [intros ar [<-|I]; [left; exists b; exact Ex | auto] | exact ND].
    + destruct e; try discriminate E. apply IH in E as (multi & ps & ars & ms & An & R). exists multi, ps, ars, ms. split; [constructor; assumption | exact R].
Qed.
(** the balance of a multi-signature address is an ordinary one only if nothing concerns it, and then it is empty *)
Lemma multi_plain info r b a : uh_type (h_uh r) = 3%Z -> uh_str H (h_uh r) = Ok a -> Forall (fun x => no_definition (e_txn x)) (h_txns r) ->
  plain info r b -> w_outs b = [] /\ w_unc b = [] /\ w_spent b = [] /\ w_uncspent b = [] /\ ~ concerned H a (h_txns r).
Proof.
  intros T A D E. unfold plain, result_balance in E. rewrite T in E. change (3 =? 3)%Z with true in E. cbv iota in E. unfold multisig_balance in E. rewrite A in E. cbn [bind] in E.
  apply bind_ok in E as (y & Ey & E). apply ok_inj in E. destruct y as [[m x]|]; [discriminate E|]. injection E as <-.
  assert (C : core (with_chain bal_new (Some info)) = observe bal_new (history H a (h_txns r))) by
    (rewrite with_chain_core; apply madd_txns_core in Ey; [exact Ey | exact D]).
  destruct info as [[h t] k]. cbn [with_chain w_outs w_unc w_spent w_uncspent]. repeat split; try reflexivity.
  intros (x & o & Ix & Io & P).
  pose proof (inv_observe (history H a (h_txns r))) as V. rewrite <- C in V. cbn [core with_chain w_outs w_unc w_spent w_uncspent] in V.
  assert (Z : forall id, ~ has [] id) by (intros id []).
  assert (IH : exists ob, In ob (history H a (h_txns r)) /\ o_id (ob_out ob) = o_id o).
  { destruct Io as [Io|Io].
    - exists (mkobs o (negb (e_unconfirmed x)) true). split; [|reflexivity]. apply in_history. exists x. split; [exact Ix|]. apply in_observations. cbn. auto.
    - exists (mkobs o (negb (e_unconfirmed x)) false). split; [|reflexivity]. apply in_history. exists x. split; [exact Ix|]. apply in_observations. cbn. auto. }
  destruct IH as (ob & Iob & Eid).
  assert (N1 : ~ seen (history H a (h_txns r)) true true (o_id o)) by (rewrite <- (i_spent _ _ V); apply Z).
  assert (N2 : ~ seen (history H a (h_txns r)) false true (o_id o)) by (intro Q; apply (Z (o_id o)); apply (i_uncspent _ _ V); auto).
  assert (N3 : ~ seen (history H a (h_txns r)) true false (o_id o)).
  { intro Q. apply (Z (o_id o)). apply (i_outs _ _ V). split; [|exact Q]. unfold seen_spent. tauto. }
  destruct ob as [oo c s]. cbn [ob_out] in Eid.
  assert (Sn : seen (history H a (h_txns r)) c s (o_id o)) by (eexists; split; [exact Iob|]; cbn; auto).
  destruct c, s; try contradiction.
  apply (Z (o_id o)). apply (i_unc _ _ V). split; [unfold seen_spent; tauto|].
  apply in_split in Iob as (h1 & h2 & Eh). exists h1, (mkobs oo false false), h2. repeat split; auto.
  intro Q. apply N3. rewrite Eh. change (mkobs oo false false :: h2) with ([mkobs oo false false] ++ h2). rewrite !seen_app. auto.
Qed.
Lemma answers_look n addrs l : answers look n addrs l -> forall a r, In (a, r) l -> exists k, look k a = Ok r /\ In a addrs.
Proof.
  induction 1 as [|n a l r E A IH|n a x l r E A IH]; intros b y I; [destruct I| |].
  - destruct (IH b y I) as (k & Ek & Ik). exists k. split; [exact Ek | now right].
  - destruct I as [D|I]; [injection D as <- <-; exists n; split; [exact E | now left]|]. destruct (IH b y I) as (k & Ek & Ik). exists k. split; [exact Ek | now right].
Qed.

Lemma answers_fun n addrs l : answers look n addrs l -> forall m, answers look n addrs m -> m = l.
Proof.
  induction 1 as [|n a l r E A IH|n a x l r E A IH]; intros m B; inversion B; subst; try congruence; auto.
  replace x0 with x by congruence. f_equal. apply IH. assumption.
Qed.
Lemma look_sorted n a r : look n a = Ok r -> (forall x, In x (h_txns r) -> (e_height x < MAXSIZE)%Z) -> StronglySorted newer (h_txns r).
Proof.
  unfold lookup. intros E B. apply bind_ok in E as (j & _ & E). apply C48_newest_first in E as (es & xs & _ & _ & P & S & _). apply S.
  intros x I. apply B. exact (Permutation_in _ P I).
Qed.
Lemma balance_reports r info m b a id : uh_str H (h_uh r) = Ok a -> StronglySorted newer (h_txns r) ->
  Forall (fun x => no_definition (e_txn x)) (h_txns r) \/ uh_type (h_uh r) <> 3%Z -> result_balance H r info = Ok (m, b) ->
  reports b id (is_available H a (h_txns r) id) (is_unconfirmed H a (h_txns r) id) (is_spent H a (h_txns r) id) (is_spent_unconfirmed H a (h_txns r) id).
Proof. intros A Q D E. exact (C49_balance_partial H r info a m b id A Q D E). Qed.
Lemma multi_plain_empty info r b : uh_type (h_uh r) = 3%Z -> plain info r b -> w_outs b = [] /\ w_unc b = [] /\ w_spent b = [] /\ w_uncspent b = [].
Proof.
  intros T E. unfold plain, result_balance in E. rewrite T in E. change (3 =? 3)%Z with true in E. cbv iota in E. unfold multisig_balance in E.
  apply bind_ok in E as (a & A & E). apply bind_ok in E as (y & Ey & E). apply ok_inj in E. destruct y as [[m x]|]; [discriminate E|]. injection E as <-.
  destruct info as [[h t] k]. auto.
Qed.
(** the multi-signature addresses found are looked up by texts that, when they can be read, are their printed form *)
Lemma multi_look own a k r : hash_ok H -> (forall b s, In (b, s) own -> exists k, look k b = Ok s) ->
  In a (flat_map (fun ar => multisigs H (snd ar)) own) -> look k a = Ok r ->
  address (h_uh r) /\ uh_type (h_uh r) = 3%Z /\ uh_str H (h_uh r) = Ok a.
Proof.
  intros HH Ol Ia L. apply in_flat_map in Ia as ([b s] & Ib & Ia). cbn [snd] in Ia. unfold multisigs in Ia. apply in_flat_map in Ia as (v & Iv & Ia).
  destruct (uh_str H v) as [a'|] eqn:Ev; [|destruct Ia]. destruct Ia as [->|[]]. destruct (Ol b s Ib) as (k' & L'). apply lookup_inv in L' as (_ & F).
  rewrite Forall_forall in F. destruct (F v Iv) as (T & s' & Es). apply lookup_inv in L as (P & _).
  exact (multi_text v a (h_uh r) HH T (parsed_hash _ _ Es) Ev P).
Qed.
Lemma Forall2_in_l {A B} (R : A -> B -> Prop) l m : Forall2 R l m -> forall x, In x l -> exists y, In y m /\ R x y.
Proof. induction 1; intros z []; [subst; eexists; split; [now left|eassumption]|]. destruct (IHForall2 z H2) as (w & I & Q). exists w. split; [now right | exact Q]. Qed.
Lemma Forall2_in_r {A B} (R : A -> B -> Prop) l m : Forall2 R l m -> forall y, In y m -> exists x, In x l /\ R x y.
Proof. induction 1; intros z []; [subst; eexists; split; [now left|eassumption]|]. destruct (IHForall2 z H2) as (w & I & Q). exists w. split; [now right | exact Q]. Qed.

Lemma wallet_balance_inv info addrs w : hash_ok H -> Forall (text_of H 1) addrs -> wallet_balance H ip_parse now net info addrs = Ok w ->
  exists own multi bs ps ars, answers look 0 addrs own /\ answers look (length addrs) (flat_map (fun ar => multisigs H (snd ar)) own) multi /\
    Forall2 (fun ar b => plain info (snd ar) b) own bs /\
    (forall b, In b ps -> exists ar, In ar multi /\ plain info (snd ar) b) /\
    (exists o, merged bal_new (bs ++ ps) o /\ wb_own w = with_chain o (Some info)) /\
    Forall2 (entry info) ars (wb_ms w) /\ (forall ar, In ar ars -> In ar multi) /\ (forall ar, In ar multi -> (exists b, plain info (snd ar) b) \/ In ar ars) /\
    NoDup (map ms_addr (wb_ms w)) /\
    Forall (fun ar => uh_type (h_uh (snd ar)) = 1%Z /\ uh_str H (h_uh (snd ar)) = Ok (fst ar)) own /\
    Forall (fun ar => uh_type (h_uh (snd ar)) = 3%Z /\ uh_str H (h_uh (snd ar)) = Ok (fst ar)) multi.
Proof.
  intros HH T E. unfold wallet_balance in E. apply bind_ok in E as ([w1 ms] & E1 & E). apply bind_ok in E as (w2 & E2 & E). apply ok_inj in E. cbn [fst snd] in E2.
  apply load_own_inv in E1 as (own & bs & An & F & M & Ems & Em & Fo); [|exact HH|exact T]. cbn [app] in Em. subst ms. cbn [wb_ms wb_new] in Ems.
  apply load_multi_inv in E2 as (multi & ps & ars & ms & An2 & M2 & Pp & Ems2 & F2 & In1 & In2 & ND). rewrite Ems in *. cbn [app] in Ems2.
  exists own, multi, bs, ps, ars. subst w. cbn [wb_own wb_ms]. split; [exact An|]. split; [exact An2|]. split; [exact F|]. split; [exact Pp|].
  split; [exists (wb_own w2); split; [eapply merged_app; eassumption | reflexivity]|]. split; [rewrite Ems2; exact F2|]. split; [exact In1|]. split; [exact In2|].
  split; [apply ND; constructor|]. split; [exact Fo|]. apply Forall_forall. intros [a r] I. cbn [fst snd].
  destruct (answers_look _ _ _ An2 a r I) as (k & L & Ia).
  destruct (multi_look own a k r HH) as (_ & R1 & R2); auto. intros b s Ib. destruct (answers_look _ _ _ An b s Ib) as (k' & L' & _). eauto.
Qed.
End Hash.

(** ** Merging balances without common outputs *)
Lemma has_any_merge a b c id : balance_add a b = Ok c ->
  has (w_outs c) id \/ has (w_spent c) id \/ has (w_unc c) id \/ has (w_uncspent c) id ->
  (has (w_outs a) id \/ has (w_spent a) id \/ has (w_unc a) id \/ has (w_uncspent a) id) \/ (has (w_outs b) id \/ has (w_spent b) id \/ has (w_unc b) id \/ has (w_uncspent b) id).
Proof.
  intros E. unfold balance_add in E. apply bind_ok in E as ([[t h] k] & _ & E). apply ok_inj in E. subst c. cbn [w_outs w_spent w_unc w_uncspent].
  rewrite !has_keys, !dmerge_keys. tauto.
Qed.
Lemma merged_concat a bs c : merged a bs c -> Forall keyed bs -> ForallOrdPairs apart (a :: bs) -> w_outs c = w_outs a ++ flat_map w_outs bs.
Proof.
  induction 1 as [b|a b c l d E M IH]; intros K P; [cbn; rewrite app_nil_r; reflexivity|].
  inversion K as [|? ? K1 K2]; subst. inversion P as [|? ? P1 P2]; subst. inversion P1 as [|? ? P3 P4]; subst. inversion P2 as [|? ? P5 P6]; subst.
  rewrite IH; [|exact K2|].
  - destruct (balance_add_apart a b c K1 P3 E) as (-> & _). cbn [flat_map]. rewrite app_assoc. reflexivity.
  - constructor; [|exact P6]. apply Forall_forall. intros x I id (Q1 & Q2). apply (has_any_merge a b c id E) in Q1 as [Q1|Q1].
    + exact (proj1 (Forall_forall _ _) P4 x I id (conj Q1 Q2)).
    + exact (proj1 (Forall_forall _ _) P5 x I id (conj Q1 Q2)).
Qed.
Lemma has_observed h b id : inv h b -> has (w_outs b) id \/ has (w_spent b) id \/ has (w_unc b) id \/ has (w_uncspent b) id ->
  exists x, In x h /\ o_id (ob_out x) = id.
Proof.
  intros V D. assert (S : forall c s, seen h c s id -> exists x, In x h /\ o_id (ob_out x) = id) by (intros c s (x & I & A & _); exists x; auto).
  destruct D as [D|[D|[D|D]]]; [apply (i_outs _ _ V) in D as (_ & D); eauto|apply (i_spent _ _ V) in D; eauto| |apply (i_uncspent _ _ V) in D as (_ & D); eauto].
  apply (i_unc _ _ V) in D as (_ & h1 & x & h2 & -> & A & _). exists x. split; [apply in_or_app; right; left; reflexivity | exact A].
Qed.
Lemma inv_keyed h b : inv h b -> keyed b.
Proof. intro V. split; [apply V|split; [apply V|split; apply V]]. Qed.
Lemma inv_core h b : inv h (core b) -> inv h b.
Proof. intros [A B C D E F G I J]. constructor; assumption. Qed.
Lemma empty_apart_l a b : w_outs a = [] -> w_unc a = [] -> w_spent a = [] -> w_uncspent a = [] -> apart a b.
Proof. intros A B C D id (Q & _). rewrite A, B, C, D in Q. unfold has in Q. cbn in Q. tauto. Qed.
Lemma empty_apart_r a b : w_outs b = [] -> w_unc b = [] -> w_spent b = [] -> w_uncspent b = [] -> apart a b.
Proof. intros A B C D id (_ & Q). rewrite A, B, C, D in Q. unfold has in Q. cbn in Q. tauto. Qed.
Lemma pays_fun H a b o : pays H a o = true -> pays H b o = true -> a = b.
Proof.
  unfold pays. destruct (cond_unlockhash H (o_cond o)) as [u|]; [|discriminate]. destruct (uh_str H u) as [t|]; [|discriminate].
  intros P Q. apply listN_eqb_eq in P, Q. congruence.
Qed.
Lemma answers_sub look n addrs l : answers look n addrs l -> forall x, In x (map fst l) -> In x addrs.
Proof.
  induction 1 as [n|n a l r E A IH|n a y l r E A IH]; intros x I; [destruct I|right; auto|].
  destruct I as [D|I]; [left; exact D | right; auto].
Qed.
Lemma answers_length look n addrs l : answers look n addrs l -> (length l <= length addrs)%nat.
Proof. induction 1; cbn; lia. Qed.
Lemma answers_nodup look n addrs l : answers look n addrs l -> NoDup addrs -> NoDup (map fst l).
Proof.
  induction 1 as [|n a l r E A IH|n a y l r E A IH]; intros N; [constructor| |]; inversion N; subst; [auto|].
  cbn. constructor; [|auto]. intro I. apply (answers_sub _ _ _ _ A) in I. contradiction.
Qed.
Lemma flat_map_app_perm {A B} (f g : A -> list B) l : (forall x, In x l -> Permutation (f x) (g x)) -> Permutation (flat_map f l) (flat_map g l).
Proof. induction l as [|x l IH]; intros P; cbn; [constructor|]. apply Permutation_app; [apply P; now left | apply IH; intros y I; apply P; now right]. Qed.

(** ** When it succeeds *)
Section Success.
Variable H : bytes -> bytes.
Variable ip_parse : pystr -> res bytes.
Variable now : Z.
Variable net : nat -> pystr -> res json.
Notation look := (lookup H ip_parse now net).
Definition fits (h t : Z) (b : bal) : Prop := (w_height b = 0 /\ w_time b = 0)%Z \/ (w_height b = h /\ w_time b = t)%Z.
Lemma add_fits h t a b : (0 < h)%Z -> (0 < t)%Z -> fits h t a -> w_height b = h -> w_time b = t -> exists c, balance_add a b = Ok c /\ fits h t c.
Proof.
  intros Ph Pt F Eh Et. destruct (balance_add_total a b) as (c & Ec); try (destruct F as [(F1 & F2)|(F1 & F2)]; lia).
  exists c. split; [exact Ec|]. unfold balance_add in Ec. apply bind_ok in Ec as ([[t' h'] k'] & E & Ec). apply ok_inj in Ec. subst c. unfold fits. cbn [w_height w_time].
  destruct (w_height b <=? w_height a)%Z eqn:Q; apply bind_ok in E as (u & _ & E); apply ok_inj in E; injection E as <- <- <-; [exact F | auto].
Qed.
Lemma multisigs_total r : hash_ok H -> Forall (fun u => uh_type u = 3%Z /\ exists s, uh_parse H s = Ok u) (h_multisigs r) ->
  mapM (uh_str H) (h_multisigs r) = Ok (multisigs H r).
Proof.
  intros HH F. unfold multisigs. induction F as [|u us (T & _) F IH]; [reflexivity|]. destruct (uh_str_ok H u HH ltac:(lia)) as (c & _ & E).
  cbn [mapM flat_map]. rewrite E, IH. reflexivity.
Qed.
Lemma load_own_total h t k n addrs own : hash_ok H -> (0 < h)%Z -> (0 < t)%Z -> Forall (text_of H 1) addrs -> answers look n addrs own ->
  Forall (fun ar => is_ok (result_balance H (snd ar) (Some (h, t, k))) = true) own -> forall w ms, fits h t (wb_own w) ->
  exists w', load_own H ip_parse now net (h, t, k) n addrs w ms = Ok (w', ms ++ flat_map (fun ar => multisigs H (snd ar)) own) /\ fits h t (wb_own w') /\ wb_ms w' = wb_ms w.
Proof.
  intros HH Ph Pt T A. induction A as [n|n a l r E A IH|n a x l r E A IH]; intros F w ms Fw; cbn [load_own].
  - exists w. cbn. rewrite app_nil_r. auto.
  - inversion T; subst. rewrite E. apply IH; assumption.
  - inversion T as [|? ? Ta T']; subst. inversion F as [|? ? Fa F']; subst. cbn [snd] in Fa. rewrite E.
    destruct (lookup_text H ip_parse now net 1 n a x HH Ta E) as (_ & Ty & _).
    destruct (result_balance H x (Some (h, t, k))) as [[m b]|] eqn:R; [|discriminate Fa]. cbn [bind].
    pose proof (plain_type H (h, t, k) x _ ltac:(lia) R) as Pm. cbn [fst] in Pm. subst m.
    destruct (C49_context H x h t k None b R) as (Bh & Bt & _). destruct (add_fits h t (wb_own w) b Ph Pt Fw Bh Bt) as (c & Ec & Fc).
    unfold wb_add. cbn [fst snd]. rewrite Ec. cbn [bind].
    rewrite (multisigs_total x HH (proj2 (lookup_inv H ip_parse now net n a x E))). cbn [bind].
    destruct (IH T' F' (mkwb c (wb_ms w)) (ms ++ multisigs H x) Fc) as (w' & Ew & Fw' & Mw'). exists w'. rewrite Ew. cbn [flat_map snd]. rewrite app_assoc. auto.
Qed.
Lemma uh_eqb_eq a b : uh_eqb a b = true -> a = b.
Proof. unfold uh_eqb. intro E. apply andb_true_iff in E as (E1 & E2). apply Z.eqb_eq in E1. apply listN_eqb_eq in E2. destruct a, b; cbn in *; congruence. Qed.
Lemma load_multi_total h t k n addrs multi : (0 < h)%Z -> (0 < t)%Z -> answers look n addrs multi -> NoDup addrs ->
  Forall (fun ar => uh_type (h_uh (snd ar)) = 3%Z /\ uh_str H (h_uh (snd ar)) = Ok (fst ar) /\ Forall (fun x => no_definition (e_txn x)) (h_txns (snd ar)) /\
                    is_ok (result_balance H (snd ar) (Some (h, t, k))) = true) multi -> forall w done, fits h t (wb_own w) ->
  (forall m, In m (wb_ms w) -> exists s, uh_str H (ms_addr m) = Ok s /\ In s done) -> (forall s, In s done -> ~ In s addrs) ->
  exists w', load_multi H ip_parse now net (h, t, k) n addrs w = Ok w'.
Proof.
  intros Ph Pt A. induction A as [n|n a l r E A IH|n a x l r E A IH]; intros ND F w done Fw Dw Dn; cbn [load_multi]; [eauto| |]; inversion ND as [|? ? N1 N2]; subst.
  - rewrite E. apply (IH N2 F w done Fw Dw). intros s I J. apply (Dn s I). now right.
  - inversion F as [|? ? (Ty & Str & D & Fa) F']; subst. cbn [fst snd] in *. rewrite E.
    destruct (result_balance H x (Some (h, t, k))) as [[m b]|] eqn:R; [|discriminate Fa]. cbn [bind].
    destruct (C49_context H x h t k m b R) as (Bh & Bt & _). unfold wb_add. cbn [fst snd]. destruct m as [[us c]|].
    + assert (U : exists u, cond_unlockhash H (CMulti us c) = Ok u /\ uh_str H u = Ok a).
      { unfold result_balance in R. rewrite Ty in R. change (3 =? 3)%Z with true in R. cbv iota in R. unfold multisig_balance in R. rewrite Str in R. cbn [bind] in R.
        apply bind_ok in R as (y & Ey & R). apply ok_inj in R. destruct y as [[[us' n'] x']|]; [|discriminate R]. injection R as -> -> _.
        exact (multi_new_address H a (h_txns x) None _ Ey D ltac:(discriminate) us c x' eq_refl). }
      destruct U as (u & Eu & Su). rewrite Eu. cbn [bind ms_merge ms_addr].
      destruct (existsb (fun y => uh_eqb (ms_addr y) u) (wb_ms w)) eqn:Q.
      * exfalso. apply existsb_exists in Q as (y & Iy & Q). apply uh_eqb_eq in Q. destruct (Dw y Iy) as (s & Es & Is). rewrite Q, Su in Es. apply ok_inj in Es. subst s.
        apply (Dn a Is). now left.
      * cbn [bind]. apply (IH N2 F' (mkwb (wb_own w) (wb_ms w ++ [mkms u us c b])) (a :: done) Fw).
        -- intros y Iy. cbn [wb_ms] in Iy. apply in_app_or in Iy as [Iy|[<-|[]]]; [destruct (Dw y Iy) as (s & Es & Is); exists s; split; [exact Es | now right]|].
           exists a. split; [exact Su | now left].
        -- intros s [<-|I] J; [contradiction|]. apply (Dn s I). now right.
    + destruct (add_fits h t (wb_own w) b Ph Pt Fw Bh Bt) as (c & Ec & Fc). rewrite Ec. cbn [bind].
      apply (IH N2 F' (mkwb c (wb_ms w)) done Fc Dw). intros s I J. apply (Dn s I). now right.
Qed.
End Success.

(** ** Transactions *)
Definition stated (x : etx) : Prop := (e_unconfirmed x = true /\ e_height x = (-1)%Z) \/ (e_unconfirmed x = false /\ (0 <= e_height x)%Z).
Lemma sort_newer xs : (forall x, In x xs -> stated x) -> (forall x, In x xs -> (e_height x < MAXSIZE)%Z) -> StronglySorted newer (sort_desc xs).
Proof.
  intros ST B. assert (IN : forall x, In x (sort_desc xs) -> In x xs) by (intros x I; exact (Permutation_in _ (Permutation_sym (sort_perm xs)) I)).
  apply (StronglySorted_impl_in key_ge); [|apply sort_sorted]. intros x y Ix Iy K. apply IN in Ix, Iy. unfold key_ge, sort_key in K.
  destruct (ST x Ix) as [(Ux & _)|(Ux & Px)]; [left; exact Ux|]. right. specialize (B x Ix).
  destruct (ST y Iy) as [(Uy & Py)|(Uy & Py)]; [exfalso|].
  + rewrite Py in K. change (-1 <? 0)%Z with true in K. cbv iota in K. destruct (e_height x <? 0)%Z eqn:Q; lia.
  + exists (e_height x), (e_height y). split; [split; auto|]. split; [split; auto|]. destruct (e_height y <? 0)%Z eqn:Q, (e_height x <? 0)%Z eqn:Q'; lia.
Qed.
Lemma look_stated H ip now net n a r x : lookup H ip now net n a = Ok r -> In x (h_txns r) -> stated x.
Proof.
  unfold lookup. intros E I. apply bind_ok in E as (j & _ & E). apply C48_newest_first in E as (es & xs & _ & F & P & _).
  apply (Permutation_in _ (Permutation_sym P)) in I. clear P. induction F as [|e y es ys Q F IH]; [destruct I|]. destruct I as [->|I]; [exact (explorer_txn_state H ip now e x Q) | auto].
Qed.
Lemma set_add_facts l x : (NoDup (map e_id l) -> NoDup (map e_id (set_add l x))) /\ (forall y, In y (set_add l x) -> In y l \/ y = x) /\
  (forall y, In y l -> In y (set_add l x)) /\ (exists y, In y (set_add l x) /\ e_id y = e_id x).
Proof.
  unfold set_add. destruct (existsb _ l) eqn:Q.
  - repeat split; auto. apply existsb_exists in Q as (y & I & Q). apply listN_eqb_eq in Q. eauto.
  - split; [|split; [|split]].
    + intro N. rewrite map_app. apply NoDup_app_iff. split; [exact N|]. split; [repeat constructor; auto|]. intros i I [<-|[]]. apply in_map_iff in I as (y & E & I).
      apply not_true_iff_false in Q. apply Q. apply existsb_exists. exists y. split; [exact I|]. rewrite E. apply listN_eqb_refl.
    + intros y I. apply in_app_or in I as [I|[<-|[]]]; auto.
    + intros y I. apply in_or_app. now left.
    + exists x. split; [apply in_or_app; right; now left | reflexivity].
Qed.
Lemma set_adds_facts xs : forall l, (NoDup (map e_id l) -> NoDup (map e_id (fold_left set_add xs l))) /\ (forall y, In y (fold_left set_add xs l) -> In y l \/ In y xs) /\
  (forall y, In y l -> In y (fold_left set_add xs l)) /\ (forall x, In x xs -> exists y, In y (fold_left set_add xs l) /\ e_id y = e_id x).
Proof.
  induction xs as [|x xs IH]; intro l; cbn [fold_left]; [repeat split; auto; intros ? []|].
  destruct (IH (set_add l x)) as (I1 & I2 & I3 & I4). destruct (set_add_facts l x) as (S1 & S2 & S3 & (y & Iy & Ey)). split; [auto|]. split; [|split].
  - intros z I. apply I2 in I as [I|I]; [|right; now right]. apply S2 in I as [I| ->]; [now left | right; now left].
  - auto.
  - intros z [<-|I]; [exists y; auto | auto].
Qed.
Lemma collect_inv H ip now net addrs : forall n l l', collect H ip now net n addrs l = Ok l' -> NoDup (map e_id l) ->
  exists own, answers (lookup H ip now net) n addrs own /\ map fst own = addrs /\ NoDup (map e_id l') /\
    (forall x, In x l' -> In x l \/ exists a r, In (a, r) own /\ In x (h_txns r)) /\ (forall x, In x l -> In x l') /\
    (forall a r x, In (a, r) own -> In x (h_txns r) -> exists y, In y l' /\ e_id y = e_id x).
Proof.
  induction addrs as [|a addrs IH]; intros n l l' E N; cbn [collect] in E.
  - apply ok_inj in E. subst l'. exists []. split; [constructor|]. repeat split; auto. intros ? ? ? [].
  - apply bind_ok in E as (r & Er & E). destruct (set_adds_facts (h_txns r) l) as (S1 & S2 & S3 & S4).
    apply IH in E as (own & A & M & N' & I1 & I2 & I3); [|auto]. exists ((a, r) :: own). split; [constructor; assumption|]. split; [cbn; congruence|]. split; [exact N'|].
    split; [|split].
    + intros x I. apply I1 in I as [I|(b & s & Ib & Ix)]; [|right; exists b, s; split; [now right | exact Ix]]. apply S2 in I as [I|I]; [now left|].
      right. exists a, r. split; [now left | exact I].
    + auto.
    + intros b s x [D|Ib] Ix; [|eauto]. injection D as <- <-. destruct (S4 x Ix) as (y & Iy & Ey). exists y. auto.
Qed.
