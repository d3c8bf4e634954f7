(** Which texts Python reads as hexadecimal numbers. *)
From Verif Require Import Base BaseFacts Primitive Types ThreeBotTypes Spec_Types Spec_ERC20 CurrencyFacts DateFacts DateFacts2 Prop_ERC20.
From Coq Require Import ZifyBool ZifyNat ZifyN.

Lemma blank_iff c : blank c <-> is_pyspace c = true.
Proof. unfold blank, is_pyspace, is_space. lia. Qed.
Lemma underscore_nohex : unhexdig 95 = None. Proof. reflexivity. Qed.
Lemma groups_cons c s : hexchar c -> digit_groups s \/ s = [] \/ (exists r, s = 95 :: r /\ digit_groups r) -> digit_groups (c :: s).
Proof.
  intros C [G|[->|(r & -> & G)]].
  - destruct G as [d N F|d r N F G]; [apply last_group; [discriminate|now constructor]|]. apply (more_groups (c :: d) r); [discriminate|now constructor|exact G].
  - apply last_group; [discriminate|auto].
  - apply (more_groups [c] r); [discriminate|auto|exact G].
Qed.
Lemma groups_uncons c s : digit_groups (c :: s) -> hexchar c /\ (digit_groups s \/ s = [] \/ (exists r, s = 95 :: r /\ digit_groups r)).
Proof.
  intro G. inversion G as [d N F E|d r N F G' E]; subst.
  - inversion F; subst. split; [assumption|]. destruct s; [auto|left]. apply last_group; [discriminate|assumption].
  - destruct d as [|c' d]; [congruence|]. injection E as -> <-. inversion F; subst. split; [assumption|]. destruct d as [|e d]; [cbn; eauto|left]. apply more_groups; [discriminate|assumption|assumption].
Qed.
Lemma groups_iff s : (hexint_digits false s = true <-> digit_groups s) /\ (hexint_digits true s = true <-> digit_groups s \/ s = [] \/ (exists r, s = 95 :: r /\ digit_groups r)).
Proof.
  induction s as [|c s (IF & IT)]; cbn [hexint_digits].
  - split; split; intro E; auto; [discriminate|]. inversion E as [d N F0 X|d r N F0 G0 X]; [congruence|]. destruct d; discriminate.
  - destruct (unhexdig c) as [d|] eqn:U.
    + assert (C : hexchar c) by (apply unhexdig_char; eauto). rewrite IT. split; split.
      * apply groups_cons, C.
      * intro G. now apply groups_uncons in G.
      * intro G. left. now apply groups_cons.
      * intros [G|[G|(r & E & _)]]; [now apply groups_uncons in G|discriminate|]. injection E as -> ->. discriminate U.
    + assert (NC : ~ hexchar c) by (rewrite unhexdig_char; intros (d & E); congruence). split.
      * rewrite andb_false_r. split; [discriminate|]. intro G. apply groups_uncons in G. tauto.
      * rewrite andb_true_r, andb_true_iff, N.eqb_eq, IF. split; [intros (-> & G); eauto|]. intros [G|[G|(r & E & G)]]; [apply groups_uncons in G; tauto|discriminate|]. injection E as -> ->. auto.
Qed.
Lemma groups_ends g : digit_groups g -> (exists c r, g = c :: r /\ hexchar c) /\ (exists c r, g = r ++ [c] /\ hexchar c).
Proof.
  induction 1 as [d N F|d r N F G (_ & (c & q & -> & C))].
  - split; [destruct d as [|c d]; [congruence|]; inversion F; eauto|]. destruct (exists_last N) as (q & c & ->). apply Forall_app in F as (_ & F). inversion F; eauto.
  - split; [destruct d as [|x d]; [congruence|]; inversion F; eexists x, _; split; [reflexivity|assumption]|]. exists c, (d ++ 95 :: q). split; [rewrite <- app_assoc; reflexivity|exact C].
Qed.
Lemma strip_surround l m r : Forall blank l -> Forall blank r -> (forall c q, m = c :: q -> is_pyspace c = false) -> (forall c q, m = q ++ [c] -> is_pyspace c = false) -> m <> [] -> strip (l ++ m ++ r) = m.
Proof.
  intros L R A B N. unfold strip. rewrite lstrip_blank by (eapply Forall_impl; [|exact L]; intros c; apply blank_iff).
  destruct m as [|c m]; [congruence|]. cbn [app]. rewrite lstrip_head by (eapply A; reflexivity). destruct (exists_last N) as (q & x & E). change (c :: m ++ r) with ((c :: m) ++ r). rewrite E, <- app_assoc. cbn [app].
  rewrite rstrip_stop by (eapply B; exact E). f_equal. f_equal. unfold rstrip.
  assert (Z : lstrip is_pyspace (rev r) = []).
  { apply Forall_rev in R. induction R as [|y z Y Z IH]; [reflexivity|]. cbn [lstrip]. apply blank_iff in Y. rewrite Y. exact IH. }
  rewrite Z. reflexivity.
Qed.
Lemma hexint_body m : match m with
  | a :: b :: t => if (a =? 48) && ((b =? 120) || (b =? 88)) then match t with u :: t' => if u =? 95 then hexint_digits false t' else hexint_digits false t | [] => false end else hexint_digits false (a :: b :: t)
  | t => hexint_digits false t end = true <->
  exists x g, m = x ++ g /\ (x = [] \/ x = s2b "0x" \/ x = s2b "0X" \/ x = s2b "0x_" \/ x = s2b "0X_") /\ digit_groups g.
Proof.
  assert (D : forall s, hexint_digits false s = true <-> digit_groups s) by (intro s; apply groups_iff). split.
  - destruct m as [|a [|b t]]; [rewrite D; intro G; exists [], []; auto|rewrite D; intro G; exists [], [a]; auto|].
    destruct ((a =? 48) && ((b =? 120) || (b =? 88))) eqn:P; [|rewrite D; intro G; exists [], (a :: b :: t); auto].
    assert (a = 48 /\ (b = 120 \/ b = 88)) as (-> & B) by lia. destruct t as [|u t]; [discriminate|]. destruct (u =? 95) eqn:U.
    + apply N.eqb_eq in U as ->. rewrite D. intro G. destruct B as [->| ->]; [exists (s2b "0x_"), t|exists (s2b "0X_"), t]; auto 8.
    + rewrite D. intro G. destruct B as [->| ->]; [exists (s2b "0x"), (u :: t)|exists (s2b "0X"), (u :: t)]; auto 8.
  - intros (x & g & -> & X & G). destruct (groups_ends g G) as ((c & q & -> & C) & _).
    assert (U : (c =? 95) = false) by (unfold hexchar in C; lia).
    destruct X as [->|[->|[->|[->| ->]]]]; cbn [app s2b map list_ascii_of_string];
      [|change (N_of_ascii "0") with 48; change (N_of_ascii "x") with 120; cbn [N.eqb Pos.eqb andb orb]; rewrite U; now apply D
       |change (N_of_ascii "0") with 48; change (N_of_ascii "X") with 88; cbn [N.eqb Pos.eqb andb orb]; rewrite U; now apply D
       |now apply D|now apply D].
    destruct q as [|b t]; [now apply D|]. replace ((c =? 48) && ((b =? 120) || (b =? 88))) with false; [now apply D|].
    apply groups_uncons in G as (_ & [G|[G|(r & E & G)]]); [apply groups_uncons in G as (B & _); unfold hexchar in B; lia|discriminate|injection E as -> ->; lia].
Qed.
Lemma hexint_iff s : hexint_ok s = true <-> hex_number s.
Proof.
  assert (B : hexint_ok s = true <-> exists x g, drop_sign (strip s) = x ++ g /\ (x = [] \/ x = s2b "0x" \/ x = s2b "0X" \/ x = s2b "0x_" \/ x = s2b "0X_") /\ digit_groups g).
  { rewrite <- hexint_body. unfold hexint_ok. destruct (drop_sign (strip s)) as [|a [|b t]]; reflexivity. }
  rewrite B. clear B. unfold hex_number. split.
  - intros (x & g & E & X & G).
    destruct (lstrip_split is_pyspace s) as (l & L & FL & _). destruct (rstrip_split is_pyspace (lstrip is_pyspace s)) as (r & R & FR & _).
    assert (S : s = l ++ strip s ++ r) by (unfold strip; rewrite <- R; exact L).
    exists l, (match strip s with c :: _ => if (c =? 45) || (c =? 43) then [c] else [] | [] => [] end), x, g, r.
    split; [|split; [eapply Forall_impl; [|exact FL]; intros c; apply blank_iff|split; [eapply Forall_impl; [|exact FR]; intros c; apply blank_iff|split; [|auto]]]].
    + rewrite S at 1. f_equal. rewrite (app_assoc x g r), <- E, app_assoc. f_equal. destruct (strip s) as [|c t]; [reflexivity|]. cbn [drop_sign]. destruct ((c =? 45) || (c =? 43)); reflexivity.
    + destruct (strip s) as [|c t]; [auto|]. destruct ((c =? 45) || (c =? 43)) eqn:C; [|auto]. assert (c = 45 \/ c = 43) as [->| ->] by lia; auto.
  - intros (l & sign & x & g & r & -> & L & R & Sg & X & G).
    destruct (groups_ends g G) as ((c & q & Gq & C) & (c' & q' & Gq' & C')).
    assert (NE : x ++ g <> []) by (rewrite Gq; destruct x; discriminate).
    assert (HD : forall a z, x ++ g = a :: z -> is_pyspace a = false /\ a <> 45 /\ a <> 43).
    { intros a z E. assert (hexchar a) as A; [|unfold hexchar in A; unfold is_pyspace, is_space; lia]. destruct X as [->|X]; [rewrite Gq in E; injection E as -> _; exact C|].
      assert (a = 48) as ->; [|unfold hexchar; lia]. destruct X as [->|[->|[->| ->]]]; injection E as <- _; reflexivity. }
    assert (ST : strip (l ++ sign ++ x ++ g ++ r) = sign ++ x ++ g).
    { rewrite (app_assoc x g r), (app_assoc sign (x ++ g) r). apply strip_surround; [exact L|exact R| | |].
      - intros a z E. destruct Sg as [->|[->| ->]]; [apply (HD a z E)|injection E as <- _; reflexivity|injection E as <- _; reflexivity].
      - intros a z E. rewrite Gq' in E. rewrite !app_assoc in E. apply app_inj_tail in E as (_ & <-). unfold hexchar in C'. unfold is_pyspace, is_space. lia.
      - intro E. apply app_eq_nil in E as (_ & E). contradiction. }
    rewrite ST. exists x, g. split; [|auto]. destruct Sg as [->|[->| ->]]; [|reflexivity|reflexivity]. cbn [app]. destruct (x ++ g) as [|a z] eqn:E; [reflexivity|]. cbn [drop_sign]. destruct (HD a z eq_refl) as (_ & A & B). replace ((a =? 45) || (a =? 43)) with false by lia. reflexivity.
Qed.
