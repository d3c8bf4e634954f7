(** Property C47: which transaction is taken for the creation and which for the spend. *)
From Verif Require Import Base BaseFacts Primitive Types Txn Explorer ExplorerFacts Spec_Heights Prop_Explorer.
From Coq Require Import ZifyBool ZifyNat ZifyN.

Lemma str_gt_iff b : forall a, str_gt b a = true <-> before a b.
Proof.
  induction b as [|y b IH]; intro a.
  - split; [discriminate|]. intros [(c & r & E)|(p & c & d & r & q & _ & E & _)]; [destruct a|destruct p]; discriminate.
  - destruct a as [|x a]; cbn [str_gt].
    + split; [intros _; left; exists y, b; reflexivity|reflexivity].
    + rewrite orb_true_iff, andb_true_iff, N.ltb_lt, N.eqb_eq, IH. split.
      * intros [L|(-> & [(c & r & ->)|(p & c & d & r & q & -> & -> & L)])].
        -- right. exists [], x, y, a, b. auto.
        -- left. exists c, r. reflexivity.
        -- right. exists (x :: p), c, d, r, q. auto.
      * intros [(c & r & E)|(p & c & d & r & q & Ea & Eb & L)].
        -- injection E as -> ->. right. split; [reflexivity|]. left. eauto.
        -- destruct p as [|z p]; injection Ea as -> ->; injection Eb as -> ->; [left; exact L|]. right. split; [reflexivity|]. right. exists p, c, d, r, q. auto.
Qed.
Lemma jnum_iff j z : number j z <-> jnum j = Some z.
Proof.
  split; [destruct 1; reflexivity|]. destruct j as [| [|] |z'| | | |]; cbn [jnum]; intro E; try discriminate; injection E as <-; constructor.
Qed.
Lemma jgt_iff a b : (jgt b a = Ok true <-> less a b) /\ ((exists g, jgt b a = Ok g) <-> comparable a b).
Proof.
  assert (N : forall m n, jnum b = Some n -> jnum a = Some m -> (jgt b a = Ok true <-> less a b) /\ ((exists g, jgt b a = Ok g) <-> comparable a b)).
  { intros m n B A. unfold jgt. rewrite A, B. split; [|split; [intros _; econstructor; apply jnum_iff; eassumption|eauto]]. split.
    - intro E. apply ok_inj in E. econstructor; [apply jnum_iff; exact A|apply jnum_iff; exact B|lia].
    - intro L. destruct L as [a b m' n' P Q L|a b L]; [|discriminate]. apply jnum_iff in P, Q. assert (m' = m) by congruence. assert (n' = n) by congruence. subst. f_equal. lia. }
  assert (Z : forall j, jnum j = None -> ~ exists z, number j z) by (intros j E (z & Q); apply jnum_iff in Q; congruence).
  destruct (jnum b) as [n|] eqn:B; [destruct (jnum a) as [m|] eqn:A; [exact (N m n eq_refl eq_refl)|]|].
  - unfold jgt. rewrite A, B.
    assert (R : match b, a with JStr x, JStr y => Ok (str_gt x y) | _, _ => Err TypeError end = Err TypeError) by (destruct b; try discriminate B; reflexivity).
    rewrite R. pose proof (Z a A) as ZA. split; split; [discriminate| |intros (g & E); discriminate|].
    + intro L. destruct L as [a b m' n' P Q L|a b L]; [exfalso; eauto|discriminate B].
    + intro L. destruct L as [a b m' n' P Q|a b]; [exfalso; eauto|discriminate B].
  - pose proof (Z b B) as ZB. unfold jgt. rewrite B.
    destruct b as [| | |sb| | |]; destruct a as [| | |sa| | |]; cbn [jnum];
      (split; split; first [discriminate | intros (g & E); discriminate | intro L; exfalso; inversion L; subst; eauto; fail | idtac]).
    + intro E. apply ok_inj in E. constructor. now apply str_gt_iff.
    + intro L. inversion L as [? ? ? ? P|? ? L']; subst; [inversion P|]. f_equal. now apply str_gt_iff.
    + intros _. constructor.
    + intros _. eauto.
Qed.
(** Of two transactions the one told at the smaller height is the creation; when neither is smaller the second one is; and heights that cannot be compared give no answer. *)
Theorem C47_which : forall H ip_parse now k id resp a b ha hb o c s,
  jget "transactions" resp = Ok (JArr [a; b]) -> jget "height" a = Ok ha -> jget "height" b = Ok hb ->
  output_get H ip_parse now k id resp = Ok (o, c, s) ->
  comparable ha hb /\
  (less ha hb -> explorer_txn H ip_parse now a = Ok c /\ exists y, explorer_txn H ip_parse now b = Ok y /\ s = Some y) /\
  (~ less ha hb -> explorer_txn H ip_parse now b = Ok c /\ exists y, explorer_txn H ip_parse now a = Ok y /\ s = Some y).
Proof.
  intros H ip now k id resp a b ha hb o c s L Ha Hb E. unfold output_get, key_error in E.
  destruct (do _ <- hashtype_is (kind_text k) resp; _) as [r|e] eqn:E'; [|destruct e; discriminate]. apply ok_inj in E. subst r.
  apply bind_ok in E' as (u & _ & E'). rewrite L in E'. cbn [bind] in E'. rewrite Ha, Hb in E'. cbn [bind] in E'.
  apply bind_ok in E' as (cs & G & E'). apply bind_ok in G as (g & G & F). apply ok_inj in F.
  apply bind_ok in E' as (x & Ex & E'). apply bind_ok in E' as (y & Ey & E'). destruct (find _ _) as [o'|]; [|discriminate]. apply ok_inj in E'. injection E' as -> -> ->.
  destruct (jgt_iff ha hb) as (I & J). split; [apply J; eauto|]. split; intro Q.
  - assert (g = true) as -> by (apply I in Q; congruence). subst cs. cbn [fst snd] in *. split; [exact Ex|]. apply bind_ok in Ey as (z & Ey & F). apply ok_inj in F. eauto.
  - assert (g = false) as -> by (destruct g; [exfalso; apply Q, I; exact G|reflexivity]). subst cs. cbn [fst snd] in *. split; [exact Ex|]. apply bind_ok in Ey as (z & Ey & F). apply ok_inj in F. eauto.
Qed.
Print Assumptions C47_which.
Example C47_which_ex : less (JNum 7) (JNum 9) /\ less (JBool false) (JNum 1) /\ less (JStr (s2b "10")) (JStr (s2b "9")) /\ less (JStr (s2b "1")) (JStr (s2b "10")) /\
  ~ comparable (JNum 7) (JStr (s2b "9")) /\ is_ok (exx_lookup 21 [exx_a1; exx_a2]) = true /\ jget "height" exx_a1 = Ok (JNum 7) /\ jget "height" exx_a2 = Ok (JNum 9).
Proof.
  assert (L : forall a b, jgt b a = Ok true -> less a b) by (intros a b; apply jgt_iff).
  split; [now apply L|]. split; [now apply L|]. split; [now apply L|]. split; [now apply L|].
  split; [intro C; apply jgt_iff in C as (g & E); discriminate E|]. vm_compute. auto.
Qed.
