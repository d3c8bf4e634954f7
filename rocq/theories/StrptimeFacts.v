(** Lemmas about reading dates with strptime. *)
From Verif Require Import Base BaseFacts Types TypesFacts TypesFacts2 Conditions Dates Strptime Spec_Dates DateFacts.
From Coq Require Import ZifyBool ZifyNat ZifyN.
Ltac Zify.zify_post_hook ::= Z.div_mod_to_equations.

(** ** Fields *)
Definition starts_digitb (s : pystr) : bool := match s with c :: _ => digitb c | [] => false end.
(** a directive reads the text, whatever (but a digit) follows; any other way it may read leaves a digit *)
Definition reads (m : matcher) (t : pystr) (n : N) : Prop :=
  forall r, starts_digitb r = false -> exists alts, m (t ++ r) = (n, r) :: alts /\ Forall (fun p => starts_digitb (snd p) = true) alts.
Lemma cls_digit lo hi c : hi <= 9 -> cls lo hi c = true -> digitb c = true.
Proof. unfold cls, digitb. lia. Qed.
Lemma field_cases t n : field t n -> (exists a, t = [a] /\ digitb a = true /\ n = a - 48) \/
  (exists a b, t = [a; b] /\ digitb a = true /\ digitb b = true /\ n = 10 * (a - 48) + (b - 48)).
Proof.
  intros ((NE & V) & L). destruct t as [|a [|b [|c t]]]; cbn [length] in L; try lia.
  - left. exists a. cbn [digits_val] in V. change ((48 <=? a) && (a <=? 57)) with (digitb a) in V. destruct (digitb a) eqn:D; [|discriminate]. injection V as <-. repeat split.
  - right. exists a, b. cbn [digits_val] in V. change ((48 <=? a) && (a <=? 57)) with (digitb a) in V. change ((48 <=? b) && (b <=? 57)) with (digitb b) in V.
    destruct (digitb a) eqn:D; [|discriminate]. destruct (digitb b) eqn:D2; [|discriminate]. injection V as <-. repeat split.
Qed.
Lemma m2_one lo hi lo' hi' a r : hi' <= 9 -> starts_digitb r = false -> m2 lo hi lo' hi' ([a] ++ r) = [].
Proof.
  intros B R. cbn [app m2]. destruct r as [|c r]; [reflexivity|]. cbn [starts_digitb] in R. destruct (cls lo' hi' c) eqn:E; [|rewrite andb_false_r; reflexivity]. apply cls_digit in E; [congruence|exact B].
Qed.
Ltac fields := intros F B r R; apply field_cases in F as [(a & -> & A & ->)|(a & b & -> & A & D & ->)];
  [rewrite !m2_one by (first [exact R | lia]); cbn [app m1]|cbn [app m1 m2]].
Ltac cc := match goal with |- context [cls ?lo ?hi ?x] =>
  let E := fresh in assert (E : cls lo hi x = true \/ cls lo hi x = false) by (destruct (cls lo hi x); auto); destruct E as [E|E]; rewrite ?E; unfold cls in E; cbn [andb app]; try (exfalso; unfold digitb in *; lia) end.
Lemma reads_m t n : field t n -> 1 <= n <= 12 -> reads d_m t n.
Proof.
  unfold reads, d_m. fields.
  - cc. eexists. split; [reflexivity|constructor].
  - assert (X : a = 49 \/ a = 48) by (unfold digitb in *; lia). destruct X as [-> | ->].
    + change (cls 1 1 49) with true. change (cls 0 0 49) with false. change (cls 1 9 49) with true. cbn [andb]. cc. eexists. split; [reflexivity|]. repeat constructor. exact D.
    + change (cls 1 1 48) with false. change (cls 0 0 48) with true. change (cls 1 9 48) with false. cbn [andb]. cc. eexists. split; [reflexivity|]. constructor.
Qed.
Lemma reads_d t n : field t n -> 1 <= n <= 31 -> reads d_d t n.
Proof.
  unfold reads, d_d. fields.
  - cc. replace (a =? 32) with false by (unfold digitb in A; lia). eexists. split; [reflexivity|constructor].
  - replace (a =? 32) with false by (unfold digitb in A; lia). assert (X : a = 48 \/ a = 49 \/ a = 50 \/ a = 51) by (unfold digitb in *; lia). destruct X as [-> | [-> | [-> | ->]]].
    all: change (cls 3 3 48) with false; change (cls 3 3 49) with false; change (cls 3 3 50) with false; change (cls 3 3 51) with true;
      change (cls 1 2 48) with false; change (cls 1 2 49) with true; change (cls 1 2 50) with true; change (cls 1 2 51) with false;
      change (cls 0 0 48) with true; change (cls 0 0 49) with false; change (cls 0 0 50) with false; change (cls 0 0 51) with false;
      change (cls 1 9 48) with false; change (cls 1 9 49) with true; change (cls 1 9 50) with true; change (cls 1 9 51) with true; cbn [andb]; cc;
      eexists; (split; [reflexivity|]); repeat constructor; exact D.
Qed.
Lemma reads_H t n : field t n -> n < 24 -> reads d_H t n.
Proof.
  unfold reads, d_H. fields.
  - cc. eexists. split; [reflexivity|constructor].
  - assert (X : a = 48 \/ a = 49 \/ a = 50) by (unfold digitb in *; lia). destruct X as [-> | [-> | ->]].
    all: change (cls 2 2 48) with false; change (cls 2 2 49) with false; change (cls 2 2 50) with true;
      change (cls 0 1 48) with true; change (cls 0 1 49) with true; change (cls 0 1 50) with false;
      change (cls 0 9 48) with true; change (cls 0 9 49) with true; change (cls 0 9 50) with true; cbn [andb]; cc;
      eexists; (split; [reflexivity|]); repeat constructor; exact D.
Qed.
Lemma reads_M t n : field t n -> n < 60 -> reads d_M t n.
Proof.
  unfold reads, d_M. fields.
  - cc. eexists. split; [reflexivity|constructor].
  - cc. cc. cc. eexists. split; [reflexivity|]. repeat constructor. exact D.
Qed.
Lemma reads_S t n : field t n -> n < 60 -> reads d_S t n.
Proof.
  unfold reads, d_S. fields.
  - cc. eexists. split; [reflexivity|constructor].
  - cc. cc. cc. cc. eexists. split; [reflexivity|]. repeat constructor. exact D.
Qed.
Lemma numeral_2 t n : numeral t n -> length t = 2%nat -> exists a b, t = [a; b] /\ digitb a = true /\ digitb b = true /\ n = 10 * (a - 48) + (b - 48).
Proof. intros N L. destruct (field_cases t n) as [(a & -> & _)|X]; [split; auto|discriminate L|exact X]. Qed.
Lemma cls_09 c : cls 0 9 c = digitb c.
Proof. reflexivity. Qed.
Lemma reads_y t n : numeral t n -> length t = 2%nat -> reads d_y t n.
Proof.
  intros N L r R. destruct (numeral_2 t n N L) as (a & b & -> & A & B & ->). unfold d_y. cbn [app m2]. rewrite (cls_09 a), (cls_09 b), A, B. eexists. split; [reflexivity|constructor].
Qed.
Lemma numeral_4 t n : numeral t n -> length t = 4%nat -> exists a b c d, t = [a; b; c; d] /\ digitb a = true /\ digitb b = true /\ digitb c = true /\ digitb d = true /\
  n = 100 * (10 * (a - 48) + (b - 48)) + (10 * (c - 48) + (d - 48)).
Proof.
  intros (NE & V) L. destruct t as [|a [|b [|c [|d [|]]]]]; try discriminate L. exists a, b, c, d. cbn [digits_val] in V.
  change ((48 <=? a) && (a <=? 57)) with (digitb a) in V. change ((48 <=? b) && (b <=? 57)) with (digitb b) in V. change ((48 <=? c) && (c <=? 57)) with (digitb c) in V. change ((48 <=? d) && (d <=? 57)) with (digitb d) in V.
  destruct (digitb a) eqn:Da; [|discriminate]. destruct (digitb b) eqn:Db; [|discriminate]. destruct (digitb c) eqn:Dc; [|discriminate]. destruct (digitb d) eqn:Dd; [|discriminate]. injection V as <-. do 5 (split; [reflexivity|]). lia.
Qed.
Lemma reads_Y t n : numeral t n -> length t = 4%nat -> reads d_Y t n.
Proof.
  intros N L r R. destruct (numeral_4 t n N L) as (a & b & c & d & -> & A & B & C & D & ->). unfold d_Y. cbn [app m2]. rewrite (cls_09 a), (cls_09 b), A, B. cbn [andb flat_map snd fst app m2].
  rewrite (cls_09 c), (cls_09 d), C, D. cbn [andb map fst snd app]. eexists. split; [reflexivity|constructor].
Qed.

(** ** Sequences *)
Definition refuses_digits (l : list item) : Prop := forall s, starts_digitb s = true -> matches l s = [].
Lemma refuses_char c l : digitb c = false -> refuses_digits (IChar c :: l).
Proof. intros D [|x s] X; [discriminate|]. cbn [matches starts_digitb] in *. replace (x =? c) with false; [reflexivity|]. symmetry. apply N.eqb_neq. intros ->. congruence. Qed.
Lemma refuses_blanks l : refuses_digits (IBlanks :: l).
Proof. intros [|x s] X; [discriminate|]. cbn [matches blanks starts_digitb] in *. assert (is_pyspace x = false) as -> by (apply digit_not_space, is_digit_b, X). reflexivity. Qed.
Lemma refuses_p l : refuses_digits (IRead d_p :: l).
Proof.
  intros [|x s] X; [discriminate|]. cbn [matches starts_digitb] in *. unfold d_p. destruct s as [|y s]; [reflexivity|].
  assert (E : lower [x; y] = [x; lower_c y]). { unfold lower. cbn [map]. f_equal. unfold lower_c, digitb in *. replace ((65 <=? x) && (x <=? 90)) with false by lia. reflexivity. }
  rewrite E. cbn [s2b listN_eqb]. replace (x =? N_of_ascii "a") with false by (unfold digitb in X; change (N_of_ascii "a") with 97; lia). replace (x =? N_of_ascii "p") with false by (unfold digitb in X; change (N_of_ascii "p") with 112; lia). reflexivity.
Qed.
Lemma flat_map_none {A B} (f : A -> list B) l : Forall (fun x => f x = []) l -> flat_map f l = [].
Proof. induction 1 as [|x l E F IH]; cbn [flat_map]; [reflexivity|]. rewrite E, IH. reflexivity. Qed.
Lemma matches_read m t n l r : reads m t n -> starts_digitb r = false -> refuses_digits l ->
  matches (IRead m :: l) (t ++ r) = map (fun q => (n :: fst q, snd q)) (matches l r).
Proof.
  intros R D X. destruct (R r D) as (alts & E & F). cbn [matches]. rewrite E. cbn [flat_map fst snd]. rewrite flat_map_none; [apply app_nil_r|].
  eapply Forall_impl; [|exact F]. intros p P. rewrite (X _ P). reflexivity.
Qed.
Lemma matches_last m t n : reads m t n -> exists alts, matches [IRead m] t = ([n], []) :: alts.
Proof. intro R. destruct (R [] eq_refl) as (alts & E & _). rewrite app_nil_r in E. cbn [matches]. rewrite E. cbn [flat_map map fst snd app]. eauto. Qed.
(** the first match *)
Definition first_is (l : list item) (s : pystr) (vs : list N) : Prop := exists alts, matches l s = (vs, []) :: alts.
Lemma first_read m t n l r vs : reads m t n -> starts_digitb r = false -> refuses_digits l -> first_is l r vs -> first_is (IRead m :: l) (t ++ r) (n :: vs).
Proof. intros R D X (alts & E). unfold first_is. rewrite (matches_read m t n) by assumption. rewrite E. cbn [map fst snd]. eauto. Qed.
Lemma first_char c l r vs : first_is l r vs -> first_is (IChar c :: l) (c :: r) vs.
Proof. intro E. unfold first_is in *. cbn [matches]. rewrite N.eqb_refl. exact E. Qed.
Lemma first_last m t n : reads m t n -> first_is [IRead m] t [n].
Proof. apply matches_last. Qed.
Lemma first_blanks c l r vs : is_pyspace c = true -> (forall x s, r = x :: s -> is_pyspace x = false) -> first_is l r vs -> first_is (IBlanks :: l) (c :: r) vs.
Proof.
  intros C N (alts & E). unfold first_is. cbn [matches blanks]. rewrite C. replace (blanks r) with (@nil pystr). { cbn [app flat_map]. rewrite app_nil_r. eauto. }
  destruct r as [|x s]; [reflexivity|]. cbn [blanks]. rewrite (N x s eq_refl). reflexivity.
Qed.
Lemma half_cases p v : half_text p v -> exists x y, p = [x; y] /\ d_p ([x; y]) = [(v, [])] /\ (forall r, d_p ([x; y] ++ r) = [(v, r)]).
Proof.
  intro H. destruct H as [H|H]; cbn in H; repeat destruct H as [<-|H]; try contradiction; eexists; eexists; (split; [reflexivity|]); split; intros; reflexivity.
Qed.
Lemma first_half p v l r vs : half_text p v -> first_is l r vs -> first_is (IRead d_p :: l) (p ++ r) (v :: vs).
Proof. intros H (alts & E). destruct (half_cases p v H) as (x & y & -> & _ & Q). unfold first_is. cbn [matches]. rewrite Q. cbn [flat_map fst snd]. rewrite E. cbn [map app fst snd]. rewrite app_nil_r. eauto. Qed.
