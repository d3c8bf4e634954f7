(** Facts about 3Bot names and network addresses (C42, C43). *)
From Verif Require Import Base BaseFacts Encoders EncodersFacts Primitive Types ThreeBotTypes Spec_ThreeBot.
From Coq Require Import ZifyBool ZifyNat ZifyN.
Ltac Zify.zify_post_hook ::= Z.div_mod_to_equations.

(** ** Regular expressions *)
Inductive lang : re -> pystr -> Prop :=
| l_eps : lang REps []
| l_cls p c : p c = true -> lang (RCls p) [c]
| l_seq a b s t : lang a s -> lang b t -> lang (RSeq a b) (s ++ t)
| l_alt1 a b s : lang a s -> lang (RAlt a b) s
| l_alt2 a b s : lang b s -> lang (RAlt a b) s
| l_star0 a : lang (RStar a) []
| l_star a s t : lang a s -> lang (RStar a) t -> lang (RStar a) (s ++ t).
Lemma nullable_ok r : nullable r = true <-> lang r [].
Proof.
  induction r as [| |p|a IHa b IHb|a IHa b IHb|a IHa]; cbn [nullable].
  - split; intro E; [discriminate | inversion E].
  - split; [constructor | reflexivity].
  - split; intro E; [discriminate | inversion E].
  - split; intro E.
    + apply andb_true_iff in E as [E1 E2]. change (@nil N) with (@nil N ++ []). constructor; [apply IHa, E1 | apply IHb, E2].
    + inversion E as [| |? ? s t L1 L2 E1 E2| | | |]; subst. destruct s, t; try discriminate. apply andb_true_iff. split; [apply IHa | apply IHb]; assumption.
  - rewrite orb_true_iff, IHa, IHb. split; [intros [E|E]; [apply l_alt1 | apply l_alt2]; exact E | intro E; inversion E; subst; auto].
  - split; [constructor | reflexivity].
Qed.
Lemma star_cons a c s : lang (RStar a) (c :: s) -> exists x y, s = x ++ y /\ lang a (c :: x) /\ lang (RStar a) y.
Proof.
  remember (RStar a) as r eqn:R. remember (c :: s) as w eqn:W. intro L. revert s W; induction L as [| | | | | |a0 x y L1 IH1 L2 IH2]; intros s0 W; try discriminate.
  injection R as ->. destruct x as [|d x].
  - cbn in W. apply (IH2 eq_refl _ W).
  - cbn in W. injection W as -> <-. exists x, y. auto.
Qed.
Lemma deriv_ok r c : forall s, lang (deriv c r) s <-> lang r (c :: s).
Proof.
  induction r as [| |p|a IHa b IHb|a IHa b IHb|a IHa]; intros s; cbn [deriv].
  - split; intro L; inversion L.
  - split; intro L; inversion L.
  - destruct (p c) eqn:E; split; intro L; inversion L; subst; try congruence; constructor; assumption.
  - assert (S1 : lang (RSeq (deriv c a) b) s <-> exists x y, s = x ++ y /\ lang a (c :: x) /\ lang b y).
    { split; [intro L; inversion L as [| |? ? x y L1 L2| | | |]; subst; exists x, y; split; [reflexivity|]; split; [apply IHa|]; assumption|].
      intros (x & y & -> & L1 & L2). constructor; [apply IHa|]; assumption. }
    assert (S2 : lang (RSeq a b) (c :: s) <-> (exists x y, s = x ++ y /\ lang a (c :: x) /\ lang b y) \/ (lang a [] /\ lang b (c :: s))).
    { split.
      - intro L. inversion L as [| |? ? x y L1 L2 E1 E2| | | |]; subst. destruct x as [|d x]; cbn in E2; [right; subst y; auto|].
        injection E2 as -> <-. left. eauto.
      - intros [(x & y & -> & L1 & L2)|[L1 L2]]; [exact (l_seq _ _ _ _ L1 L2) | exact (l_seq _ _ _ _ L1 L2)]. }
    destruct (nullable a) eqn:E.
    + apply nullable_ok in E. rewrite S2. split.
      * intro L. inversion L; subst; [left; apply S1; assumption | right; split; [exact E | apply IHb; assumption]].
      * intros [X|[_ X]]; [apply l_alt1, S1, X | apply l_alt2, IHb, X].
    + rewrite S1, S2. split; [auto|]. intros [X|[X _]]; [exact X|]. apply nullable_ok in X. congruence.
  - split; intro L; inversion L; subst; [apply l_alt1, IHa | apply l_alt2, IHb | apply l_alt1, IHa | apply l_alt2, IHb]; assumption.
  - split.
    + intro L. inversion L as [| |? ? x y L1 L2| | | |]; subst. change (c :: x ++ y) with ((c :: x) ++ y). constructor; [apply IHa|]; assumption.
    + intro L. apply star_cons in L as (x & y & -> & L1 & L2). constructor; [apply IHa|]; assumption.
Qed.
Lemma rmatch_ok s : forall r, rmatch r s = true <-> lang r s.
Proof. induction s as [|c s IH]; intro r; cbn; [apply nullable_ok|]. rewrite IH. apply deriv_ok. Qed.
Lemma re_match_ok r s : re_match r s = true <-> maybe_newline (lang r) s.
Proof.
  unfold re_match, maybe_newline. rewrite orb_true_iff, rmatch_ok. split; (intros [E|E]; [left; exact E|right]).
  - destruct (rev s) as [|c t] eqn:R; [discriminate|]. apply andb_true_iff in E as [E1 E2]. exists (rev t). split; [|apply rmatch_ok; exact E2].
    rewrite <- (rev_involutive s), R. cbn. f_equal. f_equal. lia.
  - destruct E as (t & -> & L). rewrite rev_app_distr. cbn [rev app]. rewrite rev_involutive. apply rmatch_ok in L. rewrite L. reflexivity.
Qed.
(** inversion *)
Lemma lang_cls p s : lang (RCls p) s <-> exists c, s = [c] /\ p c = true.
Proof. split; [intro L; inversion L; subst; eauto|]. intros (c & -> & E). constructor. exact E. Qed.
Lemma lang_seq a b s : lang (RSeq a b) s <-> exists x y, s = x ++ y /\ lang a x /\ lang b y.
Proof. split; [intro L; inversion L; subst; eauto 6|]. intros (x & y & -> & L1 & L2). constructor; assumption. Qed.
Lemma lang_alt a b s : lang (RAlt a b) s <-> lang a s \/ lang b s.
Proof. split; [intro L; inversion L; subst; auto|]. intros [L|L]; [apply l_alt1 | apply l_alt2]; exact L. Qed.
Lemma lang_chr c s : lang (chr c) s <-> s = [c].
Proof. unfold chr. rewrite lang_cls. split; [intros (d & -> & E); f_equal; lia | intros ->; exists c; split; [reflexivity | lia]]. Qed.
Lemma lang_rep p n : forall s, lang (rrep n (RCls p)) s <-> Forall (fun c => p c = true) s /\ length s = n.
Proof.
  induction n as [|n IH]; intro s; cbn [rrep].
  - split; [intro L; inversion L; subst; auto|]. intros [_ E]. destruct s; [constructor|discriminate].
  - rewrite lang_seq. split.
    + intros (x & y & -> & L1 & L2). apply lang_cls in L1 as (c & -> & E). apply IH in L2 as [F N]. cbn. split; [constructor; assumption | lia].
    + intros [F N]. destruct s as [|c s]; [discriminate|]. inversion F; subst. exists [c], s. split; [reflexivity|]. split; [constructor; assumption|]. apply IH. cbn in N. split; [assumption | lia].
Qed.
Lemma lang_upto p n : forall s, lang (rupto n (RCls p)) s <-> Forall (fun c => p c = true) s /\ (length s <= n)%nat.
Proof.
  induction n as [|n IH]; intro s; cbn [rupto].
  - split; [intro L; inversion L; subst; auto|]. intros [_ E]. destruct s; [constructor|cbn in E; lia].
  - rewrite lang_alt, lang_seq. split.
    + intros [L|(x & y & -> & L1 & L2)]; [inversion L; subst; split; [constructor | cbn; lia]|]. apply lang_cls in L1 as (c & -> & E). apply IH in L2 as [F N]. cbn. split; [constructor; assumption | lia].
    + intros [F N]. destruct s as [|c s]; [left; constructor|]. right. inversion F; subst. exists [c], s. split; [reflexivity|]. split; [constructor; assumption|]. apply IH. cbn in N. split; [assumption | lia].
Qed.
Lemma lang_range p lo hi s : (lo <= hi)%nat -> lang (rrange lo hi (RCls p)) s <-> Forall (fun c => p c = true) s /\ (lo <= length s <= hi)%nat.
Proof.
  intro L. unfold rrange. rewrite lang_seq. split.
  - intros (x & y & -> & L1 & L2). apply lang_rep in L1 as [F1 N1]. apply lang_upto in L2 as [F2 N2]. rewrite app_length. split; [apply Forall_app; auto | lia].
  - intros [F N]. exists (firstn lo s), (skipn lo s). split; [symmetry; apply firstn_skipn|]. rewrite <- (firstn_skipn lo s) in F. apply Forall_app in F as [F1 F2].
    split; [apply lang_rep; split; [exact F1 | rewrite firstn_length; lia] | apply lang_upto; split; [exact F2 | rewrite skipn_length; lia]].
Qed.
Lemma lang_starF a P s : (forall x, lang a x <-> P x) -> lang (RStar a) s <-> exists ps, s = concat ps /\ Forall P ps.
Proof.
  intro E. split.
  - remember (RStar a) as r eqn:R. intro L. induction L as [| | | | |b|b x y L1 _ L2 IH]; try discriminate.
    + exists []. auto.
    + injection R as ->. destruct (IH eq_refl) as (ps & -> & F). exists (x :: ps). split; [reflexivity|]. constructor; [apply E; exact L1 | exact F].
  - intros (ps & -> & F). induction F as [|x ps Px F IH]; [constructor|]. cbn. constructor; [apply E; exact Px | exact IH].
Qed.

(** classes *)
Lemma alpha_ok c : is_alpha c = true <-> letter c.
Proof. unfold is_alpha, letter. lia. Qed.
Lemma num_ok c : is_num c = true <-> digit c.
Proof. unfold is_num, digit. lia. Qed.
Lemma alnum_ok c : is_alnum c = true <-> letter_digit c.
Proof. unfold is_alnum, letter_digit. rewrite orb_true_iff, alpha_ok, num_ok. tauto. Qed.
Lemma alnum_dash_ok c : alnum_dash c = true <-> letter_digit c \/ dash c.
Proof. unfold alnum_dash, dash. rewrite orb_true_iff, alnum_ok. split; (intros [A|A]; [left; exact A | right; lia]). Qed.
Lemma Forall_ext {A} (P Q : A -> Prop) l : (forall x, P x <-> Q x) -> Forall P l <-> Forall Q l.
Proof. intro E. split; apply Forall_impl; intros; apply E; assumption. Qed.

(** names *)
Lemma part_ok hi s : (3 <= hi)%nat -> lang (botname_part hi) s <-> name_part hi s.
Proof.
  intro L. unfold botname_part, name_part. rewrite lang_seq. split.
  - intros (x & y & -> & L1 & L2). apply lang_cls in L1 as (a & -> & A). apply lang_seq in L2 as (m & w & -> & L2 & L3).
    apply lang_range in L2 as [F N]; [|exact L]. apply lang_cls in L3 as (z & -> & Z). exists a, m, z. split; [reflexivity|].
    split; [apply alpha_ok, A|]. split; [apply alnum_ok, Z|]. split; [|exact N]. apply (Forall_ext _ _ _ alnum_dash_ok), F.
  - intros (a & m & z & -> & A & Z & F & N). exists [a], (m ++ [z]). split; [reflexivity|]. split; [apply lang_cls; exists a; split; [reflexivity | apply alpha_ok, A]|].
    apply lang_seq. exists m, [z]. split; [reflexivity|]. split; [apply lang_range; [exact L | split; [|exact N]]; apply (Forall_ext _ _ _ alnum_dash_ok), F|].
    apply lang_cls. exists z. split; [reflexivity | apply alnum_ok, Z].
Qed.
Lemma concat_dots ps : Forall (fun x => exists q, x = DOT :: q /\ name_part 55 q) ps <-> exists qs, ps = map (cons DOT) qs /\ Forall (name_part 55) qs.
Proof.
  split.
  - induction 1 as [|x ps (q & -> & Q) F (qs & -> & G)]; [exists []; auto|]. exists (q :: qs). split; [reflexivity|]. constructor; assumption.
  - intros (qs & -> & F). induction F; constructor; eauto.
Qed.
Lemma name_ok s : lang botname_re s <-> bot_name s.
Proof.
  unfold botname_re, bot_name. rewrite lang_seq.
  assert (D : forall x, lang (RSeq (chr 46) (botname_part 55)) x <-> exists q, x = DOT :: q /\ name_part 55 q).
  { intro x. rewrite lang_seq. split.
    - intros (a & b & -> & L1 & L2). apply lang_chr in L1. subst a. exists b. split; [reflexivity|]. apply part_ok in L2; [exact L2 | lia].
    - intros (q & -> & Q). exists [46], q. split; [reflexivity|]. split; [apply lang_chr; reflexivity | apply part_ok; [lia | exact Q]]. }
  split.
  - intros (p & r & -> & L1 & L2). apply part_ok in L1; [|lia]. apply (proj1 (lang_starF _ _ _ D)) in L2 as (ps & -> & F). apply concat_dots in F as (qs & -> & F).
    exists p, qs. split; [|auto]. f_equal. rewrite flat_map_concat_map. reflexivity.
  - intros (p & qs & -> & L1 & F). exists p, (flat_map (fun q => DOT :: q) qs). split; [reflexivity|]. split; [apply part_ok; [lia|exact L1]|].
    apply (lang_starF _ _ _ D). exists (map (cons DOT) qs). split; [apply flat_map_concat_map|]. apply concat_dots. eauto.
Qed.
(** host names *)
Lemma dash_us_ok c : (is_alnum c || (c =? 45) || (c =? 95)) = true <-> letter_digit c \/ dash c \/ underscore c.
Proof. rewrite !orb_true_iff, alnum_ok. unfold dash, underscore. split; intros; intuition lia. Qed.
Lemma label_ok s : lang hostname_label s <-> host_label s.
Proof.
  unfold hostname_label, host_label. rewrite !lang_alt, !lang_seq. split.
  - intros [L|[L|[L|[L|L]]]].
    + left. apply lang_cls in L as (c & -> & E). exists c. split; [reflexivity | apply alpha_ok, E].
    + right. left. destruct L as (x & y & -> & L1 & L2). apply lang_cls in L1 as (a & -> & A). apply lang_cls in L2 as (b & -> & B). exists a, b. split; [reflexivity|].
      apply alpha_ok in A. apply alpha_ok in B. auto.
    + right. left. destruct L as (x & y & -> & L1 & L2). apply lang_cls in L1 as (a & -> & A). apply lang_cls in L2 as (b & -> & B). exists a, b. split; [reflexivity|].
      apply alpha_ok in A. apply num_ok in B. auto.
    + right. left. destruct L as (x & y & -> & L1 & L2). apply lang_cls in L1 as (a & -> & A). apply lang_cls in L2 as (b & -> & B). exists a, b. split; [reflexivity|].
      apply num_ok in A. apply alpha_ok in B. auto.
    + right. right. destruct L as (x & y & -> & L1 & L2). apply lang_cls in L1 as (a & -> & A). apply lang_seq in L2 as (m & w & -> & L2 & L3).
      apply lang_range in L2 as [F N]; [|lia]. apply lang_cls in L3 as (z & -> & Z). exists a, m, z. apply alnum_ok in A. apply alnum_ok in Z.
      split; [reflexivity|]. split; [exact A|]. split; [exact Z|]. split; [|exact N]. apply (Forall_ext _ _ _ dash_us_ok), F.
  - intros [(a & -> & A)|[(a & b & -> & C)|(a & m & z & -> & A & Z & F & N)]].
    + left. apply lang_cls. exists a. split; [reflexivity | apply alpha_ok, A].
    + right. destruct C as [[A B]|[[A B]|[A B]]]; [left | right; left | right; right; left]; exists [a], [b]; (split; [reflexivity|]); split; apply lang_cls; eexists; (split; [reflexivity|]);
        first [apply alpha_ok; assumption | apply num_ok; assumption].
    + right; right; right; right. exists [a], (m ++ [z]). split; [reflexivity|]. split; [apply lang_cls; exists a; split; [reflexivity | apply alnum_ok, A]|].
      apply lang_seq. exists m, [z]. split; [reflexivity|]. split; [apply lang_range; [lia | split; [|exact N]]; apply (Forall_ext _ _ _ dash_us_ok), F|].
      apply lang_cls. exists z. split; [reflexivity | apply alnum_ok, Z].
Qed.
Lemma domain_ok s : lang hostname_tld s <-> host_domain s.
Proof.
  unfold hostname_tld, host_domain. rewrite lang_alt, lang_range, lang_seq by lia. split.
  - intros [[F N]|(d & w & -> & L1 & L2)]; [left; split; [apply (Forall_ext _ _ _ alpha_ok), F | exact N]|]. right.
    apply lang_range in L1 as [F N]; [|lia]. apply lang_seq in L2 as (x & t & -> & L2 & L3). apply lang_chr in L2. subst x. apply lang_range in L3 as [G M]; [|lia].
    exists d, t. split; [reflexivity|]. split; [apply (Forall_ext _ _ _ alnum_dash_ok), F|]. split; [exact N|]. split; [apply (Forall_ext _ _ _ alpha_ok), G | exact M].
  - intros [[F N]|(d & t & -> & F & N & G & M)]; [left; split; [apply (Forall_ext _ _ _ alpha_ok), F | exact N]|]. right.
    exists d, (DOT :: t). split; [reflexivity|]. split; [apply lang_range; [lia | split; [|exact N]]; apply (Forall_ext _ _ _ alnum_dash_ok), F|].
    apply lang_seq. exists [46], t. split; [reflexivity|]. split; [apply lang_chr; reflexivity|]. apply lang_range; [lia | split; [|exact M]]. apply (Forall_ext _ _ _ alpha_ok), G.
Qed.
Lemma host_ok s : lang hostname_re s <-> host_name s.
Proof.
  unfold hostname_re, host_name. rewrite lang_seq. split.
  - intros (l & w & -> & L1 & L2). apply lang_seq in L2 as (x & d & -> & L2 & L3). apply lang_chr in L2. subst x. exists l, d. split; [reflexivity|]. split; [apply label_ok, L1 | apply domain_ok, L3].
  - intros (l & d & -> & L1 & L2). exists l, (DOT :: d). split; [reflexivity|]. split; [apply label_ok, L1|]. apply lang_seq. exists [46], d. split; [reflexivity|].
    split; [apply lang_chr; reflexivity | apply domain_ok, L2].
Qed.
Lemma maybe_ext (P Q : pystr -> Prop) s : (forall x, P x <-> Q x) -> maybe_newline P s <-> maybe_newline Q s.
Proof. intro E. unfold maybe_newline. rewrite E. split; (intros [A|(t & -> & B)]; [left; exact A | right; exists t; split; [reflexivity | apply E; exact B]]). Qed.
Lemma name_match s : re_match botname_re s = true <-> maybe_newline bot_name s.
Proof. rewrite re_match_ok. apply maybe_ext, name_ok. Qed.
Lemma host_match s : re_match hostname_re s = true <-> maybe_newline host_name s.
Proof. rewrite re_match_ok. apply maybe_ext, host_ok. Qed.

(** all characters are ASCII *)
Lemma ld_ascii c : letter_digit c -> c < 128.
Proof. unfold letter_digit, letter, digit. lia. Qed.
Lemma part_ascii n s : name_part n s -> ascii_str s.
Proof.
  intros (a & m & z & -> & A & Z & F & _). unfold ascii_str. constructor; [unfold letter in A; lia|]. apply Forall_app. split.
  - eapply Forall_impl; [|exact F]. intros c [C|C]; [apply ld_ascii; exact C | unfold dash in C; lia].
  - constructor; [apply ld_ascii; exact Z | constructor].
Qed.
Lemma name_ascii s : bot_name s -> ascii_str s.
Proof.
  intros (p & ps & -> & P & F). unfold ascii_str. apply Forall_app. split; [exact (part_ascii _ _ P)|].
  induction F as [|q ps Q F IH]; [constructor|]. cbn. constructor; [unfold DOT; lia|]. apply Forall_app. split; [exact (part_ascii _ _ Q) | exact IH].
Qed.
Lemma host_ascii s : host_name s -> ascii_str s.
Proof.
  intros (l & d & -> & L & D). unfold ascii_str. apply Forall_app. split; [|constructor; [unfold DOT; lia|]].
  - destruct L as [(a & -> & A)|[(a & b & -> & C)|(a & m & z & -> & A & Z & F & _)]].
    + constructor; [unfold letter in A; lia | constructor].
    + repeat constructor; unfold letter, digit in C; lia.
    + constructor; [apply ld_ascii, A|]. apply Forall_app. split; [|constructor; [apply ld_ascii, Z | constructor]].
      eapply Forall_impl; [|exact F]. intros c [C|[C|C]]; [apply ld_ascii; exact C | unfold dash in C; lia | unfold underscore in C; lia].
  - destruct D as [[F _]|(e & t & -> & F & _ & G & _)].
    + eapply Forall_impl; [|exact F]. intros c C. unfold letter in C. lia.
    + apply Forall_app. split; [|constructor; [unfold DOT; lia|]].
      * eapply Forall_impl; [|exact F]. intros c [C|C]; [apply ld_ascii; exact C | unfold dash in C; lia].
      * eapply Forall_impl; [|exact G]. intros c C. unfold letter in C. lia.
Qed.
Lemma newline_ascii (P : pystr -> Prop) s : (forall x, P x -> ascii_str x) -> maybe_newline P s -> ascii_str s.
Proof. intros A [X|(t & -> & X)]; [apply A, X|]. unfold ascii_str. apply Forall_app. split; [apply A, X | constructor; [lia|constructor]]. Qed.
