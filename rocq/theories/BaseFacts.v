(** Facts about the Base definitions. *)
From Verif Require Import Base.
From Coq Require Import ZifyBool ZifyNat ZifyN.
Ltac Zify.zify_post_hook ::= Z.div_mod_to_equations.
Set Implicit Arguments.

Lemma rapp_ok a b z : a +++ b = Ok z -> exists x y, a = Ok x /\ b = Ok y /\ z = x ++ y.
Proof.
  unfold rapp, bind; destruct a as [x|]; [|discriminate]; destruct b as [y|]; [|discriminate].
  intros H; inversion H; eauto.
Qed.

Lemma bind_ok {A B} (r : res A) (f : A -> res B) z :
  bind r f = Ok z -> exists a, r = Ok a /\ f a = Ok z.
Proof. destruct r as [a|]; cbn; [eauto | discriminate]. Qed.

Lemma bind_err {A B} (r : res A) (f : A -> res B) e :
  bind r f = Err e -> r = Err e \/ exists a, r = Ok a /\ f a = Err e.
Proof. destruct r as [a|e']; cbn; [eauto | intros H; inversion H; auto]. Qed.

Lemma guard_ok c e u : guard c e = Ok u -> c = true.
Proof. destruct c; cbn; congruence. Qed.

Lemma listN_eqb_eq a b : listN_eqb a b = true <-> a = b.
Proof.
  revert b; induction a as [|x a IH]; intros [|y b]; cbn; try (split; congruence).
  rewrite andb_true_iff, N.eqb_eq, IH. split; [intros [-> ->]; reflexivity | intros H; inversion H; auto].
Qed.
Lemma listN_eqb_refl a : listN_eqb a a = true.
Proof. apply listN_eqb_eq; reflexivity. Qed.
Lemma listN_eqb_neq a b : listN_eqb a b = false <-> a <> b.
Proof.
  split.
  - intros H E; subst; rewrite listN_eqb_refl in H; discriminate.
  - intros H; destruct (listN_eqb a b) eqn:E; [apply listN_eqb_eq in E; contradiction | reflexivity].
Qed.

Lemma wf_bytesb_iff b : wf_bytesb b = true <-> wf_bytes b.
Proof.
  unfold wf_bytesb, wf_bytes. rewrite forallb_forall, Forall_forall.
  split; intros H x Hx; specialize (H x Hx); lia.
Qed.

(** ** list cancellation *)
Lemma app_inj_len {A} (a b r s : list A) :
  length a = length b -> a ++ r = b ++ s -> a = b /\ r = s.
Proof.
  revert b; induction a as [|x a IH]; intros [|y b]; cbn; try discriminate; [auto|].
  intros HL H; inversion H; subst. destruct (IH b) as [-> ->]; auto.
Qed.

Lemma app_inj_len_r {A} (a b r s : list A) :
  length r = length s -> a ++ r = b ++ s -> a = b /\ r = s.
Proof.
  intros HL H. assert (length a = length b).
  { pose proof (f_equal (@length A) H) as E. rewrite !app_length in E. lia. }
  apply app_inj_len; auto.
Qed.

Lemma firstn_app_exact {A} (a b : list A) n : n = length a -> firstn n (a ++ b) = a.
Proof. intros ->. rewrite firstn_app, firstn_all, Nat.sub_diag. cbn. apply app_nil_r. Qed.
Lemma skipn_app_exact {A} (a b : list A) n : n = length a -> skipn n (a ++ b) = b.
Proof. intros ->. rewrite skipn_app, skipn_all, Nat.sub_diag. reflexivity. Qed.

(** ** little endian *)
Lemma le_length w v : length (le w v) = w.
Proof. revert v; induction w as [|w IH]; intros v; cbn; [|rewrite IH]; reflexivity. Qed.

Lemma le_wf w v : wf_bytes (le w v).
Proof.
  revert v; induction w as [|w IH]; intros v; cbn [le]; constructor; [|apply IH].
  apply N.mod_lt; lia.
Qed.

Lemma pow256_S w : 256 ^ N.of_nat (S w) = 256 * 256 ^ N.of_nat w.
Proof. rewrite Nat2N.inj_succ, N.pow_succ_r'; reflexivity. Qed.

Lemma le_dec_le w v : v < 256 ^ N.of_nat w -> le_dec (le w v) = v.
Proof.
  revert v; induction w as [|w IH]; intros v H.
  - cbn in H. cbn. lia.
  - rewrite pow256_S in H. cbn [le le_dec]. rewrite IH.
    + pose proof (N.div_mod v 256 ltac:(lia)); lia.
    + apply N.div_lt_upper_bound; lia.
Qed.

Lemma le_le_dec b : wf_bytes b -> le (length b) (le_dec b) = b.
Proof.
  induction 1 as [|x b Hx Hb IH]; [reflexivity|].
  cbn [length le le_dec].
  replace ((x + 256 * le_dec b) mod 256) with x.
  2:{ rewrite N.mul_comm, N.mod_add by lia. symmetry; apply N.mod_small; exact Hx. }
  replace ((x + 256 * le_dec b) / 256) with (le_dec b).
  2:{ rewrite N.mul_comm, N.div_add by lia. rewrite N.div_small by exact Hx. lia. }
  rewrite IH; reflexivity.
Qed.

Lemma le_dec_bound b : wf_bytes b -> le_dec b < 256 ^ N.of_nat (length b).
Proof.
  induction 1 as [|x b Hx Hb IH]; [cbn; lia|].
  cbn [length le_dec]. rewrite pow256_S. lia.
Qed.

Lemma le_inj w a b : a < 256 ^ N.of_nat w -> b < 256 ^ N.of_nat w -> le w a = le w b -> a = b.
Proof.
  intros Ha Hb H. rewrite <- (@le_dec_le w a Ha), <- (@le_dec_le w b Hb), H; reflexivity.
Qed.

Lemma be_length w v : length (be w v) = w.
Proof. unfold be; rewrite rev_length; apply le_length. Qed.
Lemma be_wf w v : wf_bytes (be w v).
Proof. apply Forall_rev, le_wf. Qed.
Lemma be_dec_be w v : v < 256 ^ N.of_nat w -> be_dec (be w v) = v.
Proof. intros H; unfold be_dec, be; rewrite rev_involutive; apply le_dec_le; exact H. Qed.

(** ** minimal byte count *)
Lemma nbytes_bound v : v < 256 ^ N.of_nat (nbytes v).
Proof.
  unfold nbytes. rewrite N2Nat.id.
  apply N.lt_le_trans with (2 ^ N.size v); [apply N.size_gt|].
  change 256 with (2 ^ 8). rewrite <- N.pow_mul_r. apply N.pow_le_mono_r; lia.
Qed.

Lemma nbytes_min v w : v < 256 ^ N.of_nat w -> (nbytes v <= w)%nat.
Proof.
  intros H. unfold nbytes.
  destruct (N.eq_dec v 0) as [->|Hv]; [cbn; lia|].
  assert (Hs : N.size v <= 8 * N.of_nat w).
  { rewrite N.size_log2 by exact Hv. apply N.le_succ_l.
    apply N.log2_lt_pow2; [lia|]. change 256 with (2^8) in H. rewrite <- N.pow_mul_r in H. exact H. }
  lia.
Qed.

Lemma nbytes_0 : nbytes 0 = 0%nat.
Proof. reflexivity. Qed.

(** ** hex *)
Lemma hexdig_unhex d : d < 16 -> unhexdig (hexdig d) = Some d /\ is_space (hexdig d) = false.
Proof.
  intros H. assert (Hin : In d [0;1;2;3;4;5;6;7;8;9;10;11;12;13;14;15]).
  { cbn. lia. }
  cbn in Hin. repeat (destruct Hin as [<-|Hin]; [split; reflexivity|]); destruct Hin.
Qed.

Lemma unhex_hex_app b s : wf_bytes b -> unhex (hex b ++ s) = do r <- unhex s; Ok (b ++ r).
Proof.
  induction 1 as [|x b Hx Hb IH].
  - cbn [hex app]. destruct (unhex s); reflexivity.
  - cbn [hex app unhex].
    assert (x / 16 < 16) as H1 by lia.
    assert (x mod 16 < 16) as H2 by lia.
    destruct (hexdig_unhex H1) as [-> ->], (hexdig_unhex H2) as [-> _].
    rewrite IH. destruct (unhex s) as [r|]; cbn [bind]; [|reflexivity].
    rewrite <- N.div_mod by lia. reflexivity.
Qed.

Lemma unhex_hex b : wf_bytes b -> unhex (hex b) = Ok b.
Proof.
  intros H. rewrite <- (app_nil_r (hex b)), unhex_hex_app by exact H. cbn.
  rewrite app_nil_r; reflexivity.
Qed.

Lemma hex_length b : length (hex b) = (2 * length b)%nat.
Proof. induction b as [|x b IH]; cbn; [reflexivity | rewrite IH; lia]. Qed.

Lemma hex_inj a b : wf_bytes a -> wf_bytes b -> hex a = hex b -> a = b.
Proof.
  intros Ha Hb H. pose proof (unhex_hex Ha) as E. rewrite H, (unhex_hex Hb) in E.
  inversion E; reflexivity.
Qed.

Lemma hex_app a b : hex (a ++ b) = hex a ++ hex b.
Proof. induction a as [|x a IH]; cbn; [|rewrite IH]; reflexivity. Qed.

Definition lowhex (c : N) : Prop := (48 <= c <= 57) \/ (97 <= c <= 102).
Lemma hexdig_low d : d < 16 -> lowhex (hexdig d).
Proof. unfold lowhex, hexdig; destruct (N.ltb_spec d 10); lia. Qed.
Lemma hex_low b : wf_bytes b -> Forall lowhex (hex b).
Proof.
  induction 1 as [|x b Hx Hb IH]; cbn [hex]; [constructor|].
  constructor; [apply hexdig_low; lia|]. constructor; [apply hexdig_low; lia | exact IH].
Qed.

(** ** mapM *)
Lemma mapM_ok_length {A B} (f : A -> res B) l r : mapM f l = Ok r -> length r = length l.
Proof.
  revert r; induction l as [|x l IH]; cbn; intros r H; [inversion H; reflexivity|].
  apply bind_ok in H as (y & _ & H). apply bind_ok in H as (ys & H1 & H). inversion H; cbn.
  rewrite (IH _ H1); reflexivity.
Qed.

Lemma mapM_ok_Forall2 {A B} (f : A -> res B) l r :
  mapM f l = Ok r <-> Forall2 (fun a b => f a = Ok b) l r.
Proof.
  revert r; induction l as [|x l IH]; cbn; intros r; split.
  - intros H; inversion H; constructor.
  - intros H; inversion H; reflexivity.
  - intros H. apply bind_ok in H as (y & Hy & H). apply bind_ok in H as (ys & H1 & H).
    inversion H; subst. constructor; [exact Hy | apply IH; exact H1].
  - intros H; inversion H as [|? y ? ys Hy Hys]; subst. rewrite Hy; cbn.
    apply IH in Hys; rewrite Hys; reflexivity.
Qed.

Lemma mapM_map_id {A B} (f : B -> res A) (g : A -> B) l :
  Forall (fun a => f (g a) = Ok a) l -> mapM f (map g l) = Ok l.
Proof.
  induction 1 as [|a l Ha Hl IH]; cbn; [reflexivity|]. rewrite Ha; cbn. rewrite IH; reflexivity.
Qed.

(** ** decimal digit strings *)
Lemma digits_val_app acc s t :
  digits_val acc (s ++ t) = match digits_val acc s with Some a => digits_val a t | None => None end.
Proof.
  revert acc; induction s as [|c s IH]; intros acc; cbn; [reflexivity|].
  destruct ((48 <=? c) && (c <=? 57)); [apply IH | reflexivity].
Qed.

Definition is_digit (c : N) : Prop := 48 <= c <= 57.

Lemma digits_val_acc s acc v :
  digits_val 0 s = Some v -> digits_val acc s = Some (acc * 10 ^ lenN s + v).
Proof.
  revert acc v.
  assert (G : forall acc b v, digits_val b s = Some v ->
     digits_val (acc + b) s = Some (acc * 10 ^ lenN s + v)).
  { induction s as [|c s IH]; intros acc b v H.
    - cbn in *. inversion H; subst. f_equal. unfold lenN; cbn; lia.
    - cbn [digits_val] in *. destruct ((48 <=? c) && (c <=? 57)); [|discriminate].
      replace (10 * (acc + b) + (c - 48)) with (10 * acc + (10 * b + (c - 48))) by lia.
      rewrite (IH (10 * acc) _ _ H). f_equal.
      unfold lenN; cbn [length]. rewrite Nat2N.inj_succ, N.pow_succ_r'. lia. }
  intros acc v H. specialize (G acc 0 v H). rewrite N.add_0_r in G. exact G.
Qed.

Lemma digits_val_bound s v : digits_val 0 s = Some v -> v < 10 ^ lenN s.
Proof.
  revert v. induction s as [|c s IH] using rev_ind; intros v.
  - cbn. intros H; inversion H; lia.
  - rewrite digits_val_app. destruct (digits_val 0 s) as [w|]; [|discriminate].
    specialize (IH _ eq_refl). cbn [digits_val].
    destruct ((48 <=? c) && (c <=? 57)) eqn:E; [|discriminate].
    intros H; injection H as H. unfold lenN in *. rewrite app_length; cbn [length].
    rewrite Nat.add_1_r, Nat2N.inj_succ, N.pow_succ_r'.
    generalize dependent (10 ^ N.of_nat (length s)); intros P IH. lia.
Qed.

Lemma digits_val_Forall s acc v : digits_val acc s = Some v -> Forall is_digit s.
Proof.
  revert acc; induction s as [|c s IH]; intros acc H; [constructor|].
  cbn in H. destruct ((48 <=? c) && (c <=? 57)) eqn:E; [|discriminate].
  constructor; [unfold is_digit; lia | eapply IH; exact H].
Qed.

Lemma digits_val_ex s acc : Forall is_digit s -> exists v, digits_val acc s = Some v.
Proof.
  intros H; revert acc; induction H as [|c s Hc Hs IH]; intros acc; cbn; [eauto|].
  unfold is_digit in Hc.
  replace ((48 <=? c) && (c <=? 57)) with true by (symmetry; rewrite andb_true_iff; lia).
  apply IH.
Qed.

Lemma digs_spec fuel n acc :
  n < 2 ^ N.of_nat fuel ->
  exists s, digs (S fuel) n acc = s ++ acc /\ digits_val 0 s = Some n /\ s <> [] /\
            (forall c t, s = c :: t -> c = 48 -> n = 0 /\ t = []).
Proof.
  revert n acc; induction fuel as [|f IH]; intros n acc H.
  - cbn in H. assert (n = 0) by lia. subst. exists [48]. cbn. repeat split; try discriminate.
    inversion H0; reflexivity.
  - remember (S f) as f1. cbn [digs]. destruct (N.eqb_spec (n / 10) 0) as [E|E].
    + exists [48 + n mod 10]. cbn [app digits_val].
      assert (n < 10) by lia. rewrite N.mod_small by lia.
      replace ((48 <=? 48 + n) && (48 + n <=? 57)) with true by (symmetry; rewrite andb_true_iff; lia).
      split; [reflexivity|]. split; [f_equal; lia|]. split; [discriminate|].
      intros c t Hc Hz. inversion Hc; subst. split; [lia|reflexivity].
    + subst f1. destruct (IH (n / 10) ((48 + n mod 10) :: acc)) as (s & H1 & H2 & H3 & H4).
      { rewrite Nat2N.inj_succ, N.pow_succ_r' in H. lia. }
      exists (s ++ [48 + n mod 10]). rewrite H1, <- app_assoc. split; [reflexivity|].
      rewrite digits_val_app, H2. cbn [digits_val].
      assert (n mod 10 < 10) by lia.
      replace ((48 <=? 48 + n mod 10) && (48 + n mod 10 <=? 57)) with true
        by (symmetry; rewrite andb_true_iff; lia).
      split; [f_equal; lia|]. split; [destruct s; discriminate|].
      intros c t Hc Hz. destruct s as [|c' s']; [congruence|]. cbn in Hc. inversion Hc; subst.
      destruct (H4 48 s' eq_refl eq_refl) as [Hz' _]. lia.
Qed.

Lemma dec_str_spec n :
  digits_val 0 (dec_str n) = Some n /\ dec_str n <> [] /\
  (forall c t, dec_str n = c :: t -> c = 48 -> n = 0 /\ t = []).
Proof.
  unfold dec_str. destruct (@digs_spec (N.to_nat (N.size n)) n []) as (s & H1 & H2 & H3).
  { rewrite N2Nat.id. apply N.size_gt. }
  rewrite H1, app_nil_r. auto.
Qed.

Lemma dec_str_val n : digits_val 0 (dec_str n) = Some n.
Proof. apply dec_str_spec. Qed.
Lemma dec_str_digits n : Forall is_digit (dec_str n).
Proof. eapply digits_val_Forall, dec_str_val. Qed.
Lemma dec_str_inj a b : dec_str a = dec_str b -> a = b.
Proof. intros H. pose proof (dec_str_val a) as E. rewrite H, dec_str_val in E. congruence. Qed.

Lemma int_digits_plain s b acc :
  Forall is_digit s -> (s <> [] \/ b = true) -> int_digits b acc s = digits_val acc s.
Proof.
  intros H; revert b acc; induction H as [|c s Hc Hs IH]; intros b acc Hn.
  - destruct Hn as [Hn| ->]; [congruence | reflexivity].
  - cbn. unfold is_digit in Hc.
    replace ((48 <=? c) && (c <=? 57)) with true by (symmetry; rewrite andb_true_iff; lia).
    apply IH; right; reflexivity.
Qed.

Lemma digit_not_space c : is_digit c -> is_pyspace c = false.
Proof. unfold is_digit, is_pyspace, is_space; intros; lia. Qed.

Lemma lstrip_head p c s : p c = false -> lstrip p (c :: s) = c :: s.
Proof. intros H; cbn; rewrite H; reflexivity. Qed.

Lemma lstrip_none p s : (forall c t, s = c :: t -> p c = false) -> lstrip p s = s.
Proof. destruct s as [|c s]; [reflexivity|]. intros H; apply lstrip_head; eauto. Qed.

Lemma strip_nospace s : Forall (fun c => is_pyspace c = false) s -> strip s = s.
Proof.
  intros H. unfold strip, rstrip.
  rewrite (@lstrip_none is_pyspace s).
  2:{ intros c t ->; inversion H; assumption. }
  rewrite lstrip_none; [apply rev_involutive|].
  intros c t E. rewrite Forall_forall in H. apply H. apply in_rev. rewrite E; left; reflexivity.
Qed.

Lemma py_int_dec_str n : py_int (dec_str n) = Ok (Z.of_N n).
Proof.
  destruct (dec_str_spec n) as (H1 & H2 & _). pose proof (dec_str_digits n) as H3.
  unfold py_int. rewrite strip_nospace.
  2:{ eapply Forall_impl; [|exact H3]. apply digit_not_space. }
  destruct (dec_str n) as [|c t] eqn:E; [congruence|].
  assert (is_digit c) as Hc by (inversion H3; assumption). unfold is_digit in Hc.
  replace (c =? 45) with false by lia. replace (c =? 43) with false by lia.
  rewrite int_digits_plain, H1 by (auto; left; discriminate). reflexivity.
Qed.

(** ** UTF-8 on ASCII is the identity *)
Lemma utf8_ascii s : ascii_str s -> utf8 s = Ok s.
Proof.
  unfold utf8. induction 1 as [|c s Hc Hs IH]; [reflexivity|]. cbn [map rconcat].
  unfold utf8_char at 1. replace (c <? 128) with true by lia. rewrite IH. reflexivity.
Qed.

Lemma s2b_length s : length (s2b s) = String.length s.
Proof. induction s; cbn; [|rewrite IHs]; reflexivity. Qed.
Lemma s2b_inj a b : s2b a = s2b b -> a = b.
Proof.
  revert b; induction a as [|x a IH]; intros [|y b]; cbn; try discriminate; [reflexivity|].
  intros H; inversion H as [[H1 H2]]. rewrite (IH _ H2). f_equal.
  rewrite <- (ascii_N_embedding x), <- (ascii_N_embedding y), H1; reflexivity.
Qed.

(** ** unique parsing: [enc] restricted to [P] is a prefix code *)
Definition uniq {A} (P : A -> Prop) (enc : A -> res bytes) : Prop :=
  forall a b x y r s, P a -> P b -> enc a = Ok x -> enc b = Ok y -> x ++ r = y ++ s -> a = b /\ r = s.

Lemma uniq_weaken {A} (P Q : A -> Prop) enc :
  (forall a, Q a -> P a) -> uniq P enc -> uniq Q enc.
Proof. intros HPQ H a b x y r s Ha Hb; apply H; auto. Qed.

Lemma uniq_fixed {A} (P : A -> Prop) (enc : A -> res bytes) n :
  (forall a x, P a -> enc a = Ok x -> length x = n) ->
  (forall a b x, P a -> P b -> enc a = Ok x -> enc b = Ok x -> a = b) -> uniq P enc.
Proof.
  intros HL HI a b x y r s Ha Hb Ea Eb H.
  apply app_inj_len in H as [-> ->]; [|rewrite (HL _ _ Ha Ea), (HL _ _ Hb Eb); reflexivity].
  split; [eapply HI; eauto | reflexivity].
Qed.

Lemma uniq_concat {A} (P : A -> Prop) (enc : A -> res bytes) :
  uniq P enc -> forall la lb x y r s, Forall P la -> Forall P lb -> length la = length lb ->
  rconcat (map enc la) = Ok x -> rconcat (map enc lb) = Ok y -> x ++ r = y ++ s -> la = lb /\ r = s.
Proof.
  intros HU la; induction la as [|a la IH]; intros [|b lb] x y r s HA HB HL; try discriminate.
  - cbn. intros Hx Hy H; inversion Hx; inversion Hy; subst; auto.
  - cbn [map rconcat]. intros Hx Hy H.
    apply rapp_ok in Hx as (x1 & x2 & Ea & Ex & ->). apply rapp_ok in Hy as (y1 & y2 & Eb & Ey & ->).
    inversion HA; inversion HB; subst. rewrite <- !app_assoc in H.
    destruct (HU a b x1 y1 _ _ ltac:(assumption) ltac:(assumption) Ea Eb H) as [-> H'].
    edestruct (IH lb) as [-> ->]; eauto.
Qed.

Lemma rconcat_app l m : rconcat (l ++ m) = rconcat l +++ rconcat m.
Proof.
  induction l as [|a l IH]; cbn [app rconcat].
  - unfold rapp; cbn. destruct (rconcat m); reflexivity.
  - rewrite IH. unfold rapp. destruct a as [x|]; cbn; [|reflexivity].
    destruct (rconcat l) as [y|]; cbn; [|reflexivity].
    destruct (rconcat m) as [z|]; cbn; [|reflexivity]. rewrite app_assoc; reflexivity.
Qed.

Lemma rapp_assoc a b c : (a +++ b) +++ c = a +++ (b +++ c).
Proof.
  unfold rapp. destruct a as [x|]; cbn; [|reflexivity]. destruct b as [y|]; cbn; [|reflexivity].
  destruct c as [z|]; cbn; [|reflexivity]. rewrite app_assoc; reflexivity.
Qed.

Lemma ok_inj {A} (a b : A) : Ok a = Ok b -> a = b.
Proof. congruence. Qed.
