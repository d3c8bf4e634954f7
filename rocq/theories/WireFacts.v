(** The encoders write exactly the fields of Spec_Wire. *)
From Verif Require Import Base BaseFacts Encoders EncodersFacts Currency CurrencyFacts Primitive Merkle MerkleFacts Types TypesFacts Conditions ConditionFacts
  Fulfillments ThreeBotTypes Txn FormFacts Spec_Forms Spec_Merkle Spec_Wire.
From Coq Require Import ZifyBool ZifyNat ZifyN.
Ltac Zify.zify_post_hook ::= Z.div_mod_to_equations.

Definition enc (r : res bytes) (F : field) : Prop := forall b, r = Ok b <-> F b.
Lemma enc_eqv r F G : enc r F -> (forall b, F b <-> G b) -> enc r G.
Proof. intros E I b. rewrite (E b). apply I. Qed.
Lemma enc_exactly x : enc (Ok x) (exactly x).
Proof. intro b. unfold exactly. split; [intros [= <-]; reflexivity | intros ->; reflexivity]. Qed.
Lemma enc_never e : enc (Err e) never.
Proof. intro b. split; [discriminate | intros []]. Qed.
Lemma rapp_iff a b z : a +++ b = Ok z <-> exists x y, a = Ok x /\ b = Ok y /\ z = x ++ y.
Proof. split; [apply rapp_ok|]. intros (x & y & -> & -> & ->). reflexivity. Qed.
Lemma fields_cons F l b : fields (F :: l) b <-> exists x y, F x /\ fields l y /\ b = x ++ y.
Proof. split; [inversion 1; subst; eauto|]. intros (x & y & f & fs & ->). constructor; assumption. Qed.
Lemma fields_nil b : fields [] b <-> b = [].
Proof. split; [inversion 1; reflexivity | intros ->; constructor]. Qed.
Lemma fields_one F b : fields [F] b <-> F b.
Proof.
  rewrite fields_cons. split.
  - intros (x & y & f & fs & ->). apply fields_nil in fs as ->. rewrite app_nil_r. exact f.
  - intro f. exists b, []. rewrite app_nil_r. split; [exact f|]. split; [constructor | reflexivity].
Qed.
Lemma fields_app l m b : fields (l ++ m) b <-> exists x y, fields l x /\ fields m y /\ b = x ++ y.
Proof.
  revert b. induction l as [|F l IH]; intro b; cbn [app].
  - split; [intro M; exists [], b; split; [constructor | auto]|]. intros (x & y & L & M & ->). apply fields_nil in L as ->. exact M.
  - rewrite fields_cons. split.
    + intros (x & y & f & fs & ->). apply IH in fs as (u & v & L & M & ->). exists (x ++ u), v. split; [constructor; assumption|]. split; [exact M | apply app_assoc].
    + intros (x & y & L & M & ->). apply fields_cons in L as (u & v & f & L & ->). exists u, (v ++ y). split; [exact f|]. split; [|symmetry; apply app_assoc].
      apply IH. eauto.
Qed.
Lemma enc_cons a r F l : enc a F -> enc r (fields l) -> enc (a +++ r) (fields (F :: l)).
Proof.
  intros A R b. rewrite rapp_iff, fields_cons. split; intros (x & y & Ex & Ey & ->); exists x, y; (split; [apply A; exact Ex|]; split; [apply R; exact Ey | reflexivity]).
Qed.
Lemma enc_one a F : enc a F -> enc a (fields [F]).
Proof. intro A. eapply enc_eqv; [exact A|]. intro b. symmetry. apply fields_one. Qed.
Lemma enc_nil : enc (Ok []) (fields []).
Proof. intro b. rewrite fields_nil. apply enc_exactly. Qed.
Lemma enc_app a r l m : enc a (fields l) -> enc r (fields m) -> enc (a +++ r) (fields (l ++ m)).
Proof.
  intros A R b. rewrite rapp_iff, fields_app. split; intros (x & y & Ex & Ey & ->); exists x, y; (split; [apply A; exact Ex|]; split; [apply R; exact Ey | reflexivity]).
Qed.
Lemma enc_of_w w (F : field) : (forall b, w = (b, None) <-> F b) -> enc (r_of_w w) F.
Proof.
  intros I b. rewrite <- I. unfold r_of_w. destruct w as [x [e|]]; cbn [fst snd].
  - split; [discriminate | intros [= ]].
  - split; [intros [= <-]; reflexivity | intros [= <-]; reflexivity].
Qed.
Lemma enc_riv_int w z : enc (riv_int w z) (number_in w z).
Proof. apply enc_of_w. intro b. rewrite riv_int_iff. reflexivity. Qed.
Lemma enc_sia_int z : enc (sia_int z) (number_in 8 z).
Proof. apply enc_of_w. intro b. rewrite sia_int_iff. reflexivity. Qed.
Lemma enc_sia_byte z : enc (sia_byte z) (number_in 1 z).
Proof.
  apply enc_of_w. intro b. rewrite sia_byte_iff. unfold byte_form, int_form. split; [|tauto].
  intros [N|[(s & E & _)|(E & _)]]; [exact N | discriminate | discriminate].
Qed.
Lemma enc_byte n z : z = Z.of_N n -> n < 256 -> enc (Ok [n]) (number_in 1 z).
Proof.
  intros -> L b. unfold number_in. split.
  - intros [= <-]. exists n. split; [reflexivity|]. unfold little. cbn. split; [reflexivity|]. split; [constructor; [exact L | constructor] | lia].
  - intros (m & E & M). apply little_iff in M as (_ & ->). assert (m = n) as -> by lia. cbn. rewrite N.mod_small by exact L. reflexivity.
Qed.
Lemma enc_slice c d : enc (match c with Sia => sia_slice d | Rivine => riv_slice d end) (fields [count c (lenN d); exactly d]).
Proof.
  intro b. rewrite fields_cons. setoid_rewrite fields_one.
  assert (K : (match c with Sia => sia_add_slice (VBytes d) | Rivine => riv_add_slice (VBytes d) end = (b, None)) <->
    exists x y, count c (lenN d) x /\ exactly d y /\ b = x ++ y).
  { unfold exactly. destruct c; [rewrite sia_slice_iff | rewrite riv_slice_iff]; cbn [count]; unfold slice_form, array_form, items; split.
    1,3: intros (n & p & y & [= <-] & L & [(s & E & _)|[[= <-]|(l & E & _)]] & ->); [discriminate | exists p, d; auto | discriminate].
    all: intros (x & y & L & -> & ->); exists (lenN d), x, d; auto 8. }
  rewrite <- K. destruct c; apply (enc_of_w _ (fun b => _ = (b, None))); reflexivity.
Qed.
Lemma enc_sized_sia r F : enc r F -> enc (do d <- r; sia_slice d) (sized Sia F).
Proof.
  intros R b. unfold sized. split.
  - intro E. apply bind_ok in E as (d & Ed & E). exists d. split; [apply R; exact Ed | apply (enc_slice Sia d); exact E].
  - intros (d & Fd & E). apply R in Fd. rewrite Fd. cbn [bind]. apply (enc_slice Sia d). exact E.
Qed.
Lemma enc_sized_riv r F : enc r F -> enc (do d <- r; riv_slice d) (sized Rivine F).
Proof.
  intros R b. unfold sized. split.
  - intro E. apply bind_ok in E as (d & Ed & E). exists d. split; [apply R; exact Ed | apply (enc_slice Rivine d); exact E].
  - intros (d & Fd & E). apply R in Fd. rewrite Fd. cbn [bind]. apply (enc_slice Rivine d). exact E.
Qed.
Lemma enc_sia_slice d F : enc (Ok d) F -> enc (sia_slice d) (sized Sia F).
Proof. exact (enc_sized_sia (Ok d) F). Qed.
Lemma enc_riv_slice d F : enc (Ok d) F -> enc (riv_slice d) (sized Rivine F).
Proof. exact (enc_sized_riv (Ok d) F). Qed.
Lemma enc_each {A} (f : A -> res bytes) (P : A -> field) l : (forall a, enc (f a) (P a)) -> enc (rconcat (map f l)) (each P l).
Proof. intro I. unfold each. induction l as [|a l IH]; [apply enc_nil|]. cbn [map rconcat]. apply enc_cons; auto. Qed.
Lemma enc_sia_list {A} (f : A -> res bytes) (P : A -> field) l : (forall a, enc (f a) (P a)) -> enc (sia_list f l) (listed Sia P l).
Proof.
  intro I. unfold sia_list, listed. apply enc_cons; [|apply enc_one, enc_each; exact I]. eapply enc_eqv; [apply enc_sia_int|]. intro b. unfold count, sia_length, number_in, lenN.
  split; [intros (n & E & L); assert (n = N.of_nat (length l)) as -> by lia; exact L | intro L; eexists; split; [|exact L]; lia].
Qed.
Lemma enc_riv_len n : enc (riv_lenr n) (rivine_length n).
Proof. apply enc_of_w. intro b. symmetry. apply riv_length_iff. Qed.
Lemma enc_riv_list {A} (f : A -> res bytes) (P : A -> field) l : (forall a, enc (f a) (P a)) -> enc (riv_list f l) (listed Rivine P l).
Proof. intro I. apply enc_cons; [apply enc_riv_len | apply enc_one, enc_each; exact I]. Qed.

(** ** Amounts *)
Lemma le_dec_snoc a x : le_dec (a ++ [x]) = le_dec a + 256 ^ lenN a * x.
Proof.
  unfold lenN. induction a as [|y a IH]; cbn [app le_dec length]; [rewrite N.pow_0_r; lia|].
  rewrite IH, Nat2N.inj_succ, N.pow_succ_r by lia. generalize (256 ^ N.of_nat (length a)). intro q. lia.
Qed.
Lemma big_iff n b : big n b <-> b = min_be n.
Proof.
  unfold big. split.
  - intros (W & D & Z). assert (L : length b = length (min_be n)).
    { assert (L := min_be_minimal n b W D). destruct b as [|x b]; [cbn [length] in *; lia|].
      destruct (Nat.eq_dec (length (min_be n)) (length (x :: b))) as [E|E]; [symmetry; exact E|]. exfalso.
      assert (B : n < 256 ^ N.of_nat (length b)).
      { rewrite min_be_length in *. assert (K := nbytes_bound n). eapply N.lt_le_trans; [exact K|]. apply N.pow_le_mono_r; [lia|]. cbn [length] in *. lia. }
      unfold be_dec in D. cbn [rev] in D. rewrite le_dec_snoc in D. assert (x <> 0) by (intros ->; apply (Z b); reflexivity).
      assert (256 ^ N.of_nat (length b) <= n); [|lia]. rewrite <- D. unfold lenN. rewrite rev_length.
      generalize dependent (256 ^ N.of_nat (length b)). intros q Bq. nia. }
    assert (W' : wf_bytes (min_be n)) by apply be_wf.
    assert (E : rev b = rev (min_be n)).
    { rewrite <- (le_le_dec (Forall_rev W)), <- (le_le_dec (Forall_rev W')).
      fold (be_dec b) (be_dec (min_be n)). rewrite min_be_dec, D, !rev_length, L. reflexivity. }
    rewrite <- (rev_involutive b), E. apply rev_involutive.
  - intros ->. split; [apply be_wf|]. split; [apply min_be_dec|]. intros r E.
    assert (Wr : wf_bytes r) by (assert (W' : wf_bytes (min_be n)) by apply be_wf; rewrite E in W'; inversion W'; assumption).
    assert (D : be_dec r = n).
    { rewrite <- (min_be_dec n), E. unfold be_dec. cbn [rev]. rewrite le_dec_snoc. lia. }
    assert (L := min_be_minimal n r Wr D). rewrite E in L. cbn [length] in L. lia.
Qed.
Lemma enc_big n : enc (Ok (min_be n)) (big n).
Proof. intro b. rewrite big_iff. apply enc_exactly. Qed.
Lemma enc_amt_sia n : enc (amt_sia n) (amount Sia n).
Proof. apply enc_sia_slice, enc_big. Qed.
Lemma enc_amt_riv n : enc (amt_riv n) (amount Rivine n).
Proof. apply enc_riv_slice, enc_big. Qed.

(** ** Keys, addresses, conditions, fulfilments *)
Lemma enc_pk_sia p : enc (pk_sia p) (key Sia p).
Proof. apply enc_cons; [|apply enc_one, enc_sia_slice, enc_exactly]. destruct p as [[|] h]; apply enc_exactly. Qed.
Lemma enc_pk_riv p : enc (pk_riv p) (key Rivine p).
Proof. apply enc_cons; [|apply enc_one, enc_exactly]. destruct p as [[|] h]; apply enc_riv_int. Qed.
Lemma enc_uh_sia u : enc (uh_sia u) (address u).
Proof. apply enc_cons; [apply enc_sia_byte | apply enc_one, enc_exactly]. Qed.
Lemma enc_uh_riv u : enc (uh_riv u) (address u).
Proof. apply enc_cons; [apply enc_riv_int | apply enc_one, enc_exactly]. Qed.
Lemma enc_cond_sia_data k : enc (cond_sia_data k) (fields (terms Sia k)).
Proof.
  induction k as [|u|s r h l|l k IH|us n]; cbn [cond_sia_data terms].
  - apply enc_nil.
  - apply enc_one, enc_uh_sia.
  - apply enc_cons; [apply enc_uh_sia|]. apply enc_cons; [apply enc_uh_sia|]. apply enc_cons; [|apply enc_one, enc_sia_int].
    destruct h as [h|]; cbn [secret_bd]; [apply enc_exactly | apply enc_sia_slice, enc_exactly].
  - apply enc_cons; [apply enc_sia_int|]. apply enc_cons; [|exact IH]. apply enc_byte; destruct k; reflexivity.
  - apply enc_cons; [apply enc_sia_int | apply enc_one, enc_sia_list, enc_uh_sia].
Qed.
Lemma enc_cond_riv_data k : enc (cond_riv_data k) (fields (terms Rivine k)).
Proof.
  induction k as [|u|s r h l|l k IH|us n]; cbn [cond_riv_data terms].
  - apply enc_nil.
  - apply enc_one, enc_uh_riv.
  - apply enc_cons; [apply enc_uh_riv|]. apply enc_cons; [apply enc_uh_riv|]. apply enc_cons; [|apply enc_one, enc_riv_int].
    destruct h as [h|]; cbn [secret_bd]; [apply enc_exactly | apply enc_riv_slice, enc_exactly].
  - apply enc_cons; [apply enc_riv_int|]. apply enc_cons; [|exact IH]. destruct k; apply enc_riv_int.
  - apply enc_cons; [apply enc_riv_int | apply enc_one, enc_riv_list, enc_uh_riv].
Qed.
Lemma enc_cond_sia k : enc (cond_sia k) (condition Sia k).
Proof. apply enc_cons; [apply enc_byte; destruct k; reflexivity|]. apply enc_one, enc_sized_sia, enc_cond_sia_data. Qed.
Lemma enc_cond_riv k : enc (cond_riv k) (condition Rivine k).
Proof. apply enc_cons; [destruct k; apply enc_riv_int|]. apply enc_one, enc_sized_riv, enc_cond_riv_data. Qed.
Lemma rapp_assoc_enc a b c F : enc ((a +++ b) +++ c) F -> enc (a +++ b +++ c) F.
Proof.
  intros E x. rewrite <- (E x). unfold rapp, bind. destruct a as [u|]; [|tauto]. destruct b as [v|]; [|tauto]. destruct c as [w|]; [|tauto].
  rewrite app_assoc. tauto.
Qed.
Lemma enc_pair_sia p : enc (pair_sia p) (signed_by Sia p).
Proof. apply enc_cons; [apply enc_pk_sia | apply enc_one, enc_sia_slice, enc_exactly]. Qed.
Lemma enc_pair_riv p : enc (pair_riv p) (signed_by Rivine p).
Proof. apply enc_cons; [apply enc_pk_riv | apply enc_one, enc_riv_slice, enc_exactly]. Qed.
Lemma enc_ff_sia f : enc (ff_sia f) (fulfilment Sia f).
Proof.
  unfold ff_sia. destruct f as [p s|p s h|ps]; cbn [ff_type ff_sia_data fulfilment]; (apply enc_cons; [apply enc_byte; reflexivity|]); apply enc_one, enc_sized_sia.
  - apply (enc_pair_sia (p, odef s)).
  - apply rapp_assoc_enc. apply enc_cons; [apply (enc_pair_sia (p, odef s)) | apply enc_one, enc_exactly].
  - apply enc_sia_list, enc_pair_sia.
Qed.
Lemma enc_ff_riv f : enc (ff_riv f) (fulfilment Rivine f).
Proof.
  unfold ff_riv. destruct f as [p s|p s h|ps]; cbn [ff_type ff_riv_data fulfilment]; (apply enc_cons; [apply enc_riv_int|]); apply enc_one, enc_sized_riv.
  - apply (enc_pair_riv (p, odef s)).
  - apply rapp_assoc_enc. apply enc_cons; [apply (enc_pair_riv (p, odef s)) | apply enc_one, enc_exactly].
  - apply enc_riv_list, enc_pair_riv.
Qed.
Lemma enc_in_sia i : enc (in_sia i) (taken Sia i).
Proof. apply enc_cons; [apply enc_exactly | apply enc_one, enc_ff_sia]. Qed.
Lemma enc_in_riv i : enc (in_riv i) (taken Rivine i).
Proof. apply enc_cons; [apply enc_exactly | apply enc_one, enc_ff_riv]. Qed.
Lemma enc_out_sia o : enc (out_sia o) (given Sia o).
Proof. apply enc_cons; [apply enc_amt_sia | apply enc_one, enc_cond_sia]. Qed.
Lemma enc_out_riv o : enc (out_riv o) (given Rivine o).
Proof. apply enc_cons; [apply enc_amt_riv | apply enc_one, enc_cond_riv]. Qed.
Lemma each_map {A B} (P : B -> field) (f : A -> B) l : each P (map f l) = each (fun a => P (f a)) l.
Proof. unfold each. rewrite map_map. reflexivity. Qed.
Lemma enc_ids_sia l : enc (ids_sia l) (parents Sia l).
Proof.
  unfold ids_sia, parents. eapply enc_eqv; [apply (enc_sia_list arr exactly), enc_exactly|]. intro b. unfold listed. rewrite each_map. unfold lenN. rewrite map_length. reflexivity.
Qed.
Lemma enc_ids_riv l : enc (ids_riv l) (parents Rivine l).
Proof.
  unfold ids_riv, parents. apply enc_cons; [apply enc_riv_int|]. apply enc_one. rewrite <- each_map. apply enc_each, enc_exactly.
Qed.
Lemma enc_xs_sia xs : enc (xs_sia xs) (each (object Sia) xs).
Proof. apply enc_each. intros [z|p|b|b]; cbn [x_sia object]; [apply enc_sia_int | apply enc_pk_sia | apply enc_exactly | apply enc_exactly]. Qed.
Lemma enc_xs_riv xs : enc (xs_riv xs) (each (object Rivine) xs).
Proof. apply enc_each. intros [z|p|b|b]; cbn [x_riv object]; [apply enc_riv_int | apply enc_pk_riv | apply enc_exactly | apply enc_exactly]. Qed.
Lemma enc_refund o : enc (refund_riv o) (change o).
Proof. destruct o as [o|]; [|apply enc_riv_int]. apply enc_cons; [apply enc_riv_int | apply enc_one, enc_out_riv]. Qed.
Lemma enc_maybe o : enc (maybe_out_riv o) (fields (change_after_flag o)).
Proof. destruct o as [o|]; [apply enc_one, enc_out_riv | apply enc_nil]. Qed.
Lemma enc_bsig s : enc (bsig_riv s) (own_signature s).
Proof. destruct s as [[[|] b]|]; cbn [bsig_riv own_signature]; [apply enc_exactly | apply enc_riv_slice, enc_exactly | apply enc_exactly]. Qed.
Lemma enc_na a : enc (na_riv a) (network_address a).
Proof.
  apply enc_cons; [|apply enc_one, enc_exactly]. rewrite N.shiftl_mul_pow2. change (2 ^ 2) with 4. rewrite (N.mul_comm 4). apply enc_riv_int.
Qed.
Lemma enc_bn s : enc (bn_riv s) (bot_name s).
Proof.
  apply enc_of_w. intro b. rewrite riv_slice_iff. unfold slice_form, array_form, items. unfold bot_name. rewrite fields_cons. setoid_rewrite fields_one. split.
  - intros (n & p & y & [= <-] & L & [(s' & [= <-] & T)|[E|(l & E & _)]] & ->); [eauto | discriminate | discriminate].
  - intros (x & y & L & T & ->). exists (lenN s), x, y. eauto 8.
Qed.
Lemma enc_pair_len a b : enc (pair_len a b) (two_counts a b).
Proof. unfold pair_len, two_counts. rewrite N.shiftl_mul_pow2. change (2 ^ 4) with 16. rewrite (N.mul_comm 16). apply enc_riv_int. Qed.
Lemma flags_sum m (a n r : bool) : (0 <= m <= 24)%Z ->
  Z.of_N (N.lor (N.lor (N.lor (Z.to_N m) (if a then 32 else 0)) (if n then 64 else 0)) (if r then 128 else 0)) =
  (m + (if a then 32 else 0) + (if n then 64 else 0) + (if r then 128 else 0))%Z.
Proof.
  intro M. assert (K : exists k, (k <= 24)%nat /\ m = Z.of_nat k) by (exists (Z.to_nat m); lia). destruct K as (k & K & ->).
  do 25 (destruct k as [|k]; [destruct a, n, r; reflexivity|]). lia.
Qed.
Lemma enc_maf m a n (o : option output) : enc (maf m a n (is_some o)) (flagged m a n o).
Proof.
  intro b. unfold maf, flagged. destruct ((0 <=? m) && (m <=? 24))%Z eqn:G; cbn [guard bind].
  - rewrite flags_sum by lia. replace (if is_some o then 128 else 0)%Z with (match o with Some _ => 128 | None => 0 end)%Z by (destruct o; reflexivity).
    split; [intro X; split; [lia | exact (proj1 (enc_riv_int 1 _ b) X)] | intros (_ & X); exact (proj2 (enc_riv_int 1 _ b) X)].
  - split; [discriminate|]. intros (M & _). lia.
Qed.
Lemma enc_changes {A} (f : A -> res bytes) (P : A -> field) add del : (forall a, enc (f a) (P a)) ->
  enc (if nonempty add || nonempty del then pair_len (length add) (length del) +++ (rconcat (map f add) +++ rconcat (map f del)) else nil_w) (fields (changes P add del)).
Proof.
  intro I. unfold changes. change (present add || present del) with (nonempty add || nonempty del). destruct (nonempty add || nonempty del); [|apply enc_nil].
  apply enc_cons; [apply enc_pair_len|]. apply enc_cons; [apply enc_each; exact I | apply enc_one, enc_each; exact I].
Qed.
Lemma enc_ins o : enc (ins_riv o) (match o with None => never | Some cin => listed Rivine (taken Rivine) cin end).
Proof. destruct o; [apply enc_riv_list, enc_in_riv | apply enc_never]. Qed.
