(** Proofs about the encoder models. *)
From Verif Require Import Base BaseFacts Encoders Spec_Encoders.
From Coq Require Import ZifyBool ZifyNat ZifyN.
Ltac Zify.zify_post_hook ::= Z.div_mod_to_equations.

Section PyvalInd.
  Variable P : pyval -> Prop.
  Hypothesis HNone : P VNone.
  Hypothesis HBool : forall b, P (VBool b).
  Hypothesis HInt : forall z, P (VInt z).
  Hypothesis HIntLike : forall z, P (VIntLike z).
  Hypothesis HStr : forall s, P (VStr s).
  Hypothesis HBytes : forall b, P (VBytes b).
  Hypothesis HList : forall l, Forall P l -> P (VList l).
  Hypothesis HObj : forall a b, P (VObj a b).
  Fixpoint pyval_ind' (v : pyval) : P v :=
    match v with
    | VNone => HNone | VBool b => HBool b | VInt z => HInt z | VIntLike z => HIntLike z
    | VStr s => HStr s | VBytes b => HBytes b
    | VList l => HList _ ((fix go l : Forall P l :=
                           match l with [] => Forall_nil P | x :: l => Forall_cons x (pyval_ind' x) (go l) end) l)
    | VObj a b => HObj a b
    end.
End PyvalInd.

Lemma wseq_ok a b w : wseq a b = (w, None) ->
  exists x y, a = (x, None) /\ b = (y, None) /\ w = x ++ y.
Proof.
  unfold wseq; destruct a as [x [e|]]; destruct b as [y f]; cbn; intros H; inversion H; subst.
  eauto 6.
Qed.

Lemma w_retype_ok e a w : w_retype e a = (w, None) -> a = (w, None).
Proof. unfold w_retype; destruct a as [x [[]|]]; cbn; congruence. Qed.

Lemma limit_of_pow w : limit_of w = (Z.of_N (256 ^ N.of_nat w) - 1)%Z.
Proof.
  unfold limit_of. rewrite N2Z.inj_pow, nat_N_Z. change (Z.of_N 256) with (2 ^ 8)%Z.
  rewrite <- Z.pow_mul_r by lia. reflexivity.
Qed.

Lemma int_le_spec w z :
  int_le w (limit_of w) z =
    if ((0 <=? z) && (z <? Z.of_N (256 ^ N.of_nat w)))%Z then wok (le w (Z.to_N z)) else wraise IntegerOutOfRange.
Proof.
  unfold int_le. rewrite limit_of_pow.
  generalize (256 ^ N.of_nat w); intros M.
  destruct (Z.ltb_spec z 0), (Z.leb_spec 0 z); try lia; cbn [andb]; [reflexivity|].
  destruct (Z.ltb_spec (Z.of_N M - 1) z), (Z.ltb_spec z (Z.of_N M)); try lia; reflexivity.
Qed.

Lemma int_le_ok w z b :
  int_le w (limit_of w) z = (b, None) -> (0 <= z)%Z /\ Z.to_N z < 256 ^ N.of_nat w /\ b = le w (Z.to_N z).
Proof.
  rewrite int_le_spec. generalize (256 ^ N.of_nat w); intros M.
  destruct ((0 <=? z) && (z <? Z.of_N M))%Z eqn:E; unfold wok, wraise; intros H; inversion H.
  split; [lia|]. split; [lia | reflexivity].
Qed.

Lemma int_le_in w z : (0 <= z)%Z -> Z.to_N z < 256 ^ N.of_nat w ->
  int_le w (limit_of w) z = wok (le w (Z.to_N z)).
Proof.
  rewrite int_le_spec. generalize (256 ^ N.of_nat w); intros M H1 H2.
  replace ((0 <=? z) && (z <? Z.of_N M))%Z with true by lia. reflexivity.
Qed.

Lemma take_app n a r : length a = n -> take n (a ++ r) = Some (a, r).
Proof.
  intros H. unfold take. rewrite app_length.
  replace (n <=? length a + length r)%nat with true by lia.
  rewrite firstn_app_exact, skipn_app_exact by auto. reflexivity.
Qed.

Lemma sia_read_int_le v r : v < 256 ^ 8 -> sia_read_int (le 8 v ++ r) = Some (v, r).
Proof.
  intros H. unfold sia_read_int. rewrite take_app by apply le_length.
  rewrite le_dec_le by exact H. reflexivity.
Qed.

Lemma sia_read_int_add z b r :
  sia_add_int (VInt z) = (b, None) -> sia_read_int (b ++ r) = Some (Z.to_N z, r) /\ (0 <= z)%Z.
Proof.
  cbn. intros H. apply int_le_ok in H as (H0 & H1 & ->). split; [|exact H0].
  apply sia_read_int_le; exact H1.
Qed.

(** ** rivine length prefix *)
Lemma lor_low k n c : c < 2 ^ k -> N.lor c (N.shiftl n k) = c + n * 2 ^ k.
Proof.
  intros H. rewrite N.shiftl_mul_pow2. symmetry.
  rewrite <- N.lxor_lor, N.add_nocarry_lxor; try reflexivity.
  all: apply N.bits_inj; intros i; rewrite N.land_spec, N.bits_0.
  all: destruct (N.lt_ge_cases i k) as [Hi|Hi].
  all: try (rewrite N.mul_pow2_bits_low by exact Hi; apply andb_false_r).
  all: replace (N.testbit c i) with false; [reflexivity|].
  all: symmetry; destruct (N.eq_dec c 0) as [->|Hc]; [apply N.bits_0|].
  all: apply N.bits_above_log2; apply N.lt_le_trans with k; [|exact Hi].
  all: apply N.log2_lt_pow2; [lia | exact H].
Qed.

(** The prefix written for a length, in closed form. *)
Definition prefix_of (n : N) : bytes :=
  if n <? 2 ^ 7 then le 1 (2 * n)
  else if n <? 2 ^ 14 then le 2 (1 + 4 * n)
  else if n <? 2 ^ 21 then le 3 (3 + 8 * n)
  else le 4 (7 + 8 * n).

Lemma riv_len_spec n :
  riv_len n = if n <? 2 ^ 29 then wok (prefix_of n) else wraise SliceLengthOutOfRange.
Proof.
  unfold riv_len, prefix_of. cbn [riv_add_intw].
  rewrite !lor_low by reflexivity. rewrite N.shiftl_mul_pow2.
  change (2 ^ 7) with 128. change (2 ^ 14) with 16384. change (2 ^ 21) with 2097152.
  change (2 ^ 29) with 536870912. change (2 ^ 1) with 2. change (2 ^ 2) with 4. change (2 ^ 3) with 8.
  destruct (N.ltb_spec n 128).
  { replace (n <? 536870912) with true by lia. rewrite int_le_in.
    - f_equal. f_equal. lia.
    - lia.
    - change (256 ^ N.of_nat 1) with 256. lia. }
  destruct (N.ltb_spec n 16384).
  { replace (n <? 536870912) with true by lia. rewrite int_le_in.
    - f_equal. f_equal. lia.
    - lia.
    - change (256 ^ N.of_nat 2) with 65536. lia. }
  destruct (N.ltb_spec n 2097152).
  { replace (n <? 536870912) with true by lia. rewrite int_le_in.
    - f_equal. f_equal. lia.
    - lia.
    - change (256 ^ N.of_nat 3) with 16777216. lia. }
  destruct (N.ltb_spec n 536870912); [|reflexivity].
  rewrite int_le_in.
  - f_equal. f_equal. lia.
  - lia.
  - change (256 ^ N.of_nat 4) with 4294967296. lia.
Qed.

Lemma riv_len_ok n b : riv_len n = (b, None) -> n < 2 ^ 29 /\ b = prefix_of n.
Proof.
  rewrite riv_len_spec. destruct (N.ltb_spec n (2 ^ 29)); unfold wok, wraise; intros E; inversion E; auto.
Qed.

Lemma le_S w v : le (S w) v = (v mod 256) :: le w (v / 256).
Proof. reflexivity. Qed.

Lemma riv_read_prefix n r : n < 2 ^ 29 -> riv_read_len (prefix_of n ++ r) = Some (n, r).
Proof.
  intros Hn. change (2 ^ 29) with 536870912 in Hn. unfold prefix_of.
  change (2 ^ 7) with 128. change (2 ^ 14) with 16384. change (2 ^ 21) with 2097152.
  assert (Hd : forall w v, v < 256 ^ N.of_nat (S w) ->
     riv_read_len (le (S w) v ++ r) =
       if v mod 2 =? 0 then match take 1 (le (S w) v ++ r) with Some (x, r) => Some (le_dec x / 2, r) | None => None end
       else if v mod 4 =? 1 then match take 2 (le (S w) v ++ r) with Some (x, r) => Some (le_dec x / 4, r) | None => None end
       else if v mod 8 =? 3 then match take 3 (le (S w) v ++ r) with Some (x, r) => Some (le_dec x / 8, r) | None => None end
       else match take 4 (le (S w) v ++ r) with Some (x, r) => Some (le_dec x / 8, r) | None => None end).
  { intros w v _. rewrite le_S. cbn [app riv_read_len].
    replace ((v mod 256) mod 2) with (v mod 2) by lia.
    replace ((v mod 256) mod 4) with (v mod 4) by lia.
    replace ((v mod 256) mod 8) with (v mod 8) by lia. reflexivity. }
  destruct (N.ltb_spec n 128).
  { rewrite Hd by (change (256 ^ N.of_nat 1) with 256; lia).
    replace (2 * n mod 2 =? 0) with true by lia.
    rewrite take_app by apply le_length. rewrite le_dec_le by (change (256 ^ N.of_nat 1) with 256; lia).
    f_equal. f_equal. lia. }
  destruct (N.ltb_spec n 16384).
  { rewrite Hd by (change (256 ^ N.of_nat 2) with 65536; lia).
    replace ((1 + 4 * n) mod 2 =? 0) with false by lia.
    replace ((1 + 4 * n) mod 4 =? 1) with true by lia.
    rewrite take_app by apply le_length. rewrite le_dec_le by (change (256 ^ N.of_nat 2) with 65536; lia).
    f_equal. f_equal. lia. }
  destruct (N.ltb_spec n 2097152).
  { rewrite Hd by (change (256 ^ N.of_nat 3) with 16777216; lia).
    replace ((3 + 8 * n) mod 2 =? 0) with false by lia.
    replace ((3 + 8 * n) mod 4 =? 1) with false by lia.
    replace ((3 + 8 * n) mod 8 =? 3) with true by lia.
    rewrite take_app by apply le_length. rewrite le_dec_le by (change (256 ^ N.of_nat 3) with 16777216; lia).
    f_equal. f_equal. lia. }
  rewrite Hd by (change (256 ^ N.of_nat 4) with 4294967296; lia).
  replace ((7 + 8 * n) mod 2 =? 0) with false by lia.
  replace ((7 + 8 * n) mod 4 =? 1) with false by lia.
  replace ((7 + 8 * n) mod 8 =? 3) with false by lia.
  rewrite take_app by apply le_length. rewrite le_dec_le by (change (256 ^ N.of_nat 4) with 4294967296; lia).
  f_equal. f_equal. lia.
Qed.

(** ** round trips *)
Section RoundTrip.
  Variable add : pyval -> W.
  Variable add_len : N -> W.
  Variable read_len : bytes -> option (N * bytes).
  Fixpoint add_elems (l : list pyval) : W :=
    match l with [] => wok [] | x :: l => wseq (add x) (add_elems l) end.
  Hypothesis add_bool : forall b, add (VBool b) = wok [if b then 1 else 0].
  Hypothesis add_int : forall z, add (VInt z) = int_le 8 (limit_of 8) z.
  Hypothesis add_bytes : forall b w, add (VBytes b) = (w, None) ->
    exists p, add_len (lenN b) = (p, None) /\ w = p ++ b.
  Hypothesis add_list : forall l w, add (VList l) = (w, None) ->
    exists p q, add_len (lenN l) = (p, None) /\ add_elems l = (q, None) /\ w = p ++ q.
  Hypothesis len_rt : forall n p r, add_len n = (p, None) -> read_len (p ++ r) = Some (n, r).

  Lemma add_read v : forall s w r, has_shape v s -> add v = (w, None) ->
    read read_len s (w ++ r) = Some (v, r).
  Proof.
    induction v as [|b|z|z|t|b|l IH|a b] using pyval_ind'; intros s w r Hs Hw;
      destruct s; cbn in Hs; try contradiction.
    - rewrite add_bool in Hw. unfold wok in Hw. inversion Hw; subst. destruct b; reflexivity.
    - rewrite add_int in Hw. apply int_le_ok in Hw as (H0 & H1 & ->). cbn [read].
      rewrite sia_read_int_le by exact H1. rewrite Z2N.id by exact H0. reflexivity.
    - apply add_bytes in Hw as (p & Hp & ->). cbn [read]. rewrite <- app_assoc.
      rewrite (len_rt _ _ _ Hp). rewrite take_app by (unfold lenN; lia). reflexivity.
    - apply add_list in Hw as (p & q & Hp & Hq & ->). cbn [read]. rewrite <- app_assoc.
      rewrite (len_rt _ _ _ Hp). unfold lenN; rewrite Nat2N.id.
      assert (G : read_n (read read_len s) (length l) (q ++ r) = Some (l, r)).
      { clear Hp p. revert q Hq Hs. induction IH as [|x l Hx Hl IHl]; intros q Hq Hs.
        - cbn in *. unfold wok in Hq; inversion Hq; subst. reflexivity.
        - cbn [add_elems] in Hq. apply wseq_ok in Hq as (q1 & q2 & H1 & H2 & ->).
          destruct Hs as [Hs1 Hs2]. cbn [length read_n]. rewrite <- app_assoc.
          rewrite (Hx s q1 (q2 ++ r) Hs1 H1). rewrite (IHl q2 H2 Hs2). reflexivity. }
      rewrite G. reflexivity.
  Qed.

  Lemma add_read_all vs : forall ss w r, Forall2 has_shape vs ss -> add_elems vs = (w, None) ->
    read_all read_len ss (w ++ r) = Some (vs, r).
  Proof.
    induction vs as [|v vs IH]; intros ss w r HF Hw; inversion HF as [|? s ? ss' Hs HF']; subst.
    - cbn in *. unfold wok in Hw; inversion Hw; subst; reflexivity.
    - cbn [add_elems] in Hw. apply wseq_ok in Hw as (w1 & w2 & H1 & H2 & ->). rewrite <- app_assoc.
      cbn [read_all]. rewrite (add_read v s w1 (w2 ++ r) Hs H1). rewrite (IH _ _ r HF' H2). reflexivity.
  Qed.
End RoundTrip.

Lemma sia_elems l : add_elems sia_add l = sia_add_all l.
Proof. induction l as [|x l IH]; cbn; [|rewrite IH]; reflexivity. Qed.
Lemma riv_elems l : add_elems riv_add l = riv_add_all l.
Proof. induction l as [|x l IH]; cbn; [|rewrite IH]; reflexivity. Qed.
Lemma sia_add_list l : sia_add (VList l) =
  w_retype ValueError (wseq (sia_add_int (VInt (Z.of_nat (length l)))) (sia_add_all l)).
Proof. rewrite <- sia_elems. reflexivity. Qed.
Lemma riv_add_list l : riv_add (VList l) =
  w_retype ValueError (wseq (riv_len (lenN l)) (riv_add_all l)).
Proof. rewrite <- riv_elems. reflexivity. Qed.

Definition sia_add_len (n : N) : W := sia_add_int (VInt (Z.of_N n)).

Lemma sia_hyps :
  (forall b w, sia_add (VBytes b) = (w, None) ->
     exists p, sia_add_len (lenN b) = (p, None) /\ w = p ++ b) /\
  (forall l w, sia_add (VList l) = (w, None) ->
     exists p q, sia_add_len (lenN l) = (p, None) /\ add_elems sia_add l = (q, None) /\ w = p ++ q) /\
  (forall n p r, sia_add_len n = (p, None) -> sia_read_int (p ++ r) = Some (n, r)).
Proof.
  unfold sia_add_len, lenN. repeat split.
  - intros b w H. cbn [sia_add] in H. apply w_retype_ok in H. apply wseq_ok in H as (x & y & H1 & H2 & ->).
    unfold wok in H2; inversion H2; subst. exists x. rewrite nat_N_Z. auto.
  - intros l w H. rewrite sia_add_list in H. apply w_retype_ok in H.
    apply wseq_ok in H as (x & y & H1 & H2 & ->). exists x, y. rewrite nat_N_Z, sia_elems. auto.
  - intros n p r H. apply (fun H => sia_read_int_add _ _ r H) in H as [H _]. rewrite N2Z.id in H. exact H.
Qed.

Lemma riv_hyps :
  (forall b w, riv_add (VBytes b) = (w, None) ->
     exists p, riv_len (lenN b) = (p, None) /\ w = p ++ b) /\
  (forall l w, riv_add (VList l) = (w, None) ->
     exists p q, riv_len (lenN l) = (p, None) /\ add_elems riv_add l = (q, None) /\ w = p ++ q) /\
  (forall n p r, riv_len n = (p, None) -> riv_read_len (p ++ r) = Some (n, r)).
Proof.
  repeat split.
  - intros b w H. cbn [riv_add] in H. apply w_retype_ok in H. apply wseq_ok in H as (x & y & H1 & H2 & ->).
    unfold wok in H2; inversion H2; subst. exists x. auto.
  - intros l w H. rewrite riv_add_list in H. apply w_retype_ok in H.
    apply wseq_ok in H as (x & y & H1 & H2 & ->). exists x, y. rewrite riv_elems. auto.
  - intros n p r H. apply riv_len_ok in H as [Hn ->]. apply riv_read_prefix; exact Hn.
Qed.

Lemma sia_round_trip vs ss w r : Forall2 has_shape vs ss -> sia_add_all vs = (w, None) ->
  sia_read_all ss (w ++ r) = Some (vs, r).
Proof.
  intros HF Hw. rewrite <- sia_elems in Hw. destruct sia_hyps as (H1 & H2 & H3).
  exact (@add_read_all sia_add sia_add_len sia_read_int (fun b => eq_refl) (fun z => eq_refl) H1 H2 H3 vs ss w r HF Hw).
Qed.

Lemma riv_round_trip vs ss w r : Forall2 has_shape vs ss -> riv_add_all vs = (w, None) ->
  riv_read_all ss (w ++ r) = Some (vs, r).
Proof.
  intros HF Hw. rewrite <- riv_elems in Hw. destruct riv_hyps as (H1 & H2 & H3).
  exact (@add_read_all riv_add riv_len riv_read_len (fun b => eq_refl) (fun z => eq_refl) H1 H2 H3 vs ss w r HF Hw).
Qed.

(** ** characterisation of the [res] primitives used by the type models *)
Lemma sia_int_spec z : sia_int z =
  if ((0 <=? z) && (z <? 2 ^ 64))%Z then Ok (le 8 (Z.to_N z)) else Err IntegerOutOfRange.
Proof.
  unfold sia_int, r_of_w, sia_add_int. rewrite int_le_spec.
  change (Z.of_N (256 ^ N.of_nat 8)) with (2 ^ 64)%Z.
  destruct ((0 <=? z) && (z <? 2 ^ 64))%Z; reflexivity.
Qed.

Lemma sia_int_ok z b : sia_int z = Ok b -> (0 <= z < 2 ^ 64)%Z /\ b = le 8 (Z.to_N z).
Proof.
  rewrite sia_int_spec. destruct ((0 <=? z) && (z <? 2 ^ 64))%Z eqn:E; [|discriminate].
  intros H; injection H as <-. split; [lia | reflexivity].
Qed.

Lemma riv_int_spec w z : riv_int w z =
  if ((0 <=? z) && (z <? Z.of_N (256 ^ N.of_nat w)))%Z then Ok (le w (Z.to_N z)) else Err IntegerOutOfRange.
Proof.
  unfold riv_int, r_of_w, riv_add_intw. rewrite int_le_spec.
  destruct ((0 <=? z) && (z <? Z.of_N (256 ^ N.of_nat w)))%Z; reflexivity.
Qed.
Lemma riv_int_ok w z b : riv_int w z = Ok b ->
  (0 <= z)%Z /\ Z.to_N z < 256 ^ N.of_nat w /\ b = le w (Z.to_N z).
Proof.
  unfold riv_int, r_of_w. destruct (riv_add_intw w (VInt z)) as [x [e|]] eqn:E; cbn; [discriminate|].
  intros H; injection H as <-. apply int_le_ok in E. exact E.
Qed.

Lemma sia_slice_spec b : sia_slice b = sia_int (Z.of_nat (length b)) +++ Ok b.
Proof.
  unfold sia_slice, r_of_w, sia_add_slice, sia_int, r_of_w, wseq, rapp.
  destruct (sia_add_int (VInt (Z.of_nat (length b)))) as [x [e|]]; reflexivity.
Qed.
Lemma sia_byte_spec z : sia_byte z =
  if ((0 <=? z) && (z <=? 255))%Z then Ok [Z.to_N z] else Err ValueError.
Proof.
  unfold sia_byte, r_of_w. cbn [sia_add_byte].
  destruct (Z.ltb_spec z 0), (Z.leb_spec 0 z); try lia; [reflexivity|].
  destruct (Z.ltb_spec 255 z), (Z.leb_spec z 255); try lia; [reflexivity|].
  cbn. rewrite N.mod_small by lia. reflexivity.
Qed.
Lemma riv_lenr_spec n : riv_lenr n = if n <? 2 ^ 29 then Ok (prefix_of n) else Err SliceLengthOutOfRange.
Proof. unfold riv_lenr, r_of_w. rewrite riv_len_spec. destruct (n <? 2 ^ 29); reflexivity. Qed.
Lemma riv_slice_spec b : riv_slice b = riv_lenr (lenN b) +++ Ok b.
Proof.
  unfold riv_slice, r_of_w, riv_add_slice, riv_lenr, r_of_w, wseq, rapp.
  destruct (riv_len (lenN b)) as [x [e|]]; reflexivity.
Qed.
Lemma riv_byte_spec z : riv_byte z = riv_int 1 z.
Proof. reflexivity. Qed.

(** ** the primitives are prefix codes *)
Lemma sia_int_uniq : uniq (fun _ : Z => True) sia_int.
Proof.
  apply uniq_fixed with (n := 8%nat).
  - intros a x _ H. apply sia_int_ok in H as [_ ->]. apply le_length.
  - intros a b x _ _ Ha Hb. apply sia_int_ok in Ha as [Ha ->]. apply sia_int_ok in Hb as [Hb E].
    apply le_inj in E; change (256 ^ N.of_nat 8) with (2 ^ 64); lia.
Qed.

Lemma sia_slice_uniq : uniq (fun _ : bytes => True) sia_slice.
Proof.
  intros a b x y r s _ _ Ha Hb H. rewrite sia_slice_spec in Ha, Hb.
  apply rapp_ok in Ha as (x1 & x2 & Ha & E & ->). injection E as <-.
  apply rapp_ok in Hb as (y1 & y2 & Hb & E & ->). injection E as <-.
  rewrite <- !app_assoc in H. destruct (sia_int_uniq _ _ _ _ _ _ I I Ha Hb H) as [E H'].
  apply app_inj_len in H'; [exact H' | lia].
Qed.

Lemma sia_byte_uniq : uniq (fun _ : Z => True) sia_byte.
Proof.
  apply uniq_fixed with (n := 1%nat).
  - intros a x _ H. rewrite sia_byte_spec in H. destruct ((0 <=? a) && (a <=? 255))%Z; [|discriminate].
    injection H as <-; reflexivity.
  - intros a b x _ _ Ha Hb. rewrite sia_byte_spec in Ha, Hb.
    destruct ((0 <=? a) && (a <=? 255))%Z eqn:Ea; [|discriminate].
    destruct ((0 <=? b) && (b <=? 255))%Z eqn:Eb; [|discriminate].
    injection Ha as <-. injection Hb as Hb. lia.
Qed.

Lemma sia_list_uniq {A} (P : A -> Prop) enc : uniq P enc -> uniq (Forall P) (sia_list enc).
Proof.
  intros HU a b x y r s Pa Pb Ha Hb H. unfold sia_list in *.
  apply rapp_ok in Ha as (x1 & x2 & Ha & Ea & ->). apply rapp_ok in Hb as (y1 & y2 & Hb & Eb & ->).
  rewrite <- !app_assoc in H. destruct (sia_int_uniq _ _ _ _ _ _ I I Ha Hb H) as [E H'].
  eapply (uniq_concat HU); eauto; lia.
Qed.

Lemma riv_int_uniq w : uniq (fun _ : Z => True) (riv_int w).
Proof.
  apply uniq_fixed with (n := w).
  - intros a x _ H. apply riv_int_ok in H as (_ & _ & ->). apply le_length.
  - intros a b x _ _ Ha Hb. apply riv_int_ok in Ha as (Ha0 & Ha & ->).
    apply riv_int_ok in Hb as (Hb0 & Hb & E). apply le_inj in E; [lia | exact Ha | exact Hb].
Qed.

Lemma riv_lenr_uniq : uniq (fun _ : N => True) riv_lenr.
Proof.
  intros a b x y r s _ _ Ha Hb H. rewrite riv_lenr_spec in Ha, Hb.
  destruct (N.ltb_spec a (2 ^ 29)) as [La|]; [|discriminate].
  destruct (N.ltb_spec b (2 ^ 29)) as [Lb|]; [|discriminate].
  injection Ha as <-. injection Hb as <-.
  pose proof (riv_read_prefix _ r La) as E. rewrite H, (riv_read_prefix _ s Lb) in E. inversion E; auto.
Qed.

Lemma riv_slice_uniq : uniq (fun _ : bytes => True) riv_slice.
Proof.
  intros a b x y r s _ _ Ha Hb H. rewrite riv_slice_spec in Ha, Hb.
  apply rapp_ok in Ha as (x1 & x2 & Ha & E & ->). injection E as <-.
  apply rapp_ok in Hb as (y1 & y2 & Hb & E & ->). injection E as <-.
  rewrite <- !app_assoc in H. destruct (riv_lenr_uniq _ _ _ _ _ _ I I Ha Hb H) as [E H'].
  apply app_inj_len in H'; [exact H' | unfold lenN in E; lia].
Qed.

Lemma riv_list_uniq {A} (P : A -> Prop) enc : uniq P enc -> uniq (Forall P) (riv_list enc).
Proof.
  intros HU a b x y r s Pa Pb Ha Hb H. unfold riv_list in *.
  apply rapp_ok in Ha as (x1 & x2 & Ha & Ea & ->). apply rapp_ok in Hb as (y1 & y2 & Hb & Eb & ->).
  rewrite <- !app_assoc in H. destruct (riv_lenr_uniq _ _ _ _ _ _ I I Ha Hb H) as [E H'].
  eapply (uniq_concat HU); eauto; unfold lenN in E; lia.
Qed.
