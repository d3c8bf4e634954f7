(** Facts about explicit calls of [add_slice], [add_array] and [add_byte] (C01-C03). *)
From Verif Require Import Base BaseFacts Encoders Spec_Encoders EncodersFacts EncodersFacts2.
From Coq Require Import ZifyBool ZifyNat ZifyN.
Ltac Zify.zify_post_hook ::= Z.div_mod_to_equations.

Lemma retype_ok e a w : w_retype e a = (w, None) -> a = (w, None).
Proof. unfold w_retype. destruct a as [x [y|]]; cbn; [|auto]. destruct y; intro E; inversion E. Qed.
Lemma wseq_nil a w : wseq a (wok []) = (w, None) -> a = (w, None).
Proof. unfold wseq. destruct a as [x [y|]]; cbn; [easy|]. rewrite app_nil_r. auto. Qed.
Lemma sia_go l : (fix go (l : list pyval) : W := match l with [] => wok [] | x :: l => wseq (sia_add x) (go l) end) l = sia_add_all l.
Proof. induction l as [|x l IH]; cbn; [reflexivity|]. now rewrite IH. Qed.
Lemma riv_go l : (fix go (l : list pyval) : W := match l with [] => wok [] | x :: l => wseq (riv_add x) (go l) end) l = riv_add_all l.
Proof. induction l as [|x l IH]; cbn; [reflexivity|]. now rewrite IH. Qed.

Lemma sia_slice_list (l : list pyval) (s : shape) d rest : has_shape (VList l) (ShList s) -> fits (2 ^ 64) (VList l) ->
  exists w, call d (sia_add_slice (VList l)) = (d ++ w, None) /\ sia_read (ShList s) (w ++ rest) = Some (VList l, rest).
Proof.
  intros S F. destruct (sia_decodable [VList l] [ShList s] d rest (Forall2_cons _ _ S (Forall2_nil _)) (Forall_cons _ F (Forall_nil _))) as (w & E & R).
  exists w. cbn [sia_add_all] in E. unfold call in *. 
  assert (Ew : wseq (sia_add (VList l)) (wok []) = (w, None)).
  { destruct (wseq (sia_add (VList l)) (wok [])) as [a b]. cbn [fst snd] in E. injection E as E1 ->. apply app_inv_head in E1. now subst a. }
  apply wseq_nil in Ew. cbn [sia_add] in Ew. apply retype_ok in Ew. rewrite sia_go in Ew.
  split.
  - cbn [sia_add_slice sia_add_array]. rewrite Ew. reflexivity.
  - unfold sia_read_all in R. cbn [read_all] in R. fold sia_read in R. destruct (sia_read (ShList s) (w ++ rest)) as [[v r]|]; [|easy].
    inversion R. subst. reflexivity.
Qed.
Lemma riv_slice_list (l : list pyval) (s : shape) d rest : has_shape (VList l) (ShList s) -> fits (2 ^ 29) (VList l) ->
  exists w, call d (riv_add_slice (VList l)) = (d ++ w, None) /\ riv_read (ShList s) (w ++ rest) = Some (VList l, rest).
Proof.
  intros S F. destruct (riv_decodable [VList l] [ShList s] d rest (Forall2_cons _ _ S (Forall2_nil _)) (Forall_cons _ F (Forall_nil _))) as (w & E & R).
  exists w. cbn [riv_add_all] in E. unfold call in *. 
  assert (Ew : wseq (riv_add (VList l)) (wok []) = (w, None)).
  { destruct (wseq (riv_add (VList l)) (wok [])) as [a b]. cbn [fst snd] in E. injection E as E1 ->. apply app_inv_head in E1. now subst a. }
  apply wseq_nil in Ew. cbn [riv_add] in Ew. apply retype_ok in Ew. rewrite riv_go in Ew.
  split.
  - cbn [riv_add_slice riv_add_array]. rewrite Ew. reflexivity.
  - unfold riv_read_all in R. cbn [read_all] in R. fold riv_read in R. destruct (riv_read (ShList s) (w ++ rest)) as [[v r]|]; [|easy].
    inversion R. subst. reflexivity.
Qed.

(** Arrays: the elements without a length. *)
Lemma sia_array_list (l : list pyval) (ss : list shape) d rest : Forall2 has_shape l ss -> Forall (fits (2 ^ 64)) l ->
  exists w, call d (sia_add_array (VList l)) = (d ++ w, None) /\ sia_read_all ss (w ++ rest) = Some (l, rest).
Proof. cbn [sia_add_array]. apply sia_decodable. Qed.
Lemma riv_array_list (l : list pyval) (ss : list shape) d rest : Forall2 has_shape l ss -> Forall (fits (2 ^ 29)) l ->
  exists w, call d (riv_add_array (VList l)) = (d ++ w, None) /\ riv_read_all ss (w ++ rest) = Some (l, rest).
Proof. cbn [riv_add_array]. apply riv_decodable. Qed.
Lemma array_bytes d b : call d (sia_add_array (VBytes b)) = (d ++ b, None) /\ call d (riv_add_array (VBytes b)) = (d ++ b, None).
Proof. split; reflexivity. Qed.
Lemma riv_slice_bytes d b : lenN b < 2 ^ 29 ->
  exists p, call d (riv_add_slice (VBytes b)) = (d ++ p ++ b, None) /\ forall rest, riv_read_len (p ++ rest) = Some (lenN b, rest).
Proof.
  intro L. destruct (riv_prefix_exact d (lenN b) L) as (p & E & _ & _ & R). exists p. split; [|exact R].
  unfold call in *. cbn [riv_add_slice]. injection E as E1 E2. apply app_inv_head in E1. subst p.
  unfold wseq. rewrite E2. cbn. rewrite !app_assoc. reflexivity.
Qed.
Lemma riv_slice_bytes_reject d b : 2 ^ 29 <= lenN b -> call d (riv_add_slice (VBytes b)) = (d, Some SliceLengthOutOfRange).
Proof.
  intro L. pose proof (riv_prefix_reject d (lenN b) L) as E. unfold call in *. cbn [riv_add_slice].
  injection E as E1 E2. unfold wseq. rewrite E2. now rewrite E1, E2.
Qed.

(** Single bytes. *)
Definition byte_int (v : pyval) : option Z :=
  match v with VInt z | VIntLike z => Some z | VBool b => Some (if b then 1 else 0)%Z | _ => None end.
Lemma add_byte_int d v z : byte_int v = Some z -> (0 <= z < 256)%Z ->
  call d (sia_add_byte v) = (d ++ [Z.to_N z], None) /\ call d (riv_add_byte v) = (d ++ [Z.to_N z], None).
Proof.
  intros B L. unfold call. destruct v; inversion B; subst; cbn [sia_add_byte riv_add_byte riv_add_intw]; unfold int_le, limit_of;
    change (2 ^ (8 * Z.of_nat 1) - 1)%Z with 255%Z.
  - destruct b; split; reflexivity.
  - assert ((z <? 0) || (255 <? z) = false)%Z as E by lia. rewrite E. apply orb_false_iff in E as [-> ->].
    cbn [le wok fst snd]. now rewrite N.mod_small by lia.
  - assert ((z <? 0) || (255 <? z) = false)%Z as E by lia. rewrite E. apply orb_false_iff in E as [-> ->].
    cbn [le wok fst snd]. now rewrite N.mod_small by lia.
Qed.
Lemma add_byte_int_reject d v z : byte_int v = Some z -> ~ (0 <= z < 256)%Z ->
  call d (sia_add_byte v) = (d, Some ValueError) /\ call d (riv_add_byte v) = (d, Some IntegerOutOfRange).
Proof.
  intros B L. unfold call. destruct v; inversion B; subst; cbn [sia_add_byte riv_add_byte riv_add_intw]; unfold int_le, limit_of;
    change (2 ^ (8 * Z.of_nat 1) - 1)%Z with 255%Z.
  - destruct b; elim L; lia.
  - assert ((z <? 0) || (255 <? z) = true)%Z as -> by lia.
    destruct (z <? 0)%Z eqn:E1; [|destruct (255 <? z)%Z eqn:E2; [|lia]]; cbn; now rewrite app_nil_r.
  - assert ((z <? 0) || (255 <? z) = true)%Z as -> by lia.
    destruct (z <? 0)%Z eqn:E1; [|destruct (255 <? z)%Z eqn:E2; [|lia]]; cbn; now rewrite app_nil_r.
Qed.
Lemma add_byte_text d b : (length b = 1%nat -> call d (sia_add_byte (VBytes b)) = (d ++ b, None) /\ call d (riv_add_byte (VBytes b)) = (d ++ b, None)) /\
  (length b <> 1%nat -> call d (sia_add_byte (VBytes b)) = (d, Some ValueError) /\ call d (riv_add_byte (VBytes b)) = (d, Some ValueError)).
Proof.
  cbn [sia_add_byte riv_add_byte byte_of_text]. unfold call. destruct (length b =? 1)%nat eqn:E; split; intro L; try lia; cbn; rewrite ?app_nil_r; auto.
Qed.
