(** Property C81: the encoders write the published form of every value, and refuse exactly the others. *)
From Verif Require Import Base BaseFacts Encoders EncodersFacts EncodersFacts2 Spec_Forms FormFacts.
From Coq Require Import ZifyBool ZifyNat ZifyN.

Lemma call_ok d w b : call d w = (d ++ b, None) <-> w = (b, None).
Proof. destruct w as [x e]. unfold call. cbn [fst snd]. split; intro E; [injection E as E ->; apply app_inv_head in E; subst; reflexivity|injection E as -> ->; reflexivity]. Qed.
(** Adding a value to an encoder which holds [d]. *)
Theorem C81_add : forall (d : encoder) v b,
  (call d (sia_add v) = (d ++ b, None) <-> sia_form v b) /\ (call d (riv_add v) = (d ++ b, None) <-> rivine_form v b).
Proof. intros d v b. rewrite !call_ok. split; [apply sia_iff|apply riv_iff]. Qed.
Print Assumptions C81_add.
Theorem C81_add_all : forall (d : encoder) l b,
  (call d (sia_add_all l) = (d ++ b, None) <-> exists bs, Forall2 sia_form l bs /\ b = concat bs) /\ (call d (riv_add_all l) = (d ++ b, None) <-> exists bs, Forall2 rivine_form l bs /\ b = concat bs).
Proof. intros d l b. rewrite !call_ok. split; [apply sia_all_iff|apply riv_all_iff]. Qed.
Print Assumptions C81_add_all.
Theorem C81_add_array : forall (d : encoder) v b,
  (call d (sia_add_array v) = (d ++ b, None) <-> array_form sia_length false (fun x _ => x) v b) /\
  (call d (riv_add_array v) = (d ++ b, None) <-> array_form rivine_length true (fun _ y => y) v b).
Proof. intros d v b. rewrite !call_ok. split; [apply sia_array_iff|apply riv_array_iff]. Qed.
Print Assumptions C81_add_array.
Theorem C81_add_slice : forall (d : encoder) v b,
  (call d (sia_add_slice v) = (d ++ b, None) <-> slice_form sia_length false (fun x _ => x) v b) /\
  (call d (riv_add_slice v) = (d ++ b, None) <-> slice_form rivine_length true (fun _ y => y) v b).
Proof. intros d v b. rewrite !call_ok. split; [apply sia_slice_iff|apply riv_slice_iff]. Qed.
Print Assumptions C81_add_slice.
(** [w]: 1, 2, 3, 4 or 8 bytes *)
Theorem C81_add_int : forall (d : encoder) w v b,
  (call d (sia_add_int v) = (d ++ b, None) <-> int_form false 8 v b) /\ (call d (riv_add_intw w v) = (d ++ b, None) <-> int_form true w v b).
Proof. intros d w v b. rewrite !call_ok. split; [apply sia_int_iff|apply riv_int_iff]. Qed.
Print Assumptions C81_add_int.
Theorem C81_add_byte : forall (d : encoder) v b,
  (call d (sia_add_byte v) = (d ++ b, None) <-> byte_form v b) /\ (call d (riv_add_byte v) = (d ++ b, None) <-> byte_form v b).
Proof. intros d v b. rewrite !call_ok. split; [apply sia_byte_iff|apply riv_byte_iff]. Qed.
Print Assumptions C81_add_byte.

(** *** Refusals *)
(** What is no number is a TypeError for the integer methods, and a number out of range an IntegerOutOfRange; both write nothing. *)
Theorem C81_int_refused : forall (d : encoder) w v,
  (no_number false v -> call d (sia_add_int v) = (d, Some TypeError)) /\ (no_number true v -> call d (riv_add_intw w v) = (d, Some TypeError)) /\
  (~ no_number false v -> (forall b, ~ int_form false 8 v b) -> call d (sia_add_int v) = (d, Some IntegerOutOfRange)) /\
  (~ no_number true v -> (forall b, ~ int_form true w v b) -> call d (riv_add_intw w v) = (d, Some IntegerOutOfRange)).
Proof.
  intros d w v.
  assert (I : forall w z, (forall b, ~ number_in w z b) -> call d (int_le w (limit_of w) z) = (d, Some IntegerOutOfRange)).
  { intros w' z N. pose proof (N (le w' (Z.to_N z))) as X. rewrite number_iff in X. rewrite int_le_spec in *. destruct ((0 <=? z) && (z <? Z.of_N (256 ^ N.of_nat w')))%Z; [elim X; reflexivity|]. unfold call, wraise. cbn [fst snd]. rewrite app_nil_r. reflexivity. }
  destruct v as [|x|z|z|s|c|l|x y]; cbn [no_number sia_add_int riv_add_intw int_form]; unfold call at 1 2, wraise; cbn [fst snd]; rewrite ?app_nil_r;
    (split; [easy|]); (split; [easy|]); (split; intros K N); try tauto; try (apply I; exact N); try (elim K; reflexivity).
  apply I. intros b B. apply (N b). auto.
Qed.
Print Assumptions C81_int_refused.
(** [add] of a value without objects fails with a ValueError or, for a number or a length which does not fit, the error which says so. *)
Fixpoint plain (v : pyval) : Prop := match v with VObj _ _ => False | VList l => (fix all (l : list pyval) : Prop := match l with [] => True | x :: l => plain x /\ all l end) l | _ => True end.
Lemma plain_all l : plain (VList l) <-> Forall plain l.
Proof. cbn [plain]. induction l as [|x l IH]; [split; [constructor|auto]|]. rewrite IH. split; [intros (A & B); now constructor|]. intro F. inversion F; auto. Qed.
Definition told (e : exn) : Prop := e = ValueError \/ e = IntegerOutOfRange \/ e = SliceLengthOutOfRange.
Lemma int_told w z x e : int_le w (limit_of w) z = (x, Some e) -> told e.
Proof. rewrite int_le_spec. unfold wok, wraise, told. destruct ((0 <=? z) && _)%Z; intro E; [discriminate|injection E as <- <-; auto]. Qed.
Lemma utf8_told s e : utf8 s = Err e -> told e.
Proof.
  unfold utf8, told. revert e. induction s as [|c s IH]; intro e; cbn [map rconcat]; [discriminate|]. intro E. destruct (utf8_char c) as [b|e'] eqn:C.
  - destruct (rconcat (map utf8_char s)) as [r|e''] eqn:R; [discriminate|]. cbn in E. injection E as <-. now apply IH.
  - cbn in E. injection E as <-. left. unfold utf8_char in C. repeat match type of C with context [if ?b then _ else _] => destruct b end; try discriminate; injection C as <-; reflexivity.
Qed.
Lemma retype_told a x e : w_retype ValueError a = (x, Some e) -> told e \/ exists y e', a = (y, Some e') /\ e' = e.
Proof. destruct a as [y [[]|]]; cbn; intro E; try discriminate; injection E as <- <-; unfold told; eauto. Qed.
Lemma wseq_told a b x e : (forall y e, a = (y, Some e) -> told e) -> (forall y e, b = (y, Some e) -> told e) -> wseq a b = (x, Some e) -> told e.
Proof. intros A B. destruct a as [y [e'|]], b as [z [e''|]]; cbn; intro E; try discriminate; injection E as <- <-; [eapply A; reflexivity|eapply A; reflexivity|eapply B; reflexivity]. Qed.
Lemma elems_told add l : Forall (fun v => plain v -> forall x e, add v = (x, Some e) -> told e) l -> Forall plain l -> forall x e, add_elems add l = (x, Some e) -> told e.
Proof.
  induction 1 as [|v l V F IH]; intros P x e; cbn [add_elems]; [discriminate|]. inversion P; subst. apply wseq_told; [apply V; assumption|apply IH; assumption].
Qed.
Lemma of_res_told s x e : w_of_res (utf8 s) = (x, Some e) -> told e.
Proof. destruct (utf8 s) as [b|e'] eqn:U; cbn; intro E; [discriminate|]. injection E as <- <-. eapply utf8_told. exact U. Qed.
Lemma len_told n x e : riv_len n = (x, Some e) -> told e.
Proof. rewrite riv_len_spec. unfold wok, wraise, told. destruct (n <? 2 ^ 29); intro E; [discriminate|injection E as <- <-; auto]. Qed.
Theorem C81_refused : forall v x e, plain v -> sia_add v = (x, Some e) \/ riv_add v = (x, Some e) -> e = ValueError \/ e = IntegerOutOfRange \/ e = SliceLengthOutOfRange.
Proof.
  intros v x e P. change (sia_add v = (x, Some e) \/ riv_add v = (x, Some e) -> told e).
  assert (OK : forall b y e, wok b = (y, Some e) -> told e) by (intros; discriminate).
  intros [E|E]; revert P x e E.
  - induction v as [|b|z|z|s|c|l IH|a b] using pyval_ind'; intros P x e E.
    + cbn in E. injection E as <- <-. unfold told. auto.
    + discriminate.
    + cbn [sia_add sia_add_int] in E. eapply int_told. exact E.
    + cbn in E. injection E as <- <-. unfold told. auto.
    + cbn [sia_add] in E. apply retype_told in E as [E|(y & e' & E & <-)]; [exact E|]. eapply wseq_told; [| |exact E]; [intros ? ?; apply int_told|intros ? ?; apply of_res_told].
    + cbn [sia_add] in E. apply retype_told in E as [E|(y & e' & E & <-)]; [exact E|]. eapply wseq_told; [| |exact E]; [intros ? ?; apply int_told|apply OK].
    + rewrite sia_add_list, <- sia_elems in E. apply retype_told in E as [E|(y & e' & E & <-)]; [exact E|]. eapply wseq_told; [| |exact E]; [intros ? ?; apply int_told|]. apply elems_told; [exact IH|now apply plain_all].
    + contradiction.
  - induction v as [|b|z|z|s|c|l IH|a b] using pyval_ind'; intros P x e E.
    + cbn in E. injection E as <- <-. unfold told. auto.
    + discriminate.
    + cbn [riv_add riv_add_intw] in E. eapply int_told. exact E.
    + cbn [riv_add riv_add_intw] in E. eapply int_told. exact E.
    + cbn [riv_add] in E. apply retype_told in E as [E|(y & e' & E & <-)]; [exact E|]. eapply wseq_told; [| |exact E]; [intros ? ?; apply len_told|intros ? ?; apply of_res_told].
    + cbn [riv_add] in E. apply retype_told in E as [E|(y & e' & E & <-)]; [exact E|]. eapply wseq_told; [| |exact E]; [intros ? ?; apply len_told|apply OK].
    + rewrite riv_add_list, <- riv_elems in E. apply retype_told in E as [E|(y & e' & E & <-)]; [exact E|]. eapply wseq_told; [| |exact E]; [intros ? ?; apply len_told|]. apply elems_told; [exact IH|now apply plain_all].
    + contradiction.
Qed.
Print Assumptions C81_refused.
(** A refused value may leave part of its form in the encoder: here the length of a text which has none in UTF-8. *)
Theorem C81_leftover : exists v, plain v /\ (forall d, exists p, p <> [] /\ call d (sia_add v) = (d ++ p, Some ValueError)) /\ (forall d, exists p, p <> [] /\ call d (riv_add v) = (d ++ p, Some ValueError)).
Proof.
  exists (VStr [55296]). split; [exact I|]. split; intro d; eexists; (split; [|reflexivity]); discriminate.
Qed.
Print Assumptions C81_leftover.
(** Each value has one form. *)
Theorem C81_one : forall v b c, (sia_form v b -> sia_form v c -> b = c) /\ (rivine_form v b -> rivine_form v c -> b = c).
Proof.
  intros v b c. rewrite <- !sia_iff, <- !riv_iff. split; intros A B; rewrite A in B; congruence.
Qed.
Print Assumptions C81_one.
Definition ex_form_value : pyval := VList [VBool true; VInt 300; VStr [233]; VBytes [9; 8]; VList []].
Example C81_ex : sia_form ex_form_value ([5; 0; 0; 0; 0; 0; 0; 0] ++ [1] ++ [44; 1; 0; 0; 0; 0; 0; 0] ++ [1; 0; 0; 0; 0; 0; 0; 0; 195; 169] ++ [2; 0; 0; 0; 0; 0; 0; 0; 9; 8] ++ [0; 0; 0; 0; 0; 0; 0; 0]) /\
  rivine_form ex_form_value ([10] ++ [1] ++ [44; 1; 0; 0; 0; 0; 0; 0] ++ [2; 195; 169] ++ [4; 9; 8] ++ [0]) /\ plain ex_form_value /\ (forall b, ~ sia_form (VIntLike 3) b) /\ int_form true 2 (VIntLike 258) [2; 1].
Proof.
  split; [apply sia_iff; reflexivity|]. split; [apply riv_iff; reflexivity|]. split; [cbn; auto 10|]. split; [intros b F; apply sia_iff in F; discriminate F|]. apply riv_int_iff. reflexivity.
Qed.
