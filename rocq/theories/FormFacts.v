(** What the encoders write. *)
From Verif Require Import Base BaseFacts Encoders EncodersFacts EncodersFacts2 Spec_Forms.
From Coq Require Import ZifyBool ZifyNat ZifyN.
Ltac Zify.zify_post_hook ::= Z.div_mod_to_equations.

Lemma little_iff w n b : little w n b <-> n < 256 ^ N.of_nat w /\ b = le w n.
Proof.
  unfold little. split.
  - intros (L & F & <-). subst w. split; [now apply le_dec_bound|symmetry; now apply le_le_dec].
  - intros (L & ->). split; [apply le_length|]. split; [apply le_wf|now apply le_dec_le].
Qed.
Lemma number_iff w z b : number_in w z b <-> int_le w (limit_of w) z = (b, None).
Proof.
  unfold number_in. split.
  - intros (n & -> & L). apply little_iff in L as (L & ->). rewrite int_le_in; [unfold wok; do 2 f_equal; lia|lia|]. rewrite N2Z.id. exact L.
  - intro E. apply int_le_ok in E as (A & B & ->). exists (Z.to_N z). split; [lia|]. apply little_iff. auto.
Qed.
Lemma char_iff c b : utf8_of c b <-> utf8_char c = Ok b.
Proof.
  unfold utf8_char. split.
  - intros [L|x y X Y E L|x y z X Y Z E L N|x y z t X Y Z T E L]; unfold tail_byte in *.
    + replace (c <? 128) with true by lia. reflexivity.
    + replace (c <? 128) with false by lia. replace (c <? 2048) with true by lia. do 2 f_equal; [|f_equal]; lia.
    + replace (c <? 128) with false by lia. replace (c <? 2048) with false by lia. replace ((55296 <=? c) && (c <? 57344)) with false by lia. replace (c <? 65536) with true by lia.
      do 2 f_equal; [|f_equal; [|f_equal]]; lia.
    + replace (c <? 128) with false by lia. replace (c <? 2048) with false by lia. replace ((55296 <=? c) && (c <? 57344)) with false by lia. replace (c <? 65536) with false by lia. replace (c <? 1114112) with true by lia.
      do 2 f_equal; [|f_equal; [|f_equal; [|f_equal]]]; lia.
  - intro E. destruct (c <? 128) eqn:A; [apply ok_inj in E; subst b; apply one_byte; lia|]. destruct (c <? 2048) eqn:B; [apply ok_inj in E; subst b; apply two_bytes; unfold tail_byte; lia|].
    destruct ((55296 <=? c) && (c <? 57344)) eqn:C; [discriminate|]. destruct (c <? 65536) eqn:D; [apply ok_inj in E; subst b; apply three_bytes; unfold tail_byte; lia|].
    destruct (c <? 1114112) eqn:F; [|discriminate]. apply ok_inj in E; subst b; apply four_bytes; unfold tail_byte; lia.
Qed.
Lemma text_iff s b : text_bytes s b <-> utf8 s = Ok b.
Proof.
  unfold text_bytes, utf8. revert b. induction s as [|c s IH]; intro b; cbn [map rconcat].
  - split; [intros (bs & F & ->); inversion F; reflexivity|]. intro E. apply ok_inj in E. exists []. split; [constructor|auto].
  - split.
    + intros (bs & F & ->). inversion F as [|? x ? bs' X F']; subst. apply char_iff in X. rewrite X. cbn [concat]. rewrite (proj1 (IH (concat bs')) (ex_intro _ bs' (conj F' eq_refl))). reflexivity.
    + intro E. apply rapp_ok in E as (x & y & X & Y & ->). apply IH in Y as (bs & F & ->). exists (x :: bs). split; [constructor; [now apply char_iff|exact F]|reflexivity].
Qed.
Lemma sia_length_iff n p : sia_length n p <-> sia_add_int (VInt (Z.of_N n)) = (p, None).
Proof.
  cbn [sia_add_int]. rewrite <- number_iff. unfold sia_length, number_in. split; [intro L; eauto|]. intros (m & E & L). assert (m = n) as -> by lia. exact L.
Qed.
Lemma riv_length_iff n p : rivine_length n p <-> riv_len n = (p, None).
Proof.
  rewrite riv_len_spec. unfold rivine_length, prefix_of. rewrite !little_iff. change (2 ^ 7) with 128. change (2 ^ 14) with 16384. change (2 ^ 21) with 2097152. change (2 ^ 29) with 536870912.
  change (256 ^ N.of_nat 1) with 256. change (256 ^ N.of_nat 2) with 65536. change (256 ^ N.of_nat 3) with 16777216. change (256 ^ N.of_nat 4) with 4294967296.
  unfold wok, wraise. split.
  - intros [(A & B & ->)|[(A & B & ->)|[(A & B & ->)|(A & B & ->)]]].
    + replace (n <? 536870912) with true by lia. replace (n <? 128) with true by lia. reflexivity.
    + replace (n <? 536870912) with true by lia. replace (n <? 128) with false by lia. replace (n <? 16384) with true by lia. reflexivity.
    + replace (n <? 536870912) with true by lia. replace (n <? 128) with false by lia. replace (n <? 16384) with false by lia. replace (n <? 2097152) with true by lia. reflexivity.
    + replace (n <? 536870912) with true by lia. replace (n <? 128) with false by lia. replace (n <? 16384) with false by lia. replace (n <? 2097152) with false by lia. reflexivity.
  - destruct (n <? 536870912) eqn:A; [|discriminate]. destruct (n <? 128) eqn:B; [intro E; injection E as <-; left; (split; [lia|]; split; [lia|reflexivity])|]. destruct (n <? 16384) eqn:C; [intro E; injection E as <-; right; left; (split; [lia|]; split; [lia|reflexivity])|].
    destruct (n <? 2097152) eqn:D; intro E; injection E as <-; right; right; [left|right]; (split; [lia|]; split; [lia|reflexivity]).
Qed.

Lemma wseq_ok_iff a b w : wseq a b = (w, None) <-> exists x y, a = (x, None) /\ b = (y, None) /\ w = x ++ y.
Proof. split; [apply wseq_ok|]. intros (x & y & -> & -> & ->). reflexivity. Qed.
Lemma retype_ok_iff e a w : w_retype e a = (w, None) <-> a = (w, None).
Proof. split; [apply w_retype_ok|]. intros ->. reflexivity. Qed.
Lemma w_of_ok r w : w_of_res r = (w, None) <-> r = Ok w.
Proof. destruct r; cbn [w_of_res]; unfold wok, wraise; split; intro E; try discriminate; [injection E as <-; reflexivity|apply ok_inj in E; subst; reflexivity]. Qed.
Section Codec.
Variable add : pyval -> W.
Variable add_len : N -> W.
Variable len : N -> bytes -> Prop.
Variable like : bool.
Variable own : W -> W -> W.
Hypothesis len_ok : forall n p, len n p <-> add_len n = (p, None).
Hypothesis add_bool : forall b, add (VBool b) = wok [if b then 1 else 0].
Hypothesis add_int : forall z, add (VInt z) = int_le 8 (limit_of 8) z.
Hypothesis add_like : forall z b, add (VIntLike z) = (b, None) <-> like = true /\ int_le 8 (limit_of 8) z = (b, None).
Hypothesis add_none : forall b, add VNone <> (b, None).
Hypothesis add_text : forall s w, add (VStr s) = (w, None) <-> wseq (add_len (lenN s)) (w_of_res (utf8 s)) = (w, None).
Hypothesis add_bytes : forall b w, add (VBytes b) = (w, None) <-> wseq (add_len (lenN b)) (wok b) = (w, None).
Hypothesis add_list : forall l w, add (VList l) = (w, None) <-> wseq (add_len (lenN l)) (add_elems add l) = (w, None).
Hypothesis add_obj : forall x y, add (VObj x y) = own x y.
Lemma elems_ok l : Forall (fun v => forall b, add v = (b, None) <-> form len like own v b) l -> forall w, add_elems add l = (w, None) <-> exists bs, Forall2 (form len like own) l bs /\ w = concat bs.
Proof using.
  induction 1 as [|v l V F IH]; intro w; cbn [add_elems].
  - unfold wok. split; [intro E; injection E as <-; exists []; split; [constructor|reflexivity]|]. intros (bs & F & ->). inversion F. reflexivity.
  - rewrite wseq_ok_iff. split.
    + intros (x & y & X & Y & ->). apply V in X. apply IH in Y as (bs & B & ->). exists (x :: bs). split; [now constructor|reflexivity].
    + intros (bs & B & ->). inversion B as [|? x ? bs' X B']; subst. exists x, (concat bs'). split; [now apply V|]. split; [apply IH; eauto|reflexivity].
Qed.
Lemma add_form v : forall b, add v = (b, None) <-> form len like own v b.
Proof using len_ok add_bool add_int add_like add_none add_text add_bytes add_list add_obj.
  induction v as [|x|z|z|s|c|l IH|x y] using pyval_ind'; intro b.
  - split; [intro E; now apply add_none in E|]. intro F. inversion F.
  - rewrite add_bool. unfold wok. split; [intro E; injection E as <-; destruct x; constructor|]. intro F. inversion F; reflexivity.
  - rewrite add_int, <- number_iff. split; [apply form_int|]. intro F. inversion F. assumption.
  - rewrite add_like, <- number_iff. split; [intros (L & N); now apply form_like|]. intro F. inversion F. auto.
  - rewrite add_text, wseq_ok_iff. split.
    + intros (p & t & P & T & ->). apply form_text; [now apply len_ok|]. apply text_iff. now apply w_of_ok.
    + intro F. inversion F as [| | | |? p t P T| | |]; subst. exists p, t. split; [now apply len_ok|]. split; [apply w_of_ok; now apply text_iff|reflexivity].
  - rewrite add_bytes, wseq_ok_iff. split.
    + intros (p & t & P & T & ->). injection T as <-. apply form_bytes. now apply len_ok.
    + intro F. inversion F as [| | | | |? p P| |]; subst. exists p, c. split; [now apply len_ok|]. split; reflexivity.
  - rewrite add_list, wseq_ok_iff. split.
    + intros (p & t & P & T & ->). apply (elems_ok l IH) in T as (bs & B & ->). apply form_list; [now apply len_ok|exact B].
    + intro F. inversion F as [| | | | | |? p bs P B|]; subst. exists p, (concat bs). split; [now apply len_ok|]. split; [apply (elems_ok l IH); eauto|reflexivity].
  - rewrite add_obj. split; [apply form_object|]. intro F. inversion F. assumption.
Qed.
Lemma all_iff l b : add_elems add l = (b, None) <-> all_form len like own l b.
Proof using len_ok add_bool add_int add_like add_none add_text add_bytes add_list add_obj. apply elems_ok. apply Forall_forall. intros v _. apply add_form. Qed.
End Codec.

Lemma length_Z {A} (l : list A) : Z.of_nat (length l) = Z.of_N (lenN l).
Proof. unfold lenN. lia. Qed.
Lemma sia_iff v b : sia_add v = (b, None) <-> sia_form v b.
Proof.
  apply (add_form sia_add (fun n => sia_add_int (VInt (Z.of_N n)))).
  - exact sia_length_iff.
  - reflexivity.
  - reflexivity.
  - intros z c. cbn [sia_add]. unfold wraise. split; [discriminate|intros (X & _); discriminate].
  - intro c. cbn [sia_add]. discriminate.
  - intros s w. cbn [sia_add]. rewrite retype_ok_iff, length_Z. reflexivity.
  - intros s w. cbn [sia_add]. rewrite retype_ok_iff, length_Z. reflexivity.
  - intros l w. rewrite sia_add_list, retype_ok_iff, length_Z, <- sia_elems. reflexivity.
  - reflexivity.
Qed.
Lemma riv_iff v b : riv_add v = (b, None) <-> rivine_form v b.
Proof.
  apply (add_form riv_add riv_len).
  - exact riv_length_iff.
  - reflexivity.
  - reflexivity.
  - intros z c. cbn [riv_add riv_add_intw]. tauto.
  - intro c. cbn [riv_add]. discriminate.
  - intros s w. cbn [riv_add]. rewrite retype_ok_iff. reflexivity.
  - intros s w. cbn [riv_add]. rewrite retype_ok_iff. reflexivity.
  - intros l w. rewrite riv_add_list, retype_ok_iff, <- riv_elems. reflexivity.
  - reflexivity.
Qed.
Lemma sia_all_iff l b : sia_add_all l = (b, None) <-> all_form sia_length false (fun x _ => x) l b.
Proof. rewrite <- sia_elems. apply elems_ok. apply Forall_forall. intros v _. apply sia_iff. Qed.
Lemma riv_all_iff l b : riv_add_all l = (b, None) <-> all_form rivine_length true (fun _ y => y) l b.
Proof. rewrite <- riv_elems. apply elems_ok. apply Forall_forall. intros v _. apply riv_iff. Qed.
Lemma array_cases (f : list pyval -> W) len like own : (forall l b, f l = (b, None) <-> all_form len like own l b) -> forall v b,
  match v with VStr s => w_of_res (utf8 s) | VBytes b => wok b | VList l => f l | _ => wraise TypeError end = (b, None) <-> array_form len like own v b.
Proof.
  intros I v b. unfold array_form. destruct v as [|x|z|z|s|c|l|x y]; try (split; [discriminate|intros [(s' & E & _)|[E|(l' & E & _)]]; discriminate]).
  - rewrite w_of_ok, <- text_iff. split; [eauto|]. intros [(s' & E & T)|[E|(l' & E & _)]]; try discriminate. injection E as <-. exact T.
  - unfold wok. split; [intro E; injection E as <-; auto|]. intros [(s' & E & T)|[E|(l' & E & _)]]; try discriminate. injection E as <-. reflexivity.
  - rewrite I. split; [eauto|]. intros [(s' & E & T)|[E|(l' & E & A)]]; try discriminate. injection E as <-. exact A.
Qed.

Lemma sia_array_iff v b : sia_add_array v = (b, None) <-> array_form sia_length false (fun x _ => x) v b.
Proof. apply (array_cases sia_add_all), sia_all_iff. Qed.
Lemma riv_array_iff v b : riv_add_array v = (b, None) <-> array_form rivine_length true (fun _ y => y) v b.
Proof. apply (array_cases riv_add_all), riv_all_iff. Qed.
Lemma slice_iff (add_len : N -> W) len like own (arr : pyval -> W) v w : (forall n p, len n p <-> add_len n = (p, None)) -> (forall v b, arr v = (b, None) <-> array_form len like own v b) ->
  match items v with Some n => wseq (add_len n) (arr v) | None => wraise TypeError end = (w, None) <-> slice_form len like own v w.
Proof.
  intros L A. unfold slice_form. destruct (items v) as [n|].
  - rewrite wseq_ok_iff. split; [intros (p & b & P & B & ->); exists n, p, b; split; [reflexivity|]; split; [now apply L|]; split; [now apply A|reflexivity]|].
    intros (m & p & b & E & P & B & ->). injection E as <-. exists p, b. split; [now apply L|]. split; [now apply A|reflexivity].
  - split; [discriminate|]. intros (m & p & b & E & _). discriminate.
Qed.
Lemma sia_slice_iff v w : sia_add_slice v = (w, None) <-> slice_form sia_length false (fun x _ => x) v w.
Proof.
  rewrite <- (slice_iff (fun n => sia_add_int (VInt (Z.of_N n))) _ _ _ sia_add_array v w sia_length_iff sia_array_iff). destruct v; cbn [items sia_add_slice sia_add_array]; rewrite ?length_Z; reflexivity.
Qed.
Lemma riv_slice_iff v w : riv_add_slice v = (w, None) <-> slice_form rivine_length true (fun _ y => y) v w.
Proof. rewrite <- (slice_iff riv_len _ _ _ riv_add_array v w riv_length_iff riv_array_iff). destruct v; reflexivity. Qed.
Lemma sia_int_iff v b : sia_add_int v = (b, None) <-> int_form false 8 v b.
Proof. destruct v; cbn [sia_add_int int_form]; rewrite ?number_iff; unfold wraise; try (split; [discriminate|easy]); reflexivity. Qed.
Lemma riv_int_iff w v b : riv_add_intw w v = (b, None) <-> int_form true w v b.
Proof. destruct v; cbn [riv_add_intw int_form]; rewrite ?number_iff; unfold wraise; try (split; [discriminate|easy]); tauto. Qed.
Lemma byte_text_iff r b : byte_of_text r = (b, None) <-> r = Ok b /\ length b = 1%nat.
Proof.
  unfold byte_of_text. destruct r as [c|e]; [|split; [discriminate|intros (X & _); discriminate]]. destruct (length c =? 1)%nat eqn:L; unfold wok, wraise; split.
  - intro E. injection E as <-. split; [reflexivity|lia].
  - intros (E & _). apply ok_inj in E. subst. reflexivity.
  - discriminate.
  - intros (E & X). apply ok_inj in E. subst. lia.
Qed.
Lemma riv_byte_iff v b : riv_add_byte v = (b, None) <-> byte_form v b.
Proof.
  unfold byte_form. destruct v as [|x|z|z|s|c|l|x y]; cbn [riv_add_byte]; rewrite ?riv_int_iff, ?byte_text_iff, <- ?text_iff; cbn [int_form].
  - split; [discriminate|]. intros [E|[(s & E & _)|(E & _)]]; easy.
  - split; [auto|]. intros [E|[(s & E & _)|(E & _)]]; easy.
  - split; [auto|]. intros [E|[(s & E & _)|(E & _)]]; easy.
  - split; [auto|]. intros [(_ & E)|[(s & E & _)|(E & _)]]; easy.
  - split; [intros (T & L); right; left; eauto|]. intros [E|[(s' & E & T)|(E & _)]]; try easy. injection E as <-. exact T.
  - split; [intros (T & L); apply ok_inj in T; subst; auto|]. intros [E|[(s' & E & T)|(E & L)]]; try easy. injection E as <-. auto.
  - split; [discriminate|]. intros [E|[(s & E & _)|(E & _)]]; easy.
  - split; [discriminate|]. intros [E|[(s & E & _)|(E & _)]]; easy.
Qed.
Lemma sia_byte_iff v b : sia_add_byte v = (b, None) <-> byte_form v b.
Proof.
  rewrite <- riv_byte_iff. assert (Q : forall z, (if (z <? 0)%Z || (255 <? z)%Z then wraise ValueError else wok (le 1 (Z.to_N z))) = (b, None) <-> riv_add_intw 1 (VInt z) = (b, None)).
  { intro z. rewrite riv_int_iff. cbn [int_form]. rewrite number_iff, int_le_spec. change (Z.of_N (256 ^ N.of_nat 1)) with 256%Z.
    destruct ((0 <=? z) && (z <? 256))%Z eqn:L; [replace ((z <? 0) || (255 <? z))%Z with false by lia; reflexivity|]. replace ((z <? 0) || (255 <? z))%Z with true by lia. split; discriminate. }
  destruct v as [|x|z|z|s|c|l|x y]; cbn [sia_add_byte riv_add_byte]; try apply Q; try reflexivity. destruct x; reflexivity.
Qed.
