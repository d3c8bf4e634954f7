(** Lemmas behind the property theorems of Prop_Encoders.v. *)
From Verif Require Import Base BaseFacts Encoders Spec_Encoders EncodersFacts.
From Coq Require Import ZifyBool ZifyNat ZifyN.
Ltac Zify.zify_post_hook ::= Z.div_mod_to_equations.

Lemma sia_int_exact d z : (0 <= z < 2 ^ 64)%Z ->
  exists b, length b = 8%nat /\ wf_bytes b /\ Z.of_N (le_dec b) = z /\
            call d (sia_add_int (VInt z)) = (d ++ b, None).
Proof.
  intros Hz. exists (le 8 (Z.to_N z)). repeat split.
  - apply le_wf.
  - rewrite le_dec_le; [lia|]. change (256 ^ N.of_nat 8) with (2 ^ 64). lia.
  - unfold call. cbn [sia_add_int]. rewrite int_le_in; [reflexivity | lia |].
    change (256 ^ N.of_nat 8) with (2 ^ 64). lia.
Qed.

Lemma sia_int_reject d z : ~ (0 <= z < 2 ^ 64)%Z ->
  call d (sia_add_int (VInt z)) = (d, Some IntegerOutOfRange).
Proof.
  intros Hz. unfold call. cbn [sia_add_int]. rewrite int_le_spec.
  change (Z.of_N (256 ^ N.of_nat 8)) with (2 ^ 64)%Z.
  replace ((0 <=? z) && (z <? 2 ^ 64))%Z with false by lia. cbn. rewrite app_nil_r. reflexivity.
Qed.

Lemma riv_int_exact d w z : (0 <= z < 2 ^ (8 * Z.of_nat w))%Z ->
  exists b, length b = w /\ wf_bytes b /\ Z.of_N (le_dec b) = z /\
            call d (riv_add_intw w (VInt z)) = (d ++ b, None) /\
            call d (riv_add_intw w (VIntLike z)) = (d ++ b, None).
Proof.
  intros Hz. pose proof (limit_of_pow w) as HL. unfold limit_of in HL.
  assert (HB : Z.to_N z < 256 ^ N.of_nat w) by lia.
  exists (le w (Z.to_N z)). repeat split.
  - apply le_length.
  - apply le_wf.
  - rewrite le_dec_le; [lia | exact HB].
  - unfold call. cbn [riv_add_intw]. rewrite int_le_in; [reflexivity | lia | exact HB].
  - unfold call. cbn [riv_add_intw]. rewrite int_le_in; [reflexivity | lia | exact HB].
Qed.

Lemma riv_int_reject d w z : ~ (0 <= z < 2 ^ (8 * Z.of_nat w))%Z ->
  call d (riv_add_intw w (VInt z)) = (d, Some IntegerOutOfRange) /\
  call d (riv_add_intw w (VIntLike z)) = (d, Some IntegerOutOfRange).
Proof.
  intros Hz. pose proof (limit_of_pow w) as HL. unfold limit_of in HL.
  unfold call. cbn [riv_add_intw]. rewrite int_le_spec.
  replace ((0 <=? z) && (z <? Z.of_N (256 ^ N.of_nat w)))%Z with false by lia.
  cbn. rewrite app_nil_r. auto.
Qed.

(** Values small enough for the format: integers of 64 bits, lengths below [lim]. *)
Fixpoint fits (lim : N) (v : pyval) : Prop :=
  match v with
  | VBool _ => True
  | VInt z => (0 <= z < 2 ^ 64)%Z
  | VBytes b => lenN b < lim
  | VList l => lenN l < lim /\
      (fix all (l : list pyval) : Prop :=
         match l with [] => True | x :: l => fits lim x /\ all l end) l
  | _ => False
  end.

Section Total.
  Variable add : pyval -> W.
  Variable add_len : N -> W.
  Variable lim : N.
  Hypothesis add_bool : forall b, add (VBool b) = wok [if b then 1 else 0].
  Hypothesis add_int : forall z, add (VInt z) = int_le 8 (limit_of 8) z.
  Hypothesis add_bytes : forall b, add (VBytes b) = w_retype ValueError (wseq (add_len (lenN b)) (wok b)).
  Hypothesis add_list : forall l, add (VList l) = w_retype ValueError (wseq (add_len (lenN l)) (add_elems add l)).
  Hypothesis len_ok : forall n, n < lim -> snd (add_len n) = None.
  Lemma wseq_none a b : snd a = None -> snd b = None -> snd (wseq a b) = None.
  Proof. unfold wseq; destruct a as [x [e|]]; cbn; [discriminate | auto]. Qed.
  Lemma w_retype_none e a : snd a = None -> snd (w_retype e a) = None.
  Proof. unfold w_retype; destruct a as [x [f|]]; cbn; [discriminate | auto]. Qed.
  Lemma add_total v : fits lim v -> snd (add v) = None.
  Proof.
    induction v as [|b|z|z|t|b|l IH|a b] using pyval_ind'; cbn [fits]; intros H; try contradiction.
    - rewrite add_bool; reflexivity.
    - rewrite add_int, int_le_in; [reflexivity | lia | change (256 ^ N.of_nat 8) with (2 ^ 64); lia].
    - rewrite add_bytes. apply w_retype_none, wseq_none; [apply len_ok; exact H | reflexivity].
    - rewrite add_list. destruct H as [H1 H2].
      apply w_retype_none, wseq_none; [apply len_ok; exact H1|]. clear H1.
      induction IH as [|x l Hx Hl IHl]; [reflexivity|]. destruct H2 as [H2 H3].
      cbn [add_elems]. apply wseq_none; auto.
  Qed.
  Lemma add_all_total vs : Forall (fits lim) vs -> snd (add_elems add vs) = None.
  Proof.
    induction 1 as [|v vs Hv Hvs IH]; [reflexivity|]. cbn [add_elems].
    apply wseq_none; [apply add_total; exact Hv | exact IH].
  Qed.
End Total.

Lemma sia_all_total vs : Forall (fits (2 ^ 64)) vs -> snd (sia_add_all vs) = None.
Proof.
  intros H. rewrite <- sia_elems. eapply (add_all_total sia_add sia_add_len (2 ^ 64)).
  - reflexivity.
  - reflexivity.
  - intros b. unfold sia_add_len, lenN. rewrite nat_N_Z. reflexivity.
  - intros l. rewrite sia_add_list. unfold sia_add_len, lenN. rewrite nat_N_Z, <- sia_elems. reflexivity.
  - intros n Hn. unfold sia_add_len. cbn [sia_add_int]. rewrite int_le_in; [reflexivity | lia |].
    change (256 ^ N.of_nat 8) with (2 ^ 64). lia.
  - exact H.
Qed.

Lemma riv_all_total vs : Forall (fits (2 ^ 29)) vs -> snd (riv_add_all vs) = None.
Proof.
  intros H. rewrite <- riv_elems. eapply (add_all_total riv_add riv_len (2 ^ 29)).
  - reflexivity.
  - reflexivity.
  - reflexivity.
  - intros l. rewrite riv_add_list, <- riv_elems. reflexivity.
  - intros n Hn. rewrite riv_len_spec. replace (n <? 2 ^ 29) with true by lia. reflexivity.
  - exact H.
Qed.

Lemma sia_decodable vs ss d rest : Forall2 has_shape vs ss -> Forall (fits (2 ^ 64)) vs ->
  exists w, call d (sia_add_all vs) = (d ++ w, None) /\ sia_read_all ss (w ++ rest) = Some (vs, rest).
Proof.
  intros HS HF. pose proof (sia_all_total vs HF) as HT.
  destruct (sia_add_all vs) as [w o] eqn:E. cbn in HT. subst o.
  exists w. unfold call; cbn. split; [reflexivity|]. eapply sia_round_trip; eauto.
Qed.

Lemma sia_injective vs vs' ss w rest rest' w' :
  Forall2 has_shape vs ss -> Forall2 has_shape vs' ss ->
  sia_add_all vs = (w, None) -> sia_add_all vs' = (w', None) -> w ++ rest = w' ++ rest' ->
  vs = vs' /\ rest = rest'.
Proof.
  intros H1 H2 E1 E2 H. pose proof (sia_round_trip vs ss w rest H1 E1) as R.
  rewrite H, (sia_round_trip vs' ss w' rest' H2 E2) in R. inversion R; auto.
Qed.

Lemma riv_decodable vs ss d rest : Forall2 has_shape vs ss -> Forall (fits (2 ^ 29)) vs ->
  exists w, call d (riv_add_all vs) = (d ++ w, None) /\ riv_read_all ss (w ++ rest) = Some (vs, rest).
Proof.
  intros HS HF. pose proof (riv_all_total vs HF) as HT.
  destruct (riv_add_all vs) as [w o] eqn:E. cbn in HT. subst o.
  exists w. unfold call; cbn. split; [reflexivity|]. eapply riv_round_trip; eauto.
Qed.

Lemma sia_slice_exact d b : lenN b < 2 ^ 64 ->
  exists p, length p = 8%nat /\ le_dec p = lenN b /\ call d (sia_add_slice (VBytes b)) = (d ++ p ++ b, None).
Proof.
  intros H. destruct (sia_int_exact [] (Z.of_nat (length b))) as (p & H1 & H2 & H3 & H4).
  { unfold lenN in H; lia. }
  exists p. split; [exact H1|]. split; [unfold lenN; lia|].
  unfold call in *. cbn [app] in H4. cbn [sia_add_slice].
  destruct (sia_add_int (VInt (Z.of_nat (length b)))) as [x o]. cbn in H4. inversion H4; subst.
  reflexivity.
Qed.

(** ** rivine prefix *)
Lemma prefix_length n : n < 2 ^ 29 -> length (prefix_of n) =
  if n <? 2 ^ 7 then 1%nat else if n <? 2 ^ 14 then 2%nat else if n <? 2 ^ 21 then 3%nat else 4%nat.
Proof.
  intros _. unfold prefix_of. destruct (n <? 2 ^ 7), (n <? 2 ^ 14), (n <? 2 ^ 21); apply le_length.
Qed.

Lemma riv_prefix_exact d n : n < 2 ^ 29 ->
  exists p, call d (riv_len n) = (d ++ p, None) /\ wf_bytes p /\
    length p = (if n <? 2 ^ 7 then 1%nat else if n <? 2 ^ 14 then 2%nat else if n <? 2 ^ 21 then 3%nat else 4%nat) /\
    forall rest, riv_read_len (p ++ rest) = Some (n, rest).
Proof.
  intros H. exists (prefix_of n). rewrite riv_len_spec. replace (n <? 2 ^ 29) with true by lia.
  repeat split.
  - unfold prefix_of. destruct (n <? 2 ^ 7), (n <? 2 ^ 14), (n <? 2 ^ 21); apply le_wf.
  - apply prefix_length; exact H.
  - intros rest; apply riv_read_prefix; exact H.
Qed.

Lemma riv_prefix_reject d n : 2 ^ 29 <= n -> call d (riv_len n) = (d, Some SliceLengthOutOfRange).
Proof.
  intros H. rewrite riv_len_spec. replace (n <? 2 ^ 29) with false by lia.
  unfold call; cbn. rewrite app_nil_r; reflexivity.
Qed.

Lemma take_some n b x r : take n b = Some (x, r) -> b = x ++ r /\ length x = n.
Proof.
  unfold take. destruct (Nat.leb_spec n (length b)); [|discriminate].
  intros E; inversion E; subst. rewrite firstn_skipn, firstn_length. split; [reflexivity | lia].
Qed.

(** No other way of writing the length which the format's reader understands is shorter. *)
Lemma riv_prefix_minimal n q rest : n < 2 ^ 29 -> wf_bytes (q ++ rest) -> riv_read_len (q ++ rest) = Some (n, rest) ->
  (length (prefix_of n) <= length q)%nat.
Proof.
  intros Hn Hwf H. rewrite prefix_length by exact Hn.
  assert (G : exists k x, take k (q ++ rest) = Some (x, rest) /\
     (k = 1%nat /\ n < 2 ^ 7 \/ k = 2%nat /\ n < 2 ^ 14 \/ k = 3%nat /\ n < 2 ^ 21 \/ k = 4%nat)).
  { unfold riv_read_len in H. destruct (q ++ rest) as [|b0 t] eqn:E; [discriminate|].
    rewrite <- E in *.
    assert (B : forall k x r, take k (q ++ rest) = Some (x, r) -> le_dec x < 256 ^ N.of_nat k).
    { intros k x r Hk. apply take_some in Hk as [Hk HL]. rewrite <- HL. apply le_dec_bound.
      rewrite Hk in Hwf. apply Forall_app in Hwf. apply Hwf. }
    destruct (b0 mod 2 =? 0).
    { destruct (take 1 (q ++ rest)) as [[x r]|] eqn:T; [|discriminate]. inversion H; subst.
      exists 1%nat, x. split; [exact T|]. left. split; [reflexivity|]. apply B in T.
      change (256 ^ N.of_nat 1) with 256 in T. change (2 ^ 7) with 128. lia. }
    destruct (b0 mod 4 =? 1).
    { destruct (take 2 (q ++ rest)) as [[x r]|] eqn:T; [|discriminate]. inversion H; subst.
      exists 2%nat, x. split; [exact T|]. right; left. split; [reflexivity|]. apply B in T.
      change (256 ^ N.of_nat 2) with 65536 in T. change (2 ^ 14) with 16384. lia. }
    destruct (b0 mod 8 =? 3).
    { destruct (take 3 (q ++ rest)) as [[x r]|] eqn:T; [|discriminate]. inversion H; subst.
      exists 3%nat, x. split; [exact T|]. right; right; left. split; [reflexivity|]. apply B in T.
      change (256 ^ N.of_nat 3) with 16777216 in T. change (2 ^ 21) with 2097152. lia. }
    destruct (take 4 (q ++ rest)) as [[x r]|] eqn:T; [|discriminate]. inversion H; subst.
    exists 4%nat, x. split; [exact T|]. auto. }
  destruct G as (k & x & T & Hk). apply take_some in T as [T HL].
  apply app_inv_tail in T. subst q. rewrite HL.
  change (2 ^ 7) with 128 in *. change (2 ^ 14) with 16384 in *. change (2 ^ 21) with 2097152 in *.
  destruct (N.ltb_spec n 128); [lia|]. destruct (N.ltb_spec n 16384); [lia|].
  destruct (N.ltb_spec n 2097152); lia.
Qed.

(** ** text *)
Lemma rapp_length a b z : a +++ b = Ok z -> exists x y, a = Ok x /\ b = Ok y /\ length z = (length x + length y)%nat.
Proof. intros H. apply rapp_ok in H as (x & y & -> & -> & ->). exists x, y. rewrite app_length; auto. Qed.

Lemma utf8_char_length c b : utf8_char c = Ok b -> (1 <= length b)%nat /\ (length b = 1%nat <-> c < 128).
Proof.
  unfold utf8_char. destruct (N.ltb_spec c 128).
  { intros H'; inversion H'; cbn; split; [lia|split; lia]. }
  destruct (N.ltb_spec c 2048).
  { intros H'; inversion H'; cbn; split; [lia|split; [discriminate|lia]]. }
  destruct ((55296 <=? c) && (c <? 57344)); [discriminate|].
  destruct (N.ltb_spec c 65536).
  { intros H'; inversion H'; cbn; split; [lia|split; [discriminate|lia]]. }
  destruct (N.ltb_spec c 1114112); [|discriminate].
  intros H'; inversion H'; cbn; split; [lia|split; [discriminate|lia]].
Qed.

Lemma utf8_length s b : utf8 s = Ok b ->
  (length s <= length b)%nat /\ (length b = length s <-> ascii_str s).
Proof.
  unfold utf8, ascii_str. revert b; induction s as [|c s IH]; intros b H.
  - cbn in H; inversion H; cbn. split; [lia|]. split; [constructor | reflexivity].
  - cbn [map rconcat] in H. apply rapp_length in H as (x & y & Hx & Hy & HL).
    apply utf8_char_length in Hx as [H1 H2]. apply IH in Hy as [H3 H4].
    cbn [length]. split; [lia|]. rewrite Forall_cons_iff, <- H2, <- H4. lia.
Qed.

Lemma sia_str_add s w : sia_add_slice (VStr s) = (w, None) ->
  exists p b, utf8 s = Ok b /\ sia_add_int (VInt (Z.of_nat (length s))) = (p, None) /\ w = p ++ b.
Proof.
  cbn [sia_add_slice]. intros H. apply wseq_ok in H as (x & y & H1 & H2 & ->).
  destruct (utf8 s) as [b|]; cbn in H2; unfold wok, wraise in H2; inversion H2; subst. eauto.
Qed.
Lemma riv_str_add s w : riv_add_slice (VStr s) = (w, None) ->
  exists p b, utf8 s = Ok b /\ riv_len (lenN s) = (p, None) /\ w = p ++ b.
Proof.
  cbn [riv_add_slice]. intros H. apply wseq_ok in H as (x & y & H1 & H2 & ->).
  destruct (utf8 s) as [b|]; cbn in H2; unfold wok, wraise in H2; inversion H2; subst. eauto.
Qed.

Lemma take_le n b : (n <= length b)%nat -> take n b = Some (firstn n b, skipn n b).
Proof. intros H. unfold take. replace (n <=? length b)%nat with true by lia. reflexivity. Qed.

(** A reader expecting a byte slice recovers exactly the UTF-8 bytes iff the text is ASCII. *)
Lemma sia_str_read s w b : utf8 s = Ok b -> sia_add_slice (VStr s) = (w, None) ->
  (sia_read ShBytes w = Some (VBytes b, []) <-> ascii_str s).
Proof.
  intros Hb H. apply sia_str_add in H as (p & b' & Hb' & Hp & ->). rewrite Hb in Hb'. injection Hb' as <-.
  destruct (utf8_length _ _ Hb) as [HL HA]. rewrite <- HA.
  unfold sia_read. cbn [read]. apply (fun H => sia_read_int_add _ _ b H) in Hp as [Hp _]. rewrite Hp.
  rewrite take_le by lia. replace (N.to_nat (Z.to_N (Z.of_nat (length s)))) with (length s) by lia.
  split.
  - intros E. injection E as E _. apply (f_equal (@length N)) in E. rewrite firstn_length in E. lia.
  - intros E. rewrite <- E, firstn_all, skipn_all. reflexivity.
Qed.

Lemma riv_str_read s w b : utf8 s = Ok b -> riv_add_slice (VStr s) = (w, None) ->
  (riv_read ShBytes w = Some (VBytes b, []) <-> ascii_str s).
Proof.
  intros Hb H. apply riv_str_add in H as (p & b' & Hb' & Hp & ->). rewrite Hb in Hb'. injection Hb' as <-.
  destruct (utf8_length _ _ Hb) as [HL HA]. rewrite <- HA.
  unfold riv_read. cbn [read]. apply riv_len_ok in Hp as [Hn ->]. rewrite riv_read_prefix by exact Hn.
  unfold lenN. rewrite Nat2N.id. rewrite take_le by lia.
  split.
  - intros E. injection E as E _. apply (f_equal (@length N)) in E. rewrite firstn_length in E. lia.
  - intros E. rewrite <- E, firstn_all, skipn_all. reflexivity.
Qed.
Lemma str_slice_refuted :
  exists s b ws wr, utf8 s = Ok b /\ sia_add_slice (VStr s) = (ws, None) /\ riv_add_slice (VStr s) = (wr, None) /\
    sia_read ShBytes ws <> Some (VBytes b, []) /\ riv_read ShBytes wr <> Some (VBytes b, []).
Proof.
  exists [233], [195; 169], ([1;0;0;0;0;0;0;0] ++ [195; 169]), [2; 195; 169].
  repeat split; vm_compute; congruence.
Qed.

Lemma riv_prefix_minimal_w (n : N) (q rest : bytes) : n < 2 ^ 29 -> wf_bytes (q ++ rest) ->
  riv_read_len (q ++ rest) = Some (n, rest) ->
  exists p, riv_len n = (p, None) /\ (length p <= length q)%nat.
Proof.
  intros Hn Hw Hr. exists (prefix_of n). split.
  - rewrite riv_len_spec. apply N.ltb_lt in Hn. rewrite Hn. reflexivity.
  - exact (riv_prefix_minimal n q rest Hn Hw Hr).
Qed.
