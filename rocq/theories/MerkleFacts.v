From Verif Require Import Base BaseFacts Merkle Spec_Merkle.

Section Facts.
  Variable H : bytes -> bytes.

  (** The stack represents the leaves pushed so far: blocks of 2^height leaves, heights increasing. *)
  Inductive rep : tree -> list bytes -> Prop :=
  | rep_nil : rep [] []
  | rep_cons h s t ls b :
      rep t ls -> length b = (2 ^ h)%nat -> merkle H b s ->
      (forall n t', t = n :: t' -> (h < fst n)%nat) -> rep ((h, s) :: t) (ls ++ b).

  Lemma join_loop_rep h s t ls b :
    rep t ls -> length b = (2 ^ h)%nat -> merkle H b s ->
    (forall n t', t = n :: t' -> (h <= fst n)%nat) -> rep (join_loop H (h, s) t) (ls ++ b).
  Proof.
    intros HR; revert h s b; induction HR as [|h' s' t ls b' HR IH HL HM Hlt]; intros h s b Hb Hm Hle.
    - cbn [join_loop]. apply rep_cons; auto; [constructor | intros n t' E; discriminate].
    - cbn [join_loop fst]. destruct (Nat.eqb_spec h h') as [->|Hne].
      + rewrite <- app_assoc. apply IH.
        * rewrite Nat.pow_succ_r by lia. rewrite app_length, HL, Hb. cbn [fst]. lia.
        * apply merkle_node with (k := h'); auto. rewrite Hb.
          pose proof (Nat.pow_nonzero 2 h'). lia.
        * intros n t' E. apply Hlt in E. cbn [fst]. lia.
      + apply rep_cons; auto; [apply rep_cons; auto|].
        intros n t' E. inversion E; subst. cbn [fst] in *. specialize (Hle _ _ eq_refl). cbn in Hle. lia.
  Qed.

  Lemma push_rep t ls d : rep t ls -> rep (push H t d) (ls ++ [d]).
  Proof.
    intros HR. apply join_loop_rep; auto; [constructor | intros; lia].
  Qed.

  Lemma push_all_rep ls t ls0 : rep t ls0 -> rep (fold_left (push H) ls t) (ls0 ++ ls).
  Proof.
    revert t ls0; induction ls as [|d ls IH]; intros t ls0 HR; cbn [fold_left].
    - rewrite app_nil_r; exact HR.
    - replace (ls0 ++ d :: ls) with ((ls0 ++ [d]) ++ ls) by (rewrite <- app_assoc; reflexivity).
      apply IH, push_rep, HR.
  Qed.

  Lemma merkle_nonempty ls r : merkle H ls r -> (1 <= length ls)%nat.
  Proof. induction 1; cbn; [lia|]. rewrite app_length. lia. Qed.

  Lemma root_loop_rep t ls : rep t ls -> forall h s b,
    merkle H b s -> (length b <= 2 ^ h)%nat ->
    (forall n t', t = n :: t' -> (h <= fst n)%nat) ->
    merkle H (ls ++ b) (root_loop H (h, s) t).
  Proof.
    induction 1 as [|h' s' t ls b' HR IH HL HM Hlt]; intros h s b Hm Hle Hh.
    - exact Hm.
    - cbn [root_loop]. unfold join_subtree; cbn [fst snd].
      rewrite <- app_assoc. pose proof (merkle_nonempty _ _ Hm).
      specialize (Hh _ _ eq_refl). cbn in Hh.
      assert (Hle' : (length b <= 2 ^ h')%nat).
      { eapply Nat.le_trans; [exact Hle|]. apply Nat.pow_le_mono_r; lia. }
      apply IH.
      + apply merkle_node with (k := h'); auto.
      + rewrite Nat.pow_succ_r by lia. rewrite app_length. lia.
      + intros n t' E. apply Hlt in E. lia.
  Qed.

  Lemma rep_root t ls : rep t ls -> ls <> [] -> exists r, root H t = Ok r /\ merkle H ls r.
  Proof.
    intros HR Hne. destruct HR as [|h s t ls b HR HL HM Hlt]; [congruence|].
    exists (root_loop H (h, s) t). split; [reflexivity|].
    apply root_loop_rep with (1 := HR); auto; [lia|].
    intros n t' E. apply Hlt in E. lia.
  Qed.

  Lemma merkle_root ls : ls <> [] -> exists r, root H (push_all H ls) = Ok r /\ merkle H ls r.
  Proof.
    intros Hne. apply rep_root; [|exact Hne]. apply (push_all_rep ls tree_new []). constructor.
  Qed.

  Lemma pow2_split k k' a b :
    (2 ^ k + a = 2 ^ k' + b)%nat -> (1 <= a <= 2 ^ k)%nat -> (1 <= b <= 2 ^ k')%nat -> k = k'.
  Proof.
    intros E Ha Hb. destruct (Nat.lt_trichotomy k k') as [L|[?|L]]; [|assumption|].
    - assert (2 ^ S k <= 2 ^ k')%nat by (apply Nat.pow_le_mono_r; lia). rewrite Nat.pow_succ_r in * by lia. lia.
    - assert (2 ^ S k' <= 2 ^ k)%nat by (apply Nat.pow_le_mono_r; lia). rewrite Nat.pow_succ_r in * by lia. lia.
  Qed.

  Lemma merkle_fun ls r r' : merkle H ls r -> merkle H ls r' -> r = r'.
  Proof.
    intros M; revert r'; induction M as [d|l r a b k HL HR Ml IHl Mr IHr]; intros r' M'.
    - inversion M' as [d' E|l' r'' a' b' k' HL' HR' Ml' Mr' E]; subst; [reflexivity|].
      apply (f_equal (@length _)) in E. rewrite app_length in E. cbn in E.
      pose proof (merkle_nonempty _ _ Ml'). lia.
    - inversion M' as [d' E|l' r2 a' b' k' HL' HR' Ml' Mr' E]; subst.
      + apply (f_equal (@length _)) in E. rewrite app_length in E. cbn in E.
        pose proof (merkle_nonempty _ _ Ml). lia.
      + assert (length l = length l').
        { pose proof (f_equal (@length _) E) as EL. rewrite !app_length, HL, HL' in EL.
          rewrite HL, HL'. f_equal. symmetry. eapply (pow2_split k' k (length r2) (length r)); auto. }
        apply app_inj_len in E as [-> ->]; [|congruence].
        rewrite (IHl _ Ml'), (IHr _ Mr'). reflexivity.
  Qed.

  Lemma root_iff ls r : ls <> [] -> (root H (push_all H ls) = Ok r <-> merkle H ls r).
  Proof.
    intros Hne. destruct (merkle_root ls Hne) as (r' & E & M). rewrite E. split.
    - intros E'; inversion E'; subst; exact M.
    - intros M'. rewrite (merkle_fun _ _ _ M M'). reflexivity.
  Qed.

  Lemma root_empty : root H (push_all H []) = Err TypeError.
  Proof. reflexivity. Qed.
End Facts.
