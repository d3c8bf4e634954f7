(** Lemmas for base64 (C83). *)
From Verif Require Import Base BaseFacts Primitive Types Spec_Texts.
From Coq Require Import ZifyBool ZifyNat ZifyN.
Ltac Zify.zify_post_hook ::= Z.div_mod_to_equations.

Lemma letter_iff c d : letter c d <-> unb64c c = Some d.
Proof.
  unfold letter, unb64c. destruct ((65 <=? c) && (c <=? 90)) eqn:A; [split; [intro X; f_equal; lia|intros [= <-]; lia]|].
  destruct ((97 <=? c) && (c <=? 122)) eqn:B; [split; [intro X; f_equal; lia|intros [= <-]; lia]|].
  destruct ((48 <=? c) && (c <=? 57)) eqn:C; [split; [intro X; f_equal; lia|intros [= <-]; lia]|].
  destruct (N.eqb_spec c 43); [split; [intro X; f_equal; lia|intros [= <-]; lia]|]. destruct (N.eqb_spec c 47); [split; [intro X; f_equal; lia|intros [= <-]; lia]|].
  split; [lia|discriminate].
Qed.
Lemma no_letter_iff c : (forall d, ~ letter c d) <-> unb64c c = None.
Proof. split; [intro X; destruct (unb64c c) as [d|] eqn:E; [destruct (X d); now apply letter_iff|reflexivity]|]. intros E d L. apply letter_iff in L. congruence. Qed.
Lemma letters_fun p l : letters p l -> forall m, letters p m -> l = m.
Proof.
  induction 1 as [|c d t l L _ IH|c t l L _ IH]; intros m M; inversion M as [|c' d' t' l' L' M' E1 E2|c' t' l' L' M' E1 E2]; subst; try reflexivity.
  - apply letter_iff in L, L'. rewrite L in L'. injection L' as ->. f_equal. apply IH. assumption.
  - destruct (L' _ L).
  - destruct (L _ L').
  - apply IH. assumption.
Qed.
Lemma letters_app p l : letters p l -> forall q m, letters q m -> letters (p ++ q) (l ++ m).
Proof. induction 1; intros q m M; cbn [app]; [exact M| |]; constructor; auto. Qed.
Lemma letters_split p q l : letters (p ++ q) l -> exists a b, l = a ++ b /\ letters p a /\ letters q b.
Proof.
  revert l. induction p as [|c p IH]; intros l L; cbn [app] in L; [exists [], l; repeat split; [constructor|exact L]|].
  inversion L as [|c' d' t' l' L' M' E1 E2|c' t' l' L' M' E1 E2]; subst; destruct (IH _ M') as (a & b & -> & A & B).
  - exists (d' :: a), b. repeat split; [constructor; assumption|exact B].
  - exists a, b. repeat split; [constructor; assumption|exact B].
Qed.
Lemma letters_total p : exists l, letters p l.
Proof. induction p as [|c p (l & L)]; [exists []; constructor|]. destruct (unb64c c) as [d|] eqn:E; [exists (d :: l)|exists l]; constructor; auto; [now apply letter_iff|now apply no_letter_iff]. Qed.
(** what has been read of a quad, and whether an = came since *)
Definition tail_state (tl : list N) (q left : N) : Prop :=
  match tl with [] => q = 0 | [a] => q = 1 /\ left = a | [a; b] => q = 2 /\ left = b mod 16 | [a; b; c] => q = 3 /\ left = c mod 4 | _ => False end.
Definition emitted (tl : list N) : bytes :=
  match tl with [a; b] => [4 * a + b / 16] | [a; b; c] => [4 * a + b / 16; 16 * (b mod 16) + c / 4] | _ => [] end.
Inductive quads : list N -> bytes -> Prop :=
| quads_nil : quads [] []
| quads_cons a b c d l r : quads l r -> quads (a :: b :: c :: d :: l) (4 * a + b / 16 :: 16 * (b mod 16) + c / 4 :: 64 * (c mod 4) + d :: r).
Lemma quads_mod l r : quads l r -> Nat.modulo (length l) 4 = 0%nat.
Proof. induction 1; cbn [length]; [reflexivity|]. lia. Qed.
Lemma quads_fun l r : quads l r -> forall r', quads l r' -> r = r'.
Proof. induction 1; intros r' Q; inversion Q; subst; [reflexivity|]. repeat f_equal. auto. Qed.
Lemma quads_app l r : quads l r -> forall m s, quads m s -> quads (l ++ m) (r ++ s).
Proof. induction 1; intros; cbn [app]; [assumption|]. constructor. auto. Qed.
Lemma six_quads l r : quads l r -> forall tl b, six_bits (l ++ tl) b <-> exists t, b = r ++ t /\ six_bits tl t.
Proof.
  induction 1 as [|x y z w l r Q IH]; intros tl t; cbn [app].
  - split; [eauto|intros (t' & -> & S1); exact S1].
  - split.
    + intro S1. inversion S1 as [| | |? ? ? ? ? r' S2]; subst. apply IH in S2 as (t' & -> & S2). exists t'. auto.
    + intros (t' & -> & S2). constructor. apply IH. eauto.
Qed.
Lemma six_emitted tl b : (length tl < 4)%nat -> (six_bits tl b <-> length tl <> 1%nat /\ b = emitted tl).
Proof.
  intro L. destruct tl as [|x [|y [|z [|w tl]]]]; cbn [length emitted] in *; try lia.
  - split; [intro S1; inversion S1; auto|intros (_ & ->); constructor].
  - split; [intro S1; inversion S1|intros (X & _); lia].
  - split; [intro S1; inversion S1; auto|intros (_ & ->); constructor].
  - split; [intro S1; inversion S1; auto|intros (_ & ->); constructor].
Qed.
Definition body (s : pystr) (b : bytes) : Prop := exists l, six_bits l b /\
  ((letters s l /\ open_text s /\ Nat.modulo (length l) 4 = 0%nat) \/ (exists p r, s = p ++ 61 :: r /\ closes p /\ open_text p /\ letters p l)).
Lemma cut {A} (x : A) a b c d : a ++ x :: b = c ++ x :: d -> (a = c /\ b = d) \/ (exists e, c = a ++ x :: e /\ b = e ++ x :: d) \/ (exists e, a = c ++ x :: e /\ d = e ++ x :: b).
Proof.
  revert c. induction a as [|y a IH]; intros [|z c] E; cbn [app] in E.
  - injection E as ->. auto.
  - injection E as <- ->. right. left. exists c. auto.
  - injection E as -> <-. right. right. exists a. auto.
  - injection E as <- E. destruct (IH _ E) as [(-> & ->)|[(e & -> & ->)|(e & -> & ->)]]; [auto|right; left; exists e; auto|right; right; exists e; auto].
Qed.
Lemma open_snoc p c : open_text p -> (c = 61 -> ~ closes p) -> open_text (p ++ [c]).
Proof.
  intros O C x y E. destruct y as [|z y] using rev_ind.
  - apply app_inj_tail in E as (<- & Ec). auto.
  - rewrite app_comm_cons, app_assoc in E. apply app_inj_tail in E as (E & _). exact (O _ _ E).
Qed.
Lemma no61 : forall d, ~ letter 61 d.
Proof. intros d L. unfold letter in L. lia. Qed.
Definition padded (p : pystr) (pads : N) : Prop := pads = 0 /\ (forall x y, p = x ++ 61 :: y -> ~ letters y []) \/ 0 < pads /\ exists x y, p = x ++ 61 :: y /\ letters y [].
Lemma go_iff s : forall p l0 tl r0 q left pads tot, letters p (l0 ++ tl) -> quads l0 r0 -> tail_state tl q left -> open_text p -> (2 <= q -> padded p pads) ->
  (body (p ++ s) tot <-> exists b, b64dec_go q left pads s = Ok b /\ tot = r0 ++ emitted tl ++ b).
Proof.
  induction s as [|c s IH]; intros p l0 tl r0 q left pads tot LP Q0 T O P;
    (assert (LT : N.of_nat (length tl) = q /\ (length tl < 4)%nat) by (destruct tl as [|? [|? [|? [|]]]]; cbn [tail_state length] in *; lia)); pose proof (quads_mod _ _ Q0) as M0;
    (assert (LL : Nat.modulo (length (l0 ++ tl)) 4 = length tl) by (rewrite app_length; lia)).
  - rewrite app_nil_r. cbn [b64dec_go]. split.
    + intros (l & S1 & [(L & _ & M)|(p' & r' & E & C & _)]); [|destruct (O _ _ E C)]. rewrite (letters_fun _ _ L _ LP) in *. assert (Eq : q = 0) by lia. replace (q =? 0) with true by lia. destruct tl; [|cbn [length] in LT; lia].
      apply (six_quads _ _ Q0) in S1 as (t & E & S2). inversion S2; subst. exists []. auto.
    + intros (b & E & ->). destruct (N.eqb_spec q 0); [|discriminate]. apply ok_inj in E. subst b. destruct tl; [|cbn [length] in LT; lia]. cbn [emitted app] in *. rewrite app_nil_r in *. exists l0. split; [|left; auto].
      rewrite <- (app_nil_r l0). apply (six_quads _ _ Q0). exists []. rewrite app_nil_r. split; [reflexivity|constructor].
  - replace (p ++ c :: s) with ((p ++ [c]) ++ s) by (rewrite <- app_assoc; reflexivity). cbn [b64dec_go].
    destruct (N.eqb_spec c 61) as [->|Nc].
    + assert (CL : (2 <=? q) && (4 <=? q + (pads + 1)) = true <-> closes p).
      { split.
        - intro X. exists (l0 ++ tl). split; [exact LP|]. rewrite LL. destruct (N.eqb_spec q 3); [left; lia|]. right. split; [lia|]. assert (Q2 : 2 <= q) by lia. destruct (P Q2) as [(P0 & _)|(_ & P1)]; [lia|exact P1].
        - intros (l & L & X). rewrite (letters_fun _ _ L _ LP) in X. rewrite LL in X. destruct X as [X|(X & x & y & E & LY)]; [lia|]. assert (Q2 : 2 <= q) by lia. destruct (P Q2) as [(_ & P1)|(P1 & _)]; [destruct (P1 _ _ E LY)|lia]. }
      destruct ((2 <=? q) && (4 <=? q + (pads + 1))) eqn:X.
      * assert (C : closes p) by (apply CL; reflexivity). assert (Q2 : length tl <> 1%nat) by lia. rewrite <- app_assoc. cbn [app]. split.
        -- intros (l & S1 & [(_ & O' & _)|(p' & r' & E & C' & O' & L)]); [destruct (O' _ _ eq_refl C)|]. apply cut in E as [(<- & _)|[(e & -> & _)|(e & -> & _)]]; [|destruct (O' _ _ eq_refl C)|destruct (O _ _ eq_refl C')].
           rewrite (letters_fun _ _ L _ LP) in S1. apply (six_quads _ _ Q0) in S1 as (t & E & S1). apply six_emitted in S1 as (_ & ->); [|lia]. exists []. rewrite app_nil_r. auto.
        -- intros (b & E & ->). apply ok_inj in E. subst b. rewrite app_nil_r. exists (l0 ++ tl). split; [|right; exists p, s; auto]. apply (six_quads _ _ Q0). exists (emitted tl). split; [reflexivity|]. apply six_emitted; [lia|auto].
      * apply (IH (p ++ [61]) l0 tl r0); auto.
        -- rewrite <- (app_nil_r (l0 ++ tl)). apply letters_app; [exact LP|]. apply letters_skip; [apply no61|constructor].
        -- apply open_snoc; [exact O|]. intros _ C. apply CL in C. discriminate.
        -- intro Q2. right. replace (2 <=? q) with true by lia. split; [lia|]. exists p, []. split; [reflexivity|constructor].
    + destruct (unb64c c) as [d|] eqn:U.
      * assert (LD : letters (p ++ [c]) ((l0 ++ tl) ++ [d])) by (apply letters_app; [exact LP|]; constructor; [now apply letter_iff|constructor]). rewrite <- app_assoc in LD.
        assert (O' : open_text (p ++ [c])) by (apply open_snoc; [exact O|congruence]).
        assert (P' : padded (p ++ [c]) 0).
        { left. split; [reflexivity|]. intros x y E LY. destruct y as [|z y] using rev_ind; [apply app_inj_tail in E as (_ & E); congruence|]. rewrite app_comm_cons, app_assoc in E. apply app_inj_tail in E as (_ & <-).
          apply letters_split in LY as (a' & b' & E' & _ & LB). destruct a'; [|discriminate]. cbn [app] in E'. subst b'. inversion LB as [| |? ? ? NL]; subst. apply (NL d). now apply letter_iff. }
        destruct tl as [|x [|y [|z [|w tl]]]]; cbn [tail_state] in T.
        -- subst q. cbn [N.eqb]. rewrite (IH (p ++ [c]) l0 [d] r0 1 d 0 tot); [reflexivity|exact LD|exact Q0|cbn; auto|exact O'|lia].
        -- destruct T as (-> & ->). cbn [N.eqb Pos.eqb]. rewrite (IH (p ++ [c]) l0 [x; d] r0 2 (d mod 16) 0 tot); [|exact LD|exact Q0|cbn; auto|exact O'|auto].
           cbn [emitted app]. destruct (b64dec_go 2 (d mod 16) 0 s) as [r|e]; cbn [bind]; (split; [|]); intros (b & E & ->); try discriminate; apply ok_inj in E; subst b; eexists; (split; [reflexivity|]); rewrite <- ?app_assoc; reflexivity.
        -- destruct T as (-> & ->). cbn [N.eqb Pos.eqb]. rewrite (IH (p ++ [c]) l0 [x; y; d] r0 3 (d mod 4) 0 tot); [|exact LD|exact Q0|cbn; auto|exact O'|auto].
           cbn [emitted app]. destruct (b64dec_go 3 (d mod 4) 0 s) as [r|e]; cbn [bind]; (split; [|]); intros (b & E & ->); try discriminate; apply ok_inj in E; subst b; eexists; (split; [reflexivity|]); rewrite <- ?app_assoc; reflexivity.
        -- destruct T as (-> & ->). cbn [N.eqb Pos.eqb].
           assert (QD : quads (l0 ++ [x; y; z; d]) (r0 ++ [4 * x + y / 16; 16 * (y mod 16) + z / 4; 64 * (z mod 4) + d])) by (apply quads_app; [exact Q0|repeat constructor]).
           rewrite (IH (p ++ [c]) (l0 ++ [x; y; z; d]) [] (r0 ++ [4 * x + y / 16; 16 * (y mod 16) + z / 4; 64 * (z mod 4) + d]) 0 0 0 tot); [|rewrite app_nil_r; exact LD|exact QD|reflexivity|exact O'|lia].
           cbn [emitted app]. destruct (b64dec_go 0 0 0 s) as [r|e]; cbn [bind]; (split; [|]); intros (b & E & ->); try discriminate; apply ok_inj in E; subst b; eexists; (split; [reflexivity|]); rewrite <- ?app_assoc; reflexivity.
        -- contradiction.
      * apply (IH (p ++ [c]) l0 tl r0); auto.
        -- rewrite <- (app_nil_r (l0 ++ tl)). apply letters_app; [exact LP|]. apply letters_skip; [now apply no_letter_iff|constructor].
        -- apply open_snoc; [exact O|congruence].
        -- intro Q2. destruct (P Q2) as [(P0 & P1)|(P0 & x & y & -> & LY)]; [left|right]; (split; [exact P0|]).
           ++ intros x y E LY. destruct y as [|z y] using rev_ind; [apply app_inj_tail in E as (_ & E); congruence|]. rewrite app_comm_cons, app_assoc in E. apply app_inj_tail in E as (-> & _).
              apply letters_split in LY as (a' & b' & E' & LA & _). destruct a'; [|discriminate]. exact (P1 _ _ eq_refl LA).
           ++ exists x, (y ++ [c]). split; [rewrite <- app_assoc; reflexivity|]. change (@nil N) with (@nil N ++ []). apply letters_app; [exact LY|]. apply letters_skip; [now apply no_letter_iff|constructor].
Qed.
Lemma b64dec_iff s b : b64dec s = Ok b <-> base64_text s b.
Proof.
  unfold b64dec, base64_text. destruct (forallb (fun c => c <? 128) s) eqn:F.
  - assert (W : Forall (fun c => c < 128) s) by (apply Forall_forall; intros x I; apply (proj1 (forallb_forall _ _) F) in I; lia).
    assert (O : open_text []) by (intros x y E; destruct x; discriminate).
    pose proof (go_iff s [] [] [] [] 0 0 0 b letters_end quads_nil eq_refl O ltac:(lia)) as G. cbn [app emitted] in G. fold (body s b). rewrite G. split; [intro E; split; [exact W|eauto]|]. intros (_ & b' & E & ->). exact E.
  - split; [discriminate|]. intros (W & _). rewrite (proj2 (forallb_forall _ _)) in F; [discriminate|]. intros x I. apply (proj1 (Forall_forall _ _) W) in I. lia.
Qed.
