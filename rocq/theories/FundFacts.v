(** Facts about funding: what is selected (C34) and that a selection is found (C35). *)
From Verif Require Import Base BaseFacts Encoders Primitive Types Conditions Fulfillments ThreeBotTypes Txn Wallet Spec_Wallet WalletFacts WalletFacts2.
From Coq Require Import ZifyBool ZifyNat ZifyN Sorted.
Ltac Zify.zify_post_hook ::= Z.div_mod_to_equations.

(** ** Sorting *)
Lemma insert_val_perm f x l : Permutation (insert_val f x l) (x :: l).
Proof.
  induction l as [|y l IH]; cbn; [constructor; constructor|]. destruct (f x y); [reflexivity|].
  rewrite IH. apply perm_swap.
Qed.
Lemma sort_by_perm f l : Permutation (sort_by f l) l.
Proof. unfold sort_by. induction l as [|x l IH]; cbn; [constructor|]. rewrite insert_val_perm. now constructor. Qed.
Definition desc (l : list N) : Prop := StronglySorted (fun x y => y <= x) l.
Definition asc (l : list N) : Prop := StronglySorted (fun x y => x <= y) l.
Lemma insert_val_Forall (P : output -> Prop) f x l : P x -> Forall P l -> Forall P (insert_val f x l).
Proof. intros X F. eapply Permutation_Forall; [symmetry; apply insert_val_perm|]. now constructor. Qed.
Lemma sort_asc_sorted l : asc (map o_value (sort_asc l)).
Proof.
  unfold sort_asc, sort_by. induction l as [|x l IH]; cbn; [constructor|].
  set (s := fold_right _ _ _) in *. clearbody s. induction s as [|y s IHs]; cbn; [repeat constructor|].
  destruct (o_value x <=? o_value y) eqn:E.
  - cbn. constructor; auto. constructor; [lia|]. inversion_clear IH as [|? ? S F]. eapply Forall_impl; [|exact F]. cbn. intros; lia.
  - cbn. inversion_clear IH as [|? ? S F]. constructor; [now apply IHs|].
    apply Forall_map. apply insert_val_Forall; [lia|]. rewrite Forall_map in F. exact F.
Qed.
Lemma sort_desc_sorted l : desc (map o_value (sort_desc l)).
Proof.
  unfold sort_desc, sort_by. induction l as [|x l IH]; cbn; [constructor|].
  set (s := fold_right _ _ _) in *. clearbody s. induction s as [|y s IHs]; cbn; [repeat constructor|].
  destruct (o_value y <=? o_value x) eqn:E.
  - cbn. constructor; auto. constructor; [lia|]. inversion_clear IH as [|? ? S F]. eapply Forall_impl; [|exact F]. cbn. intros; lia.
  - cbn. inversion_clear IH as [|? ? S F]. constructor; [now apply IHs|].
    apply Forall_map. apply insert_val_Forall; [lia|]. rewrite Forall_map in F. exact F.
Qed.

(** ** The largest selections of a sorted list *)
Lemma top_sum l : desc l -> forall k s r, Permutation (s ++ r) l -> (length s <= k)%nat -> sum s <= sum (firstn k l).
Proof.
  induction l as [|x l IH]; intros D k s r P L.
  - apply Permutation_sym, Permutation_nil, app_eq_nil in P as [-> ->]. cbn. lia.
  - inversion_clear D as [|? ? D' F]. destruct k as [|k]; [destruct s; cbn in *; lia|]. cbn [firstn sum].
    assert (I : In x (s ++ r)) by (eapply Permutation_in; [symmetry; exact P|now left]).
    apply in_app_iff in I as [I|I]; apply in_split in I as (a & b & ->).
    + assert (P' : Permutation ((a ++ b) ++ r) l).
      { apply Permutation_cons_inv with (a := x). rewrite <- P. rewrite <- app_assoc. cbn [app]. rewrite <- app_assoc. apply Permutation_middle. }
      specialize (IH D' k (a ++ b) r P'). rewrite app_length in *. cbn [length] in L. rewrite !sum_app in *. cbn [sum]. lia.
    + destruct s as [|y s]; [cbn; lia|].
      assert (P' : Permutation ((y :: s) ++ (a ++ b)) l).
      { apply Permutation_cons_inv with (a := x). rewrite <- P. rewrite !app_assoc. apply Permutation_middle. }
      assert (Y : y <= x). { rewrite Forall_forall in F. apply F. eapply Permutation_in; [exact P'|now left]. }
      specialize (IH D' k s (y :: a ++ b)). rewrite <- Permutation_middle in IH. specialize (IH P').
      cbn [length sum] in *. lia.
Qed.
Definition lastn {A} (n : nat) (l : list A) : list A := skipn (length l - n) l.
Lemma asc_rev l : asc l -> desc (rev l).
Proof.
  induction 1 as [|x l S IH F]; [constructor|]. cbn. clear S. revert IH F. generalize (rev l) (in_rev l). intros m E IH F.
  assert (F' : Forall (fun y => x <= y) m). { rewrite Forall_forall in *. intros y I. apply F, E, I. }
  clear E F. induction m as [|y m IHm]; cbn; [repeat constructor|]. inversion_clear IH as [|? ? S F]. inversion_clear F' as [|? ? X F''].
  constructor; [now apply IHm|]. apply Forall_app. split; [exact F|]. constructor; [exact X|constructor].
Qed.
Lemma bottom_sum l : asc l -> forall k s r, Permutation (s ++ r) l -> (length s <= k)%nat -> sum s <= sum (lastn k l).
Proof.
  intros A k s r P L. unfold lastn.
  pose proof (top_sum (rev l) (asc_rev l A) k s r) as T. rewrite firstn_rev in T.
  assert (sum (rev (skipn (length l - k) l)) = sum (skipn (length l - k) l)) as E by (apply sum_perm; symmetry; apply Permutation_rev).
  rewrite E in T. apply T; auto. rewrite P. apply Permutation_rev.
Qed.
(** a selection of two lists is a selection of each *)
Lemma split_selection {A} (c u : list A) : forall s r, Permutation (s ++ r) (c ++ u) ->
  exists s1 r1 s2 r2, Permutation (s1 ++ r1) c /\ Permutation (s2 ++ r2) u /\ Permutation s (s1 ++ s2) /\ Permutation r (r1 ++ r2).
Proof.
  induction c as [|x c IH]; intros s r P; cbn in P.
  - exists [], [], s, r. cbn. auto.
  - assert (I : In x (s ++ r)) by (eapply Permutation_in; [symmetry; exact P|now left]).
    apply in_app_iff in I as [I|I]; apply in_split in I as (a & b & ->).
    + destruct (IH (a ++ b) r) as (s1 & r1 & s2 & r2 & P1 & P2 & P3 & P4).
      { apply Permutation_cons_inv with (a := x). rewrite <- P. rewrite <- app_assoc. cbn [app]. rewrite <- app_assoc. apply Permutation_middle. }
      exists (x :: s1), r1, s2, r2. cbn. split; [now constructor|]. split; [exact P2|]. split; [|exact P4]. rewrite <- Permutation_middle. now constructor.
    + destruct (IH s (a ++ b)) as (s1 & r1 & s2 & r2 & P1 & P2 & P3 & P4).
      { apply Permutation_cons_inv with (a := x). rewrite <- P. rewrite !app_assoc. apply Permutation_middle. }
      exists s1, (x :: r1), s2, r2. split; [rewrite <- Permutation_middle; now constructor|]. split; [exact P2|]. split; [exact P3|].
      cbn. rewrite <- Permutation_middle. now constructor.
Qed.

(** ** The loop *)
Lemma lastn_all {A} n (l : list A) : (length l <= n)%nat -> lastn n l = l.
Proof. intro L. unfold lastn. replace (length l - n)%nat with 0%nat by lia. reflexivity. Qed.
Lemma lastn_length {A} n (l : list A) : length (lastn n l) = Nat.min n (length l).
Proof. unfold lastn. rewrite skipn_length. lia. Qed.
Lemma lastn_app {A} n (l m : list A) : (length m <= n)%nat -> lastn n (l ++ m) = lastn (n - length m) l ++ m.
Proof.
  intro L. unfold lastn. rewrite app_length, skipn_app.
  replace (length l + length m - n)%nat with (length l - (n - length m))%nat by lia.
  replace (length l - (n - length m) - length l)%nat with 0%nat by lia. reflexivity.
Qed.
Lemma skipn_skipn {A} b : forall a (l : list A), skipn a (skipn b l) = skipn (b + a) l.
Proof. induction b as [|b IH]; intros a l; [reflexivity|]. destruct l; cbn; [now rewrite skipn_nil|]. apply IH. Qed.
Lemma lastn_snoc {A} n (l : list A) x : (0 < n)%nat -> lastn n (lastn n l ++ [x]) = lastn n (l ++ [x]).
Proof.
  intro L. rewrite !lastn_app by (cbn; lia). cbn [length]. f_equal. unfold lastn. rewrite skipn_skipn, skipn_length. f_equal. lia.
Qed.

(** one turn of the loop keeps the last 99 *)
Definition window (n : nat) (outs : list output) (collected : N) (co : output) : list output * N :=
  let collected := collected + o_value co in
  let outs := outs ++ [co] in
  if (n <? length outs)%nat then match outs with [] => (outs, collected) | x :: l => (l, collected - o_value x) end else (outs, collected).
Lemma window_eq n z co : (0 < n)%nat -> window n (lastn n z) (worth (lastn n z)) co = (lastn n (z ++ [co]), worth (lastn n (z ++ [co]))).
Proof.
  intro P. rewrite <- (lastn_snoc n z co P). unfold window.
  assert (L : (length (lastn n z) <= n)%nat) by (rewrite lastn_length; lia).
  destruct (n <? length (lastn n z ++ [co]))%nat eqn:E.
  - apply Nat.ltb_lt in E. rewrite app_length in E. cbn [length] in E. destruct (lastn n z) as [|x l] eqn:Z; [cbn in *; lia|]. cbn [app length] in *.
    assert (lastn n (x :: l ++ [co]) = l ++ [co]) as ->.
    { unfold lastn. cbn [length]. rewrite app_length. cbn [length]. replace (S (length l + 1) - n)%nat with 1%nat by lia. reflexivity. }
    f_equal. rewrite worth_app. unfold worth. cbn. lia.
  - apply Nat.ltb_ge in E. rewrite (lastn_all n (lastn n z ++ [co])) by exact E. f_equal. rewrite worth_app. unfold worth. cbn. lia.
Qed.
Lemma pick_cons amount co cos outs collected : pick amount (co :: cos) outs collected =
  if amount <=? o_value co then inl ([co], o_value co) else
  let '(outs, collected) := window 99 outs collected co in
  if amount <=? collected then inl (outs, collected) else pick amount cos outs collected.
Proof. reflexivity. Qed.

Lemma pick_spec amount cos : forall z,
  (exists i, (i <= length cos)%nat /\ exists s, pick amount cos (lastn 99 z) (worth (lastn 99 z)) = inl (s, worth s) /\ amount <= worth s /\
      ((exists co, In co cos /\ s = [co]) \/ s = lastn 99 (z ++ firstn i cos))) \/
  (pick amount cos (lastn 99 z) (worth (lastn 99 z)) = inr (lastn 99 (z ++ cos), worth (lastn 99 (z ++ cos))) /\
   forall i, (0 < i <= length cos)%nat -> worth (lastn 99 (z ++ firstn i cos)) < amount).
Proof.
  induction cos as [|co cos IH]; intros z.
  - right. cbn [pick]. rewrite app_nil_r. split; [reflexivity|]. cbn. intros; lia.
  - rewrite pick_cons. rewrite window_eq by lia. destruct (amount <=? o_value co) eqn:E1.
    { left. exists 0%nat. split; [lia|]. exists [co]. unfold worth. cbn. rewrite N.add_0_r. repeat split; [lia|]. left. eauto. }
    destruct (amount <=? worth (lastn 99 (z ++ [co]))) eqn:E2.
    { left. exists 1%nat. split; [cbn; lia|]. exists (lastn 99 (z ++ [co])). repeat split; [lia|]. right. reflexivity. }
    destruct (IH (z ++ [co])) as [(i & Li & s & Es & A & Sel)|[Es W]].
    + left. exists (S i). split; [cbn; lia|]. exists s. repeat split; auto. destruct Sel as [(co' & I & ->)| ->]; [left; exists co'; split; [now right|auto]|].
      right. cbn [firstn]. rewrite <- app_assoc. reflexivity.
    + right. rewrite <- app_assoc in Es. split; [exact Es|]. intros [|i] Li; [lia|]. cbn [firstn length] in *.
      destruct i as [|i]; [cbn; lia|]. specialize (W (S i) ltac:(lia)). rewrite <- app_assoc in W. exact W.
Qed.
