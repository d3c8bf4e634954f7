(** Property C44: exactly which values are valid, and which of the valid ones are accepted. *)
From Verif Require Import Base BaseFacts Primitive Types ThreeBotTypes Spec_Types Spec_ERC20 Prop_ERC20 HexFacts.
From Coq Require Import ZifyBool ZifyNat ZifyN.

(** A text is valid exactly when what follows the prefix has 40 characters which Python reads as a hexadecimal number. *)
Theorem C44_valid_texts : forall s t, after_prefix s t -> (eaddr_valid (BVStr s) = true <-> length t = 40%nat /\ hex_number t).
Proof.
  intros s t A. destruct (drop_0x_spec s t A) as [D _]. cbn [eaddr_valid]. rewrite D, andb_true_iff, hexint_iff, Nat.eqb_eq. reflexivity.
Qed.
Print Assumptions C44_valid_texts.
(** A valid text is accepted exactly when all 40 characters are digits; the address are then their bytes. *)
Theorem C44_valid_accepted : forall s t, after_prefix s t -> eaddr_valid (BVStr s) = true -> ((exists b, b <> [] /\ eaddr_new (BVStr s) = Ok b) <-> Forall hexchar t).
Proof.
  intros s t A V. pose proof (proj1 (C44_valid_texts s t A) V) as (L & _). split.
  - intros (b & N & E). apply (eaddr_new_str s t b A) in E as [E [K|K]]; [destruct b; [congruence|discriminate K]|]. apply (proj2 (unhex_len _ t b (le_n _) E)). lia.
  - intro F. now apply (C44_digits_partial s t A F).
Qed.
Print Assumptions C44_valid_accepted.
Lemma digit_value_iff c x : digit_value c x <-> unhexdig c = Some x.
Proof. unfold digit_value, unhexdig. split; [intros [(A & ->)|[(A & ->)|(A & ->)]]|]; repeat match goal with |- context [if ?b then _ else _] => destruct b eqn:? end; try discriminate; try (f_equal; lia); try (intro E; injection E as <-; lia); lia. Qed.
Lemma pairs_iff t b : pairs t b <-> unhex t = Ok b.
Proof.
  split.
  - induction 1 as [|c t b B P IH|c d t b x y X Y P IH]; [reflexivity| |].
    + cbn [unhex]. replace (is_space c) with true by (unfold is_space; lia). exact IH.
    + cbn [unhex]. apply digit_value_iff in X, Y. rewrite (hexchar_space c (proj2 (unhexdig_char c) (ex_intro _ x X))), X, Y, IH. reflexivity.
  - assert (G : forall n t b, (length t <= n)%nat -> unhex t = Ok b -> pairs t b); [|intro E; exact (G _ t b (le_n _) E)]. clear t b.
    induction n as [|n IH]; intros t b L E; [destruct t; [apply ok_inj in E; subst; constructor|cbn in L; lia]|].
    destruct t as [|c t]; [apply ok_inj in E; subst; constructor|]. cbn [unhex length] in *. destruct (is_space c) eqn:B.
    + apply skip_blank; [unfold is_space in B; lia|]. apply IH; [lia|exact E].
    + destruct t as [|d t]; [discriminate|]. destruct (unhexdig c) as [x|] eqn:X; [|discriminate]. destruct (unhexdig d) as [y|] eqn:Y; [|discriminate].
      apply bind_ok in E as (r & E & F). apply ok_inj in F. subst b. cbn [length] in L. apply a_pair; [now apply digit_value_iff|now apply digit_value_iff|]. apply IH; [lia|exact E].
Qed.
(** An accepted text is digits in pairs, with blanks before and between them: 20 pairs, or none at all. *)
Theorem C44_accepted_texts : forall s t b, after_prefix s t -> (eaddr_new (BVStr s) = Ok b <-> pairs t b /\ (length b = 0 \/ length b = 20)%nat).
Proof. intros s t b A. rewrite (eaddr_new_str s t b A), pairs_iff. reflexivity. Qed.
Print Assumptions C44_accepted_texts.
Example C44_valid_ex : hex_number (s2b " -0x_" ++ repeat 97 15 ++ 95 :: repeat 53 17 ++ [10; 32]) /\ length (s2b " -0x_" ++ repeat 97 15 ++ 95 :: repeat 53 17 ++ [10; 32]) = 40%nat /\
  ~ hex_number (repeat 97 20 ++ 95 :: 95 :: repeat 97 18) /\ ~ hex_number (repeat 97 39 ++ s2b "_") /\ pairs (s2b " a1 0f") [161; 15].
Proof.
  split; [apply hexint_iff; vm_compute; reflexivity|]. split; [reflexivity|].
  split; [rewrite <- hexint_iff; vm_compute; discriminate|]. split; [rewrite <- hexint_iff; vm_compute; discriminate|]. apply pairs_iff. reflexivity.
Qed.
