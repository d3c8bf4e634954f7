(** Facts about the texts of network addresses (C43). *)
From Verif Require Import Base BaseFacts Encoders EncodersFacts Primitive Types Conditions Fulfillments ThreeBotTypes Txn Spec_Txn Spec_Ops Spec_ThreeBot ThreeBotFacts ThreeBotFacts2.
From Coq Require Import ZifyBool ZifyNat ZifyN.
Ltac Zify.zify_post_hook ::= Z.div_mod_to_equations.

Lemma forall_last {A} (P : A -> Prop) d x : Forall P (d ++ [x]) -> P x.
Proof. intro F. apply Forall_app in F as [_ F]. now inversion F. Qed.
Lemma last_of {A} (t : list A) : t = [] \/ exists u c, t = u ++ [c].
Proof. destruct t using rev_ind; [auto | right; eauto]. Qed.
Lemma domain_last s c : host_domain (s ++ [c]) -> letter c.
Proof.
  intros [[F L]|(d & t & E & D & Ld & T & Lt)]; [exact (forall_last _ _ _ F)|].
  destruct (last_of t) as [->|(u & x & ->)]; [cbn in Lt; lia|].
  change (DOT :: u ++ [x]) with ((DOT :: u) ++ [x]) in E. rewrite app_assoc in E. apply app_inj_tail in E as [_ <-]. exact (forall_last _ _ _ T).
Qed.
Lemma host_last s c : host_name (s ++ [c]) -> letter c.
Proof.
  intros (l & d & E & L & D). destruct (last_of d) as [->|(u & x & ->)].
  - destruct D as [[_ D]|(d & t & X & _)]; [cbn in D; lia | destruct d; discriminate].
  - change (DOT :: u ++ [x]) with ((DOT :: u) ++ [x]) in E. rewrite app_assoc in E. apply app_inj_tail in E as [_ <-]. exact (domain_last _ _ D).
Qed.
Lemma not_host_digit s c : digit c -> ~ maybe_newline host_name (s ++ [c]).
Proof.
  intros Dg [M|(t & E & M)]; [apply host_last in M; unfold letter, digit in *; lia|]. apply app_inj_tail in E as [_ ->]. unfold digit in Dg. lia.
Qed.
Lemma label_plain s : host_label s -> Forall (fun c => letter_digit c \/ dash c \/ underscore c) s.
Proof.
  intros [(a & -> & A)|[(a & b & -> & A)|(a & m & z & -> & A & Z & M & _)]].
  - apply Forall_cons; [left; left; exact A | apply Forall_nil].
  - unfold letter_digit. apply Forall_cons; [tauto|]. apply Forall_cons; [tauto | apply Forall_nil].
  - apply Forall_cons; [tauto|]. apply Forall_app. split; [exact M|]. apply Forall_cons; [tauto | apply Forall_nil].
Qed.
Lemma domain_plain s : host_domain s -> Forall (fun c => letter_digit c \/ dash c \/ c = DOT) s.
Proof.
  intros [[F _]|(d & t & -> & D & _ & T & _)].
  - eapply Forall_impl; [|exact F]. intros c C. left. left. exact C.
  - apply Forall_app. split; [eapply Forall_impl; [|exact D]; cbn; tauto|]. constructor; [auto|]. eapply Forall_impl; [|exact T]. intros c C. left. left. exact C.
Qed.
Lemma host_plain s : host_name s -> ~ In 58 s.
Proof.
  intros (l & d & -> & L & D) I. apply in_app_or in I as [I|[I|I]].
  - pose proof (proj1 (Forall_forall _ _) (label_plain _ L) _ I) as X. cbn in X. unfold letter_digit, letter, digit, dash, underscore in X. lia.
  - discriminate.
  - pose proof (proj1 (Forall_forall _ _) (domain_plain _ D) _ I) as X. cbn in X. unfold letter_digit, letter, digit, dash, DOT in X. lia.
Qed.
Lemma not_host_colon s : In 58 s -> ~ maybe_newline host_name s.
Proof.
  intros I [M|(t & -> & M)]; [exact (host_plain _ M I)|]. apply in_app_or in I as [I|[I|[]]]; [exact (host_plain _ M I) | discriminate].
Qed.
Lemma host_nonempty s : maybe_newline host_name s -> s <> [].
Proof. intros [(l & d & -> & _)|(t & -> & _)] E; destruct (app_cons_not_nil _ _ _ (eq_sym E)). Qed.

(** the addresses that are accepted, whatever they were given as *)
Definition good (a : naddr) : Prop :=
  a = na_empty \/ (na_type a = 0 /\ maybe_newline host_name (na_bytes a) /\ (length (na_bytes a) <= 63)%nat) \/
  (na_type a = 1 /\ length (na_bytes a) = 4%nat /\ Forall (fun b => b < 256) (na_bytes a)) \/
  (na_type a = 2 /\ length (na_bytes a) = 16%nat /\ Forall (fun b => b < 256) (na_bytes a) /\ firstn 12 (na_bytes a) <> mapped_prefix).
Lemma packed_good p : (length p = 4 \/ length p = 16)%nat -> Forall (fun b => b < 256) p -> good (na_packed p).
Proof.
  intros L F. unfold na_packed, good. destruct (length p =? 4)%nat eqn:E; [right; right; left; cbn; repeat split; [lia | exact F]|].
  destruct (listN_eqb (firstn 12 p) mapped_prefix) eqn:X; cbn [na_type na_bytes].
  - right; right; left. rewrite skipn_length. split; [reflexivity|]. split; [lia|]. rewrite <- (firstn_skipn 12 p) in F. apply Forall_app in F. tauto.
  - right; right; right. repeat split; [lia | exact F |]. intro Y. rewrite Y in X. vm_compute in X. discriminate.
Qed.
Section IP.
Variables (ip : pystr -> res bytes) (str : bytes -> pystr).
Hypothesis LIB : ip_library ip str.
Lemma lib_ok : ip_ok ip.
Proof. intros s p E. exact (proj1 (ip_sizes _ _ LIB _ _ E)). Qed.
Lemma new_good v a : na_new ip v = Ok a -> good a.
Proof.
  intros E. destruct v as [s|]; [|apply ok_inj in E; subst a; left; reflexivity]. destruct (re_match hostname_re s) eqn:M.
  - apply host_match in M. rewrite (na_new_host _ _ M) in E. destruct (length s <=? 63)%nat eqn:L; [|discriminate]. apply ok_inj in E. subst a. right. left. cbn. repeat split; [exact M | lia].
  - rewrite na_new_other in E by (intro X; apply host_match in X; congruence). apply bind_ok in E as (p & P & E). apply ok_inj in E. subst a.
    apply (ip_sizes _ _ LIB) in P as [L F]. apply packed_good; assumption.
Qed.
Lemma good_ok a : good a -> address_ok a.
Proof. intros [->|[(T & _ & L)|[(T & L & _)|(T & L & _)]]]; split; try lia; cbn; lia. Qed.
Lemma good_text a : good a -> na_from_json ip (JStr (na_str str a)) = Ok a.
Proof.
  destruct a as [t b]. intros [E|[(T & M & L)|[(T & L & F)|(T & L & F & X)]]]; [injection E as -> ->; reflexivity | | |]; cbn in *; subst t; unfold na_str; cbn [na_type na_bytes].
  - change (0 =? 0) with true. cbn iota. pose proof (host_nonempty _ M). destruct b as [|c b]; [congruence|]. rewrite (na_new_host _ _ M). replace (_ <=? 63)%nat with true by lia. reflexivity.
  - change (1 =? 0) with false. cbn iota. destruct (ip_four _ _ LIB _ L F) as (t & c & E & D).
    assert (N : na_new ip (Some (str b)) = Ok (mkna 1 b)).
    { rewrite na_new_other by (rewrite E; apply not_host_digit; exact D). rewrite (ip_round _ _ LIB) by auto. cbn [bind]. unfold na_packed. rewrite L. reflexivity. }
    destruct (str b) as [|x y] eqn:Y; [destruct t; discriminate | exact N].
  - change (2 =? 0) with false. cbn iota. pose proof (ip_six _ _ LIB _ L F) as I.
    assert (N : na_new ip (Some (str b)) = Ok (mkna 2 b)).
    { rewrite na_new_other by (apply not_host_colon; exact I). rewrite (ip_round _ _ LIB) by auto. cbn [bind]. unfold na_packed. rewrite L. change (16 =? 4)%nat with false. cbn iota.
      destruct (listN_eqb (firstn 12 b) mapped_prefix) eqn:Q; [exfalso; apply X, listN_eqb_eq, Q | reflexivity]. }
    destruct (str b) as [|x y] eqn:Y; [destruct I | exact N].
Qed.
End IP.
