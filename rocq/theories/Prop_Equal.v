(** C93: comparing data and addresses. *)
From Verif Require Import Base BaseFacts Encoders Primitive Types Equal Spec_Types Spec_ERC20 Spec_Amounts Spec_Texts TypesFacts ConditionFacts Prop_Fulfil Prop_ERC20Valid Prop_Texts.
From Coq Require Import ZifyBool ZifyNat ZifyN.
Ltac Zify.zify_post_hook ::= Z.div_mod_to_equations.

Lemma optN_eqb_iff a b : optN_eqb a b = true <-> a = b.
Proof. destruct a as [x|], b as [y|]; cbn [optN_eqb]; split; intro E; try discriminate; try reflexivity; [apply N.eqb_eq in E; congruence|injection E as ->; apply N.eqb_refl]. Qed.
Lemma optS_eqb_iff a b : optS_eqb a b = true <-> a = b.
Proof. destruct a as [x|], b as [y|]; cbn [optS_eqb]; split; intro E; try discriminate; try reflexivity; [apply listN_eqb_eq in E; congruence|injection E as ->; apply listN_eqb_eq; reflexivity]. Qed.
Lemma other_data a d : bd_other a (DOData d) = if optN_eqb (bd_size a) (bd_size d) && optS_eqb (bd_enc a) (bd_enc d) then Ok d else Err TypeError.
Proof. unfold bd_other. cbn [bind]. destruct (optN_eqb _ _); [|reflexivity]. cbn [guard bind andb]. destruct (optS_eqb _ _); reflexivity. Qed.

Lemma hashes_eq a b : bd_eq_op (hash_bd a) (DOData (hash_bd b)) = Ok (listN_eqb a b).
Proof. unfold bd_eq_op. rewrite other_data. reflexivity. Qed.

(** Data is compared with data of the same size and encoding only, and is equal if its bytes are. *)
Theorem C93_data : forall a b,
  (bd_size a = bd_size b -> bd_enc a = bd_enc b -> exists r, bd_eq_op a (DOData b) = Ok r /\ (r = true <-> bd_val a = bd_val b)) /\
  (bd_size a <> bd_size b \/ bd_enc a <> bd_enc b -> bd_eq_op a (DOData b) = Err TypeError).
Proof.
  intros a b. unfold bd_eq_op. rewrite other_data. split.
  - intros ES EE. rewrite (proj2 (optN_eqb_iff _ _) ES), (proj2 (optS_eqb_iff _ _) EE). cbn [andb bind]. eexists. split; [reflexivity|]. apply listN_eqb_eq.
  - intros N. destruct (optN_eqb (bd_size a) (bd_size b)) eqn:E1; [|reflexivity]. apply optN_eqb_iff in E1. destruct (optS_eqb (bd_enc a) (bd_enc b)) eqn:E2; [|reflexivity]. apply optS_eqb_iff in E2. tauto.
Qed.
Print Assumptions C93_data.
(** Data compared with a text: the text is read like data of the same size and encoding; a text that is no such data is refused. *)
Theorem C93_data_text : forall name size b s r, In name [s2b "hex"; s2b "base64"; s2b "hexprefix"] -> (forall n, size = Some n -> 0 < n) ->
  (bd_eq_op (mkbd size (Some name) b) (DOText s) = Ok r <->
   exists b', encoded name s b' /\ (forall n, size = Some n -> b' = [] \/ lenN b' = n) /\ (r = true <-> b = b')).
Proof.
  intros name size b s r I SZ. assert (Z0 : forall z, option_map Z.of_N size = Some z -> (0 < z)%Z) by (intros z E; destruct size as [n|]; [|discriminate]; injection E as <-; specialize (SZ n eq_refl); lia).
  assert (SE : forall b' : bytes, (forall z, option_map Z.of_N size = Some z -> b' = [] \/ Z.of_nat (length b') = z) <-> (forall n, size = Some n -> b' = [] \/ lenN b' = n)).
  { intro b'. split.
    - intros X n ->. destruct (X _ eq_refl) as [|L]; [auto|]. right. unfold lenN. lia.
    - intros X z E. destruct size as [n|]; [|discriminate]. injection E as <-. destruct (X _ eq_refl) as [|L]; [auto|]. right. unfold lenN in L. lia. }
  assert (NJ : bd_from_json (JStr s) (option_map Z.of_N size) (Some name) = bd_new (BVStr s) (option_map Z.of_N size) (Some name)).
  { cbn [bd_from_json]. destruct s; [|reflexivity]. unfold bd_new. assert (FS : forall k, from_str k [] = Ok []) by (intro k; destruct k; reflexivity).
    assert (Q : forall d, bd_set d BVNone = bd_set d (BVStr [])) by (intro d; unfold bd_set; cbn [bd_norm]; rewrite FS; reflexivity). destruct (strkind_of (Some name)); [|reflexivity]. cbn [bind]. destruct (guard _ _); [|reflexivity]. cbn [bind]. destruct (option_map Z.of_N size) as [[|p|p]|]; rewrite Q; reflexivity. }
  assert (SH : forall d, bd_new (BVStr s) (option_map Z.of_N size) (Some name) = Ok d -> bd_size d = size /\ bd_enc d = Some name).
  { intros d E. unfold bd_new in E. apply bind_ok in E as (k & _ & E). apply bind_ok in E as (u & _ & E). destruct size as [n|]; cbn [option_map] in E.
    - specialize (SZ n eq_refl). destruct (Z.of_N n) as [|p|p] eqn:Zn; [lia| |lia]. unfold bd_set in E. apply bind_ok in E as (b0 & _ & E). apply bind_ok in E as (u' & _ & E). apply ok_inj in E. subst d. cbn [bd_size bd_enc]. split; [f_equal; lia|reflexivity].
    - unfold bd_set in E. apply bind_ok in E as (b0 & _ & E). apply bind_ok in E as (u' & _ & E). apply ok_inj in E. subst d. auto. }
  unfold bd_eq_op, bd_other. cbn [bd_size bd_enc bd_val]. split.
  - intro E. apply bind_ok in E as (d' & E' & E). apply bind_ok in E' as (d & D & E'). apply bind_ok in E' as (u1 & _ & E'). apply bind_ok in E' as (u2 & _ & E'). apply ok_inj in E'. subst d'. apply ok_inj in E.
    exists (bd_val d). assert (X : exists d0, bd_from_json (JStr s) (option_map Z.of_N size) (Some name) = Ok d0 /\ bd_val d0 = bd_val d) by (exists d; rewrite NJ; auto).
    apply (C83_binary name s _ (bd_val d) I Z0) in X as (X1 & X2). split; [exact X1|]. split; [apply SE; exact X2|]. subst r. apply listN_eqb_eq.
  - intros (b' & X1 & X2 & X3). destruct (proj2 (C83_binary name s _ b' I Z0) (conj X1 (proj2 (SE b') X2))) as (d & D & V). rewrite NJ in D. destruct (SH _ D) as (S1 & S2). rewrite D. cbn [bind]. rewrite S1, S2.
    rewrite (proj2 (optN_eqb_iff _ _) eq_refl), (proj2 (optS_eqb_iff _ _) eq_refl). cbn [guard bind]. f_equal. rewrite V. destruct (listN_eqb b b') eqn:Q; [apply listN_eqb_eq in Q; symmetry; tauto|].
    destruct r; [|reflexivity]. exfalso. assert (b = b') by tauto. apply listN_eqb_eq in H. congruence.
Qed.
Print Assumptions C93_data_text.
(** Compared with bytes: those of another size are refused. *)
Theorem C93_data_bytes : forall name size b c r, In name [s2b "hex"; s2b "base64"; s2b "hexprefix"] -> (forall n, size = Some n -> 0 < n) ->
  (bd_eq_op (mkbd size (Some name) b) (DOBytes c) = Ok r <-> (forall n, size = Some n -> c = [] \/ lenN c = n) /\ (r = true <-> b = c)).
Proof.
  intros name size b c r I SZ.
  assert (K : exists k, strkind_of (Some name) = Ok k) by (cbn [In] in I; destruct I as [<-|[<-|[<-|[]]]]; eexists; vm_compute; reflexivity). destruct K as (k & K).
  assert (R : (listN_eqb b c = r) <-> (r = true <-> b = c)).
  { rewrite <- (listN_eqb_eq b c). destruct (listN_eqb b c), r; intuition congruence. }
  unfold bd_eq_op, bd_other. cbn [bd_size bd_enc bd_val]. unfold bd_new. rewrite K. cbn [bind]. destruct size as [n|]; cbn [option_map].
  - specialize (SZ n eq_refl). replace (0 <=? Z.of_N n)%Z with true by lia. cbn [guard bind]. destruct (Z.of_N n) as [|p|p] eqn:Zn; [lia| |lia]. unfold bd_set. cbn [bd_norm bind bd_size bd_enc].
    replace (Z.to_N (Z.pos p)) with n by lia. cbn [bd_size_ok]. destruct ((lenN c =? 0) || (lenN c =? n)) eqn:G; cbn [guard bind bd_size bd_enc bd_val].
    + rewrite (proj2 (optN_eqb_iff _ _) eq_refl), (proj2 (optS_eqb_iff _ _) eq_refl). cbn [guard bind]. rewrite <- R. split.
      * intro E. apply ok_inj in E. split; [|exact E]. intros n' [= <-]. unfold lenN in *. destruct c; [auto|]. right. cbn [length] in *. lia.
      * intros (_ & <-). reflexivity.
    + split; [discriminate|]. intros (X & _). exfalso. destruct (X n eq_refl) as [->|L]; [discriminate G|]. rewrite L, N.eqb_refl, orb_true_r in G. discriminate.
  - cbn [guard bind]. unfold bd_set. cbn [bd_norm bind bd_size bd_enc bd_size_ok guard bd_val]. rewrite (proj2 (optN_eqb_iff _ _) eq_refl), (proj2 (optS_eqb_iff _ _) eq_refl). cbn [guard bind]. rewrite <- R.
    split; [intro E; apply ok_inj in E; split; [discriminate|exact E]|]. intros (_ & <-). reflexivity.
Qed.
Print Assumptions C93_data_bytes.
(** Nothing else can be compared with data, not even None; and != is the opposite of ==, and fails when it fails. *)
Theorem C93_data_other : forall a, bd_eq_op a DOOther = Err TypeError.
Proof. reflexivity. Qed.
Print Assumptions C93_data_other.
Theorem C93_data_differs : forall a o, bd_ne_op a o = (do r <- bd_eq_op a o; Ok (negb r)).
Proof. intros a o. unfold bd_ne_op, bd_eq_op. destruct (bd_other a o); reflexivity. Qed.
Print Assumptions C93_data_differs.
(** Among data, == is an equivalence as far as it is defined, and equal data has the same hash value, as Python's sets and dictionaries demand. *)
Theorem C93_data_equivalence : forall a b c, bd_eq_op a (DOData a) = Ok true /\ bd_eq_op a (DOData b) = bd_eq_op b (DOData a) /\
  (bd_eq_op a (DOData b) = Ok true -> bd_eq_op b (DOData c) = Ok true -> bd_eq_op a (DOData c) = Ok true).
Proof.
  assert (X : forall a b, bd_eq_op a (DOData b) = Ok true <-> a = b).
  { intros [s e v] [s' e' v']. unfold bd_eq_op. rewrite other_data. cbn [bd_size bd_enc bd_val]. split.
    - destruct (optN_eqb s s') eqn:E1; [|discriminate]. destruct (optS_eqb e e') eqn:E2; [|discriminate]. cbn [andb bind bd_val]. intro E. apply ok_inj in E. apply optN_eqb_iff in E1. apply optS_eqb_iff in E2. apply listN_eqb_eq in E. congruence.
    - intros [= -> -> ->]. rewrite (proj2 (optN_eqb_iff _ _) eq_refl), (proj2 (optS_eqb_iff _ _) eq_refl). cbn [andb bind bd_val]. f_equal. apply listN_eqb_eq. reflexivity. }
  intros a b c. split; [apply X; reflexivity|]. split; [|rewrite !X; congruence].
  destruct (C93_data a b) as (A1 & A2), (C93_data b a) as (B1 & B2).
  destruct (optN_eqb (bd_size a) (bd_size b)) eqn:E1; [apply optN_eqb_iff in E1|].
  - destruct (optS_eqb (bd_enc a) (bd_enc b)) eqn:E2; [apply optS_eqb_iff in E2|].
    + destruct (A1 E1 E2) as (r & Er & Q). destruct (B1 (eq_sym E1) (eq_sym E2)) as (r' & Er' & Q'). rewrite Er, Er'. f_equal. destruct r, r'; try reflexivity; [destruct Q' as (_ & Q'); rewrite Q'; [reflexivity|]; symmetry; tauto|destruct Q as (_ & Q); rewrite Q; [reflexivity|]; symmetry; tauto].
    + assert (N : bd_enc a <> bd_enc b) by (intro E; apply optS_eqb_iff in E; congruence). rewrite A2, B2; [reflexivity|right; congruence|right; congruence].
  - assert (N : bd_size a <> bd_size b) by (intro E; apply optN_eqb_iff in E; congruence). rewrite A2, B2; [reflexivity|left; congruence|left; congruence].
Qed.
Print Assumptions C93_data_equivalence.
Theorem C93_data_hashes : forall shash a b, bd_eq_op a (DOData b) = Ok true -> bd_hash shash a = bd_hash shash b.
Proof.
  intros shash a b E. unfold bd_eq_op in E. rewrite other_data in E. destruct (optN_eqb _ _) eqn:E1; [|discriminate]. destruct (optS_eqb _ _) eqn:E2; [|discriminate]. cbn [andb bind] in E. apply ok_inj in E. apply listN_eqb_eq in E. apply optS_eqb_iff in E2.
  unfold bd_hash, bd_str. rewrite E, E2. reflexivity.
Qed.
Print Assumptions C93_data_hashes.
(** Hashes of 32 bytes that print the same are equal.  The full claim, that this holds of all hashes, is false: a hash without a value prints like 32 zeros. *)
Theorem C93_hash_texts_partial : forall a b, hash32 a -> hash32 b -> (hash_str a = hash_str b <-> bd_eq_op (hash_bd a) (DOData (hash_bd b)) = Ok true).
Proof.
  intros a b A B. rewrite !hash_str_full by assumption. rewrite hashes_eq. split.
  - intro E. apply hex_inj in E; [|apply A|apply B]. subst b. f_equal. apply listN_eqb_eq. reflexivity.
  - intro E. apply ok_inj in E. apply listN_eqb_eq in E. congruence.
Qed.
Print Assumptions C93_hash_texts_partial.
Theorem C93_hash_texts_refuted : exists a b, hash_new BVNone = Ok a /\ hash_new (BVStr (hash_str a)) = Ok b /\ hash_str a = hash_str b /\ bd_eq_op (hash_bd a) (DOData (hash_bd b)) = Ok false.
Proof. eexists _, _. split; [reflexivity|]. split; [vm_compute; reflexivity|]. split; vm_compute; reflexivity. Qed.
Print Assumptions C93_hash_texts_refuted.

(** Addresses are equal if their types and hashes are; a text is read as an address first. *)
Theorem C93_address : forall H a b, exists r, uh_eq_op H a (UOUh b) = Ok r /\ (r = true <-> a = b).
Proof.
  intros H [t h] [t' h']. unfold uh_eq_op. cbn [uh_other bind uh_type uh_hash]. destruct (Z.eqb_spec t t') as [E|NE].
  - rewrite hashes_eq. eexists. split; [reflexivity|]. rewrite listN_eqb_eq. subst. split; [intros ->; reflexivity|]. intro E. apply (f_equal uh_hash) in E. exact E.
  - exists false. split; [reflexivity|]. split; [discriminate|]. intro E. apply (f_equal uh_type) in E. contradiction.
Qed.
Print Assumptions C93_address.
Theorem C93_address_text : forall H a s r, hash_ok H -> (uh_eq_op H a (UOText s) = Ok r <-> exists b, address_text H s b /\ (r = true <-> a = b)).
Proof.
  intros H a s r HH. assert (X : forall b, uh_eq_op H a (UOUh b) = Ok r <-> (r = true <-> a = b)).
  { intro b. destruct (C93_address H a b) as (r' & E & Q). rewrite E. split; [intro E'; apply ok_inj in E'; subst; exact Q|]. intro Q'. f_equal. destruct r, r'; intuition congruence. }
  unfold uh_eq_op at 1. cbn [uh_other uh_from_json]. split.
  - intro E. apply bind_ok in E as (b & P & E). exists b. split; [apply C83_address; assumption|]. apply X. exact E.
  - intros (b & A & Q). apply C83_address in A; [|exact HH]. rewrite A. cbn [bind]. apply X in Q. exact Q.
Qed.
Print Assumptions C93_address_text.
Theorem C93_address_other : forall H a, uh_eq_op H a UOOther = Err TypeError.
Proof. reflexivity. Qed.
Print Assumptions C93_address_other.
Theorem C93_address_differs : forall H a o, uh_ne_op H a o = (do r <- uh_eq_op H a o; Ok (negb r)).
Proof.
  intros H a o. unfold uh_ne_op, uh_eq_op. destruct (uh_other H o) as [b|]; [|reflexivity]. cbn [bind]. destruct (uh_type a =? uh_type b)%Z; [|reflexivity]. cbn [negb]. apply C93_data_differs.
Qed.
Print Assumptions C93_address_differs.
(** Equal addresses have the same hash value; and whole addresses that print the same are equal, so that dictionaries by text are dictionaries by address. *)
Theorem C93_address_hashes : forall H shash a b, uh_eq_op H a (UOUh b) = Ok true -> uh_hash_op H shash a = uh_hash_op H shash b.
Proof. intros H shash a b E. destruct (C93_address H a b) as (r & Er & Q). rewrite Er in E. apply ok_inj in E. apply Q in E. congruence. Qed.
Print Assumptions C93_address_hashes.
Theorem C93_address_texts_partial : forall H a b s, hash_ok H -> full_uh a -> full_uh b -> uh_str H a = Ok s -> (uh_str H b = Ok s <-> uh_eq_op H a (UOUh b) = Ok true).
Proof.
  intros H a b s HH A B E. destruct (C93_address H a b) as (r & Er & Q). rewrite Er. split.
  - intro E'. f_equal. apply Q. eapply uh_str_inj; eassumption.
  - intro X. apply ok_inj in X. apply Q in X. congruence.
Qed.
Print Assumptions C93_address_texts_partial.
(** Not so without the hypotheses: the address of a wallet that has none is not equal to what it prints, though a text can be compared with it. *)
Theorem C93_address_texts_refuted : forall H, exists s b, uh_str H uh_default = Ok s /\ uh_parse H s = Ok b /\ uh_eq_op H uh_default (UOText s) = Ok false /\ uh_str H b = Ok s.
Proof. intro H. eexists _, _. split; [reflexivity|]. split; [vm_compute; reflexivity|]. split; vm_compute; reflexivity. Qed.
Print Assumptions C93_address_texts_refuted.

Example C93_ex : bd_eq_op (hash_bd (repeat 255 32)) (DOText (concat (repeat (s2b "Ff ") 32))) = Ok true /\ bd_eq_op (hash_bd (repeat 255 32)) (DOText (s2b "ff")) = Err ValueError /\
  bd_eq_op (hash_bd (repeat 255 32)) (DOBytes []) = Ok false /\ bd_eq_op (mkbd None (Some (s2b "hex")) [255]) (DOData (mkbd (Some 1) (Some (s2b "hex")) [255])) = Err TypeError /\
  (exists s, uh_str ex_H2 (ex_key_uh 7) = Ok s /\ uh_eq_op ex_H2 (ex_key_uh 7) (UOText s) = Ok true /\ uh_eq_op ex_H2 (ex_key_uh 8) (UOText s) = Ok false).
Proof. do 4 (split; [vm_compute; reflexivity|]). eexists. split; [vm_compute; reflexivity|]. split; vm_compute; reflexivity. Qed.
