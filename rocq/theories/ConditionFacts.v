From Verif Require Import Base BaseFacts Encoders EncodersFacts Merkle MerkleFacts Primitive Types Conditions Spec_Types
  TypesFacts TypesFacts2.
From Coq Require Import ZifyBool ZifyNat ZifyN.
Ltac Zify.zify_post_hook ::= Z.div_mod_to_equations.

(** ** Locks *)
Lemma locked_check_spec l h t : locked_check l h t = true <->
  ((l < 500000000 /\ h < l) \/ (500000000 <= l /\ t < l))%Z.
Proof. unfold locked_check, lock_is_timestamp. destruct (500 * 1000 * 1000 <=? l)%Z eqn:E; lia. Qed.
Lemma locked_check_mono l h t h' t' : (h <= h')%Z -> (t <= t')%Z ->
  locked_check l h t = false -> locked_check l h' t' = false.
Proof. unfold locked_check. destruct (lock_is_timestamp l); lia. Qed.

(** ** Sorting *)
Lemma str_leb_refl a : str_leb a a = true.
Proof. induction a as [|x a IH]; cbn; [reflexivity|]. rewrite N.eqb_refl, IH. lia. Qed.
Lemma str_leb_total a : forall b, str_leb a b = true \/ str_leb b a = true.
Proof.
  induction a as [|x a IH]; intros [|y b]; cbn; auto.
  destruct (IH b) as [E|E]; rewrite E; lia.
Qed.
Lemma str_leb_antisym a : forall b, str_leb a b = true -> str_leb b a = true -> a = b.
Proof.
  induction a as [|x a IH]; intros [|y b]; cbn; intros E F; try discriminate; auto.
  rewrite orb_true_iff, andb_true_iff in E, F. rewrite N.ltb_lt, N.eqb_eq in E, F.
  destruct E as [E|[-> E]], F as [F|[F' F]]; try lia. f_equal. apply IH; assumption.
Qed.
Lemma str_leb_trans a : forall b c, str_leb a b = true -> str_leb b c = true -> str_leb a c = true.
Proof.
  induction a as [|x a IH]; intros [|y b] [|z c]; cbn; intros E F; try discriminate; auto.
  rewrite orb_true_iff, andb_true_iff in E, F |- *. rewrite N.ltb_lt, N.eqb_eq in E, F |- *.
  destruct E as [E|[-> E]], F as [F|[-> F]]; try (left; lia). right. split; [reflexivity | eapply IH; eauto].
Qed.

Section Sort.
Context {A : Type}.
Notation kv := (pystr * A)%type.
Definition kle (p q : kv) : Prop := str_leb (fst p) (fst q) = true.
Lemma insert_by_perm k (x : A) l : Permutation (insert_by k x l) ((k, x) :: l).
Proof.
  induction l as [|[k' y] l IH]; cbn [insert_by]; [reflexivity|].
  destruct (str_leb k k'); [reflexivity|]. rewrite IH. apply perm_swap.
Qed.
Lemma isort_perm (l : list kv) : Permutation (isort l) l.
Proof.
  induction l as [|[k x] l IH]; cbn [isort]; [reflexivity|]. rewrite insert_by_perm. constructor. exact IH.
Qed.
Inductive srt : list kv -> Prop :=
| srt_nil : srt []
| srt_cons p l : Forall (kle p) l -> srt l -> srt (p :: l).
Lemma insert_by_srt k (x : A) l : srt l -> srt (insert_by k x l).
Proof.
  induction 1 as [|[k' y] l F S IH]; cbn [insert_by]; [repeat constructor|].
  destruct (str_leb k k') eqn:E.
  - constructor; [|constructor; assumption]. constructor; [exact E|].
    eapply Forall_impl; [|exact F]. intros q Hq. eapply str_leb_trans; eauto.
  - constructor; [|exact IH]. rewrite insert_by_perm. constructor; [|exact F].
    unfold kle. cbn. destruct (str_leb_total k k'); congruence.
Qed.
Lemma isort_srt (l : list kv) : srt (isort l).
Proof. induction l as [|[k x] l IH]; cbn [isort]; [constructor | apply insert_by_srt; exact IH]. Qed.
Lemma srt_unique (l1 : list kv) : forall l2, srt l1 -> srt l2 -> Permutation l1 l2 ->
  (forall p q, In p l1 -> In q l1 -> fst p = fst q -> p = q) -> l1 = l2.
Proof.
  induction l1 as [|p l1 IH]; intros l2 S1 S2 P I.
  - apply Permutation_nil in P. congruence.
  - destruct l2 as [|q l2]; [apply Permutation_sym, Permutation_nil in P; discriminate|].
    inversion S1 as [|? ? F1 S1']; subst. inversion S2 as [|? ? F2 S2']; subst.
    assert (Hq : In q (p :: l1)) by (eapply Permutation_in; [symmetry; exact P | left; reflexivity]).
    assert (Hp : In p (q :: l2)) by (eapply Permutation_in; [exact P | left; reflexivity]).
    assert (E : p = q).
    { apply I; [left; reflexivity | exact Hq|]. apply str_leb_antisym.
      - destruct Hq as [-> |Hq]; [apply str_leb_refl|]. rewrite Forall_forall in F1. apply F1; exact Hq.
      - destruct Hp as [-> |Hp]; [apply str_leb_refl|]. rewrite Forall_forall in F2. apply F2; exact Hp. }
    subst q. f_equal. apply IH; auto.
    + eapply Permutation_cons_inv; exact P.
    + intros a b Ha Hb. apply I; right; assumption.
Qed.
End Sort.

Definition ustr (H : bytes -> bytes) (u : uh) : pystr := match uh_str H u with Ok s => s | Err _ => [] end.
Lemma uh_str_total H u : hash_ok H -> full_uh u -> uh_str H u = Ok (ustr H u).
Proof. intros HH [Ht _]. destruct (uh_str_ok H u HH Ht) as (c & _ & E). unfold ustr. rewrite E. reflexivity. Qed.
Lemma mapM_total {A B} (f : A -> res B) g l : Forall (fun a => f a = Ok (g a)) l -> mapM f l = Ok (map g l).
Proof.
  induction 1 as [|a l E F IH]; cbn [mapM map]; [reflexivity|]. rewrite E. cbn [bind]. rewrite IH. reflexivity.
Qed.
Lemma combine_map {A B} (f : A -> B) l : combine (map f l) l = map (fun a => (f a, a)) l.
Proof. induction l; cbn; congruence. Qed.

Lemma sort_uhs_full H us : hash_ok H -> Forall full_uh us ->
  sort_uhs H us = Ok (map snd (isort (map (fun u => (ustr H u, u)) us))).
Proof.
  intros HH F. unfold sort_uhs. rewrite (mapM_total _ (ustr H)).
  - cbn [bind]. rewrite combine_map. reflexivity.
  - eapply Forall_impl; [|exact F]. intros u Hu. apply uh_str_total; assumption.
Qed.
Lemma sort_uhs_perm H us vs : hash_ok H -> Forall full_uh us -> Permutation us vs -> sort_uhs H us = sort_uhs H vs.
Proof.
  intros HH F P. assert (F' : Forall full_uh vs) by (rewrite <- P; exact F).
  rewrite !sort_uhs_full by assumption. do 2 f_equal.
  apply srt_unique; [apply isort_srt | apply isort_srt | |].
  - rewrite !isort_perm. apply Permutation_map. exact P.
  - intros p q Hp Hq E. rewrite isort_perm in Hp. rewrite isort_perm in Hq.
    apply in_map_iff in Hp as (u & <- & Hu). apply in_map_iff in Hq as (v & <- & Hv). cbn in E.
    rewrite Forall_forall in F. assert (u = v); [|congruence].
    apply (uh_str_inj H u v (ustr H u) HH (F _ Hu) (F _ Hv)); [|rewrite E]; apply uh_str_total; auto.
Qed.

Lemma multi_address_perm H us vs n : hash_ok H -> Forall full_uh us -> Permutation us vs ->
  cond_unlockhash H (CMulti us n) = cond_unlockhash H (CMulti vs n).
Proof.
  intros HH F P. cbn [cond_unlockhash]. unfold multi_leaves. rewrite (sort_uhs_perm H us vs) by assumption. reflexivity.
Qed.

Lemma sia_int_total z : (0 <= z < 2 ^ 64)%Z -> sia_int z = Ok (le 8 (Z.to_N z)).
Proof. intros Hz. rewrite sia_int_spec. replace ((0 <=? z) && (z <? 2 ^ 64))%Z with true by lia. reflexivity. Qed.

Lemma multi_address_total H us n : hash_ok H -> Forall full_uh us -> lenN us < 2 ^ 64 -> (0 <= n < 2 ^ 64)%Z ->
  exists u, cond_unlockhash H (CMulti us n) = Ok u /\ uh_type u = 3%Z.
Proof.
  intros HH F L Hn. cbn [cond_unlockhash]. unfold multi_leaves. rewrite sort_uhs_full by assumption. cbn [bind].
  rewrite map_length, (Permutation_length (isort_perm _)), map_length.
  unfold lenN in L. change (2 ^ 64) with 18446744073709551616 in L.
  rewrite sia_int_total by (change (2 ^ 64)%Z with 18446744073709551616%Z; lia). cbn [bind].
  rewrite (mapM_total _ (fun u => Z.to_N (uh_type u) :: uh_hash u)).
  - cbn [bind]. rewrite sia_int_total by exact Hn. cbn [bind]. 
    match goal with |- context [root H (push_all H ?l)] =>
      destruct (merkle_root H l) as (r & Er & _); [discriminate|] end.
    rewrite Er. cbn [bind]. eauto.
  - apply Forall_forall. intros u Hu. apply in_map_iff in Hu as ([k v] & <- & Hv).
    rewrite isort_perm in Hv. apply in_map_iff in Hv as (w & E & Hw). injection E as E1 E2. subst.
    apply uh_sia_ok. rewrite Forall_forall in F. apply (F _ Hw).
Qed.

(** ** Binary encoding *)
Lemma secret_sia_len h b : (forall x, h = Some x -> hash32 x) -> bd_sia (secret_bd h) = Ok b ->
  h = None /\ b = [0;0;0;0;0;0;0;0] \/ h = Some b /\ length b = 32%nat.
Proof.
  intros F. destruct h as [x|]; cbn.
  - intros E; injection E as <-. right. split; [reflexivity | apply F; reflexivity].
  - intros E. left. vm_compute in E. split; [reflexivity|]. injection E as <-. reflexivity.
Qed.
Lemma secret_riv_len h b : (forall x, h = Some x -> hash32 x) -> bd_riv (secret_bd h) = Ok b ->
  h = None /\ b = [0] \/ h = Some b /\ length b = 32%nat.
Proof.
  intros F. destruct h as [x|]; cbn.
  - intros E; injection E as <-. right. split; [reflexivity | apply F; reflexivity].
  - intros E. left. vm_compute in E. split; [reflexivity|]. injection E as <-. reflexivity.
Qed.

Lemma cond_type_range c : (0 <= cond_type c < 5)%Z.
Proof. destruct c; cbn; lia. Qed.

Lemma cond_sia_data_inj c : forall d x, full_cond c -> full_cond d -> cond_type c = cond_type d ->
  cond_sia_data c = Ok x -> cond_sia_data d = Ok x -> c = d.
Proof.
  induction c as [|u|s r h l|l i IH|us n]; intros [|u'|s' r' h' l'|l' i'|us' n'] x Fc Fd T Ec Ed;
    try (discriminate T); cbn [cond_sia_data full_cond] in *.
  - reflexivity.
  - destruct (uh_sia_uniq _ _ _ _ [] [] Fc Fd Ec Ed eq_refl) as [-> _]. reflexivity.
  - destruct Fc as (Fs & Fr & Fh), Fd as (Fs' & Fr' & Fh').
    apply rapp_ok in Ec as (a1 & a2 & E1 & Ec & ->). apply rapp_ok in Ec as (a3 & a4 & E2 & Ec & ->).
    apply rapp_ok in Ec as (a5 & a6 & E3 & E4 & ->).
    apply rapp_ok in Ed as (b1 & b2 & G1 & Ed & Ex). apply rapp_ok in Ed as (b3 & b4 & G2 & Ed & ->).
    apply rapp_ok in Ed as (b5 & b6 & G3 & G4 & ->).
    destruct (uh_sia_uniq _ _ _ _ _ _ Fs Fs' E1 G1 Ex) as [-> Ex2].
    destruct (uh_sia_uniq _ _ _ _ _ _ Fr Fr' E2 G2 Ex2) as [-> Ex3].
    pose proof (sia_int_ok _ _ E4) as [_ L4]. pose proof (sia_int_ok _ _ G4) as [_ M4].
    assert (Ll : length a6 = 8%nat) by (rewrite L4; apply le_length).
    assert (Lm : length b6 = 8%nat) by (rewrite M4; apply le_length).
    apply app_inj_len_r in Ex3 as [Ex3 Ex4]; [|lia].
    subst b6. destruct (sia_int_uniq _ _ _ _ [] [] I I E4 G4 ltac:(congruence)) as [-> _].
    subst b5. apply secret_sia_len in E3; [|assumption]. apply secret_sia_len in G3; [|assumption].
    destruct E3 as [[-> ->]|[-> L5]], G3 as [[-> G5]|[-> L6]]; try reflexivity.
    + discriminate L6.
    + subst a5; discriminate L5.
  - apply rapp_ok in Ec as (a1 & a2 & E1 & Ec & ->). apply rapp_ok in Ec as (a3 & a4 & E2 & Ec & ->).
    apply rapp_ok in Ed as (b1 & b2 & G1 & Ed & Ex). apply rapp_ok in Ed as (b3 & b4 & G2 & Ed & ->).
    apply ok_inj in E2. apply ok_inj in G2. subst a3 b3.
    destruct (sia_int_uniq _ _ _ _ _ _ I I E1 G1 Ex) as [-> Ex2]. cbn [app] in Ex2.
    injection Ex2 as Et ->. f_equal. apply (IH i' b4); auto.
    pose proof (cond_type_range i). pose proof (cond_type_range i'). lia.
  - apply rapp_ok in Ec as (a1 & a2 & E1 & Ec & ->). apply rapp_ok in Ed as (b1 & b2 & G1 & Ed & Ex).
    destruct (sia_int_uniq _ _ _ _ _ _ I I E1 G1 Ex) as [-> Ex2]. subst b2.
    destruct (sia_list_uniq _ _ uh_sia_uniq _ _ _ _ [] [] Fc Fd Ec Ed eq_refl) as [-> _]. reflexivity.
Qed.

Lemma cond_riv_data_inj c : forall d x, full_cond c -> full_cond d -> cond_type c = cond_type d ->
  cond_riv_data c = Ok x -> cond_riv_data d = Ok x -> c = d.
Proof.
  induction c as [|u|s r h l|l i IH|us n]; intros [|u'|s' r' h' l'|l' i'|us' n'] x Fc Fd T Ec Ed;
    try (discriminate T); cbn [cond_riv_data full_cond] in *.
  - reflexivity.
  - destruct (uh_riv_uniq _ _ _ _ [] [] Fc Fd Ec Ed eq_refl) as [-> _]. reflexivity.
  - destruct Fc as (Fs & Fr & Fh), Fd as (Fs' & Fr' & Fh').
    apply rapp_ok in Ec as (a1 & a2 & E1 & Ec & ->). apply rapp_ok in Ec as (a3 & a4 & E2 & Ec & ->).
    apply rapp_ok in Ec as (a5 & a6 & E3 & E4 & ->).
    apply rapp_ok in Ed as (b1 & b2 & G1 & Ed & Ex). apply rapp_ok in Ed as (b3 & b4 & G2 & Ed & ->).
    apply rapp_ok in Ed as (b5 & b6 & G3 & G4 & ->).
    destruct (uh_riv_uniq _ _ _ _ _ _ Fs Fs' E1 G1 Ex) as [-> Ex2].
    destruct (uh_riv_uniq _ _ _ _ _ _ Fr Fr' E2 G2 Ex2) as [-> Ex3].
    pose proof (riv_int_ok _ _ _ E4) as (_ & _ & L4). pose proof (riv_int_ok _ _ _ G4) as (_ & _ & M4).
    assert (Ll : length a6 = 8%nat) by (rewrite L4; apply le_length).
    assert (Lm : length b6 = 8%nat) by (rewrite M4; apply le_length).
    apply app_inj_len_r in Ex3 as [Ex3 Ex4]; [|lia].
    subst b6. destruct (riv_int_uniq _ _ _ _ _ [] [] I I E4 G4 ltac:(congruence)) as [-> _].
    subst b5. apply secret_riv_len in E3; [|assumption]. apply secret_riv_len in G3; [|assumption].
    destruct E3 as [[-> ->]|[-> L5]], G3 as [[-> G5]|[-> L6]]; try reflexivity.
    + discriminate L6.
    + subst a5; discriminate L5.
  - apply rapp_ok in Ec as (a1 & a2 & E1 & Ec & ->). apply rapp_ok in Ec as (a3 & a4 & E2 & Ec & ->).
    apply rapp_ok in Ed as (b1 & b2 & G1 & Ed & Ex). apply rapp_ok in Ed as (b3 & b4 & G2 & Ed & ->).
    destruct (riv_int_uniq _ _ _ _ _ _ _ I I E1 G1 Ex) as [-> Ex2].
    destruct (riv_int_uniq _ _ _ _ _ _ _ I I E2 G2 Ex2) as [Et ->]. f_equal. apply (IH i' b4); auto.
  - apply rapp_ok in Ec as (a1 & a2 & E1 & Ec & ->). apply rapp_ok in Ed as (b1 & b2 & G1 & Ed & Ex).
    destruct (riv_int_uniq _ _ _ _ _ _ _ I I E1 G1 Ex) as [-> Ex2]. subst b2.
    destruct (riv_list_uniq _ _ uh_riv_uniq _ _ _ _ [] [] Fc Fd Ec Ed eq_refl) as [-> _]. reflexivity.
Qed.

Lemma cond_sia_uniq : uniq full_cond cond_sia.
Proof.
  intros c d x y r s Fc Fd Ec Ed E. unfold cond_sia in *.
  apply rapp_ok in Ec as (a1 & a2 & E1 & Ec & ->). apply rapp_ok in Ed as (b1 & b2 & G1 & Ed & ->).
  apply ok_inj in E1. apply ok_inj in G1. subst a1 b1. cbn [app] in E. injection E as Et E.
  apply bind_ok in Ec as (u & Eu & Ec). apply bind_ok in Ed as (v & Ev & Ed).
  destruct (sia_slice_uniq _ _ _ _ _ _ I I Ec Ed E) as [-> ->]. split; [|reflexivity].
  pose proof (cond_type_range c). pose proof (cond_type_range d).
  eapply cond_sia_data_inj; eauto. lia.
Qed.
Lemma cond_riv_uniq : uniq full_cond cond_riv.
Proof.
  intros c d x y r s Fc Fd Ec Ed E. unfold cond_riv in *.
  apply rapp_ok in Ec as (a1 & a2 & E1 & Ec & ->). apply rapp_ok in Ed as (b1 & b2 & G1 & Ed & ->).
  rewrite <- !app_assoc in E. destruct (riv_int_uniq _ _ _ _ _ _ _ I I E1 G1 E) as [Et E'].
  apply bind_ok in Ec as (u & Eu & Ec). apply bind_ok in Ed as (v & Ev & Ed).
  destruct (riv_slice_uniq _ _ _ _ _ _ I I Ec Ed E') as [-> ->]. split; [|reflexivity].
  eapply cond_riv_data_inj; eauto.
Qed.

Lemma swap_uh_input_inj s r h l s' r' h' l' x : full_cond (CSwap s r h l) -> full_cond (CSwap s' r' h' l') ->
  swap_uh_input s r h l = Ok x -> swap_uh_input s' r' h' l' = Ok x -> CSwap s r h l = CSwap s' r' h' l'.
Proof.
  intros F F' E E'. unfold swap_uh_input in *. apply bind_ok in E as (a & Ea & E). apply bind_ok in E' as (b & Eb & E').
  destruct (sia_slice_uniq _ _ _ _ [] [] I I E E' eq_refl) as [-> _]. eapply cond_riv_data_inj; eauto.
Qed.

(** ** JSON *)
Lemma address_json H u : hash_ok H -> address u -> exists s, uh_str H u = Ok s /\ uh_from_json H (JStr s) = Ok u.
Proof. intros HH A. destruct (address_round_trip H u HH A) as (s & E & _ & P). eauto. Qed.
Lemma addresses_json H us : hash_ok H -> Forall address us ->
  exists ss, mapM (uh_str H) us = Ok ss /\ mapM (uh_from_json H) (map JStr ss) = Ok us.
Proof.
  intros HH. induction 1 as [|u us A F IH]; [exists []; auto|].
  destruct IH as (ss & E1 & E2). destruct (address_json H u HH A) as (s & E3 & E4).
  exists (s :: ss). cbn [mapM map]. rewrite E3. cbn [bind]. rewrite E1. cbn [bind]. rewrite E4. cbn [bind].
  rewrite E2. auto.
Qed.

Lemma simple_json H now c fuel : hash_ok H -> simple_cond c -> exists j, cond_json H c = Ok j /\
  (2 <= jdepth j)%nat /\ cond_from_json_f H now (S fuel) j = Ok c.
Proof.
  intros HH. destruct c as [|u|s r h l|l i|us n]; cbn [simple_cond]; intros S; try contradiction.
  - eexists; split; [reflexivity|]. split; [cbn; lia | reflexivity].
  - destruct (address_json H u HH S) as (s & E1 & E2). cbn [cond_json]. rewrite E1. cbn [bind].
    eexists; split; [reflexivity|]. split; [cbn; lia|].
    cbn [cond_from_json_f]. cbn. cbn [uh_from_json] in E2. rewrite E2. reflexivity.
  - destruct (addresses_json H us HH S) as (ss & E1 & E2). cbn [cond_json]. rewrite E1. cbn [bind].
    eexists; split; [reflexivity|]. split; [cbn; lia|].
    cbn [cond_from_json_f]. cbn. rewrite E2. reflexivity.
Qed.

Lemma cond_json_round_trip H now c : hash_ok H -> network_cond c ->
  exists j, cond_json H c = Ok j /\ cond_from_json H now j = Ok c.
Proof.
  intros HH N. unfold cond_from_json. destruct c as [|u|s r h l|l i|us n]; cbn [network_cond] in N.
  - destruct (simple_json H now CNil 1 HH I) as (j & E1 & D & E2). exists j; split; [exact E1|].
    destruct (jdepth j) as [|k] eqn:Ek; [lia|]. destruct (simple_json H now CNil k HH I) as (j' & F1 & _ & F2). congruence.
  - destruct (simple_json H now (CUnlockHash u) 1 HH N) as (j & E1 & D & E2). exists j; split; [exact E1|].
    destruct (jdepth j) as [|k] eqn:Ek; [lia|].
    destruct (simple_json H now (CUnlockHash u) k HH N) as (j' & F1 & _ & F2). congruence.
  - destruct N as (As & Ts & Ar & Tr & (b & -> & Hb) & Hl).
    destruct (address_json H s HH As) as (s1 & E1 & E2). destruct (address_json H r HH Ar) as (r1 & E3 & E4).
    cbn [cond_json]. rewrite E1. cbn [bind]. rewrite E3. cbn [bind]. eexists; split; [reflexivity|].
    cbn [jdepth fold_right snd Nat.max]. cbn [cond_from_json_f]. cbn. cbn [uh_from_json] in E2, E4.
    rewrite E2. cbn [bind]. destruct As as (As & _). destruct Ar as (Ar & _).
    unfold swap_party at 1. replace ((uh_type s =? 1) || (uh_type s =? 0))%Z with true by lia. cbn [guard bind].
    rewrite E4. cbn [bind].
    unfold swap_party at 1. replace ((uh_type r =? 1) || (uh_type r =? 0))%Z with true by lia. cbn [guard bind].
    unfold secret_hash_json. change (bd_str (hash_bd b)) with (hex b). rewrite hash_new_hex by exact Hb. cbn [bind].
    unfold swap_lock, lock_new, lock_is_timestamp. replace (l <? 0)%Z with false by lia. cbn [bind].
    replace (500 * 1000 * 1000 <=? l)%Z with true by lia. reflexivity.
  - destruct N as [Hl Si].
    destruct (simple_json H now i 0 HH Si) as (j & E1 & D & _). cbn [cond_json]. rewrite E1. cbn [bind].
    eexists; split; [reflexivity|]. cbn [jdepth fold_right snd].
    set (k := S (Nat.max 1 (Nat.max _ 0))). assert (Hk : (2 <= k)%nat) by (subst k; lia). clearbody k.
    destruct k as [|k]; [lia|]. destruct k as [|k]; [lia|].
    destruct (simple_json H now i k HH Si) as (j' & F1 & _ & F2). rewrite E1 in F1. apply ok_inj in F1. subst j'.
    assert (G : forall f, cond_from_json_f H now (S f) (JObj [("type"%string, JNum 3);
                ("data"%string, JObj [("locktime"%string, JNum l); ("condition"%string, j)])]) =
      do l <- (if (l <? 0)%Z then Err ValueError else Ok l);
      do i <- cond_from_json_f H now f j;
      do _ <- guard ((cond_type i =? 1) || (cond_type i =? 4) || (cond_type i =? 0))%Z ValueError;
      Ok (CLock l i)) by reflexivity.
    rewrite G. replace (l <? 0)%Z with false by lia. cbn [bind]. rewrite F2. cbn [bind].
    destruct i; try contradiction; reflexivity.
  - destruct (simple_json H now (CMulti us n) 1 HH N) as (j & E1 & D & E2). exists j; split; [exact E1|].
    destruct (jdepth j) as [|k] eqn:Ek; [lia|].
    destruct (simple_json H now (CMulti us n) k HH N) as (j' & F1 & _ & F2). congruence.
Qed.

(** ** Recipients *)
Lemma Forall2_length {A B} (P : A -> B -> Prop) l m : Forall2 P l m -> length l = length m.
Proof. induction 1; cbn; congruence. Qed.
Lemma add_unlockhash_owner H v u : add_unlockhash H v = Ok u <-> owner (fun s u => uh_parse H s = Ok u) v u.
Proof.
  split.
  - destruct v; cbn; intros E; try discriminate; try (injection E as <-; constructor). constructor; exact E.
  - intros O; inversion O; subst; cbn; auto.
Qed.
Lemma Forall2_iff {A B} (P Q : A -> B -> Prop) l m : (forall a b, P a b <-> Q a b) -> Forall2 P l m <-> Forall2 Q l m.
Proof.
  intros E; split; intros F; induction F; constructor; auto; apply E; assumption.
Qed.
Lemma owners_iff H l us : mapM (add_unlockhash H) l = Ok us <-> Forall2 (owner (fun s u => uh_parse H s = Ok u)) l us.
Proof. rewrite mapM_Forall2_iff. apply Forall2_iff. intros; apply add_unlockhash_owner. Qed.

Lemma short_str_no_address H s u : length s <> 78%nat -> uh_parse H s <> Ok u.
Proof. intros L E. apply uh_parse_sound in E as (L' & _). congruence. Qed.

Lemma multi_new_iff H n hs c : multi_new H n hs = Ok c <->
  exists us z, count_arg n z /\ owners_arg (fun s u => uh_parse H s = Ok u) hs us /\ c = CMulti us z.
Proof.
  assert (N : forall us, match n with
     | RNone => Ok (CMulti us 0) | RInt z => Ok (CMulti us z)
     | RBool b => Ok (CMulti us (if b then 1 else 0)%Z) | _ => Err TypeError end = Ok c <->
     exists z, count_arg n z /\ c = CMulti us z).
  { intros us. split.
    - destruct n as [| |[]| | | | | | |]; intros E; try discriminate; injection E as <-; eexists; split; try reflexivity; constructor.
    - intros (z & C & ->). inversion C; reflexivity. }
  unfold multi_new. split.
  - intros E. apply bind_ok in E as (l & El & E). apply bind_ok in E as (us & Eu & E). apply N in E as (z & C & ->).
    exists us, z. repeat split; auto. destruct hs as [|z'|[]|s|b|u|c'|l'|l'|]; cbn in El; try discriminate.
    + injection El as <-. apply ok_inj in Eu. subst us. apply owners_empty; cbn; auto.
    + destruct (z' =? 0)%Z eqn:E0; [|discriminate]. injection El as <-. apply ok_inj in Eu. subst us.
      replace z' with 0%Z by lia. apply owners_empty; cbn; auto.
    + injection El as <-. apply ok_inj in Eu. subst us. apply owners_empty; cbn; auto.
    + injection El as <-. destruct s as [|c s].
      * apply ok_inj in Eu. subst us. apply owners_empty; cbn; auto.
      * cbn [map mapM] in Eu. apply bind_ok in Eu as (u & Eu & _). cbn [add_unlockhash] in Eu.
        apply short_str_no_address in Eu; [contradiction | cbn; lia].
    + injection El as <-. destruct b as [|x b]; [|discriminate].
      apply ok_inj in Eu. subst us. apply owners_empty; cbn; auto 6.
    + injection El as <-. apply owners_iff in Eu. constructor; exact Eu.
    + injection El as <-. apply owners_iff in Eu. constructor; exact Eu.
  - intros (us & z & C & O & ->).
    assert (G : (do l <- riter hs; mapM (add_unlockhash H) l) = Ok us).
    { inversion O as [l us' F|l us' F|r I0]; subst; cbn [riter bind].
      - apply owners_iff; exact F.
      - apply owners_iff; exact F.
      - cbn in I0. decompose [or] I0; subst; try contradiction; reflexivity. }
    apply bind_ok in G as (l & El & Eu). rewrite El. cbn [bind]. rewrite Eu. cbn [bind]. apply N. eauto.
Qed.

Lemma is_int_iff v : is_int v = true <-> whole_number v.
Proof. unfold whole_number. destruct v; cbn [is_int]; split; intro X; try discriminate; try (destruct X as [(? & X)|(? & X)]; discriminate); eauto. Qed.
Lemma not_int_iff v : is_int v = false <-> ~ whole_number v.
Proof. rewrite <- is_int_iff. destruct (is_int v); split; intro X; congruence. Qed.
Lemma base_recipient_iff H r c : base_recipient H r = Ok c <-> pays (fun s u => uh_parse H s = Ok u) r c.
Proof.
  split.
  - destruct r as [|z|b|s|b|u|c'|l|l|]; cbn [base_recipient]; intros E; try discriminate.
    + injection E as <-; constructor.
    + apply bind_ok in E as (u & Eu & E). injection E as <-. constructor; exact Eu.
    + apply bind_ok in E as (u & Eu & E). injection E as <-. constructor; exact Eu.
    + injection E as <-; constructor.
    + injection E as <-; constructor.
    + apply multi_new_iff in E as (us & z & C & O & ->). inversion C; subst. inversion O as [? ? F| |? I0]; subst.
      * rewrite (Forall2_length _ _ _ F). constructor; exact F.
      * cbn in I0. decompose [or] I0; try discriminate; contradiction.
    + destruct l as [|a [|b [|]]]; try discriminate. destruct (is_int a) eqn:Ia.
      * apply multi_new_iff in E as (us & z & C & O & ->). apply is_int_iff in Ia. apply pays_n_of; assumption.
      * apply multi_new_iff in E as (us & z & C & O & ->). apply not_int_iff in Ia. apply pays_of_n; assumption.
  - intros P. destruct P as [|c|u|s u P|b u P|l us F|a b us n Ia C O|a b us n Ia C O]; cbn [base_recipient]; auto.
    + rewrite P. reflexivity.
    + rewrite P. reflexivity.
    + apply multi_new_iff. exists us, (Z.of_nat (length us)). repeat split.
      * rewrite (Forall2_length _ _ _ F). constructor.
      * constructor; exact F.
    + apply is_int_iff in Ia. rewrite Ia. apply multi_new_iff. eauto.
    + apply not_int_iff in Ia. rewrite Ia. apply multi_new_iff. eauto.
Qed.

Lemma from_recipient_plain H now r c :
  from_recipient H now r LNone = Ok c <-> pays (fun s u => uh_parse H s = Ok u) r c.
Proof.
  rewrite <- base_recipient_iff. unfold from_recipient. split.
  - intros E. apply bind_ok in E as (c' & E' & E). congruence.
  - intros ->. reflexivity.
Qed.
Lemma from_recipient_locked H now r lock c : lock <> LNone ->
  (from_recipient H now r lock = Ok c <->
   exists l i, lock_new now lock = Ok l /\ pays (fun s u => uh_parse H s = Ok u) r i /\ c = CLock l i).
Proof.
  intros L. unfold from_recipient. split.
  - intros E. apply bind_ok in E as (i & Ei & E). apply base_recipient_iff in Ei.
    assert (G : (do l <- lock_new now lock; Ok (CLock l i)) = Ok c) by (destruct lock; try exact E; contradiction).
    apply bind_ok in G as (l & El & G). injection G as <-. eauto.
  - intros (l & i & El & P & ->). apply base_recipient_iff in P. rewrite P. cbn [bind].
    destruct lock; try contradiction; rewrite El; reflexivity.
Qed.
