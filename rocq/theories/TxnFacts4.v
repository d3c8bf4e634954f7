(** The data a transaction id is computed from determine the whole transaction. *)
From Verif Require Import Base BaseFacts Encoders EncodersFacts Currency CurrencyFacts Primitive Types Conditions
  Fulfillments ThreeBotTypes Txn Spec_Types Spec_Fulfil Spec_Txn TypesFacts TypesFacts2 ConditionFacts TxnFacts TxnFacts3.
From Coq Require Import ZifyBool ZifyNat ZifyN.
Ltac Zify.zify_post_hook ::= Z.div_mod_to_equations.

Lemma ff_sia_plain f : ff_sia f = ff_sia (plain_ff f).
Proof. destruct f; reflexivity. Qed.
Lemma ff_riv_plain f : ff_riv f = ff_riv (plain_ff f).
Proof. destruct f; reflexivity. Qed.
Lemma plain_idem f : plain_ff (plain_ff f) = plain_ff f.
Proof. destruct f; reflexivity. Qed.
Definition is_plain (f : ff) : Prop := plain_ff f = f.

Lemma pair_sia_uniq : uniq (fun _ : pubkey * bytes => True) pair_sia.
Proof.
  apply uniq_weaken with (P := fun p : pubkey * bytes => True /\ True); [tauto|].
  exact (uniq_pair _ _ _ _ pk_sia_uniq sia_slice_uniq).
Qed.
Lemma pair_riv_uniq : uniq (fun p : pubkey * bytes => key32 (fst p)) pair_riv.
Proof.
  apply uniq_weaken with (P := fun p : pubkey * bytes => hash32 (pk_hash (fst p)) /\ True); [unfold key32; tauto|].
  exact (uniq_pair _ _ _ _ pk_riv_uniq riv_slice_uniq).
Qed.
Lemma plain_single p s : is_plain (FSingle p s) -> exists b, s = Some b.
Proof. unfold is_plain. cbn. intros E. injection E as <-. eauto. Qed.
Lemma plain_swap p s e : is_plain (FSwap p s e) -> exists b c, s = Some b /\ e = Some c.
Proof. unfold is_plain. cbn. intros E. injection E as <- <-. eauto. Qed.
Lemma Forall_True {A} (l : list A) : Forall (fun _ => True) l.
Proof. apply Forall_forall. auto. Qed.

Lemma ff_sia_data_inj f g x : is_plain f -> is_plain g -> ff_type f = ff_type g ->
  ff_sia_data f = Ok x -> ff_sia_data g = Ok x -> f = g.
Proof.
  intros Pf Pg T Ef Eg. destruct f as [p s|p s e|ps], g as [q s'|q s' e'|qs]; try discriminate T; cbn [ff_sia_data] in *.
  - apply plain_single in Pf as (b & ->). apply plain_single in Pg as (b' & ->). cbn [odef] in *.
    assert (E : x ++ [] = x ++ []) by reflexivity. 
    destruct (peel _ _ pk_sia_uniq _ _ _ _ _ _ _ _ I I Ef Eg E) as (-> & x' & y' & F1 & F2 & F).
    destruct (sia_slice_uniq _ _ _ _ _ _ I I F1 F2 F) as [-> _]. reflexivity.
  - apply plain_swap in Pf as (b & c & -> & ->). apply plain_swap in Pg as (b' & c' & -> & ->). cbn [odef] in *.
    assert (E : x ++ [] = x ++ []) by reflexivity. 
    destruct (peel _ _ pk_sia_uniq _ _ _ _ _ _ _ _ I I Ef Eg E) as (-> & x' & y' & F1 & F2 & F).
    destruct (peel _ _ sia_slice_uniq _ _ _ _ _ _ _ _ I I F1 F2 F) as (-> & x2 & y2 & F3 & F4 & F5).
    apply ok_inj in F3. apply ok_inj in F4. subst. rewrite !app_nil_r in F5. subst. reflexivity.
  - destruct (sia_list_uniq _ _ pair_sia_uniq _ _ _ _ [] [] (Forall_True _) (Forall_True _) Ef Eg eq_refl) as [-> _]. reflexivity.
Qed.
Lemma ff_riv_data_inj f g x : is_plain f -> is_plain g -> keys32 f -> keys32 g -> ff_type f = ff_type g ->
  ff_riv_data f = Ok x -> ff_riv_data g = Ok x -> f = g.
Proof.
  intros Pf Pg Kf Kg T Ef Eg. destruct f as [p s|p s e|ps], g as [q s'|q s' e'|qs]; try discriminate T; cbn [ff_riv_data keys32] in *.
  - apply plain_single in Pf as (b & ->). apply plain_single in Pg as (b' & ->). cbn [odef] in *.
    assert (E : x ++ [] = x ++ []) by reflexivity. 
    destruct (peel _ _ pk_riv_uniq _ _ _ _ _ _ _ _ Kf Kg Ef Eg E) as (-> & x' & y' & F1 & F2 & F).
    destruct (riv_slice_uniq _ _ _ _ _ _ I I F1 F2 F) as [-> _]. reflexivity.
  - apply plain_swap in Pf as (b & c & -> & ->). apply plain_swap in Pg as (b' & c' & -> & ->). cbn [odef] in *.
    assert (E : x ++ [] = x ++ []) by reflexivity. 
    destruct (peel _ _ pk_riv_uniq _ _ _ _ _ _ _ _ Kf Kg Ef Eg E) as (-> & x' & y' & F1 & F2 & F).
    destruct (peel _ _ riv_slice_uniq _ _ _ _ _ _ _ _ I I F1 F2 F) as (-> & x2 & y2 & F3 & F4 & F5).
    apply ok_inj in F3. apply ok_inj in F4. subst. rewrite !app_nil_r in F5. subst. reflexivity.
  - destruct (riv_list_uniq _ _ pair_riv_uniq _ _ _ _ [] [] Kf Kg Ef Eg eq_refl) as [-> _]. reflexivity.
Qed.
Lemma ff_sia_uniq : uniq is_plain ff_sia.
Proof.
  intros f g x y r s Pf Pg Ef Eg E. unfold ff_sia in *.
  apply rapp_ok in Ef as (a1 & a2 & E1 & Ef & ->). apply rapp_ok in Eg as (b1 & b2 & G1 & Eg & ->).
  apply ok_inj in E1. apply ok_inj in G1. subst a1 b1. cbn [app] in E. injection E as Et E.
  apply bind_ok in Ef as (u & Eu & Ef). apply bind_ok in Eg as (v & Ev & Eg).
  destruct (sia_slice_uniq _ _ _ _ _ _ I I Ef Eg E) as [-> ->]. split; [|reflexivity].
  apply (ff_sia_data_inj _ _ v); auto. destruct f, g; cbn in *; try reflexivity; discriminate.
Qed.
Lemma ff_riv_uniq : uniq (fun f => is_plain f /\ keys32 f) ff_riv.
Proof.
  intros f g x y r s [Pf Kf] [Pg Kg] Ef Eg E. unfold ff_riv in *.
  destruct (peel _ _ (riv_int_uniq 1) _ _ _ _ _ _ _ _ I I Ef Eg E) as (T & x' & y' & F1 & F2 & F).
  apply bind_ok in F1 as (u & Eu & F1). apply bind_ok in F2 as (v & Ev & F2).
  destruct (riv_slice_uniq _ _ _ _ _ _ I I F1 F2 F) as [-> ->]. split; [|reflexivity].
  apply (ff_riv_data_inj _ _ v); auto.
Qed.

(** inputs as pairs *)
Definition inp_sia (p : bytes * ff) : res bytes := arr (fst p) +++ ff_sia (snd p).
Definition inp_riv (p : bytes * ff) : res bytes := arr (fst p) +++ ff_riv (snd p).
Lemma inp_sia_uniq : uniq (fun p : bytes * ff => len32 (fst p) /\ is_plain (snd p)) inp_sia.
Proof. exact (uniq_pair _ _ _ _ (arr_uniq 32) ff_sia_uniq). Qed.
Lemma inp_riv_uniq : uniq (fun p : bytes * ff => len32 (fst p) /\ is_plain (snd p) /\ keys32 (snd p)) inp_riv.
Proof. exact (uniq_pair _ _ _ _ (arr_uniq 32) ff_riv_uniq). Qed.
Lemma ins_sia_eq is : sia_list in_sia is = sia_list inp_sia (fulfilled_inputs is).
Proof.
  unfold fulfilled_inputs. rewrite <- (sia_list_map (fun i => (i_parent i, plain_ff (i_ff i))) inp_sia).
  unfold sia_list. f_equal. f_equal. apply map_ext. intros i. unfold in_sia, inp_sia. cbn [fst snd]. rewrite ff_sia_plain. reflexivity.
Qed.
Lemma ins_riv_eq is : riv_list in_riv is = riv_list inp_riv (fulfilled_inputs is).
Proof.
  unfold fulfilled_inputs. rewrite <- (riv_list_map (fun i => (i_parent i, plain_ff (i_ff i))) inp_riv).
  unfold riv_list. f_equal. f_equal. apply map_ext. intros i. unfold in_riv, inp_riv. cbn [fst snd]. rewrite ff_riv_plain. reflexivity.
Qed.
Lemma fin_sia is : Forall in_ok is -> Forall (fun p : bytes * ff => len32 (fst p) /\ is_plain (snd p)) (fulfilled_inputs is).
Proof. intros F. apply Forall_map. eapply Forall_impl; [|exact F]. intros i [L _]. cbn [fst snd]. split; [exact L | apply plain_idem]. Qed.
Lemma keys32_plain f : keys32 f -> keys32 (plain_ff f).
Proof. destruct f; auto. Qed.
Lemma fin_riv is : Forall in_ok is -> Forall (fun i => keys32 (i_ff i)) is ->
  Forall (fun p : bytes * ff => len32 (fst p) /\ is_plain (snd p) /\ keys32 (snd p)) (fulfilled_inputs is).
Proof.
  intros F K. apply Forall_map. rewrite Forall_forall in F, K. apply Forall_forall. intros i Hi. cbn [fst snd].
  destruct (F i Hi) as [L _]. split; [exact L|]. split; [apply plain_idem | apply keys32_plain, K, Hi].
Qed.
Lemma spends_fin is : spends is = map fst (fulfilled_inputs is).
Proof. unfold spends, fulfilled_inputs. rewrite map_map. reflexivity. Qed.
Lemma ins_sia_uniq : uniq (Forall (fun p : bytes * ff => len32 (fst p) /\ is_plain (snd p))) (sia_list inp_sia).
Proof. exact (sia_list_uniq _ _ inp_sia_uniq). Qed.
Lemma ins_riv_uniq : uniq (Forall (fun p : bytes * ff => len32 (fst p) /\ is_plain (snd p) /\ keys32 (snd p))) (riv_list inp_riv).
Proof. exact (riv_list_uniq _ _ inp_riv_uniq). Qed.

(** packed bytes *)
Definition b2n (b : bool) : N := if b then 1 else 0.
Lemma maf_byte (m : N) (a n r : bool) : m < 32 ->
  N.lor (N.lor (N.lor m (if a then 32 else 0)) (if n then 64 else 0)) (if r then 128 else 0) =
  m + 32 * b2n a + 64 * b2n n + 128 * b2n r.
Proof.
  intros Hm.
  replace (if a then 32 else 0) with (N.shiftl (b2n a) 5) by (destruct a; reflexivity).
  replace (if n then 64 else 0) with (N.shiftl (b2n n) 6) by (destruct n; reflexivity).
  replace (if r then 128 else 0) with (N.shiftl (b2n r) 7) by (destruct r; reflexivity).
  rewrite (lor_low 5) by exact Hm. 
  rewrite (lor_low 6) by (change (2 ^ 5) with 32; change (2 ^ 6) with 64; destruct a; cbn [b2n]; lia).
  rewrite (lor_low 7) by (change (2 ^ 5) with 32; change (2 ^ 6) with 64; change (2 ^ 7) with 128; destruct a, n; cbn [b2n]; lia).
  change (2 ^ 5) with 32; change (2 ^ 6) with 64; change (2 ^ 7) with 128. lia.
Qed.
Lemma maf_inv m a n r x : maf m a n r = Ok x ->
  (0 <= m <= 24)%Z /\ x = [Z.to_N m + 32 * b2n a + 64 * b2n n + 128 * b2n r].
Proof.
  unfold maf. intros E. apply bind_ok in E as (g & G & E). apply guard_ok in G.
  assert (M : (0 <= m <= 24)%Z) by lia. rewrite maf_byte in E by lia. split; [exact M|].
  apply riv_int1_inv in E as [_ ->]. rewrite N2Z.id. reflexivity.
Qed.
Lemma maf_inj m a n r m' a' n' r' x y z w : maf m a n r = Ok x -> maf m' a' n' r' = Ok y -> x ++ z = y ++ w ->
  m = m' /\ a = a' /\ n = n' /\ r = r' /\ z = w.
Proof.
  intros E F G. apply maf_inv in E as [M ->]. apply maf_inv in F as [M' ->]. cbn [app] in G. injection G as G ->.
  destruct a, a', n, n', r, r'; cbn [b2n] in G; repeat split; try reflexivity; lia.
Qed.
Lemma pair_len_inj a b a' b' x y z w : (a <= 15)%nat -> (a' <= 15)%nat -> 
  pair_len a b = Ok x -> pair_len a' b' = Ok y -> x ++ z = y ++ w -> a = a' /\ b = b' /\ z = w.
Proof.
  intros A A' E F G. unfold pair_len in *. rewrite lor_low in E, F by (change (2 ^ 4) with 16; lia). change (2 ^ 4) with 16 in *.
  apply riv_int1_inv in E as [_ ->]. apply riv_int1_inv in F as [_ ->]. cbn [app] in G. injection G as G ->. repeat split; try reflexivity; lia.
Qed.
Lemma count_flag_inj a b (r r' : bool) x y z w : (a <= 15)%nat -> (b <= 15)%nat ->
  riv_int 1 (Z.of_N (N.lor (N.of_nat a) (if r then 16 else 0))) = Ok x ->
  riv_int 1 (Z.of_N (N.lor (N.of_nat b) (if r' then 16 else 0))) = Ok y -> x ++ z = y ++ w -> a = b /\ r = r' /\ z = w.
Proof.
  intros A B E F G.
  replace (if r then 16 else 0) with (N.shiftl (b2n r) 4) in E by (destruct r; reflexivity).
  replace (if r' then 16 else 0) with (N.shiftl (b2n r') 4) in F by (destruct r'; reflexivity).
  rewrite lor_low in E, F by (change (2 ^ 4) with 16; lia). change (2 ^ 4) with 16 in *.
  apply riv_int1_inv in E as [_ ->]. apply riv_int1_inv in F as [_ ->]. cbn [app] in G. injection G as G ->.
  destruct r, r'; cbn [b2n] in G; repeat split; lia.
Qed.

(** own signatures *)
Lemma array64_eq s : array64 s -> bsig_riv s = arr (sig_bytes s) /\ length (sig_bytes s) = 64%nat.
Proof. intros (b & -> & L & _). split; [reflexivity | exact L]. Qed.
(** refund whose presence is known *)
Definition mo_riv (p : option (N * cond)) : res bytes := match p with None => nil_w | Some x => pay_riv x end.
Lemma maybe_out_eq o : maybe_out_riv o = mo_riv (option_map pay o).
Proof. destruct o; reflexivity. Qed.
Lemma mo_inj p q ra rb x y (r s : bytes) : rpay_ok p -> rpay_ok q -> is_some p = is_some q ->
  mo_riv p +++ ra = Ok x -> mo_riv q +++ rb = Ok y -> x ++ r = y ++ s ->
  p = q /\ exists x' y', ra = Ok x' /\ rb = Ok y' /\ x' ++ r = y' ++ s.
Proof.
  intros Pp Pq S0 Ep Eq E. destruct p as [p|], q as [q|]; try discriminate S0; cbn [mo_riv] in *.
  - destruct (peel _ _ pay_riv_uniq _ _ _ _ _ _ _ _ (Pp _ eq_refl) (Pq _ eq_refl) Ep Eq E) as (-> & X). auto.
  - apply rapp_ok in Ep as (a1 & a2 & E1 & E2 & ->). apply rapp_ok in Eq as (b1 & b2 & E3 & E4 & ->).
    apply ok_inj in E1. apply ok_inj in E3. subst. eauto 8.
Qed.
Lemma rapp_nil_r a : a +++ Ok [] = a.
Proof. unfold rapp. destruct a as [x|]; cbn; [rewrite app_nil_r|]; reflexivity. Qed.
Lemma option_map_some {A B} (f : A -> B) o : is_some (option_map f o) = is_some o.
Proof. destruct o; reflexivity. Qed.
