(** Facts about signing transactions. *)
From Verif Require Import Base BaseFacts Encoders EncodersFacts Primitive Types Conditions
  Fulfillments ThreeBotTypes Txn TxnSign Spec_Types Spec_Fulfil Spec_Txn Spec_Sign TypesFacts FulfilFacts TxnFacts TxnFacts2.
From Coq Require Import ZifyBool ZifyNat ZifyN.
Ltac Zify.zify_post_hook ::= Z.div_mod_to_equations.

Lemma set_nth_same {A} (l : list A) i x y : nth_error l i = Some y -> nth_error (set_nth l i x) i = Some x.
Proof. revert i; induction l as [|a l IH]; intros [|i] E; cbn in *; try discriminate; auto. Qed.
Lemma set_nth_other {A} (l : list A) i j x : i <> j -> nth_error (set_nth l i x) j = nth_error l j.
Proof. revert i j; induction l as [|a l IH]; intros [|i] [|j] N; cbn in *; auto; congruence. Qed.
Lemma set_nth_map {A B} (f : A -> B) (l : list A) i x y : nth_error l i = Some y -> f x = f y -> map f (set_nth l i x) = map f l.
Proof. revert i; induction l as [|a l IH]; intros [|i] E F; cbn in *; try discriminate; [injection E as ->; congruence | f_equal; eauto]. Qed.
Lemma set_in_same l i f x : nth_error l i = Some x -> nth_error (set_in_ff l i f) i = Some (mkin (i_parent x) f (i_out x)).
Proof. intros E. unfold set_in_ff. rewrite E. eapply set_nth_same; eauto. Qed.
Lemma set_in_other l i j f : i <> j -> nth_error (set_in_ff l i f) j = nth_error l j.
Proof. intros N. unfold set_in_ff. destruct (nth_error l i); [apply set_nth_other; exact N | reflexivity]. Qed.
Lemma set_in_map {B} (g : input -> B) l i f : (forall x f, g (mkin (i_parent x) f (i_out x)) = g x) -> map g (set_in_ff l i f) = map g l.
Proof.
  intros G. unfold set_in_ff. destruct (nth_error l i) as [x|] eqn:E; [|reflexivity].
  eapply set_nth_map; [exact E | apply G].
Qed.
Lemma set_in_spends l i f : spends (set_in_ff l i f) = spends l.
Proof. apply set_in_map. reflexivity. Qed.

Lemma coin_inputs_set_cin t g : coin_inputs (set_cin t g) = match coin_inputs t with
   | Ok l => match t with TMint _ | T209 _ => Ok l | _ => Ok (g l) end | Err e => Err e end.
Proof. destruct t as [t|t|t|t|t|t|t|t]; try reflexivity; cbn; [destruct (r_cin t) | destruct (n_cin t)]; reflexivity. Qed.
Lemma set_cin_content t g : (forall l, spends (g l) = spends l) -> content_of (set_cin t g) = content_of t.
Proof.
  intros G. destruct t as [t|t|t|t|t|t|t|t]; cbn; rewrite ?G; try reflexivity;
    [destruct (r_cin t) | destruct (n_cin t)]; cbn; rewrite ?G; reflexivity.
Qed.
Lemma set_bin_content t g : (forall l, spends (g l) = spends l) -> content_of (set_bin t g) = content_of t.
Proof. intros G. destruct t as [t|t|t|t|t|t|t|t]; cbn; rewrite ?G; reflexivity. Qed.
Lemma set_mint_content t f : content_of (set_mint_ff t f) = content_of t.
Proof. destruct t as [t|t|t|t|t|t|t|t]; reflexivity. Qed.
Lemma set_ff_content t c f : content_of (set_ff t c f) = content_of t.
Proof.
  destruct c; cbn [set_ff]; [apply set_cin_content | apply set_bin_content | apply set_mint_content | reflexivity];
    intros l; apply set_in_spends.
Qed.
Lemma set_ff_legacy t c f : is_legacy (set_ff t c f) = is_legacy t.
Proof. destruct c; destruct t; reflexivity. Qed.
Lemma set_ff_coin_ok t c f : is_ok (coin_inputs (set_ff t c f)) = is_ok (coin_inputs t).
Proof.
  destruct c; cbn [set_ff]; try (destruct t; reflexivity).
  rewrite coin_inputs_set_cin. destruct (coin_inputs t) eqn:E; [|reflexivity]. destruct t; reflexivity.
Qed.
Lemma get_set_same t c f g : get_ff t c = Some f -> get_ff (set_ff t c g) c = Some g.
Proof.
  destruct c as [i|i| |]; cbn [get_ff set_ff]; intros E.
  - rewrite coin_inputs_set_cin. destruct (coin_inputs t) as [l|] eqn:C; [|discriminate].
    destruct (nth_error l i) as [x|] eqn:X; [|discriminate].
    destruct t; cbn in C; try (apply ok_inj in C; subst l; destruct i; discriminate X);
      rewrite (set_in_same _ _ _ _ X); reflexivity.
  - destruct (nth_error (blockstake_inputs t) i) as [x|] eqn:X; [|discriminate].
    destruct t; cbn in X; try (destruct i; discriminate X). cbn. rewrite (set_in_same _ _ _ _ X). reflexivity.
  - destruct t; try discriminate. reflexivity.
  - discriminate.
Qed.
Lemma get_set_other t c c' g : c <> c' -> get_ff (set_ff t c g) c' = get_ff t c'.
Proof.
  intros N. destruct c as [i|i| |], c' as [j|j| |]; cbn [get_ff set_ff]; try reflexivity; try contradiction (N eq_refl).
  - rewrite coin_inputs_set_cin. destruct (coin_inputs t) as [l|] eqn:C; [|reflexivity].
    assert (M : i <> j) by congruence. destruct t; rewrite ?(set_in_other _ _ _ _ M); reflexivity.
  - destruct t; reflexivity.
  - destruct t; reflexivity.
  - destruct t; reflexivity.
  - assert (M : i <> j) by congruence. destruct t; try reflexivity. cbn. rewrite (set_in_other _ _ _ _ M). reflexivity.
  - destruct t; reflexivity.
  - destruct t; reflexivity.
  - destruct t; reflexivity.
Qed.
Lemma own_set_ff t c g : own_slots (set_ff t c g) = own_slots t.
Proof. destruct c; destruct t; reflexivity. Qed.

(** own signatures *)
Lemma self_add_inv H t pk v t' r : self_signature_add H t pk v = (t', r) ->
  content_of t' = content_of t /\ is_legacy t' = is_legacy t /\ coin_inputs t' = coin_inputs t /\ (forall c, get_ff t' c = get_ff t c).
Proof.
  unfold self_signature_add. set (X := match t with T1 _ => _ | _ => _ end). intros E.
  assert (G : forall u, X = Ok u -> content_of u = content_of t /\ is_legacy u = is_legacy t /\ coin_inputs u = coin_inputs t /\ (forall c, get_ff u c = get_ff t c)).
  { unfold X. clear. intros u E. destruct t as [t|t|t|t|t|t|t|t]; try discriminate.
    - apply bind_ok in E as (a & _ & E). apply bind_ok in E as (b & _ & E). apply ok_inj in E. subst u.
      repeat (split; [reflexivity|]); intros []; reflexivity.
    - apply bind_ok in E as (a & _ & E). apply bind_ok in E as (b & _ & E). apply ok_inj in E. subst u.
      repeat (split; [reflexivity|]); intros []; reflexivity.
    - apply bind_ok in E as (a & _ & E). apply bind_ok in E as (b & _ & E). apply ok_inj in E. subst u.
      repeat (split; [reflexivity|]); intros []; reflexivity.
    - apply bind_ok in E as (a & _ & E). apply bind_ok in E as (b & _ & E).
      destruct (uh_eqb a b).
      + apply bind_ok in E as (s & _ & E). apply ok_inj in E. subst u. repeat (split; [reflexivity|]); intros []; reflexivity.
      + apply bind_ok in E as (c & _ & E). destruct (uh_eqb a c); [|discriminate].
        apply bind_ok in E as (s & _ & E). apply ok_inj in E. subst u. repeat (split; [reflexivity|]); intros []; reflexivity. }
  destruct X as [u|e]; inversion E; subst; [apply G; reflexivity | auto].
Qed.

Lemma sig_add_64 f k s f' : length s = 64%nat -> signature_add f k (BVBytes s) = (f', Ok tt) -> f' = add_sig f k s.
Proof.
  intros L E. destruct f as [p g|p g e|ps]; cbn [signature_add opt_sig pair_sig] in E; rewrite ?(sig_new_bytes _ L) in E; cbn [bind] in E.
  - inversion E; reflexivity.
  - inversion E; reflexivity.
  - destruct (existsb _ ps); inversion E; reflexivity.
Qed.
Lemma add_sig_extras f k s p : ff_extras (add_sig f k s) p = ff_extras f p.
Proof. destruct f; reflexivity. Qed.

Lemma t_fulfil_ff H t q k s t' f : q_cb q <> CbSelf -> get_ff t (q_cb q) = Some f -> length s = 64%nat ->
  t_fulfil H t q k (BVBytes s) = (t', Ok tt) -> t' = set_ff t (q_cb q) (add_sig f k s).
Proof.
  intros N G L E. unfold t_fulfil in E.
  destruct (fulfil H (q_rq q) f (Some k) (BVBytes s)) as [[r' f'] o] eqn:F.
  assert (o = Ok tt /\ t' = set_ff t (q_cb q) f') as [-> ->]
    by (destruct (q_cb q); try contradiction; rewrite G, F in E; inversion E; subst; auto).
  apply fulfil_accepted in F as (_ & _ & _ & p & P & _ & A). injection P as <-. rewrite (sig_add_64 _ _ _ _ L A). reflexivity.
Qed.

Definition cb_eq_dec (a b : cb) : {a = b} + {a <> b}.
Proof. decide equality; apply Nat.eq_dec. Defined.
Definition is_cb (c : cb) (q : treq) : bool := if cb_eq_dec (q_cb q) c then true else false.
Definition asked_of (c : cb) (qs : list treq) : list uh := map (fun q => rq_uh (q_rq q)) (filter (is_cb c) qs).
Lemma asked_app c a b : asked_of c (a ++ b) = asked_of c a ++ asked_of c b.
Proof. unfold asked_of. rewrite filter_app, map_app. reflexivity. Qed.

(** what a request hashes in terms of its slot *)
Definition ex_of (c : cb) (f : ff) (k : pubkey) : list extra :=
  match c with CbCoin i | CbStake i => XInt (Z.of_nat i) :: ff_extras f k | _ => ff_extras f k end.
Lemma q_extras_ff t q k f : q_cb q <> CbSelf -> get_ff t (q_cb q) = Some f -> q_extras t q k = ex_of (q_cb q) f k.
Proof. intros N G. unfold q_extras, ex_of. rewrite G. destruct (q_cb q); try reflexivity. contradiction. Qed.
Lemma ex_of_add c f k s p : ex_of c (add_sig f k s) p = ex_of c f p.
Proof. unfold ex_of. rewrite add_sig_extras. reflexivity. Qed.

Section Loop.
Variables (H : bytes -> bytes) (sign : pubkey -> bytes -> bytes) (primary : pystr) (ks : keys).
Hypothesis sign64 : forall k h, length (sign k h) = 64%nat.

Lemma signed_by_ext t u ex ex' us f f' : (forall xs, sig_input H t xs = sig_input H u xs) -> (forall k, ex k = ex' k) ->
  signed_by H sign primary ks t ex us f f' -> signed_by H sign primary ks u ex' us f f'.
Proof.
  intros E X S. induction S as [f|u0 us f f' W S IH|u0 us f f' k d W D S IH]; [constructor | constructor; assumption|].
  eapply sb_own; [exact W | rewrite <- E, <- X; exact D | exact IH].
Qed.

Record preserved (t t' : txn) : Prop := {
  p_content : content_of t' = content_of t;
  p_legacy : is_legacy t' = is_legacy t;
  p_coin : is_ok (coin_inputs t') = is_ok (coin_inputs t) }.
Lemma preserved_refl t : preserved t t.
Proof. constructor; reflexivity. Qed.
Lemma preserved_trans t u v : preserved t u -> preserved u v -> preserved t v.
Proof. intros [A B C] [D E F]. constructor; congruence. Qed.
Lemma preserved_sig t t' : is_legacy t = false -> preserved t t' -> forall xs, sig_input H t' xs = sig_input H t xs.
Proof. intros L [A B C] xs. apply sig_input_content; congruence. Qed.

(** one accepted signature *)
Lemma t_fulfil_step t q k s t' : length s = 64%nat -> t_fulfil H t q k (BVBytes s) = (t', Ok tt) ->
  preserved t t' /\
  (forall c, c <> q_cb q -> get_ff t' c = get_ff t c) /\
  (q_cb q <> CbSelf -> own_slots t' = own_slots t /\
    exists f, get_ff t (q_cb q) = Some f /\ get_ff t' (q_cb q) = Some (add_sig f k s)).
Proof.
  intros L E. destruct (cb_eq_dec (q_cb q) CbSelf) as [C|N].
  - unfold t_fulfil in E. rewrite C in E. destruct (fulfil_check H (q_rq q) (Some k)) as [pk|e]; [|discriminate].
    apply self_add_inv in E as (A & B & D & G). split; [constructor; congruence|]. split; [intros; apply G | congruence].
  - destruct (get_ff t (q_cb q)) as [f|] eqn:G.
    + rewrite (t_fulfil_ff _ _ _ _ _ _ _ N G L E).
      split; [constructor; [apply set_ff_content | apply set_ff_legacy | apply set_ff_coin_ok]|].
      split; [intros c X; apply get_set_other; congruence|]. intros _. split; [apply own_set_ff|]. exists f. split; [reflexivity|].
      apply (get_set_same _ _ _ _ G).
    + unfold t_fulfil in E. destruct (q_cb q); try contradiction; rewrite G in E; discriminate.
Qed.

Lemma loop_step q qs t n t' m : sign_loop H sign primary ks (q :: qs) t n = (t', Ok m) ->
  (wallet_key H primary ks (rq_uh (q_rq q)) = None /\ sign_loop H sign primary ks qs t n = (t', Ok m)) \/
  (exists k d t1, wallet_key H primary ks (rq_uh (q_rq q)) = Some k /\ sig_input H t (q_extras t q k) = Ok d /\
     t_fulfil H t q k (BVBytes (sign k (H d))) = (t1, Ok tt) /\ sign_loop H sign primary ks qs t1 (S n) = (t', Ok m)).
Proof.
  cbn [sign_loop]. unfold wallet_key. destruct (uh_str H (rq_uh (q_rq q))) as [a|e]; [|intros E; discriminate].
  destruct (key_pair_get primary ks a) as [k|]; [|auto].
  unfold signature_hash. destruct (sig_input H t (q_extras t q k)) as [d|e] eqn:D; cbn [bind]; [|intros E; discriminate].
  destruct (t_fulfil H t q k (BVBytes (sign k (H d)))) as [t1 [[]|e]] eqn:F; intros E; [|discriminate].
  right. exists k, d, t1. auto.
Qed.

Theorem loop_slots qs : forall t n t' m, is_legacy t = false -> sign_loop H sign primary ks qs t n = (t', Ok m) ->
  preserved t t' /\
  (forall c, c <> CbSelf -> match get_ff t c with
     | Some f => exists f', get_ff t' c = Some f' /\ signed_by H sign primary ks t (ex_of c f) (asked_of c qs) f f'
     | None => get_ff t' c = None
     end) /\
  (asked_of CbSelf qs = [] -> own_slots t' = own_slots t) /\ (n <= m)%nat /\ 
  ((n < m)%nat <-> exists q, In q qs /\ wallet_key H primary ks (rq_uh (q_rq q)) <> None).
Proof.
  induction qs as [|q qs IH]; intros t n t' m L E.
  - cbn in E. inversion E; subst. split; [apply preserved_refl|]. split.
    + intros c N. destruct (get_ff t' c) as [f|]; [|reflexivity]. exists f. split; [reflexivity | constructor].
    + split; [reflexivity|]. split; [lia|]. split; [lia | intros (q & [] & _)].
  - apply loop_step in E as [[W E]|(k & d & t1 & W & D & F & E)].
    + destruct (IH _ _ _ _ L E) as (P & G & O & M & B). split; [exact P|]. split; [|split; [|split]].
      * intros c N. specialize (G c N). unfold asked_of in *. cbn [filter]. unfold is_cb at 1.
        destruct (get_ff t c) as [f|]; [|exact G]. destruct G as (f' & G1 & G2). exists f'. split; [exact G1|].
        destruct (cb_eq_dec (q_cb q) c); [cbn [map]; apply sb_foreign; assumption | exact G2].
      * intros A. apply O. unfold asked_of in A. cbn [filter] in A. destruct (is_cb CbSelf q); [discriminate | exact A].
      * exact M.
      * rewrite B. split; [intros (x & I1 & I2); exists x; split; [right; exact I1 | exact I2]|].
        intros (x & [<-|I1] & I2); [contradiction | exists x; auto].
    + destruct (t_fulfil_step _ _ _ _ _ (sign64 k (H d)) F) as (P1 & G1 & O1).
      assert (L1 : is_legacy t1 = false) by (rewrite (p_legacy _ _ P1); exact L).
      destruct (IH _ _ _ _ L1 E) as (P & G & O & M & B). split; [eapply preserved_trans; eauto|]. split; [|split; [|split; [lia|]]].
      * intros c N. specialize (G c N). unfold asked_of in *. cbn [filter]. unfold is_cb at 1.
        destruct (cb_eq_dec (q_cb q) c) as [C|C].
        -- assert (NS : q_cb q <> CbSelf) by (rewrite C; exact N). destruct (O1 NS) as (_ & f & G2 & G3). rewrite C in G2, G3. rewrite G3 in G. rewrite G2.
           destruct G as (f' & G4 & G5). exists f'. split; [exact G4|]. cbn [map].
           eapply sb_own; [exact W | |].
           ++ rewrite <- C in G2. rewrite (q_extras_ff _ _ _ _ NS G2), C in D. exact D.
           ++ eapply signed_by_ext; [| |exact G5].
              ** intros xs. apply (preserved_sig _ _ L P1).
              ** intros p. apply ex_of_add.
        -- rewrite G1 in G by congruence. destruct (get_ff t c) as [f|]; [|exact G].
           destruct G as (f' & G4 & G5). exists f'. split; [exact G4|].
           eapply signed_by_ext; [| |exact G5]; [intros xs; apply (preserved_sig _ _ L P1) | reflexivity].
      * intros A. unfold asked_of in A. cbn [filter] in A. unfold is_cb at 1 in A.
        destruct (cb_eq_dec (q_cb q) CbSelf) as [C|C]; [discriminate|]. rewrite (O A). apply O1. exact C.
      * split; [intros _; exists q; split; [left; reflexivity | congruence] | lia].
Qed.
End Loop.
