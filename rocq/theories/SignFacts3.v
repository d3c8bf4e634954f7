(** A wallet signs what it owns: the whole of transaction_sign. *)
From Verif Require Import Base BaseFacts Encoders EncodersFacts Primitive Types Conditions
  Fulfillments ThreeBotTypes Txn TxnSign Spec_Types Spec_Fulfil Spec_Txn Spec_Sign TypesFacts TypesFacts2 ConditionFacts2
  FulfilFacts TxnFacts TxnFacts2 SignFacts SignFacts2.
From Coq Require Import ZifyBool ZifyNat ZifyN.
Ltac Zify.zify_post_hook ::= Z.div_mod_to_equations.

Lemma own_requests_slots H t u : own_slots t = own_slots u -> version t = version u ->
  (match t with TMint _ => False | _ => True end) -> own_requests H t = own_requests H u.
Proof.
  intros O V M. destruct t as [t|t|t|t|t|t|t|t], u as [u|u|u|u|u|u|u|u]; try discriminate; try contradiction; try reflexivity;
    try (cbn in V; destruct (m_new u); discriminate); cbn in O |- *; inversion O; reflexivity.
Qed.
Lemma preserved_version t t' : preserved t t' -> version t' = version t.
Proof.
  intros [A _ _]. destruct t as [t|t|t|t|t|t|t|t], t' as [u|u|u|u|u|u|u|u]; try discriminate; try reflexivity;
    cbn in A |- *; try (destruct (m_new t); discriminate); try (destruct (m_new u); discriminate).
  destruct (m_new t), (m_new u); try discriminate; reflexivity.
Qed.

Lemma F2_impl {A B} (P Q : A -> B -> Prop) l m : (forall x y, P x y -> Q x y) -> Forall2 P l m -> Forall2 Q l m.
Proof. intros I F. induction F; constructor; auto. Qed.

Section Sign.
Variables (H : bytes -> bytes) (sign : pubkey -> bytes -> bytes) (primary : pystr) (ks : keys).
Hypothesis sign64 : forall k h, length (sign k h) = 64%nat.
Hypothesis HH : hash_ok H.

Lemma loop_slot t qs n t' m c : is_legacy t = false -> requests H t = Ok qs -> sign_loop H sign primary ks qs t n = (t', Ok m) -> c <> CbSelf ->
  match slot t c with
  | Some (f, p, ex) => exists us f', wanted H f p = Ok us /\ get_ff t' c = Some f' /\ signed_by H sign primary ks t ex us f f'
  | None => get_ff t' c = None
  end.
Proof.
  intros L R E N. destruct (loop_slots H sign primary ks sign64 qs _ _ _ _ L E) as (_ & G & _).
  specialize (G c N). pose proof (requests_slot _ _ _ c R N) as Q. rewrite (slot_get _ _ N) in G.
  destruct (slot t c) as [[[f p] ex]|] eqn:S; cbn in G; [|exact G].
  destruct G as (f' & G1 & G2). exists (asked_of c qs), f'. split; [exact Q|]. split; [exact G1|].
  eapply signed_by_ext; [reflexivity | intros k; symmetry; exact (slot_ex _ _ _ _ _ _ S) | exact G2].
Qed.

Lemma loop_own t qs n t' m : is_legacy t = false -> requests H t = Ok qs -> sign_loop H sign primary ks qs t n = (t', Ok m) ->
  (forall b, t = T146 b -> pk_unlockhash H (opk (n_spk b)) <> pk_unlockhash H (opk (n_rpk b))) ->
  Forall2 (own_signed H sign primary ks t) (own_slots t) (own_slots t').
Proof.
  intros L R E DIS. apply requests_inv in R as (l & a & b & c & _ & Ea & Eb & Ec & ->).
  rewrite app_assoc, sign_loop_app in E.
  destruct (sign_loop H sign primary ks (a ++ b) t n) as [t1 [n1|e]] eqn:E1; [|discriminate].
  destruct (loop_slots H sign primary ks sign64 _ _ _ _ _ L E1) as (P & G & O & _).
  assert (O1 : own_slots t1 = own_slots t).
  { apply O. apply asked_none. intros q I. apply in_app_iff in I as [I|I];
      [destruct (in_requests_cb _ _ _ _ _ _ Ea I) as (j & _ & ->) | destruct (in_requests_cb _ _ _ _ _ _ Eb I) as (j & _ & ->)]; discriminate. }
  assert (L1 : is_legacy t1 = false) by (rewrite (p_legacy _ _ P); exact L).
  pose proof (preserved_version _ _ P) as V.
  assert (M : (exists m, t = TMint m) \/ (match t with TMint _ => False | _ => True end)).
  { destruct t; auto. left. eauto. }
  destruct M as [(mi & ->)|M].
  - (* mint: nothing of its own *)
    assert (O2 : own_slots t' = own_slots t1).
    { destruct (loop_slots H sign primary ks sign64 _ _ _ _ _ L1 E) as (_ & _ & O2 & _). apply O2.
      apply asked_none. intros q I X. destruct (own_requests_cb _ _ _ _ Ec I) as [Y|Y]; [congruence|]. cbn in Ec.
      destruct (m_parent mi); [|apply ok_inj in Ec; subst c; destruct I]. destruct (m_ff mi); [|discriminate].
      apply bind_ok in Ec as (z & _ & Ec). apply ok_inj in Ec. subst c. apply in_map_iff in I as (y & <- & _). discriminate. }
    rewrite O2, O1. constructor.
  - rewrite <- (own_requests_slots H t1 t O1 V) in Ec by (clear - V M; destruct t1 as [u|u|u|u|u|u|u|u]; auto; destruct t; cbn in V, M; try contradiction; destruct (m_new u); discriminate).
    rewrite <- O1.
    assert (Z : Forall2 (own_signed H sign primary ks t1) (own_slots t1) (own_slots t')).
    { eapply own_loop; eauto. intros b0 ->. destruct t as [t|t|t|t|t|t|t|t]; try discriminate V; try (cbn in V; destruct (m_new t); discriminate).
      specialize (DIS t eq_refl). inversion O1 as [[X1 X2 X3 X4]]. rewrite X1, X3. exact DIS. }
    eapply F2_impl; [|exact Z]. intros x y S.
    pose proof (preserved_sig H _ _ L P) as SI.
    destruct S; [eapply os_signed; eauto; rewrite <- SI; assumption | eapply os_foreign; eauto | apply os_unknown | apply os_done].
Qed.

Lemma attach_spends known l : spends (attach known l) = spends l.
Proof. unfold spends, attach. rewrite map_map. apply map_ext. intros x. destruct (known (i_parent x)); reflexivity. Qed.
Lemma set_cin_legacy t g : is_legacy (set_cin t g) = is_legacy t.
Proof. destruct t; reflexivity. Qed.
Lemma mint_prepare_inv mc t t1 r : mint_prepare mc t = (t1, r) -> content_of t1 = content_of t /\ is_legacy t1 = is_legacy t /\
  coin_inputs t1 = coin_inputs t /\ own_slots t1 = own_slots t.
Proof.
  unfold mint_prepare. destruct t as [t|t|t|t|t|t|t|t]; intros E; try (inversion E; subst; auto; fail).
  destruct mc as [c|e]; [|inversion E; subst; auto]. destruct (m_ff t) as [f|]; [inversion E; subst; auto|].
  destruct (from_condition c); inversion E; subst; auto.
Qed.
Lemma prepared_content known mc t : content_of (prepared known mc t) = content_of t /\ is_legacy (prepared known mc t) = is_legacy t /\
  is_ok (coin_inputs (prepared known mc t)) = is_ok (coin_inputs t).
Proof.
  unfold prepared. destruct (mint_prepare mc (set_cin t (attach known))) as [t1 r] eqn:E. cbn [fst].
  apply mint_prepare_inv in E as (A & B & C & _). rewrite A, B, C, set_cin_legacy, coin_inputs_set_cin.
  rewrite (set_cin_content _ _ (attach_spends known)). split; [reflexivity|]. split; [reflexivity|].
  destruct (coin_inputs t); [|reflexivity]. destruct t; reflexivity.
Qed.

Theorem sign_slots known mc submit t t' r : is_legacy t = false -> transaction_sign H sign primary ks known mc submit t = (t', Ok r) ->
  content_of t' = content_of t /\
  (forall c, c <> CbSelf -> match slot (prepared known mc t) c with
     | Some (f, p, ex) => exists us f', wanted H f p = Ok us /\ get_ff t' c = Some f' /\ signed_by H sign primary ks (prepared known mc t) ex us f f'
     | None => get_ff t' c = None
     end) /\
  ((forall b, t = T146 b -> pk_unlockhash H (opk (n_spk b)) <> pk_unlockhash H (opk (n_rpk b))) ->
   Forall2 (own_signed H sign primary ks (prepared known mc t)) (own_slots (prepared known mc t)) (own_slots t')).
Proof.
  intros L E. destruct (prepared_content known mc t) as (PC & PL & PO). rewrite L in PL.
  unfold transaction_sign in E. destruct (coin_inputs t) as [l|] eqn:CI; [|discriminate].
  destruct (mint_prepare mc (set_cin t (attach known))) as [t1 [[]|e]] eqn:M; [|discriminate].
  assert (P1 : prepared known mc t = t1) by (unfold prepared; rewrite M; reflexivity). rewrite P1 in *.
  assert (DIS : (forall b, t = T146 b -> pk_unlockhash H (opk (n_spk b)) <> pk_unlockhash H (opk (n_rpk b))) ->
                (forall b, t1 = T146 b -> pk_unlockhash H (opk (n_spk b)) <> pk_unlockhash H (opk (n_rpk b)))).
  { intros D b ->. destruct t as [t|t|t|t|t|t|t|t]; cbn in M; try discriminate M; try (inversion M; fail).
    - destruct mc as [c|]; [|discriminate]. destruct (m_ff t); [inversion M|]. destruct (from_condition c); inversion M.
    - inversion M; subst. cbn. exact (D _ eq_refl). }
  destruct (requests H t1) as [qs|] eqn:R; [|discriminate].
  assert (LOOP : exists n, sign_loop H sign primary ks qs t1 0 = (t', Ok n)).
  { destruct qs as [|q qs]; [exists 0%nat; inversion E; subst; reflexivity|].
    destruct (sign_loop H sign primary ks (q :: qs) t1 0) as [t2 [n|e]]; [|discriminate]. inversion E; subst. eauto. }
  destruct LOOP as (n & LOOP).
  destruct (loop_slots H sign primary ks sign64 _ _ _ _ _ PL LOOP) as (P & _).
  split; [rewrite (p_content _ _ P); exact PC|]. split.
  - intros c N. exact (loop_slot _ _ _ _ _ c PL R LOOP N).
  - intros D. exact (loop_own _ _ _ _ _ PL R LOOP (DIS D)).
Qed.

(** what is reported *)
Theorem sign_result known mc submit t t' sg sb : is_legacy t = false -> transaction_sign H sign primary ks known mc submit t = (t', Ok (sg, sb)) ->
  exists qs, requests H (prepared known mc t) = Ok qs /\
  (sg = true <-> exists q, In q qs /\ wallet_key H primary ks (rq_uh (q_rq q)) <> None) /\
  (sb = true <-> submit = true /\ qs <> [] /\ t_is_fulfilled t' = Ok true).
Proof.
  intros L E. destruct (prepared_content known mc t) as (PC & PL & PO). rewrite L in PL.
  unfold transaction_sign in E. destruct (coin_inputs t) as [l|] eqn:CI; [|discriminate].
  destruct (mint_prepare mc (set_cin t (attach known))) as [t1 [[]|e]] eqn:M; [|discriminate].
  assert (P1 : prepared known mc t = t1) by (unfold prepared; rewrite M; reflexivity). rewrite P1 in *.
  destruct (requests H t1) as [qs|] eqn:R; [|discriminate]. exists qs. split; [reflexivity|].
  destruct qs as [|q qs].
  - inversion E; subst. split; (split; [discriminate|]); [intros (q & [] & _) | intros (_ & N & _); contradiction].
  - destruct (sign_loop H sign primary ks (q :: qs) t1 0) as [t2 [n|e]] eqn:LOOP; [|discriminate].
    destruct (loop_slots H sign primary ks sign64 _ _ _ _ _ PL LOOP) as (_ & _ & _ & _ & B).
    apply pair_equal_spec in E as [-> E]. apply bind_ok in E as (b & F & E). apply ok_inj in E. injection E as <- <-. split.
    + rewrite <- B. apply Nat.ltb_lt.
    + rewrite F. split.
      * intros S. apply andb_true_iff in S as [-> ->]. split; [reflexivity|]. split; [discriminate | reflexivity].
      * intros (-> & _ & X). apply ok_inj in X. subst b. reflexivity.
Qed.

(** ** Nothing stops the signing *)
Lemma existsb_str k ps : ~ In (pk_str k) (map (fun p : pubkey * bytes => pk_str (fst p)) ps) ->
  existsb (fun p : pubkey * bytes => listN_eqb (pk_str (fst p)) (pk_str k)) ps = false.
Proof.
  intros N. apply not_true_is_false. intros X. apply existsb_exists in X as (x & I & X). apply listN_eqb_eq in X.
  apply N. rewrite <- X. exact (in_map (fun p : pubkey * bytes => pk_str (fst p)) _ _ I).
Qed.

Hypothesis WO : wallet_ok H primary ks.
Lemma kfind_ok a k : kfind a ks = Some k -> pk_address H k = Ok a.
Proof.
  unfold wallet_ok in WO. induction ks as [|[b x] l IH]; [discriminate|]. cbn [kfind]. inversion WO as [|? ? Hd Tl]; subst. cbn in Hd.
  destruct (listN_eqb a b) eqn:E; [apply listN_eqb_eq in E; subst; intros X; injection X as <-; exact Hd | apply IH; exact Tl].
Qed.
Lemma str_type_zero u a : uh_str H u = Ok a -> firstn 2 a = s2b "00" -> uh_type u = 0%Z.
Proof.
  unfold uh_str. intros E P. apply bind_ok in E as (c & _ & E). apply bind_ok in E as (g & G & E). apply ok_inj in E. subst a.
  apply guard_ok in G. change (firstn 2 (hex [Z.to_N (uh_type u)] ++ hash_str (uh_hash u) ++ hex (firstn 6 c)))
    with (hex [Z.to_N (uh_type u)]) in P. change (s2b "00") with (hex [0]) in P. apply hex_inj in P.
  - injection P as P. lia.
  - constructor; [lia | constructor].
  - constructor; [lia | constructor].
Qed.
Lemma wallet_key_ok u k : wallet_key H primary ks u = Some k -> exists a, pk_address H k = Ok a /\ (uh_type u = 0%Z \/ owns H k u).
Proof.
  unfold wallet_key. destruct (uh_str H u) as [a|] eqn:E; [|discriminate]. unfold key_pair_get.
  destruct (listN_eqb (firstn 2 a) (s2b "00")) eqn:P; intros K; apply kfind_ok in K.
  - apply listN_eqb_eq in P. exists primary. split; [exact K|]. left. exact (str_type_zero _ _ E P).
  - exists a. split; [exact K|]. right. exists a. auto.
Qed.


(** the keys own signatures have to come from *)
Definition okeys (t : txn) : list (option pubkey) := map (fun x => snd (fst x)) (own_slots t).
Definition self_accepts (t : txn) (k : pubkey) : Prop :=
  match okeys t with
  | [Some p] => exists u, pk_unlockhash H p = Ok u /\ pk_unlockhash H k = Ok u
  | [a; b] => exists u v w, pk_unlockhash H k = Ok u /\ pk_unlockhash H (opk a) = Ok v /\ pk_unlockhash H (opk b) = Ok w /\ (u = v \/ u = w)
  | _ => False
  end.
Lemma uh_eqb_refl u : uh_eqb u u = true.
Proof. apply uh_eqb_eq. reflexivity. Qed.
Lemma self_add_ok t k s : self_accepts t k -> length s = 64%nat -> exists t', self_signature_add H t k (BVBytes s) = (t', Ok tt).
Proof.
  intros A L. unfold self_signature_add, self_accepts in *.
  destruct t as [t|t|t|t|t|t|t|t]; cbn in A; try contradiction; rewrite ?(arr_sig64 _ L).
  - destruct (r_pk t) as [p|]; [|contradiction]. destruct A as (u & A & B). rewrite (same_key_some H _ _ _ A B). eexists; reflexivity.
  - destruct (b_pk t) as [p|]; [|contradiction]. destruct A as (u & A & B). rewrite (same_key_some H _ _ _ A B). eexists; reflexivity.
  - destruct (u_parent t) as [p|]; [|contradiction]. destruct A as (u & A & B). rewrite (same_key_some H _ _ _ A B). eexists; reflexivity.
  - assert (A' : exists u v w, pk_unlockhash H k = Ok u /\ pk_unlockhash H (opk (n_spk t)) = Ok v /\ pk_unlockhash H (opk (n_rpk t)) = Ok w /\ (u = v \/ u = w))
      by (destruct (n_spk t), (n_rpk t); exact A).
    destruct A' as (u & v & w & U & V & W & D). rewrite U, V, W. cbn [bind].
    destruct (uh_eqb u v) eqn:E; [eexists; reflexivity|]. destruct D as [->| ->]; [rewrite uh_eqb_refl in E; discriminate|].
    rewrite uh_eqb_refl. eexists; reflexivity.
Qed.
Lemma okeys_self t k v t' r : self_signature_add H t k v = (t', r) -> okeys t' = okeys t.
Proof.
  unfold self_signature_add. set (X := match t with T1 _ => _ | _ => _ end). intros E.
  assert (G : forall u, X = Ok u -> okeys u = okeys t).
  { unfold X. clear. intros u E. destruct t as [t|t|t|t|t|t|t|t]; try discriminate.
    1-3: apply bind_ok in E as (a & _ & E); apply bind_ok in E as (b & _ & E); apply ok_inj in E; subst u; reflexivity.
    apply bind_ok in E as (a & _ & E). apply bind_ok in E as (b & _ & E). destruct (uh_eqb a b).
    + apply bind_ok in E as (s & _ & E). apply ok_inj in E. subst u. reflexivity.
    + apply bind_ok in E as (c & _ & E). destruct (uh_eqb a c); [|discriminate].
      apply bind_ok in E as (s & _ & E). apply ok_inj in E. subst u. reflexivity. }
  destruct X as [u|e]; inversion E; subst; [apply G; reflexivity | reflexivity].
Qed.

(** every request left in the list can be answered *)
Definition ready (t : txn) (qs : list treq) : Prop :=
  (forall q, In q qs -> rq_signed (q_rq q) = false /\ is_ok (uh_str H (rq_uh (q_rq q))) = true /\
     (forall k, wallet_key H primary ks (rq_uh (q_rq q)) = Some k ->
        is_ok (sig_input H t (q_extras t q k)) = true /\ (q_cb q = CbSelf -> self_accepts t k)) /\
     (q_cb q <> CbSelf -> get_ff t (q_cb q) <> None)) /\
  (forall c ps, get_ff t c = Some (FMulti ps) -> NoDup (map pk_str (map fst ps ++ owned H primary ks (asked_of c qs)))).

Lemma check_ok r k : rq_signed r = false -> wallet_key H primary ks (rq_uh r) = Some k -> fulfil_check H r (Some k) = Ok k.
Proof.
  intros S W. destruct (wallet_key_ok _ _ W) as (a & A & O). unfold fulfil_check. rewrite S. cbn [negb guard bind]. rewrite A. cbn [bind].
  destruct (uh_type (rq_uh r) =? 0)%Z eqn:Z; [reflexivity|]. destruct O as [O|(b & B1 & B2)]; [lia|].
  rewrite B2. cbn [bind]. replace (listN_eqb b a) with true; [reflexivity|]. symmetry. apply listN_eqb_eq. congruence.
Qed.
Lemma signature_add_ok f k s : length s = 64%nat -> (forall ps, f = FMulti ps -> ~ In (pk_str k) (map pk_str (map fst ps))) ->
  signature_add f k (BVBytes s) = (add_sig f k s, Ok tt).
Proof.
  intros L N. destruct f as [p g|p g e|ps]; cbn [signature_add opt_sig pair_sig add_sig]; rewrite (sig_new_bytes _ L); cbn [bind]; try reflexivity.
  rewrite existsb_str; [reflexivity|]. specialize (N ps eq_refl). rewrite map_map in N. exact N.
Qed.
Lemma t_fulfil_ok t q k s : rq_signed (q_rq q) = false -> wallet_key H primary ks (rq_uh (q_rq q)) = Some k -> length s = 64%nat ->
  (q_cb q = CbSelf -> self_accepts t k) -> (q_cb q <> CbSelf -> get_ff t (q_cb q) <> None) ->
  (forall ps, get_ff t (q_cb q) = Some (FMulti ps) -> ~ In (pk_str k) (map pk_str (map fst ps))) ->
  exists t', t_fulfil H t q k (BVBytes s) = (t', Ok tt).
Proof.
  intros S W L A G N. unfold t_fulfil.
  assert (F : forall f, get_ff t (q_cb q) = Some f -> exists r, fulfil H (q_rq q) f (Some k) (BVBytes s) = (r, add_sig f k s, Ok tt)).
  { intros f Gf. unfold fulfil. rewrite (check_ok _ _ S W). rewrite (signature_add_ok _ _ _ L).
    - eexists; reflexivity.
    - intros ps ->. apply N. exact Gf. }
  destruct (q_cb q) eqn:C.
  4: { rewrite (check_ok _ _ S W). exact (self_add_ok _ _ _ (A eq_refl) L). }
  all: destruct (get_ff t _) as [f|]; [|exfalso; apply G; [discriminate | reflexivity]];
    destruct (F f eq_refl) as (r & ->); eexists; reflexivity.
Qed.
Lemma q_extras_step t q k s t' q' k' : length s = 64%nat -> t_fulfil H t q k (BVBytes s) = (t', Ok tt) -> q_extras t' q' k' = q_extras t q' k'.
Proof.
  intros L E. destruct (t_fulfil_step _ _ _ _ _ _ L E) as (_ & G & O). unfold q_extras.
  destruct (cb_eq_dec (q_cb q') (q_cb q)) as [C|C].
  - rewrite C. destruct (cb_eq_dec (q_cb q) CbSelf) as [S|S]; [rewrite S; reflexivity|].
    destruct (O S) as (_ & f & G1 & G2). rewrite G1, G2, add_sig_extras. reflexivity.
  - rewrite (G _ C). reflexivity.
Qed.
Lemma okeys_fulfil t q k v t' : t_fulfil H t q k v = (t', Ok tt) -> okeys t' = okeys t.
Proof.
  unfold t_fulfil. intros E. destruct (q_cb q) eqn:C.
  4: { destruct (fulfil_check H (q_rq q) (Some k)) as [pk|]; [|discriminate]. exact (okeys_self _ _ _ _ _ E). }
  all: destruct (get_ff t _) as [f|]; [|discriminate]; destruct (fulfil H (q_rq q) f (Some k) v) as [[r f'] o]; inversion E; subst;
    clear; destruct t; reflexivity.
Qed.
Lemma owned_cons u us : owned H primary ks (u :: us) = match wallet_key H primary ks u with Some k => k :: owned H primary ks us | None => owned H primary ks us end.
Proof. unfold owned. cbn [flat_map]. destruct (wallet_key H primary ks u); reflexivity. Qed.
Lemma asked_cons c q qs : asked_of c (q :: qs) = if cb_eq_dec (q_cb q) c then rq_uh (q_rq q) :: asked_of c qs else asked_of c qs.
Proof. unfold asked_of. cbn [filter]. unfold is_cb at 1. destruct (cb_eq_dec (q_cb q) c); reflexivity. Qed.

Theorem loop_total qs : forall t n, is_legacy t = false -> ready t qs -> exists t' m, sign_loop H sign primary ks qs t n = (t', Ok m).
Proof.
  induction qs as [|q qs IH]; intros t n L [R1 R2]; [eexists _, _; reflexivity|].
  destruct (R1 q (or_introl eq_refl)) as (S & U & K & G). cbn [sign_loop].
  assert (WK : wallet_key H primary ks (rq_uh (q_rq q)) =
    match uh_str H (rq_uh (q_rq q)) with Ok a => key_pair_get primary ks a | Err _ => None end) by reflexivity.
  destruct (uh_str H (rq_uh (q_rq q))) as [a|e]; [|discriminate].
  destruct (key_pair_get primary ks a) as [k|].
  - destruct (K k WK) as (D & A). unfold signature_hash. destruct (sig_input H t (q_extras t q k)) as [d|e]; [|discriminate]. cbn [bind].
    destruct (t_fulfil_ok t q k (sign k (H d)) S WK (sign64 _ _) A G) as (t1 & F).
    { intros ps P. specialize (R2 _ _ P). rewrite asked_cons in R2. destruct (cb_eq_dec (q_cb q) (q_cb q)); [|contradiction].
      rewrite owned_cons, WK, map_app in R2. cbn [map] in R2. apply NoDup_remove_2 in R2. intros I. apply R2. apply in_app_iff. left. exact I. }
    rewrite F. destruct (t_fulfil_step _ _ _ _ _ _ (sign64 k (H d)) F) as (P1 & G1 & O1).
    apply IH; [rewrite (p_legacy _ _ P1); exact L|]. split.
    + intros q' I. destruct (R1 q' (or_intror I)) as (S' & U' & K' & G'). split; [exact S'|]. split; [exact U'|]. split.
      * intros k' W'. destruct (K' k' W') as (D' & A'). rewrite (q_extras_step _ _ _ _ _ _ _ (sign64 _ _) F).
        rewrite (preserved_sig H _ _ L P1). split; [exact D'|]. intros C. specialize (A' C). unfold self_accepts in *.
        rewrite (okeys_fulfil _ _ _ _ _ F). exact A'.
      * intros C. destruct (cb_eq_dec (q_cb q') (q_cb q)) as [X|X]; [|rewrite (G1 _ X); exact (G' C)].
        rewrite X in C |- *. destruct (O1 C) as (_ & f & _ & ->). discriminate.
    + intros c ps Gc. destruct (cb_eq_dec (q_cb q) c) as [X|X].
      * destruct (cb_eq_dec (q_cb q) CbSelf) as [Y|Y]; [rewrite Y in X; subst c; discriminate|].
        destruct (O1 Y) as (_ & f & Gf & Gf'). rewrite X in Gf, Gf'. rewrite Gc in Gf'. injection Gf' as Gf'.
        destruct f as [|? ? ?|ps0]; try discriminate. injection Gf' as ->.
        specialize (R2 _ _ Gf). rewrite asked_cons in R2. destruct (cb_eq_dec (q_cb q) c); [|contradiction].
        rewrite owned_cons, WK in R2. rewrite (map_app fst ps0). cbn [map fst]. rewrite <- app_assoc. exact R2.
      * rewrite G1 in Gc by congruence. specialize (R2 _ _ Gc). rewrite asked_cons in R2. destruct (cb_eq_dec (q_cb q) c); [contradiction|]. exact R2.
  - apply IH; [exact L|]. split.
    + intros q' I. exact (R1 q' (or_intror I)).
    + intros c ps Gc. specialize (R2 _ _ Gc). rewrite asked_cons in R2. destruct (cb_eq_dec (q_cb q) c); [|exact R2].
      rewrite owned_cons, WK in R2. exact R2.
Qed.
End Sign.
