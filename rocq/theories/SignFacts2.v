(** Which fulfilments and own signatures a wallet signs. *)
From Verif Require Import Base BaseFacts Encoders EncodersFacts Primitive Types Conditions
  Fulfillments ThreeBotTypes Txn TxnSign Spec_Types Spec_Fulfil Spec_Txn Spec_Sign TypesFacts TypesFacts2 ConditionFacts2
  FulfilFacts TxnFacts TxnFacts2 SignFacts.
From Coq Require Import ZifyBool ZifyNat ZifyN.
Ltac Zify.zify_post_hook ::= Z.div_mod_to_equations.

Lemma asked_none c qs : (forall q, In q qs -> q_cb q <> c) -> asked_of c qs = [].
Proof.
  intros N. unfold asked_of. replace (filter (is_cb c) qs) with (@nil treq); [reflexivity|].
  symmetry. induction qs as [|q qs IH]; [reflexivity|]. cbn. unfold is_cb at 1. destruct (cb_eq_dec (q_cb q) c) as [E|_].
  - exfalso. exact (N q (or_introl eq_refl) E).
  - apply IH. intros x X. apply N. right. exact X.
Qed.
Lemma asked_map c w (rs : list request) : asked_of c (map (mktq c w) rs) = map rq_uh rs.
Proof.
  unfold asked_of. induction rs as [|r rs IH]; [reflexivity|]. cbn. unfold is_cb at 1. cbn.
  destruct (cb_eq_dec c c) as [_|N]; [cbn; f_equal; exact IH | contradiction].
Qed.
Lemma requests_uh H f c rs : ff_requests H f c = Ok rs -> ff_asked H f c = Ok (map rq_uh rs).
Proof.
  unfold ff_requests. intros E. apply bind_ok in E as (us & E & F). apply ok_inj in F. subst rs.
  rewrite map_map, map_id. exact E.
Qed.

(** the requests of inputs *)
Lemma in_requests_cb H mk l : forall i qs q, in_requests H mk i l = Ok qs -> In q qs -> exists j, (i <= j)%nat /\ q_cb q = mk j.
Proof.
  induction l as [|x l IH]; intros i qs q E I; cbn in E.
  - apply ok_inj in E. subst qs. destruct I.
  - apply bind_ok in E as (a & _ & E). apply bind_ok in E as (r & Er & E). apply ok_inj in E. subst qs.
    apply in_app_iff in I as [I|I].
    + apply in_map_iff in I as (y & <- & _). exists i. split; [lia | reflexivity].
    + destruct (IH _ _ _ Er I) as (j & J & Q). exists j. split; [lia | exact Q].
Qed.
Lemma in_requests_asked H mk l (inj : forall i j, mk i = mk j -> i = j) : forall i qs j, in_requests H mk i l = Ok qs ->
  match nth_error l j with
  | Some x => wanted H (i_ff x) (option_map o_cond (i_out x)) = Ok (asked_of (mk (i + j)%nat) qs)
  | None => asked_of (mk (i + j)%nat) qs = []
  end.
Proof.
  induction l as [|x l IH]; intros i qs j E; cbn in E.
  - apply ok_inj in E. subst qs. destruct j; reflexivity.
  - apply bind_ok in E as (a & Ea & E). apply bind_ok in E as (r & Er & E). apply ok_inj in E. subst qs.
    destruct j as [|j]; cbn [nth_error].
    + rewrite Nat.add_0_r, asked_app, asked_map. rewrite (asked_none (mk i) r), app_nil_r.
      * unfold wanted. destruct (i_out x) as [o|]; cbn in *; [apply requests_uh; exact Ea | apply ok_inj in Ea; subst a; reflexivity].
      * intros q Q. destruct (in_requests_cb _ _ _ _ _ _ Er Q) as (k & K & ->). intros X. apply inj in X. lia.
    + rewrite asked_app, (asked_none _ (map _ a)).
      * specialize (IH _ _ j Er). replace (i + S j)%nat with (S i + j)%nat by lia. cbn [app]. exact IH.
      * intros q Q. apply in_map_iff in Q as (y & <- & _). cbn. intros X. apply inj in X. lia.
Qed.
Lemma own_requests_cb H t qs q : own_requests H t = Ok qs -> In q qs -> q_cb q = CbMint \/ q_cb q = CbSelf.
Proof.
  assert (O : forall k s w qs, own_request H k s w = Ok qs -> In q qs -> q_cb q = CbSelf).
  { intros k s w l E I. unfold own_request in E. destruct k as [k|]; [|apply ok_inj in E; subst l; destruct I].
    destruct s; [apply ok_inj in E; subst l; destruct I|].
    apply bind_ok in E as (u & _ & E). apply ok_inj in E. subst l. destruct I as [<-|[]]. reflexivity. }
  intros E I. destruct t as [t|t|t|t|t|t|t|t]; cbn [own_requests] in E;
    try (apply ok_inj in E; subst qs; destruct I); try (right; eapply O; eassumption).
  - destruct (m_parent t) as [c|]; [|apply ok_inj in E; subst qs; destruct I].
    destruct (m_ff t) as [f|]; [|discriminate]. apply bind_ok in E as (a & _ & E). apply ok_inj in E. subst qs.
    apply in_map_iff in I as (y & <- & _). left. reflexivity.
  - apply bind_ok in E as (a & Ea & E). apply bind_ok in E as (b & Eb & E). apply ok_inj in E. subst qs.
    apply in_app_iff in I as [I|I]; right; [exact (O _ _ _ _ Ea I) | exact (O _ _ _ _ Eb I)].
Qed.
Lemma own_requests_mint H t qs : own_requests H t = Ok qs ->
  match slot t CbMint with
  | Some (f, c, _) => wanted H f c = Ok (asked_of CbMint qs)
  | None => asked_of CbMint qs = []
  end.
Proof.
  intros E. destruct t as [t|t|t|t|t|t|t|t]; cbn [slot];
    try (apply asked_none; intros q I; destruct (own_requests_cb _ _ _ _ E I) as [X|X]; [|rewrite X; discriminate]);
    try (cbn in E; exfalso; clear - E I X).
  all: try (apply ok_inj in E; subst qs; destruct I).
  all: try (unfold own_request in E).
  - destruct (m_ff t) as [f|] eqn:F; cbn [option_map].
    + cbn in E. unfold wanted. destruct (m_parent t) as [c|]; [|apply ok_inj in E; subst qs; reflexivity].
      rewrite F in E. apply bind_ok in E as (a & Ea & E). apply ok_inj in E. subst qs. rewrite asked_map. apply requests_uh. exact Ea.
    + cbn in E. rewrite F in E. destruct (m_parent t); [discriminate|]. apply ok_inj in E. subst qs. reflexivity.
  - destruct (r_pk t); [|apply ok_inj in E; subst qs; destruct I]. destruct (r_sig t); [apply ok_inj in E; subst qs; destruct I|].
    apply bind_ok in E as (u & _ & E). apply ok_inj in E. subst qs. destruct I as [<-|[]]. discriminate.
  - destruct (b_pk t); [|apply ok_inj in E; subst qs; destruct I]. destruct (b_sig t); [apply ok_inj in E; subst qs; destruct I|].
    apply bind_ok in E as (u & _ & E). apply ok_inj in E. subst qs. destruct I as [<-|[]]. discriminate.
  - destruct (u_parent t); [|apply ok_inj in E; subst qs; destruct I]. destruct (u_sig t); [apply ok_inj in E; subst qs; destruct I|].
    apply bind_ok in E as (u & _ & E). apply ok_inj in E. subst qs. destruct I as [<-|[]]. discriminate.
  - apply bind_ok in E as (a & Ea & E). apply bind_ok in E as (b & Eb & E). apply ok_inj in E. subst qs.
    apply in_app_iff in I as [I|I].
    + destruct (n_spk t); [|apply ok_inj in Ea; subst a; destruct I]. destruct (n_ssig t); [apply ok_inj in Ea; subst a; destruct I|].
      apply bind_ok in Ea as (u & _ & Ea). apply ok_inj in Ea. subst a. destruct I as [<-|[]]. discriminate.
    + destruct (n_rpk t); [|apply ok_inj in Eb; subst b; destruct I]. destruct (n_rsig t); [apply ok_inj in Eb; subst b; destruct I|].
      apply bind_ok in Eb as (u & _ & Eb). apply ok_inj in Eb. subst b. destruct I as [<-|[]]. discriminate.
Qed.

Lemma requests_inv H t qs : requests H t = Ok qs -> exists l a b c, coin_inputs t = Ok l /\ in_requests H CbCoin 0 l = Ok a /\
  in_requests H CbStake 0 (map stake_in (blockstake_inputs t)) = Ok b /\ own_requests H t = Ok c /\ qs = a ++ b ++ c.
Proof.
  unfold requests. intros E. apply bind_ok in E as (l & El & E). apply bind_ok in E as (a & Ea & E).
  apply bind_ok in E as (b & Eb & E). apply bind_ok in E as (c & Ec & E). apply ok_inj in E.
  exists l, a, b, c. auto.
Qed.
(** every slot's wanted signatures are what is asked on its behalf *)
Lemma requests_slot H t qs c : requests H t = Ok qs -> c <> CbSelf ->
  match slot t c with
  | Some (f, p, _) => wanted H f p = Ok (asked_of c qs)
  | None => asked_of c qs = []
  end.
Proof.
  intros E N. apply requests_inv in E as (l & a & b & d & El & Ea & Eb & Ed & ->).
  rewrite !asked_app.
  destruct c as [i|i| |]; [| | |contradiction].
  - rewrite (asked_none (CbCoin i) b), (asked_none (CbCoin i) d), !app_nil_r.
    + cbn [slot]. rewrite El.
      pose proof (in_requests_asked H CbCoin l ltac:(congruence) 0%nat a i Ea) as Q. cbn [Nat.add] in Q.
      destruct (nth_error l i) as [x|]; cbn [option_map]; exact Q.
    + intros q I. destruct (own_requests_cb _ _ _ _ Ed I) as [->| ->]; discriminate.
    + intros q I. destruct (in_requests_cb _ _ _ _ _ _ Eb I) as (j & _ & ->). discriminate.
  - rewrite (asked_none (CbStake i) a), (asked_none (CbStake i) d), !app_nil_r; cbn [app].
    + cbn [slot]. pose proof (in_requests_asked H CbStake _ ltac:(congruence) 0%nat b i Eb) as Q. cbn [Nat.add] in Q.
      rewrite nth_error_map in Q. destruct (nth_error (blockstake_inputs t) i) as [x|]; cbn [option_map] in *; [|exact Q].
      unfold stake_in in Q. destruct (i_out x) as [o|] eqn:O; [rewrite O in Q; exact Q | exact Q].
    + intros q I. destruct (own_requests_cb _ _ _ _ Ed I) as [->| ->]; discriminate.
    + intros q I. destruct (in_requests_cb _ _ _ _ _ _ Ea I) as (j & _ & ->). discriminate.
  - rewrite (asked_none CbMint a), (asked_none CbMint b); cbn [app].
    + apply own_requests_mint. exact Ed.
    + intros q I. destruct (in_requests_cb _ _ _ _ _ _ Eb I) as (j & _ & ->). discriminate.
    + intros q I. destruct (in_requests_cb _ _ _ _ _ _ Ea I) as (j & _ & ->). discriminate.
Qed.
(** slots and fulfilments *)
Lemma slot_get t c : c <> CbSelf -> get_ff t c = option_map (fun s => fst (fst s)) (slot t c).
Proof.
  intros N. destruct c as [i|i| |]; cbn [get_ff slot]; [| | |contradiction].
  - destruct (coin_inputs t) as [l|]; [|reflexivity]. destruct (nth_error l i); reflexivity.
  - destruct (nth_error _ i); reflexivity.
  - destruct t as [t|t|t|t|t|t|t|t]; try reflexivity. destruct (m_ff t); reflexivity.
Qed.
Lemma slot_ex t c f p ex k : slot t c = Some (f, p, ex) -> ex k = ex_of c f k.
Proof.
  destruct c as [i|i| |]; cbn [slot]; intros E; [| | |discriminate].
  - destruct (coin_inputs t) as [l|]; [|discriminate]. destruct (nth_error l i); [|discriminate]. inversion E; subst. reflexivity.
  - destruct (nth_error _ i); [|discriminate]. inversion E; subst. reflexivity.
  - destruct t as [t|t|t|t|t|t|t|t]; try discriminate. destruct (m_ff t); [|discriminate]. inversion E; subst. reflexivity.
Qed.

Section Own.
Variables (H : bytes -> bytes) (sign : pubkey -> bytes -> bytes) (primary : pystr) (ks : keys).
Hypothesis sign64 : forall k h, length (sign k h) = 64%nat.
Hypothesis HH : hash_ok H.

Lemma sign_loop_app a b : forall t n, sign_loop H sign primary ks (a ++ b) t n =
  match sign_loop H sign primary ks a t n with
  | (t1, Ok m) => sign_loop H sign primary ks b t1 m
  | (t1, Err e) => (t1, Err e)
  end.
Proof.
  induction a as [|q a IH]; intros t n; [reflexivity|]. cbn [app sign_loop].
  destruct (uh_str H (rq_uh (q_rq q))) as [s|e]; [|reflexivity].
  destruct (key_pair_get primary ks s) as [k|]; [|apply IH].
  destruct (signature_hash H t (q_extras t q k)) as [h|e]; [|reflexivity].
  destruct (t_fulfil H t q k (BVBytes (sign k h))) as [t1 [[]|e]]; [apply IH | reflexivity].
Qed.

Lemma pk_uh_full p u : pk_unlockhash H p = Ok u -> full_uh u.
Proof.
  intros E. apply pk_address_fun in E as (T & d & _ & X). split; [lia|]. rewrite X. destruct (HH d). split; assumption.
Qed.
Lemma owner_uh p q u v : pk_unlockhash H p = Ok u -> pk_unlockhash H q = Ok v -> owns H q u -> v = u.
Proof.
  intros E F (a & A & B). unfold pk_address in A. rewrite F in A. cbn [bind] in A.
  eapply uh_str_inj; [exact HH | eapply pk_uh_full; exact F | eapply pk_uh_full; exact E | exact A | exact B].
Qed.
Lemma arr_sig64 s : length s = 64%nat -> arr_sig (BVBytes s) = Ok (Some (true, s)).
Proof. intros L. cbn [arr_sig]. rewrite (sig_new_bytes _ L). reflexivity. Qed.

(** one own request *)
Lemma own_request_inv k s w qs : own_request H k s w = Ok qs ->
  (qs = [] /\ (k = None \/ s <> None)) \/
  exists p u, k = Some p /\ s = None /\ pk_unlockhash H p = Ok u /\ qs = [mktq CbSelf w (mkrq u false)].
Proof.
  unfold own_request. intros E. destruct k as [p|]; [|left; apply ok_inj in E; subst; auto].
  destruct s as [s|]; [left; apply ok_inj in E; subst; split; [reflexivity | right; discriminate]|].
  apply bind_ok in E as (u & Eu & E). apply ok_inj in E. subst. right. exists p, u. auto.
Qed.
(** signing one own request *)
Lemma self_step t w p u k s t' : pk_unlockhash H p = Ok u -> length s = 64%nat ->
  t_fulfil H t (mktq CbSelf w (mkrq u false)) k (BVBytes s) = (t', Ok tt) ->
  exists v, pk_unlockhash H k = Ok v /\ v = u /\ self_signature_add H t k (BVBytes s) = (t', Ok tt).
Proof.
  intros E L F. unfold t_fulfil in F. cbn [q_cb q_rq] in F.
  destruct (fulfil_check H (mkrq u false) (Some k)) as [pk|e] eqn:C; [|discriminate].
  apply fulfil_check_ok in C as (_ & Ek & C). injection Ek as <-. cbn [rq_uh] in C.
  destruct C as [C|C]; [apply pk_address_fun in E as (T & _); lia|].
  pose proof C as (a & A & _). unfold pk_address in A. apply bind_ok in A as (v & V & _).
  exists v. split; [exact V|]. split; [exact (owner_uh _ _ _ _ E V C) | exact F].
Qed.

Definition slot_w (x : bytes * option pubkey * bsig) := fst (fst x).
(** the loop over one own request *)
Lemma loop_one t w p u n t' m : pk_unlockhash H p = Ok u ->
  sign_loop H sign primary ks [mktq CbSelf w (mkrq u false)] t n = (t', Ok m) ->
  (wallet_key H primary ks u = None /\ t' = t) \/
  (exists k d, wallet_key H primary ks u = Some k /\ sig_input H t [XBytes w] = Ok d /\ pk_unlockhash H k = Ok u /\
     self_signature_add H t k (BVBytes (sign k (H d))) = (t', Ok tt)).
Proof.
  intros E L. apply loop_step in L as [[W L]|(k & d & t1 & W & D & F & L)].
  - cbn in L. inversion L; subst. left. auto.
  - cbn in L. inversion L; subst. right. exists k, d. cbn in W, D. split; [exact W|]. split; [exact D|].
    destruct (self_step _ _ _ _ _ _ _ E (sign64 _ _) F) as (v & V & -> & S). auto.
Qed.
Ltac own_done := first [apply os_unknown | apply os_done].
Lemma osd t w k s : k = None \/ s <> None -> own_signed H sign primary ks t (w, k, s) (w, k, s).
Proof. intros [->|N]; [apply os_unknown|]. destruct s; [apply os_done | contradiction]. Qed.

Lemma same_key_some p k u : pk_unlockhash H p = Ok u -> pk_unlockhash H k = Ok u -> same_key H (Some p) k = Ok tt.
Proof. intros A B. unfold same_key. rewrite A, B. cbn [bind]. replace (uh_eqb u u) with true; [reflexivity|]. symmetry. apply uh_eqb_eq. reflexivity. Qed.

Lemma own_loop t qs n t' m : own_requests H t = Ok qs -> sign_loop H sign primary ks qs t n = (t', Ok m) -> is_legacy t = false ->
  (forall b, t = T146 b -> pk_unlockhash H (opk (n_spk b)) <> pk_unlockhash H (opk (n_rpk b))) ->
  Forall2 (own_signed H sign primary ks t) (own_slots t) (own_slots t').
Proof.
  intros E L LG DIS. destruct t as [t|t|t|t|t|t|t|t]; cbn [own_slots].
  - apply ok_inj in E. subst qs. cbn in L. inversion L; subst. constructor.
  - (* mint *) assert (O : own_slots t' = own_slots (TMint t)).
    { destruct (loop_slots H sign primary ks sign64 qs _ _ _ _ LG L) as (_ & _ & O & _). apply O.
      apply asked_none. intros q I. destruct (own_requests_cb _ _ _ _ E I) as [X|X]; rewrite X; [discriminate|].
      exfalso. cbn in E. destruct (m_parent t); [|apply ok_inj in E; subst qs; destruct I].
      destruct (m_ff t); [|discriminate]. apply bind_ok in E as (a & _ & E). apply ok_inj in E. subst qs.
      apply in_map_iff in I as (y & <- & _). discriminate. }
    rewrite O. constructor.
  - apply ok_inj in E. subst qs. cbn in L. inversion L; subst. constructor.
  - apply ok_inj in E. subst qs. cbn in L. inversion L; subst. constructor.
  - cbn [own_requests] in E. apply own_request_inv in E as [[-> X]|(p & u & P & S & U & ->)].
    + cbn in L. inversion L; subst. constructor; [apply osd; exact X | constructor].
    + apply (loop_one _ _ _ _ _ _ _ U) in L as [[W ->]|(k & d & W & D & K & F)].
      * cbn [own_slots]. rewrite P, S. constructor; [eapply os_foreign; eassumption | constructor].
      * unfold self_signature_add in F. rewrite P, (same_key_some _ _ _ U K), (arr_sig64 _ (sign64 _ _)) in F. cbn [bind] in F.
        inversion F; subst. cbn [own_slots r_pk r_sig]. rewrite ?P, ?S. constructor; [eapply os_signed; eassumption | constructor].
  - cbn [own_requests] in E. apply own_request_inv in E as [[-> X]|(p & u & P & S & U & ->)].
    + cbn in L. inversion L; subst. constructor; [apply osd; exact X | constructor].
    + apply (loop_one _ _ _ _ _ _ _ U) in L as [[W ->]|(k & d & W & D & K & F)].
      * cbn [own_slots]. rewrite P, S. constructor; [eapply os_foreign; eassumption | constructor].
      * unfold self_signature_add in F. rewrite P, (same_key_some _ _ _ U K), (arr_sig64 _ (sign64 _ _)) in F. cbn [bind] in F.
        inversion F; subst. cbn [own_slots b_pk b_sig]. rewrite ?P, ?S. constructor; [eapply os_signed; eassumption | constructor].
  - cbn [own_requests] in E. apply own_request_inv in E as [[-> X]|(p & u & P & S & U & ->)].
    + cbn in L. inversion L; subst. constructor; [apply osd; exact X | constructor].
    + apply (loop_one _ _ _ _ _ _ _ U) in L as [[W ->]|(k & d & W & D & K & F)].
      * cbn [own_slots]. rewrite P, S. constructor; [eapply os_foreign; eassumption | constructor].
      * unfold self_signature_add in F. rewrite P, (same_key_some _ _ _ U K), (arr_sig64 _ (sign64 _ _)) in F. cbn [bind] in F.
        inversion F; subst. cbn [own_slots u_parent u_sig]. rewrite ?P, ?S. constructor; [eapply os_signed; eassumption | constructor].
  - (* name transfer *) specialize (DIS t eq_refl). cbn [own_requests] in E.
    apply bind_ok in E as (a & Ea & E). apply bind_ok in E as (b & Eb & E). apply ok_inj in E. subst qs.
    rewrite sign_loop_app in L. destruct (sign_loop H sign primary ks a (T146 t) n) as [t1 [n1|e]] eqn:La; [|discriminate].
    assert (A : exists ns, t1 = T146 (mkname (n_sender t) (n_receiver t) (n_names t) (n_fee t) (n_cin t) (n_refund t)
                                               ns (n_rsig t) (n_spk t) (n_rpk t)) /\
                own_signed H sign primary ks (T146 t) (SENDER, n_spk t, n_ssig t) (SENDER, n_spk t, ns)).
    { apply own_request_inv in Ea as [[-> X]|(p & u & P & S & U & ->)].
      - cbn in La. inversion La; subst. exists (n_ssig t). split; [destruct t; reflexivity | apply osd; exact X].
      - apply (loop_one _ _ _ _ _ _ _ U) in La as [[W ->]|(k & d & W & D & K & F)].
        + exists (n_ssig t). split; [destruct t; reflexivity | rewrite P, S; eapply os_foreign; eassumption].
        + unfold self_signature_add in F. rewrite K, P in F. cbn [opk bind] in F. rewrite U in F. cbn [bind] in F.
          replace (uh_eqb u u) with true in F by (symmetry; apply uh_eqb_eq; reflexivity).
          rewrite (arr_sig64 _ (sign64 _ _)) in F. cbn [bind] in F. inversion F; subst.
          eexists. split; [rewrite P; reflexivity|]. rewrite P, S. eapply os_signed; eassumption. }
    destruct A as (ns & -> & A).
    assert (SI : forall xs, sig_input H (T146 (mkname (n_sender t) (n_receiver t) (n_names t) (n_fee t) (n_cin t) (n_refund t)
                                               ns (n_rsig t) (n_spk t) (n_rpk t))) xs = sig_input H (T146 t) xs).
    { intros xs. apply sig_input_content; reflexivity. }
    apply own_request_inv in Eb as [[-> X]|(p & u & P & S & U & ->)].
    + cbn in L. inversion L; subst. cbn [own_slots n_spk n_ssig n_rpk n_rsig]. constructor; [exact A|]. constructor; [apply osd; exact X | constructor].
    + apply (loop_one _ _ _ _ _ _ _ U) in L as [[W ->]|(k & d & W & D & K & F)].
      * cbn [own_slots n_spk n_ssig n_rpk n_rsig]. constructor; [exact A|]. rewrite P, S. constructor; [eapply os_foreign; eassumption | constructor].
      * unfold self_signature_add in F. rewrite K in F. cbn [bind n_spk n_rpk] in F.
        destruct (pk_unlockhash H (opk (n_spk t))) as [us|e] eqn:US; [|discriminate]. cbn [bind] in F.
        rewrite P in F, DIS. cbn [opk] in F, DIS. rewrite U in F, DIS. cbn [bind] in F.
        replace (uh_eqb u us) with false in F by (symmetry; apply not_true_is_false; intros X; apply uh_eqb_eq in X; congruence).
        replace (uh_eqb u u) with true in F by (symmetry; apply uh_eqb_eq; reflexivity).
        rewrite (arr_sig64 _ (sign64 _ _)) in F. cbn [bind] in F. inversion F; subst.
        cbn [own_slots n_spk n_ssig n_rpk n_rsig]. constructor; [exact A|]. rewrite ?P, ?S. constructor; [|constructor].
        eapply os_signed; [exact U | exact W | rewrite <- SI; exact D].
Qed.
End Own.
