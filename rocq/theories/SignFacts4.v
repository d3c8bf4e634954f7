(** Signing does not fail. *)
From Verif Require Import Base BaseFacts Encoders EncodersFacts Primitive Types Conditions
  Fulfillments ThreeBotTypes Txn TxnSign Spec_Types Spec_Fulfil Spec_Txn Spec_Sign TypesFacts TypesFacts2 ConditionFacts ConditionFacts2
  FulfilFacts TxnFacts TxnFacts2 SignFacts SignFacts2 SignFacts3.
From Coq Require Import ZifyBool ZifyNat ZifyN.
Ltac Zify.zify_post_hook ::= Z.div_mod_to_equations.

(** parents are not touched *)
Definition outs (t : txn) : list (option output) * option cond :=
  (match coin_inputs t with Ok l => map i_out l | Err _ => [] end, match t with TMint m => m_parent m | _ => None end).
Lemma set_ff_outs t c f : outs (set_ff t c f) = outs t.
Proof.
  unfold outs. f_equal.
  - destruct c; cbn [set_ff]; try (destruct t; reflexivity). rewrite coin_inputs_set_cin.
    destruct (coin_inputs t) as [l|]; [|reflexivity]. destruct t; try reflexivity; apply set_in_map; reflexivity.
  - destruct c, t; reflexivity.
Qed.
Lemma self_add_outs H t k v t' r : self_signature_add H t k v = (t', r) -> outs t' = outs t.
Proof.
  intros E. pose proof (self_add_inv _ _ _ _ _ _ E) as (A & _ & B & _). unfold outs. rewrite B. f_equal.
  unfold self_signature_add in E. destruct t as [t|t|t|t|t|t|t|t]; try (inversion E; reflexivity).
  all: destruct t' as [t'|t'|t'|t'|t'|t'|t'|t']; try reflexivity; cbn in A; destruct (m_new t'); discriminate.
Qed.
Lemma fulfil_outs H t q k v t' r : t_fulfil H t q k v = (t', r) -> outs t' = outs t.
Proof.
  unfold t_fulfil. intros E. destruct (q_cb q) eqn:C.
  4: { destruct (fulfil_check H (q_rq q) (Some k)) as [pk|]; [|inversion E; reflexivity]. exact (self_add_outs _ _ _ _ _ _ E). }
  all: destruct (get_ff t _) as [f|]; [|inversion E; reflexivity]; destruct (fulfil H (q_rq q) f (Some k) v) as [[x f'] o]; inversion E; subst;
    match goal with |- outs ?x = _ => first [change x with (set_ff t (CbCoin i) f') | change x with (set_ff t (CbStake i) f') | change x with (set_ff t CbMint f')] end;
    apply set_ff_outs.
Qed.

Definition kind_of (f : ff) : nat := match f with FSingle _ _ => 0 | FSwap _ _ _ => 1 | FMulti _ => 2 end%nat.
Lemma asked_fulfilled H f g c : ff_asked H f c <> Err TypeError -> kind_of f = kind_of g -> is_ok (ff_is_fulfilled g c) = true.
Proof.
  destruct f, g; try discriminate; intros E _; cbn in E |- *; [destruct (cond_unwrap c) | destruct c | destruct (cond_unwrap c)]; try reflexivity; contradiction.
Qed.

Section Sign.
Variables (H : bytes -> bytes) (sign : pubkey -> bytes -> bytes) (primary : pystr) (ks : keys).
Hypothesis sign64 : forall k h, length (sign k h) = 64%nat.
Hypothesis HH : hash_ok H.
Hypothesis WO : wallet_ok H primary ks.

Lemma signed_kind t ex us f f' : signed_by H sign primary ks t ex us f f' -> kind_of f' = kind_of f.
Proof. induction 1 as [| |u us f f' k d W D S IH]; auto. rewrite IH. destruct f; reflexivity. Qed.
Lemma loop_outs qs : forall t n t' r, sign_loop H sign primary ks qs t n = (t', r) -> outs t' = outs t.
Proof.
  induction qs as [|q qs IH]; intros t n t' r E; cbn in E; [inversion E; reflexivity|].
  destruct (uh_str H (rq_uh (q_rq q))) as [a|]; [|inversion E; reflexivity].
  destruct (key_pair_get primary ks a) as [k|]; [|eapply IH; exact E].
  destruct (signature_hash H t (q_extras t q k)) as [h|]; [|inversion E; reflexivity].
  destruct (t_fulfil H t q k (BVBytes (sign k h))) as [t1 [[]|e]] eqn:F; apply fulfil_outs in F; [|inversion E; subst; exact F].
  rewrite (IH _ _ _ _ E). exact F.
Qed.

(** requests are fresh and printable *)
Lemma asked_multi_str signed us rs : asked_multi H signed us = Ok rs -> Forall (fun u => is_ok (uh_str H u) = true) rs.
Proof.
  revert rs. induction us as [|u us IH]; intros rs E; cbn in E; [apply ok_inj in E; subst; constructor|].
  apply bind_ok in E as (a & A & E). apply bind_ok in E as (r & R & E). apply ok_inj in E. subst rs.
  destruct (existsb _ _); [apply IH; exact R | constructor; [rewrite A; reflexivity | apply IH; exact R]].
Qed.
Lemma asked_str f c us : ff_asked H f c = Ok us -> Forall (fun u => is_ok (uh_str H u) = true) us.
Proof.
  intros E. destruct f as [p g|p g s|ps]; cbn in E.
  - destruct (cond_unwrap c); try discriminate; apply bind_ok in E as (u0 & _ & E); apply bind_ok in E as (a & A & E);
      apply bind_ok in E as (b & _ & E); apply ok_inj in E; subst us; destruct (listN_eqb a b); constructor; try constructor; rewrite A; reflexivity.
  - destruct c; try discriminate. apply bind_ok in E as (b & _ & E). apply bind_ok in E as (a1 & A1 & E). apply bind_ok in E as (a2 & A2 & E).
    apply ok_inj in E. subst us. apply Forall_app. split; destruct (listN_eqb _ b); constructor; try constructor; first [rewrite A1 | rewrite A2]; reflexivity.
  - destruct (cond_unwrap c); try discriminate. apply bind_ok in E as (s & _ & E). exact (asked_multi_str _ _ _ E).
Qed.
Lemma ff_requests_fresh f c rs r : ff_requests H f c = Ok rs -> In r rs -> rq_signed r = false /\ is_ok (uh_str H (rq_uh r)) = true.
Proof.
  unfold ff_requests. intros E I. apply bind_ok in E as (us & E & X). apply ok_inj in X. subst rs.
  apply in_map_iff in I as (u & <- & I). split; [reflexivity|]. cbn. apply asked_str in E. rewrite Forall_forall in E. exact (E _ I).
Qed.
Lemma in_requests_fresh mk l : forall i qs q, in_requests H mk i l = Ok qs -> In q qs ->
  rq_signed (q_rq q) = false /\ is_ok (uh_str H (rq_uh (q_rq q))) = true /\ exists j, q_cb q = mk j /\ (i <= j < i + length l)%nat.
Proof.
  induction l as [|x l IH]; intros i qs q E I; cbn in E; [apply ok_inj in E; subst qs; destruct I|].
  apply bind_ok in E as (a & Ea & E). apply bind_ok in E as (r & Er & E). apply ok_inj in E. subst qs.
  apply in_app_iff in I as [I|I].
  - apply in_map_iff in I as (y & <- & I). cbn [q_rq q_cb]. destruct (i_out x) as [o|].
    + destruct (ff_requests_fresh _ _ _ _ Ea I) as [A B]. split; [exact A|]. split; [exact B|]. exists i. cbn [length]. split; [reflexivity|lia].
    + apply ok_inj in Ea. subst a. destruct I.
  - destruct (IH _ _ _ Er I) as (A & B & j & C & D). split; [exact A|]. split; [exact B|]. exists j. cbn [length]. split; [exact C | lia].
Qed.
Lemma own_request_fresh k s w qs q : own_request H k s w = Ok qs -> In q qs ->
  rq_signed (q_rq q) = false /\ is_ok (uh_str H (rq_uh (q_rq q))) = true /\ q_cb q = CbSelf /\ exists p, k = Some p /\ pk_unlockhash H p = Ok (rq_uh (q_rq q)).
Proof.
  intros E I. apply own_request_inv in E as [[-> _]|(p & u & -> & -> & U & ->)]; [destruct I|].
  destruct I as [<-|[]]. cbn. split; [reflexivity|]. split; [|eauto].
  rewrite (uh_str_total H u HH (pk_uh_full _ sign sign64 HH _ _ U)). reflexivity.
Qed.
Lemma wallet_owner k p u : wallet_key H primary ks u = Some k -> pk_unlockhash H p = Ok u -> pk_unlockhash H k = Ok u.
Proof.
  intros W U. destruct (wallet_key_ok H sign primary ks sign64 WO _ _ W) as (a & A & [Z|O]).
  - apply pk_address_fun in U as [T _]. lia.
  - unfold pk_address in A. apply bind_ok in A as (v & V & _). rewrite V, (owner_uh _ sign sign64 HH _ _ _ _ U V O). reflexivity.
Qed.

Definition keys_ok (t : txn) : Prop := Forall (fun k => is_ok (pk_unlockhash H (opk k)) = true) (okeys t).
Lemma requests_ready t qs : requests H t = Ok qs -> keys_ok t -> no_clash H primary ks t ->
  (forall q k, In q qs -> wallet_key H primary ks (rq_uh (q_rq q)) = Some k -> is_ok (sig_input H t (q_extras t q k)) = true) ->
  ready H primary ks t qs.
Proof.
  intros R KO NC SD. split.
  - pose proof R as R'. apply requests_inv in R as (l & a & b & c & El & Ea & Eb & Ec & ->). intros q I.
    assert (T : (rq_signed (q_rq q) = false /\ is_ok (uh_str H (rq_uh (q_rq q))) = true) /\
      (q_cb q = CbSelf -> forall k, wallet_key H primary ks (rq_uh (q_rq q)) = Some k -> self_accepts H t k) /\ (q_cb q <> CbSelf -> get_ff t (q_cb q) <> None)).
    { apply in_app_iff in I as [I|I]; [|apply in_app_iff in I as [I|I]].
      - destruct (in_requests_fresh _ _ _ _ _ Ea I) as (A & B & j & C & D). rewrite C. split; [auto|]. split; [discriminate|]. intros _.
        cbn [get_ff]. rewrite El. destruct (nth_error l j) eqn:N; [discriminate|]. apply nth_error_None in N. lia.
      - destruct (in_requests_fresh _ _ _ _ _ Eb I) as (A & B & j & C & D). rewrite C. split; [auto|]. split; [discriminate|]. intros _.
        cbn [get_ff]. rewrite map_length in D. destruct (nth_error (blockstake_inputs t) j) eqn:N; [discriminate|]. apply nth_error_None in N. lia.
      - unfold self_accepts, keys_ok, okeys in *. destruct t as [t|t|t|t|t|t|t|t]; cbn [own_requests] in Ec; try (apply ok_inj in Ec; subst c; destruct I).
        + destruct (m_parent t) as [mc|]; [|apply ok_inj in Ec; subst c; destruct I]. destruct (m_ff t) as [f|] eqn:MF; [|discriminate].
          apply bind_ok in Ec as (rs & Er & Ec). apply ok_inj in Ec. subst c. apply in_map_iff in I as (y & <- & I). cbn [q_rq q_cb].
          destruct (ff_requests_fresh _ _ _ _ Er I) as [A B]. split; [auto|]. split; [discriminate|]. intros _. cbn. rewrite MF. discriminate.
        + destruct (own_request_fresh _ _ _ _ _ Ec I) as (A & B & C & p & K & U). split; [auto|]. split; [|contradiction].
          intros _ k W. cbn. rewrite K. exists (rq_uh (q_rq q)). split; [exact U | exact (wallet_owner _ _ _ W U)].
        + destruct (own_request_fresh _ _ _ _ _ Ec I) as (A & B & C & p & K & U). split; [auto|]. split; [|contradiction].
          intros _ k W. cbn. rewrite K. exists (rq_uh (q_rq q)). split; [exact U | exact (wallet_owner _ _ _ W U)].
        + destruct (own_request_fresh _ _ _ _ _ Ec I) as (A & B & C & p & K & U). split; [auto|]. split; [|contradiction].
          intros _ k W. cbn. rewrite K. exists (rq_uh (q_rq q)). split; [exact U | exact (wallet_owner _ _ _ W U)].
        + apply bind_ok in Ec as (a1 & E1 & Ec). apply bind_ok in Ec as (a2 & E2 & Ec). apply ok_inj in Ec. subst c.
          cbn in KO |- *. inversion KO as [|? ? K1 KO']; subst. inversion KO' as [|? ? K2 _]; subst.
          destruct (pk_unlockhash H (opk (n_spk t))) as [v|] eqn:V; [|discriminate]. destruct (pk_unlockhash H (opk (n_rpk t))) as [w|] eqn:W; [|discriminate].
          apply in_app_iff in I as [I|I].
          * destruct (own_request_fresh _ _ _ _ _ E1 I) as (A & B & C & p & K & U). split; [auto|]. split; [|contradiction].
            intros _ k WK. pose proof (wallet_owner _ _ _ WK U) as UK. rewrite K in V. cbn [opk] in V. rewrite U in V. apply ok_inj in V.
            subst; clear K; destruct (n_spk t); eexists _, _, _; (split; [exact UK | auto]).
          * destruct (own_request_fresh _ _ _ _ _ E2 I) as (A & B & C & p & K & U). split; [auto|]. split; [|contradiction].
            intros _ k WK. pose proof (wallet_owner _ _ _ WK U) as UK. rewrite K in W. cbn [opk] in W. rewrite U in W. apply ok_inj in W.
            subst; clear K; destruct (n_spk t); eexists _, _, _; (split; [exact UK | auto]). }
    destruct T as ((A & B) & C & D). split; [exact A|]. split; [exact B|]. split; [|exact D].
    intros k W. split; [apply SD; assumption|]. intros X. exact (C X k W).
  - intros c ps G. assert (N : c <> CbSelf) by (intros ->; discriminate).
    pose proof (requests_slot _ _ _ c R N) as Q. rewrite (slot_get _ _ N) in G. destruct (slot t c) as [[[f p] ex]|] eqn:S; [|discriminate].
    cbn in G. injection G as ->. exact (NC _ _ _ _ _ S Q).
Qed.

Lemma all_fulfilled_ok l : Forall (fun x => is_ok (in_is_fulfilled x) = true) l -> forall acc, is_ok (all_fulfilled acc l) = true.
Proof.
  induction 1 as [|x l X F IH]; intros acc; [reflexivity|]. cbn [all_fulfilled]. destruct acc.
  - destruct (in_is_fulfilled x); [apply IH | discriminate].
  - apply IH.
Qed.
Lemma fulfilled_ok t qs n t' m : is_legacy t = false -> requests H t = Ok qs -> sign_loop H sign primary ks qs t n = (t', Ok m) -> is_ok (t_is_fulfilled t') = true.
Proof.
  intros L R E. pose proof (loop_outs _ _ _ _ _ E) as O.
  destruct (loop_slots H sign primary ks sign64 _ _ _ _ _ L E) as (P & _).
  assert (K : forall c, c <> CbSelf -> match slot t c with
     | Some (f, p, _) => exists f', get_ff t' c = Some f' /\ kind_of f' = kind_of f /\ is_ok (wanted H f p) = true
     | None => get_ff t' c = None end).
  { intros c N. pose proof (loop_slot H sign primary ks sign64 t qs n t' m c L R E N) as Q. destruct (slot t c) as [[[f p] ex]|]; [|exact Q].
    destruct Q as (us & f' & A & B & C). exists f'. split; [exact B|]. split; [exact (signed_kind _ _ _ _ _ C) | rewrite A; reflexivity]. }
  pose proof R as R'. apply requests_inv in R' as (l & _ & _ & qo & El & _ & _ & Eo & _).
  assert (El' : exists l', coin_inputs t' = Ok l').
  { pose proof (p_coin _ _ P) as X. rewrite El in X. destruct (coin_inputs t'); [eauto | discriminate]. }
  destruct El' as (l' & El').
  assert (OW : is_ok (own_is_fulfilled t') = true).
  { pose proof (preserved_version _ _ P) as V. destruct t' as [u|u|u|u|u|u|u|u]; try reflexivity.
    destruct t as [t|t|t|t|t|t|t|t]; try (cbn in V; destruct (m_new u); discriminate).
    pose proof (f_equal snd O) as O'. cbn in O'. cbn. rewrite O'. pose proof (K CbMint ltac:(discriminate)) as KM. cbn in KM.
    destruct (m_parent t) as [c|] eqn:MP; [|reflexivity]. cbn in Eo. rewrite MP in Eo.
    destruct (m_ff t) as [f|]; [|discriminate]. cbn in KM. destruct KM as (f' & -> & KM & W).
    eapply (asked_fulfilled H f); [|symmetry; exact KM]. cbn in W. destruct (ff_asked H f c); [discriminate | discriminate W]. }
  unfold t_is_fulfilled. rewrite El'. destruct (own_is_fulfilled t') as [b|]; [|discriminate]. cbn [bind].
  apply all_fulfilled_ok. apply Forall_forall. intros x I. apply In_nth_error in I as (i & I).
  pose proof (K (CbCoin i) ltac:(discriminate)) as Ki. cbn in Ki. rewrite El, El', I in Ki. cbn in Ki.
  pose proof (f_equal fst O) as O'. cbn in O'. rewrite El, El' in O'.
  pose proof (f_equal (fun z => nth_error z i) O') as Oi. cbn in Oi. rewrite !nth_error_map, I in Oi. cbn in Oi.
  destruct (nth_error l i) as [y|]; [|discriminate]. cbn in Oi, Ki. injection Oi as Oi. destruct Ki as (f' & Q & KK & W). injection Q as <-.
  unfold in_is_fulfilled. rewrite Oi. destruct (i_out y) as [o|]; [|reflexivity]. cbn in W.
  eapply (asked_fulfilled H (i_ff y)); [|symmetry; exact KK]. cbn in W. destruct (ff_asked H (i_ff y) (o_cond o)); discriminate.
Qed.

Theorem sign_total known mc submit t : is_legacy t = false -> snd (mint_prepare mc (set_cin t (attach known))) = Ok tt ->
  is_ok (coin_inputs t) = true ->
  let p := prepared known mc t in
  is_ok (requests H p) = true -> own_keys_ok H p -> no_clash H primary ks p -> 
    (forall qs q k, requests H p = Ok qs -> In q qs -> wallet_key H primary ks (rq_uh (q_rq q)) = Some k -> is_ok (sig_input H p (q_extras p q k)) = true) ->
  exists t' r, transaction_sign H sign primary ks known mc submit t = (t', Ok r).
Proof.
  intros L MP CI p R KO NC SD. destruct (prepared_content known mc t) as (PC & PL & PO). rewrite L in PL. fold p in PC, PL, PO.
  unfold transaction_sign. destruct (coin_inputs t) as [l|]; [|discriminate].
  unfold p, prepared in *. destruct (mint_prepare mc (set_cin t (attach known))) as [t1 r1]. cbn in MP. subst r1. cbn [fst] in *.
  destruct (requests H t1) as [qs|] eqn:Q; [|discriminate]. destruct qs as [|q qs]; [eexists _, _; reflexivity|].
  destruct (loop_total H sign primary ks sign64 WO (q :: qs) t1 0 PL) as (t' & m & LOOP).
  { apply requests_ready; auto; [unfold keys_ok, okeys; apply Forall_map; exact KO|]. intros q0 k I W. eapply SD; eauto. }
  rewrite LOOP. pose proof (fulfilled_ok _ _ _ _ _ PL Q LOOP) as F. destruct (t_is_fulfilled t'); [|discriminate]. eexists _, _; reflexivity.
Qed.
End Sign.

(** any history of signing *)
Lemma t_fulfil_preserved H t q k v t' r : t_fulfil H t q k v = (t', r) -> preserved t t'.
Proof.
  unfold t_fulfil. intros E. destruct (q_cb q) eqn:C.
  4: { destruct (fulfil_check H (q_rq q) (Some k)) as [pk|]; [|inversion E; apply preserved_refl].
       apply self_add_inv in E as (A & B & D & _). constructor; congruence. }
  all: destruct (get_ff t _) as [f|]; [|inversion E; apply preserved_refl]; destruct (fulfil H (q_rq q) f (Some k) v) as [[x f'] o]; inversion E; subst;
    match goal with |- preserved _ ?x => first [change x with (set_ff t (CbCoin i) f') | change x with (set_ff t (CbStake i) f') | change x with (set_ff t CbMint f')] end;
    constructor; [apply set_ff_content | apply set_ff_legacy | apply set_ff_coin_ok].
Qed.
Lemma attempts_preserved H l : forall t, preserved t (attempts H t l).
Proof.
  induction l as [|[[q k] v] l IH]; intros t; [apply preserved_refl|]. cbn [attempts].
  destruct (t_fulfil H t q k v) as [t1 r] eqn:E. eapply preserved_trans; [exact (t_fulfil_preserved _ _ _ _ _ _ _ E) | apply IH].
Qed.
Lemma attempts_sig H l t xs : is_legacy t = false -> sig_input H (attempts H t l) xs = sig_input H t xs.
Proof. intros L. apply preserved_sig; [exact L | apply attempts_preserved]. Qed.

(** corollaries *)
Lemma signed_foreign H sign primary ks t ex us f f' : owned H primary ks us = [] -> signed_by H sign primary ks t ex us f f' -> f' = f.
Proof.
  intros O S. induction S as [f|u us f f' W S IH|u us f f' k d W D S IH]; [reflexivity | |]; rewrite owned_cons, W in O; [apply IH; exact O | discriminate].
Qed.
Lemma signed_multi H sign primary ks t ex us ps f' : signed_by H sign primary ks t ex us (FMulti ps) f' ->
  exists qs, f' = FMulti (ps ++ qs) /\ map fst qs = owned H primary ks us /\
  Forall (fun q => exists d, sig_input H t (ex (fst q)) = Ok d /\ snd q = sign (fst q) (H d)) qs.
Proof.
  remember (FMulti ps) as f. intros S. revert ps Heqf. induction S as [f|u us f f' W S IH|u us f f' k d W D S IH]; intros ps ->.
  - exists []. rewrite app_nil_r. auto.
  - destruct (IH ps eq_refl) as (qs & A & B & C). exists qs. rewrite owned_cons, W. auto.
  - destruct (IH _ eq_refl) as (qs & A & B & C). exists ((k, sign k (H d)) :: qs). rewrite owned_cons, W. cbn [map fst].
    rewrite <- app_assoc in A. split; [exact A|]. split; [rewrite B; reflexivity|]. constructor; [|exact C]. exists d. auto.
Qed.
Lemma signed_single H sign primary ks t ex u p g f' : signed_by H sign primary ks t ex [u] (FSingle p g) f' ->
  match wallet_key H primary ks u with
  | Some k => exists d, sig_input H t (ex k) = Ok d /\ f' = FSingle k (Some (sign k (H d)))
  | None => f' = FSingle p g
  end.
Proof.
  intros S. inversion S as [|? ? ? ? W S'|? ? ? ? k d W D S']; subst; rewrite W; inversion S'; subst; [reflexivity|]. exists d. auto.
Qed.
