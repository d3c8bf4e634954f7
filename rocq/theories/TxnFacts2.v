(** More facts about signature data: places of different kinds, independence of fulfilments, legacy transactions. *)
From Verif Require Import Base BaseFacts Encoders EncodersFacts Currency CurrencyFacts Primitive Types Conditions
  Fulfillments ThreeBotTypes Txn Spec_Types Spec_Fulfil Spec_Txn TypesFacts TypesFacts2 ConditionFacts ConditionFacts2 TxnFacts.
From Coq Require Import ZifyBool ZifyNat ZifyN.
Ltac Zify.zify_post_hook ::= Z.div_mod_to_equations.

(** ** A little-endian integer below 2^40 has a zero sixth byte *)
Lemma le8_small v : v < 2 ^ 40 -> nth 5 (le 8 v) 0 = 0.
Proof.
  intros Hv. cbn [le nth]. change (2 ^ 40) with 1099511627776 in Hv.
  rewrite !N.div_div by lia. change (256 * 256 * 256 * 256 * 256) with 1099511627776. 
  rewrite N.div_small by lia. reflexivity.
Qed.
Lemma word_not_index w i x r s : word w -> (Z.of_nat i < 2 ^ 40)%Z -> riv_int 8 (Z.of_nat i) = Ok x -> x ++ r = w ++ s -> False.
Proof.
  intros W Hi E F. apply riv_int_ok in E as (_ & Hv & ->).
  assert (Z : nth 5 (le 8 (Z.to_N (Z.of_nat i)) ++ r) 0 = 0).
  { rewrite app_nth1 by (rewrite le_length; lia). apply le8_small. change (2 ^ 40) with 1099511627776.
    change (2 ^ 40)%Z with 1099511627776%Z in Hi. lia. }
  rewrite F in Z. destruct W as [-> |[-> | ->]]; discriminate Z.
Qed.
(** Extras of a place of a transaction that has own signatures, at equal positions. *)
Lemma words_apart p q ra rb x y r s : index_small p -> index_small q ->
  xs_riv (extras_of p) +++ ra = Ok x -> xs_riv (extras_of q) +++ rb = Ok y -> x ++ r = y ++ s -> own_word p = own_word q.
Proof.
  intros Ip Iq Ep Eq E.
  assert (X : forall p x, index_small p -> forall ra, xs_riv (extras_of p) +++ ra = Ok x ->
     (exists i y z, (Z.of_nat i < 2 ^ 40)%Z /\ own_word p = None /\ riv_int 8 (Z.of_nat i) = Ok y /\ x = y ++ z) \/
     (exists w z, word w /\ own_word p = Some w /\ x = w ++ z)).
  { clear. intros p x Ip ra E. apply rapp_ok in E as (a & b & E & _ & ->).
    destruct p as [i|i k|i k t|w| |k]; cbn [index_small extras_of own_word] in *; try contradiction; unfold xs_riv in E; cbn [map rconcat x_riv] in E.
    - apply rapp_ok in E as (c & d & E & _ & ->). left. rewrite <- app_assoc. eauto 8.
    - apply rapp_ok in E as (c & d & E & _ & ->). left. rewrite <- app_assoc. eauto 8.
    - apply rapp_ok in E as (c & d & E & _ & ->). left. rewrite <- app_assoc. eauto 8.
    - right. apply rapp_ok in E as (c & d & E & F & ->). apply ok_inj in E. apply ok_inj in F. subst c d.
      exists w, b. rewrite app_nil_r. auto. }
  destruct (X _ _ Ip _ Ep) as [(i & x1 & x2 & Hi & -> & E1 & ->)|(w & x2 & W & -> & ->)];
  destruct (X _ _ Iq _ Eq) as [(j & y1 & y2 & Hj & -> & E2 & ->)|(v & y2 & V & -> & ->)]; try reflexivity;
  rewrite <- !app_assoc in E.
  - exfalso. exact (word_not_index _ _ _ _ _ V Hi E1 E).
  - exfalso. symmetry in E. exact (word_not_index _ _ _ _ _ W Hj E2 E).
  - destruct W as [-> |[-> | ->]], V as [-> |[-> | ->]]; try reflexivity; discriminate E.
Qed.
Lemma own_apart H t u p q d : own_signatures t = true -> own_signatures u = true -> sized t -> sized u ->
  index_small p -> index_small q ->
  sig_input H t (extras_of p) = Ok d -> sig_input H u (extras_of q) = Ok d -> own_word p = own_word q.
Proof.
  intros Ot Ou St Su Ip Iq Et Eu.
  assert (V : version t = version u).
  { apply (sig_input_version H t u (extras_of p) (extras_of q) d); auto; [destruct t | destruct u]; try discriminate; reflexivity. }
  assert (X : exists x y (r s : bytes), sig_input H t (extras_of p) = Ok x /\ sig_input H u (extras_of q) = Ok y /\ x ++ r = y ++ s).
  { exists d, d, [], []. auto. }
  destruct X as (x & y & r & s & Fx & Fy & E). clear Et Eu.
  destruct t as [t|t|t|t|t|t|t|t], u as [u|u|u|u|u|u|u|u]; try discriminate; cbn [sig_input] in Fx, Fy; cbn [sized] in *.
  - destruct St as (A1 & _), Su as (B1 & _).
    apply bind_ok in Fx as (ci & _ & Fx). apply bind_ok in Fy as (cj & _ & Fy).
    step (riv_int_uniq 1). step spec_uniq. step pk_riv_uniq. exact (words_apart _ _ _ _ _ _ _ _ Ip Iq Fx Fy E).
  - step (riv_int_uniq 1). step spec_uniq. exact (words_apart _ _ _ _ _ _ _ _ Ip Iq Fx Fy E).
  - step (riv_int_uniq 1). step spec_uniq. step (riv_int_uniq 4). exact (words_apart _ _ _ _ _ _ _ _ Ip Iq Fx Fy E).
  - apply bind_ok in Fx as (ci & _ & Fx). apply bind_ok in Fy as (cj & _ & Fy).
    step (riv_int_uniq 1). step spec_uniq. step (riv_int_uniq 4). step (riv_int_uniq 4). exact (words_apart _ _ _ _ _ _ _ _ Ip Iq Fx Fy E).
Qed.

(** ** Standard transactions: inputs signed with and without the key in the hash *)
Lemma key_not_count k n x y (r s : bytes) : pk_spec k = PKEd25519 -> (Z.of_nat n < 2 ^ 40)%Z -> sia_int (Z.of_nat n) = Ok x -> pk_sia k = Ok y ->
  x ++ r = y ++ s -> False.
Proof.
  intros K Hn Ex Ey E. apply sia_int_ok in Ex as (Hv & ->). unfold pk_sia in Ey. rewrite K in Ey.
  apply rapp_ok in Ey as (a & b & E1 & _ & ->). apply ok_inj in E1. subst a.
  assert (Z : nth 5 (le 8 (Z.to_N (Z.of_nat n)) ++ r) 0 = 0).
  { rewrite app_nth1 by (rewrite le_length; lia). apply le8_small. change (2 ^ 40) with 1099511627776.
    change (2 ^ 40)%Z with 1099511627776%Z in Hn. lia. }
  rewrite E in Z. rewrite <- app_assoc in Z. discriminate Z.
Qed.
Lemma std_plain_vs_key H t u i q k d : s_legacy t = false -> s_legacy u = false -> few (s_cin t) ->
  keyed q = Some k -> (forall k', q <> MintKey k') -> pk_spec k = PKEd25519 ->
  sig_input H (T1 t) (extras_of (PlainInput i)) = Ok d -> sig_input H (T1 u) (extras_of q) = Ok d -> False.
Proof.
  intros Lt Lu F K NM KS Et Eu. cbn [sig_input] in Et, Eu. rewrite Lt in Et. rewrite Lu in Eu.
  assert (E : d ++ [] = d ++ []) by reflexivity. set (e := d) in Eu at 1. 
  assert (X : exists j xs, extras_of q = XInt (Z.of_nat j) :: XKey k :: xs).
  { destruct q; cbn [keyed] in K; try discriminate; injection K as ->; cbn; eauto. exfalso. exact (NM k eq_refl). }
  destruct X as (j & xs & X). rewrite X in Eu. unfold e in *. clear e.
  apply rapp_ok in Et as (a1 & a2 & E1 & Et & ->). apply rapp_ok in Eu as (b1 & b2 & G1 & Eu & D).
  rewrite E1 in G1. apply ok_inj in G1. subst b1. apply app_inv_head in D. subst b2.
  unfold xs_sia in Et, Eu. cbn [extras_of map rconcat x_sia] in Et, Eu. rewrite !rapp_assoc in Et, Eu.
  apply rapp_ok in Et as (c1 & c2 & E2 & Et & ->). apply rapp_ok in Eu as (e1 & e2 & G2 & Eu & D).
  destruct (sia_int_uniq _ _ _ _ _ _ I I E2 G2 D) as [_ D2]. subst e2.
  apply rapp_ok in Et as (f1 & f2 & E3 & Et & ->). apply ok_inj in E3. subst f1. cbn [app] in Eu.
  apply rapp_ok in Eu as (g1 & g2 & G3 & Eu & D3). subst f2.
  apply rapp_ok in Et as (h1 & h2 & E4 & Et & D4). unfold ids_sia, sia_list in E4.
  apply rapp_ok in E4 as (k1 & k2 & E5 & E6 & ->). rewrite map_length in E5. symmetry in D4. rewrite <- app_assoc in D4.
  unfold few in F; apply rapp_ok in G3 as (g3 & g4 & G3 & _ & ->); rewrite <- app_assoc in D4; eapply (key_not_count k (length (s_cin t)) _ _ _ _ KS F E5); [exact G3 | exact D4].
Qed.

(** ** Minting: single versus multi-signature mint fulfilment *)
Lemma mint_plain_vs_key H t u k d : length (m_nonce t) = 8%nat -> length (m_nonce u) = 8%nat ->
  (forall os, m_new t = MCoins os -> few os) -> pk_spec k = PKEd25519 ->
  sig_input H (TMint t) (extras_of MintInput) = Ok d -> sig_input H (TMint u) (extras_of (MintKey k)) = Ok d -> False.
Proof.
  intros Nt Nu F KS Et Eu. pose proof (sig_input_version H (TMint t) (TMint u) _ _ d eq_refl eq_refl Et Eu) as V.
  cbn [sig_input extras_of] in Et, Eu.
  assert (SP : specifier (TMint t) = specifier (TMint u)).
  { cbn [version specifier] in *. destruct (m_new t), (m_new u); try discriminate V; reflexivity. }
  rewrite <- V, <- SP in Eu.
  apply rapp_ok in Et as (a1 & a2 & E1 & Et & ->). apply rapp_ok in Eu as (b1 & b2 & G1 & Eu & D).
  rewrite E1 in G1. apply ok_inj in G1. subst b1. apply app_inv_head in D. subst b2.
  apply rapp_ok in Et as (c1 & c2 & E2 & Et & ->). apply rapp_ok in Eu as (e1 & e2 & G2 & Eu & D).
  apply ok_inj in E2. apply ok_inj in G2. subst c1 e1. apply app_inv_head in D. subst e2.
  apply rapp_ok in Et as (f1 & f2 & E3 & Et & ->). apply rapp_ok in Eu as (g1 & g2 & G3 & Eu & D).
  apply ok_inj in E3. apply ok_inj in G3. subst f1 g1. apply app_inj_len in D as [_ D]; [|lia]. subst g2.
  unfold xs_sia in Et, Eu. cbn [map rconcat x_sia] in Et, Eu. rewrite !rapp_assoc in Eu.
  apply rapp_ok in Et as (h1 & h2 & E4 & Et & ->). apply ok_inj in E4. subst h1. cbn [app] in Eu.
  apply rapp_ok in Eu as (k1 & k2 & G4 & Eu & ->).
  destruct (m_new t) as [c|os] eqn:M.
  - apply rapp_ok in Et as (x1 & x2 & E5 & Et & D). unfold cond_sia in E5.
    apply rapp_ok in E5 as (y1 & y2 & E6 & _ & ->). apply ok_inj in E6. subst y1. unfold pk_sia in G4. rewrite KS in G4.
    apply rapp_ok in G4 as (z1 & z2 & G5 & _ & ->). apply ok_inj in G5. subst z1. 
    pose proof (cond_type_range c) as R. injection D as D _. lia.
  - apply rapp_ok in Et as (x1 & x2 & E5 & Et & D). unfold sia_list in E5.
    apply rapp_ok in E5 as (y1 & y2 & E6 & _ & ->). symmetry in D. rewrite <- app_assoc in D.
    specialize (F _ eq_refl); unfold few in F; eapply (key_not_count k (length os) _ _ _ _ KS F E6); [exact G4 | exact D].
Qed.

(** ** The signature data depend on nothing but the content *)
Lemma sig_input_content H t u xs : is_legacy t = false -> is_legacy u = false -> content_of t = content_of u ->
  is_ok (coin_inputs t) = is_ok (coin_inputs u) -> sig_input H t xs = sig_input H u xs.
Proof.
  intros Lt Lu C I.
  destruct t as [t|t|t|t|t|t|t|t], u as [u|u|u|u|u|u|u|u]; cbn [content_of is_legacy coin_inputs] in *; 
    try (repeat match type of C with context [match m_new ?t with _ => _ end] => destruct (m_new t) eqn:? end; discriminate C).
  - cbn [sig_input]. rewrite Lt, Lu, !outs_sia, !ids_sia_eq. injection C as -> -> -> -> -> ->. reflexivity.
  - cbn [sig_input version specifier]. destruct (m_new t) eqn:?, (m_new u) eqn:?; try discriminate C;
    rewrite ?outs_sia; injection C as -> -> -> ->; reflexivity.
  - cbn [sig_input specifier]. rewrite !ids_riv_eq, !refund_eq. injection C as -> -> -> -> ->. reflexivity.
  - cbn [sig_input specifier]. injection C as -> -> -> -> ->. reflexivity.
  - cbn [sig_input specifier]. destruct (r_cin t), (r_cin u); try discriminate I; [|reflexivity]. cbn [got bind olist] in *.
    rewrite !ids_riv_eq, !refund_eq. injection C as -> -> -> ->. reflexivity.
  - cbn [sig_input specifier]. rewrite !ids_riv_eq, !refund_eq. injection C as -> -> -> -> -> -> ->. reflexivity.
  - cbn [sig_input specifier]. rewrite !ids_riv_eq, !refund_eq. injection C as -> -> -> -> -> -> -> -> ->. reflexivity.
  - cbn [sig_input specifier]. destruct (n_cin t), (n_cin u); try discriminate I; [|reflexivity]. cbn [got bind olist] in *.
    rewrite !ids_riv_eq, !refund_eq. injection C as -> -> -> -> -> ->. reflexivity.
Qed.
