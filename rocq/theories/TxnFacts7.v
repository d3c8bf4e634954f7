(** 3Bot transactions: a plain signer and a signer with key; an ambiguity of ERC20 conversions. *)
From Verif Require Import Base BaseFacts Encoders EncodersFacts Currency CurrencyFacts Primitive Types Conditions
  Fulfillments ThreeBotTypes Txn Spec_Types Spec_Fulfil Spec_Txn TypesFacts TypesFacts2 ConditionFacts TxnFacts TxnFacts3 TxnFacts4.
From Coq Require Import ZifyBool ZifyNat ZifyN.
Ltac Zify.zify_post_hook ::= Z.div_mod_to_equations.

Lemma short_list {A} enc (l : list A) x : (length l < 128)%nat -> riv_list enc l = Ok x -> exists r, x = (2 * N.of_nat (length l)) :: r.
Proof.
  intros L E. unfold riv_list in E. apply rapp_ok in E as (a & b & E1 & _ & ->). rewrite riv_lenr_spec in E1.
  unfold lenN in E1. replace (N.of_nat (length l) <? 2 ^ 29) with true in E1 by (change (2 ^ 29) with 536870912; lia).
  apply ok_inj in E1. subst a. unfold prefix_of. replace (N.of_nat (length l) <? 2 ^ 7) with true by (change (2 ^ 7) with 128; lia).
  eexists. cbn [le app]. f_equal. lia.
Qed.
Lemma key_head k x : pk_spec k = PKEd25519 -> pk_riv k = Ok x -> exists r, x = 1 :: r.
Proof.
  unfold pk_riv. intros -> E. apply rapp_ok in E as (a & b & E1 & _ & ->). apply riv_int1_inv in E1 as [_ ->]. eexists; reflexivity.
Qed.
(** the tail after the index *)
Lemma plain_vs_key_tail {A} enc (l : list A) i j k xs ra rb x y (r s : bytes) : (length l < 128)%nat -> pk_spec k = PKEd25519 ->
  xs_riv [XInt (Z.of_nat i)] +++ (riv_list enc l +++ ra) = Ok x -> xs_riv (XInt (Z.of_nat j) :: XKey k :: xs) +++ rb = Ok y ->
  x ++ r = y ++ s -> False.
Proof.
  intros L K Ex Ey E. unfold xs_riv in *. cbn [map rconcat x_riv] in *. rewrite !rapp_assoc in Ex, Ey.
  destruct (peel _ _ (riv_int_uniq 8) _ _ _ _ _ _ _ _ I I Ex Ey E) as (_ & x' & y' & F1 & F2 & F).
  apply rapp_ok in F1 as (a & b & A1 & F1 & ->). apply ok_inj in A1. subst a. cbn [app] in F.
  apply rapp_ok in F1 as (a & c & A1 & _ & ->). destruct (short_list _ _ _ L A1) as (q & ->).
  apply rapp_ok in F2 as (d & e & D & _ & ->). apply rapp_ok in D as (d1 & d2 & D & _ & ->). destruct (key_head _ _ K D) as (q' & ->).
  cbn [app] in F. injection F as F _. lia.
Qed.
Lemma bot_plain_vs_key H t u i q k d : sized t -> sized u -> version t = version u -> short_bot t -> short_bot u ->
  keyed q = Some k -> (forall k', q <> MintKey k') -> pk_spec k = PKEd25519 ->
  sig_input H t (extras_of (PlainInput i)) = Ok d -> sig_input H u (extras_of q) = Ok d -> False.
Proof.
  intros St Su V S1 S2 K NM KS Et Eu.
  assert (X : exists j xs, extras_of q = XInt (Z.of_nat j) :: XKey k :: xs).
  { destruct q; cbn [keyed] in K; try discriminate; injection K as ->; cbn; eauto. exfalso. exact (NM k eq_refl). }
  destruct X as (j & xs & X). rewrite X in Eu.
  assert (E : d ++ [] = d ++ []) by reflexivity. remember d as e eqn:Y in Eu, E at 2. clear Y.
  destruct t as [t|t|t|t|t|t|t|t]; try contradiction S1; destruct u as [u|u|u|u|u|u|u|u]; try contradiction S2; try discriminate V;
    cbn [sig_input sized short_bot extras_of] in *.
  - step (riv_int_uniq 1). step spec_uniq. exact (plain_vs_key_tail _ _ _ _ _ _ _ _ _ _ _ _ S1 KS Et Eu E).
  - step (riv_int_uniq 1). step spec_uniq. step (riv_int_uniq 4). exact (plain_vs_key_tail _ _ _ _ _ _ _ _ _ _ _ _ S1 KS Et Eu E).
  - apply bind_ok in Et as (ci & _ & Et). apply bind_ok in Eu as (cj & _ & Eu).
    step (riv_int_uniq 1). step spec_uniq. step (riv_int_uniq 4). step (riv_int_uniq 4). exact (plain_vs_key_tail _ _ _ _ _ _ _ _ _ _ _ _ S1 KS Et Eu E).
Qed.

(** ERC20 conversions: the same signature data for a plain input of one conversion and a keyed input of another. *)
Definition cv_id : bytes := repeat 5 25 ++ [1] ++ repeat 0 6.
Definition cv_h : bytes := repeat 6 26 ++ [8; 7; 7; 7; 7; 0].
Definition cv_t : tx_conv := mkconv (repeat 9 20) 100 None [ex_in cv_id] (Some (ex_out 5 cv_h)).
Definition cv_u : tx_conv := mkconv (repeat 9 20) 100 (Some 117901063) [ex_in ([1; 2; 5; 1; 66; 1] ++ repeat 6 26)] None.
Definition cv_k : pubkey := mkpk PKEd25519 (repeat 0 7 ++ repeat 5 25).
Lemma convert_ambiguous : exists t u k, forall H, exists d,
  sized (T208 t) /\ sized (T208 u) /\ key32 k /\
  sig_input H (T208 t) (extras_of (PlainInput 0)) = Ok d /\ sig_input H (T208 u) (extras_of (KeyInput 0 k)) = Ok d /\
  content_of (T208 t) <> content_of (T208 u).
Proof.
  exists cv_t, cv_u, cv_k. intros H. eexists.
  split. { split; [reflexivity|]. split; [constructor; [apply hash32_b; reflexivity | constructor]|].
           intros x E. injection E as <-. split; [cbn; lia | apply hash32_b; reflexivity]. }
  split. { split; [reflexivity|]. split; [constructor; [apply hash32_b; reflexivity | constructor]|]. intros x E. discriminate E. }
  split; [apply hash32_b; reflexivity|]. split; [vm_compute; reflexivity|]. split; [vm_compute; reflexivity|]. discriminate.
Qed.
