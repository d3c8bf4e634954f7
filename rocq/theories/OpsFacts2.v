(** Facts about wallet operations (C36) and the packed bytes of 3Bot transactions (C42). *)
From Verif Require Import Base BaseFacts Encoders EncodersFacts Currency CurrencyFacts Primitive Types Conditions Fulfillments ThreeBotTypes Txn TxnSign Wallet Ops
  Spec_Types Spec_Fulfil Spec_Txn Spec_Sign FulfilFacts TxnFacts TxnFacts2 TxnFacts4 SignFacts SignFacts2 SignFacts3 Spec_Wallet WalletFacts WalletFacts2 FundFacts FundFacts2 FundFacts3 BuildFacts Spec_Ops OpsFacts.
From Coq Require Import ZifyBool ZifyNat ZifyN.
Ltac Zify.zify_post_hook ::= Z.div_mod_to_equations.

(** ** signing changes nothing but signatures *)
Lemma set_in_blank l i f : map blank (set_in_ff l i f) = map blank l.
Proof. apply set_in_map. reflexivity. Qed.
Lemma set_ff_unsigned t c f g : get_ff t c = Some g -> unsigned (set_ff t c f) = unsigned t.
Proof.
  intros G. destruct c as [i|i| |]; cbn [set_ff]; [| | |reflexivity].
  - destruct t; cbn; rewrite ?set_in_blank; try reflexivity; [destruct (r_cin t) | destruct (n_cin t)]; cbn; rewrite ?set_in_blank; reflexivity.
  - destruct t; cbn; rewrite ?set_in_blank; reflexivity.
  - destruct t; try reflexivity. cbn in G |- *. rewrite G. reflexivity.
Qed.
Lemma self_add_unsigned H t pk v t' r : self_signature_add H t pk v = (t', r) -> unsigned t' = unsigned t.
Proof.
  unfold self_signature_add. set (X := match t with T1 _ => _ | _ => _ end). intros E.
  assert (G : forall u, X = Ok u -> unsigned u = unsigned t).
  { unfold X. clear. intros u E. destruct t as [t|t|t|t|t|t|t|t]; try discriminate.
    1-3: apply bind_ok in E as (a & _ & E); apply bind_ok in E as (b & _ & E); apply ok_inj in E; subst u; reflexivity.
    apply bind_ok in E as (a & _ & E). apply bind_ok in E as (b & _ & E). destruct (uh_eqb a b).
    + apply bind_ok in E as (s & _ & E). apply ok_inj in E. subst u. reflexivity.
    + apply bind_ok in E as (c & _ & E). destruct (uh_eqb a c); [|discriminate]. apply bind_ok in E as (s & _ & E). apply ok_inj in E. subst u. reflexivity. }
  destruct X as [u|e]; inversion E; subst; [apply G; reflexivity | auto].
Qed.
Lemma t_fulfil_unsigned H t q k v t' r : t_fulfil H t q k v = (t', r) -> unsigned t' = unsigned t.
Proof.
  unfold t_fulfil. intros E. destruct (q_cb q) eqn:C.
  4: { destruct (fulfil_check H (q_rq q) (Some k)) as [pk|]; [|inversion E; reflexivity]. exact (self_add_unsigned _ _ _ _ _ _ E). }
  all: match type of E with context [get_ff ?t ?c] => destruct (get_ff t c) as [f|] eqn:G end; [|inversion E; reflexivity];
    destruct (fulfil H (q_rq q) f (Some k) v) as [[x f'] o]; injection E as E _; rewrite <- E; exact (set_ff_unsigned _ _ f' _ G).
Qed.
Section Hash.
Variables (H : bytes -> bytes) (sign : pubkey -> bytes -> bytes).
Lemma loop_unsigned primary ks qs : forall t n t' r, sign_loop H sign primary ks qs t n = (t', r) -> unsigned t' = unsigned t.
Proof.
  induction qs as [|q qs IH]; intros t n t' r E; cbn in E; [inversion E; reflexivity|].
  destruct (uh_str H (rq_uh (q_rq q))) as [a|]; [|inversion E; reflexivity].
  destruct (key_pair_get primary ks a) as [k|]; [|eapply IH; exact E].
  destruct (signature_hash H t (q_extras t q k)) as [h|]; [|inversion E; reflexivity].
  destruct (t_fulfil H t q k (BVBytes (sign k h))) as [t1 [[]|e]] eqn:F; apply t_fulfil_unsigned in F; [|inversion E; subst; exact F].
  rewrite (IH _ _ _ _ E). exact F.
Qed.

(** [t_is_fulfilled] means completely signed *)
Lemma ff_enough f c b : ff_is_fulfilled f c = Ok b -> (b = true <-> enough f c).
Proof.
  unfold ff_is_fulfilled, enough. destruct f as [p g|p g s|ps]; cbn [signatures].
  - destruct (cond_unwrap c); intro E; try discriminate; apply ok_inj in E; subst b; destruct g; split; congruence.
  - destruct c; intro E; try discriminate; apply ok_inj in E; subst b; cbn [cond_unwrap]; destruct g; split; congruence.
  - rewrite map_length. destruct (cond_unwrap c); intro E; try discriminate; apply ok_inj in E; subst b; lia.
Qed.
Lemma in_enough i b : in_is_fulfilled i = Ok b -> (b = true <-> exists o, i_out i = Some o /\ enough (i_ff i) (o_cond o)).
Proof.
  unfold in_is_fulfilled. destruct (i_out i) as [o|]; intro E.
  - rewrite (ff_enough _ _ _ E). split; [eauto|]. intros (o' & X & Y). injection X as <-. exact Y.
  - apply ok_inj in E. subst b. split; [discriminate|]. intros (o & X & _). discriminate.
Qed.
Lemma all_false l : forall b, all_fulfilled false l = Ok b -> b = false.
Proof. induction l as [|x l IH]; intros b E; cbn in E; [congruence | auto]. Qed.
Lemma all_enough l : forall b, all_fulfilled true l = Ok b -> (b = true <-> Forall (fun i => exists o, i_out i = Some o /\ enough (i_ff i) (o_cond o)) l).
Proof.
  induction l as [|x l IH]; intros b E; cbn in E; [apply ok_inj in E; subst b; split; [constructor|reflexivity]|].
  apply bind_ok in E as (c & C & E). pose proof (in_enough _ _ C) as J. destruct c.
  - rewrite (IH _ E). split; intro F; [constructor; [tauto | exact F] | inversion F; assumption].
  - apply all_false in E. subst b. split; [discriminate|]. intro F. inversion F; subst. apply J. assumption.
Qed.
Lemma fulfilled_complete t b : t_is_fulfilled t = Ok b -> (b = true <-> complete t).
Proof.
  unfold t_is_fulfilled. intro E. apply bind_ok in E as (c & C & E). apply bind_ok in E as (l & L & E).
  assert (O : c = true <-> Forall (fun s => some (snd s) = true) (own_slots t) /\
      match t with TMint m => exists c f, m_parent m = Some c /\ m_ff m = Some f /\ enough f c | _ => True end).
  { destruct t as [t|t|t|t|t|t|t|t]; cbn [own_is_fulfilled own_slots] in C |- *;
      try (apply ok_inj in C; subst c; split; [intros _; split; [constructor|exact I] | reflexivity]).
    - destruct (m_parent t) as [p|].
      + destruct (m_ff t) as [f|].
        * rewrite (ff_enough _ _ _ C). split; [intro J; split; [constructor | eauto]|]. intros (_ & ? & ? & X & Y & Z). injection X as <-. injection Y as <-. exact Z.
        * split; [|intros (_ & ? & ? & _ & X & _); discriminate]. intros ->. exfalso. cbn in C. destruct (cond_unwrap p); discriminate.
      + apply ok_inj in C. subst c. split; [discriminate|]. intros (_ & ? & ? & X & _). discriminate.
    - apply ok_inj in C. subst c. destruct (r_sig t); cbn; split; try discriminate; intros; try (split; [constructor; [reflexivity|constructor]|exact I]); auto.
      destruct H0 as [F _]. inversion F. assumption.
    - apply ok_inj in C. subst c. destruct (b_sig t); cbn; split; try discriminate; intros; try (split; [constructor; [reflexivity|constructor]|exact I]); auto.
      destruct H0 as [F _]. inversion F. assumption.
    - apply ok_inj in C. subst c. destruct (u_sig t); cbn; split; try discriminate; intros; try (split; [constructor; [reflexivity|constructor]|exact I]); auto.
      destruct H0 as [F _]. inversion F. assumption.
    - apply ok_inj in C. subst c. destruct (n_ssig t), (n_rsig t); cbn; split; try discriminate; intros; try (split; [repeat (constructor; [reflexivity|]); constructor|exact I]); auto;
        destruct H0 as [F _]; inversion F as [|? ? F1 F2]; inversion F2; assumption. }
  unfold complete. destruct c.
  - rewrite (all_enough _ _ E). destruct (proj1 O eq_refl) as [O1 O2]. split; [intro F; split; [eauto | auto]|]. intros ((ins & X & Y) & _). rewrite L in X. apply ok_inj in X. subst ins. exact Y.
  - apply all_false in E. subst b. split; [discriminate|]. intros (_ & J). apply O in J. discriminate.
Qed.
Lemma finish_inv x t t' b : finish H sign x t = Ok (t', b) -> unsigned t' = unsigned t /\ (b = true <-> complete t').
Proof.
  unfold finish. intro E. apply bind_ok in E as (qs & _ & E). apply bind_ok in E as (? & _ & E).
  destruct (sign_loop H sign (x_primary x) (x_keys x) qs t 0) as [t1 [m|]] eqn:L; [|discriminate]. apply bind_ok in E as (c & C & E). apply ok_inj in E. injection E as <- <-.
  split; [exact (loop_unsigned _ _ _ _ _ _ _ L) | apply fulfilled_complete; exact C].
Qed.

(** ** what a transaction keeps when only its signatures change *)
Lemma blank_takes l l' : map blank l' = map blank l -> map i_out l' = map i_out l /\ map i_parent l' = map i_parent l.
Proof.
  intro E. split; [apply (f_equal (map i_out)) in E | apply (f_equal (map i_parent)) in E]; rewrite !map_map in E; exact E.
Qed.
Lemma blank_F2 l l' us : map blank l' = map blank l -> Forall2 takes l us -> Forall2 takes l' us.
Proof.
  revert l' us. induction l as [|x l IH]; intros [|x' l'] us E F; try discriminate; inversion F; subst; constructor.
  - injection E as E1 E2 _. unfold takes in *. now rewrite E1, E2.
  - apply IH; [now injection E|assumption].
Qed.
Lemma blank_worth l l' : map blank l' = map blank l -> in_worth l' = in_worth l.
Proof.
  intro E. apply blank_takes in E as [E _]. unfold in_worth. f_equal.
  apply (f_equal (map (fun o => match o with Some o => o_value o | None => 0 end))) in E. rewrite !map_map in E. exact E.
Qed.
Lemma unsigned_ins t t' l : unsigned t' = unsigned t -> coin_inputs t = Ok l -> exists l', coin_inputs t' = Ok l' /\ map blank l' = map blank l.
Proof.
  intros U E. destruct t as [t|t|t|t|t|t|t|t], t' as [t'|t'|t'|t'|t'|t'|t'|t']; try discriminate; cbn in U, E |- *; injection U; intros; try (apply ok_inj in E; subst l; eauto).
  all: try (eexists; split; [reflexivity | congruence]).
  - destruct (r_cin t), (r_cin t'); try discriminate. cbn in *. apply ok_inj in E. subst. eexists; split; [reflexivity | congruence].
  - destruct (n_cin t), (n_cin t'); try discriminate. cbn in *. apply ok_inj in E. subst. eexists; split; [reflexivity | congruence].
Qed.
Lemma unsigned_outs t t' : unsigned t' = unsigned t -> coin_outputs t' = coin_outputs t /\ miner_fees t' = miner_fees t /\ version t' = version t /\ price t' = price t.
Proof.
  intros U. destruct t as [t|t|t|t|t|t|t|t], t' as [t'|t'|t'|t'|t'|t'|t'|t']; try discriminate; cbn in U; injection U; intros; cbn;
    repeat match goal with E : _ = _ |- _ => rewrite E; clear E end; auto.
Qed.
Lemma spends_takes i o : spends i o -> takes i o.
Proof. intros (A & B & _). split; assumption. Qed.
Lemma F2_takes ins used : Forall2 spends ins used -> Forall2 takes ins used.
Proof. induction 1; constructor; auto using spends_takes. Qed.
Lemma funded_signed w p s r fee pays cost t t' : unsigned t' = unsigned t -> funded H w p s r fee pays cost t -> funded H w p s r fee pays cost t'.
Proof.
  intros U ((l0 & C & W) & M & ins & used & rem & I & F & S & L & O). rewrite C in I. apply ok_inj in I. subst l0.
  destruct (unsigned_ins _ _ _ U C) as (l' & C' & B). destruct (unsigned_outs _ _ U) as (O' & M' & _).
  split; [|split].
  - exists l'. split; [exact C'|]. rewrite (blank_worth _ _ B), O', M'. exact W.
  - congruence.
  - exists l', used, rem. repeat split; auto; [exact (blank_F2 _ _ _ B F) | congruence].
Qed.
Lemma t1_signed a t' : unsigned t' = unsigned (T1 a) -> s_bin a = [] -> exists ins, map blank ins = map blank (s_cin a) /\
  t' = T1 (mkstd (s_legacy a) ins (s_cout a) [] (s_bout a) (s_fees a) (s_data a)).
Proof.
  intros U B. destruct t' as [t'|t'|t'|t'|t'|t'|t'|t']; try discriminate. cbn in U. injection U as U1 U2 U3 U4 U5 U6 U7. exists (s_cin t'). split; [exact U2|].
  rewrite B in U4. cbn in U4. destruct (s_bin t') eqn:Y; [|discriminate]. destruct t' as [a1 a2 a3 a4 a5 a6 a7]; cbn in *. congruence.
Qed.
End Hash.
