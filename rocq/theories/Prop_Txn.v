(** Properties C22-C27: what signature data and identifiers commit to. *)
From Verif Require Import Base Encoders Primitive Types Conditions Fulfillments ThreeBotTypes Txn Spec_Types Spec_Fulfil Spec_Txn
  TypesFacts ConditionFacts TypesFacts2 ConditionFacts2 FulfilFacts FulfilFacts2 TxnFacts TxnFacts2 TxnFacts3 TxnFacts4 TxnFacts5 TxnFacts6 TxnFacts7.

(** ** C22: standard transactions *)
(** Two signers of the same kind (plain, with key, with key and secret): same data only for the same payment and place. *)
Lemma std_commits : forall H t u p q d, s_legacy t = false -> s_legacy u = false -> sized (T1 t) -> sized (T1 u) ->
  same_kind p q -> place_ok p -> place_ok q ->
  sig_input H (T1 t) (extras_of p) = Ok d -> sig_input H (T1 u) (extras_of q) = Ok d ->
  p = q /\ map i_parent (s_cin t) = map i_parent (s_cin u) /\ map i_parent (s_bin t) = map i_parent (s_bin u) /\
  map (fun o => (o_value o, o_cond o)) (s_cout t) = map (fun o => (o_value o, o_cond o)) (s_cout u) /\
  map (fun o => (o_value o, o_cond o)) (s_bout t) = map (fun o => (o_value o, o_cond o)) (s_bout u) /\
  s_fees t = s_fees u /\ s_data t = s_data u.
Proof.
  intros H t u p q d Lt Lu St Su K Op Oq Et Eu. destruct (signature_commits H (T1 t) (T1 u) p q d Lt Lu St Su K Op Oq Et Eu) as [C P].
  injection C as C1 C2 C3 C4 C5 C6. split; [exact P|]. split; [exact C1|]. split; [exact C3|]. split; [exact C2|].
  split; [exact C4|]. split; [exact C5|exact C6].
Qed.
Theorem C22_commits_partial : forall H t u p q d, s_legacy t = false -> s_legacy u = false -> sized (T1 t) -> sized (T1 u) ->
  same_kind p q -> place_ok p -> place_ok q ->
  sig_input H (T1 t) (extras_of p) = Ok d -> sig_input H (T1 u) (extras_of q) = Ok d ->
  p = q /\ map i_parent (s_cin t) = map i_parent (s_cin u) /\ map i_parent (s_bin t) = map i_parent (s_bin u) /\
  map (fun o => (o_value o, o_cond o)) (s_cout t) = map (fun o => (o_value o, o_cond o)) (s_cout u) /\
  map (fun o => (o_value o, o_cond o)) (s_bout t) = map (fun o => (o_value o, o_cond o)) (s_bout u) /\
  s_fees t = s_fees u /\ s_data t = s_data u.
Proof. exact std_commits. Qed.
Print Assumptions C22_commits_partial.
(** A plain signer never has the data of a signer with key (in a transaction of fewer than 2^40 inputs). *)
Theorem C22_plain_vs_key : forall H t u i q k d, s_legacy t = false -> s_legacy u = false -> few (s_cin t) ->
  keyed q = Some k -> (forall k', q <> MintKey k') -> pk_spec k = PKEd25519 ->
  sig_input H (T1 t) (extras_of (PlainInput i)) = Ok d -> sig_input H (T1 u) (extras_of q) = Ok d -> False.
Proof. exact std_plain_vs_key. Qed.
Print Assumptions C22_plain_vs_key.
(** Across signers with and without secret the claim is false: the secret is not delimited. *)
Theorem C22_secret_refuted : exists t u k s, forall H, exists d,
  sized (T1 t) /\ sized (T1 u) /\ key32 k /\ hash32 s /\
  sig_input H (T1 t) (extras_of (KeyInput 0 k)) = Ok d /\ sig_input H (T1 u) (extras_of (SecretInput 0 k s)) = Ok d /\
  content_of (T1 t) <> content_of (T1 u) /\ s_cin t <> [] /\ s_cin u <> [].
Proof. exact secret_ambiguous. Qed.
Print Assumptions C22_secret_refuted.
(** Legacy transactions do not hash the number of inputs: false in general, true for equal numbers of inputs. *)
Theorem C22_legacy_refuted : forall H, hash_ok H -> exists t u p d, s_legacy t = true /\ s_legacy u = true /\ (length (s_data u) <= 83)%nat /\
  sig_input H (T1 t) (extras_of p) = Ok d /\ sig_input H (T1 u) (extras_of p) = Ok d /\
  s_cin t <> [] /\ s_cin u = [] /\ s_data t = [].
Proof. exact legacy_ambiguous. Qed.
Print Assumptions C22_legacy_refuted.
Theorem C22_legacy_partial : forall H t u p q d, hash_ok H -> s_legacy t = true -> s_legacy u = true ->
  length (s_cin t) = length (s_cin u) -> length (s_bin t) = length (s_bin u) ->
  Forall in_ok (s_cin t ++ s_bin t ++ s_cin u ++ s_bin u) ->
  Forall (legacy_out_ok H) (s_cout t ++ s_bout t ++ s_cout u ++ s_bout u) ->
  same_kind p q -> place_ok p -> place_ok q ->
  sig_input H (T1 t) (extras_of p) = Ok d -> sig_input H (T1 u) (extras_of q) = Ok d ->
  p = q /\ map (legacy_spend H) (s_cin t) = map (legacy_spend H) (s_cin u) /\
  map (legacy_spend H) (s_bin t) = map (legacy_spend H) (s_bin u) /\
  map (legacy_pay H) (s_cout t) = map (legacy_pay H) (s_cout u) /\
  map (legacy_pay H) (s_bout t) = map (legacy_pay H) (s_bout u) /\ s_fees t = s_fees u /\ s_data t = s_data u.
Proof. exact legacy_commits. Qed.
Print Assumptions C22_legacy_partial.

(** ** Examples: one transaction of each version, complete and signed *)
Definition ex_i : input := mkin (repeat 3 32) (FSingle (ex_key 7) (Some (repeat 1 64))) None.
Definition ex_o : output := ex_out 1500000000 (repeat 4 32).
Definition ex_std : txn := T1 (mkstd false [ex_i] [ex_o; mkout 7 (CLock 42 (CUnlockHash (mkuh 1 (repeat 2 32)))) []] [ex_i] [ex_o] [100] (s2b "hi")).
Definition ex_mdef : txn := TMint (mkmint (Some (FSingle (ex_key 7) (Some (repeat 1 64)))) (MCond (CUnlockHash (mkuh 1 (repeat 2 32)))) [100] [] (repeat 9 8) None).
Definition ex_mcoin : txn := TMint (mkmint (Some (FMulti [(ex_key 7, repeat 1 64)])) (MCoins [ex_o; ex_o]) [100] [] (repeat 9 8) None).
Definition ex_conv : txn := T208 (mkconv (repeat 9 20) 1000 (Some 100) [ex_i] (Some ex_o)).
Definition ex_gen : txn := T209 (mkgen (mkuh 1 (repeat 2 32)) 1000 (Some 100) (repeat 8 32) (repeat 9 32)).
Definition ex_reg : txn := T210 (mkreg (Some (ex_key 7)) (Some (true, repeat 1 64)) (Some 100) (Some [ex_i]) (Some ex_o)).
Definition ex_bot : txn := T144 (mkbot [mkna 1 [192; 168; 0; 1]] [s2b "example.net"] 12 (Some 100) [ex_i] None (Some (ex_key 7)) (Some (true, repeat 1 64))).
Definition ex_upd : txn := T145 (mkupd 3 [] [mkna 1 [192; 168; 0; 1]] [s2b "example.net"] [] 2 (Some 100) [ex_i] (Some ex_o) (Some (true, repeat 1 64)) None).
Definition ex_name : txn := T146 (mkname 3 4 [s2b "example.net"] (Some 100) (Some [ex_i]) (Some ex_o) (Some (true, repeat 1 64)) (Some (true, repeat 2 64)) None None).
Definition ex_txns : list txn := [ex_std; ex_mdef; ex_mcoin; ex_conv; ex_gen; ex_reg; ex_bot; ex_upd; ex_name].
Ltac sized_tac := repeat match goal with
  | |- _ /\ _ => split
  | |- Forall _ _ => constructor
  | |- hash32 _ => apply hash32_b; reflexivity
  | |- in_ok _ => apply hash32_b; reflexivity
  | |- key32 _ => apply hash32_b; reflexivity
  | |- full_uh _ => split; [cbn; lia | apply hash32_b; reflexivity]
  | |- full_cond _ => cbn
  | |- out_ok _ => unfold out_ok; cbn
  | |- refund_ok _ => let x := fresh in let E := fresh in intros x E; first [discriminate E | injection E as <-]
  | |- na_ok _ => split; cbn; lia
  | |- ascii_str _ => unfold ascii_str; repeat constructor
  | |- array64 _ => eexists; split; [reflexivity | split; [reflexivity | repeat constructor]]
  | |- keys32 _ => cbn
  | |- le15 _ => unfold le15; cbn; lia
  | |- bytes20 _ => reflexivity
  | |- length _ = _ => reflexivity
  | |- True => exact I
  end.
Lemma ex_all : Forall (fun t => sized t /\ encodable t) ex_txns.
Proof.
  repeat apply Forall_cons; try apply Forall_nil; (split; [cbn [sized ex_std ex_mdef ex_mcoin ex_conv ex_gen ex_reg ex_bot ex_upd ex_name]
     | cbn [encodable ex_std ex_mdef ex_mcoin ex_conv ex_gen ex_reg ex_bot ex_upd ex_name]]); cbn; sized_tac. all: reflexivity.
Qed.
(** all have signature data for an input, and identifier data *)
Example ex_all_signable : forallb (fun t => is_ok (sig_input (fun b => b) t (extras_of (PlainInput 0)))) ex_txns = true.
Proof. vm_compute. reflexivity. Qed.
Example ex_all_ids : forallb (fun t => is_ok (id_input (fun b => b) t)) ex_txns = true.
Proof. vm_compute. reflexivity. Qed.
Example ex_legacy_out : legacy_out_ok (fun _ => repeat 0 32) ex_o.
Proof. eexists. split; [reflexivity|]. sized_tac. Qed.

(** ** C23: the data depend on the content of the transaction alone, not on fulfilments and signatures. *)
Theorem C23_independent_partial : forall H t u xs, is_legacy t = false -> is_legacy u = false -> content_of t = content_of u ->
  is_ok (coin_inputs t) = is_ok (coin_inputs u) -> sig_input H t xs = sig_input H u xs.
Proof. exact sig_input_content. Qed.
Print Assumptions C23_independent_partial.
(** Not so for legacy transactions, which hash the keys of the fulfilments. *)
Theorem C23_legacy_refuted : exists H t i f d d', hash_ok H /\ s_legacy t = true /\ from_condition (CUnlockHash (ex_uh 1 7)) = Ok (i_ff i) /\
  s_cin t = [i] /\
  sig_input H (T1 t) (extras_of (PlainInput 0)) = Ok d /\
  sig_input H (T1 (mkstd true [mkin (i_parent i) f (i_out i)] [] [] [] [] [])) (extras_of (PlainInput 0)) = Ok d' /\
  signature_add (i_ff i) (ex_key 7) (BVBytes (repeat 1 64)) = (f, Ok tt) /\ d <> d'.
Proof. exact legacy_disturbed. Qed.
Print Assumptions C23_legacy_refuted.

(** ** C24, C25, C26: for all versions, same signature data mean same version, same content, same place. *)
Theorem C24_commits : forall H t u p q d, sized (TMint t) -> sized u -> is_legacy u = false ->
  same_kind p q -> place_ok p -> place_ok q ->
  sig_input H (TMint t) (extras_of p) = Ok d -> sig_input H u (extras_of q) = Ok d -> content_of (TMint t) = content_of u /\ p = q.
Proof. intros H t u p q d St Su Lu. exact (signature_commits H (TMint t) u p q d eq_refl Lu St Su). Qed.
Print Assumptions C24_commits.
(** and a mint fulfilment by one key has other data than one by several *)
Theorem C24_plain_vs_key : forall H t u k d, length (m_nonce t) = 8%nat -> length (m_nonce u) = 8%nat ->
  (forall os, m_new t = MCoins os -> few os) -> pk_spec k = PKEd25519 ->
  sig_input H (TMint t) (extras_of MintInput) = Ok d -> sig_input H (TMint u) (extras_of (MintKey k)) = Ok d -> False.
Proof. exact mint_plain_vs_key. Qed.
Print Assumptions C24_plain_vs_key.
(** transactions of different kind never share data, whatever the signer *)
Theorem C24_kinds_apart : forall H t u xs ys d, is_legacy t = false -> is_legacy u = false ->
  sig_input H t xs = Ok d -> sig_input H u ys = Ok d -> version t = version u.
Proof. exact sig_input_version. Qed.
Print Assumptions C24_kinds_apart.
Definition is_erc20 (t : txn) : bool := match t with T208 _ | T209 _ | T210 _ => true | _ => false end.
Theorem C25_commits_partial : forall H t u p q d, is_erc20 t = true -> sized t -> sized u -> is_legacy u = false ->
  same_kind p q -> place_ok p -> place_ok q ->
  sig_input H t (extras_of p) = Ok d -> sig_input H u (extras_of q) = Ok d -> content_of t = content_of u /\ p = q.
Proof. intros H t u p q d T St Su Lu. refine (signature_commits H t u p q d _ Lu St Su). destruct t; try discriminate T; reflexivity. Qed.
Print Assumptions C25_commits_partial.
(** across a signer without and one with key the claim is false *)
Theorem C25_mixed_refuted : exists t u k, forall H, exists d,
  sized (T208 t) /\ sized (T208 u) /\ key32 k /\
  sig_input H (T208 t) (extras_of (PlainInput 0)) = Ok d /\ sig_input H (T208 u) (extras_of (KeyInput 0 k)) = Ok d /\
  content_of (T208 t) <> content_of (T208 u).
Proof. exact convert_ambiguous. Qed.
Print Assumptions C25_mixed_refuted.
Definition is_3bot (t : txn) : bool := match t with T144 _ | T145 _ | T146 _ => true | _ => false end.
Theorem C26_commits_partial : forall H t u p q d, is_3bot t = true -> sized t -> sized u -> is_legacy u = false ->
  same_kind p q -> place_ok p -> place_ok q ->
  sig_input H t (extras_of p) = Ok d -> sig_input H u (extras_of q) = Ok d -> content_of t = content_of u /\ p = q.
Proof. intros H t u p q d T St Su Lu. refine (signature_commits H t u p q d _ Lu St Su). destruct t; try discriminate T; reflexivity. Qed.
Print Assumptions C26_commits_partial.
(** inputs, the sender, the receiver and the registrant never share data *)
Theorem C26_signers_apart : forall H t u p q d, own_signatures t = true -> own_signatures u = true -> sized t -> sized u ->
  index_small p -> index_small q ->
  sig_input H t (extras_of p) = Ok d -> sig_input H u (extras_of q) = Ok d -> own_word p = own_word q.
Proof. exact own_apart. Qed.
Print Assumptions C26_signers_apart.
Theorem C26_plain_vs_key : forall H t u i q k d, sized t -> sized u -> version t = version u -> short_bot t -> short_bot u ->
  keyed q = Some k -> (forall k', q <> MintKey k') -> pk_spec k = PKEd25519 ->
  sig_input H t (extras_of (PlainInput i)) = Ok d -> sig_input H u (extras_of q) = Ok d -> False.
Proof. exact bot_plain_vs_key. Qed.
Print Assumptions C26_plain_vs_key.
Example C26_ex_signers : forallb (fun t => is_ok (sig_input (fun b => b) t (extras_of (Own SENDER)))) [ex_bot; ex_upd; ex_name; ex_reg] = true.
Proof. vm_compute. reflexivity. Qed.
Example C26_ex_short : short_bot ex_bot /\ short_bot ex_upd /\ short_bot ex_name.
Proof. cbn. lia. Qed.

(** ** C27: identifiers *)
(** An id is the hash of data which determine the transaction: its content, all fulfilments and its own signatures. *)
Theorem C27_transaction_id : forall H t u d, is_legacy t = false -> is_legacy u = false -> sized t -> sized u -> encodable t -> encodable u ->
  id_input H t = Ok d -> id_input H u = Ok d -> content_of t = content_of u /\ witnesses t = witnesses u.
Proof. exact id_commits. Qed.
Print Assumptions C27_transaction_id.
Theorem C27_legacy_transaction_id : forall H t u d, s_legacy t = true -> s_legacy u = true ->
  Forall in_ok (s_cin t ++ s_bin t ++ s_cin u ++ s_bin u) ->
  Forall (legacy_out_ok H) (s_cout t ++ s_bout t ++ s_cout u ++ s_bout u) ->
  id_input H (T1 t) = Ok d -> id_input H (T1 u) = Ok d ->
  map legacy_input (s_cin t) = map legacy_input (s_cin u) /\ map legacy_input (s_bin t) = map legacy_input (s_bin u) /\
  map (legacy_output H) (s_cout t) = map (legacy_output H) (s_cout u) /\
  map (legacy_output H) (s_bout t) = map (legacy_output H) (s_bout u) /\ s_fees t = s_fees u /\ s_data t = s_data u.
Proof. exact legacy_id_commits. Qed.
Print Assumptions C27_legacy_transaction_id.
(** The id of an output is the hash of data which determine kind, index and the data of the transaction id. *)
Theorem C27_output_id : forall H k t i h, output_id H k t i = Ok h -> exists d, output_id_data H k t i d /\ h = H d.
Proof. intros H k t i h E. exact (proj2 (output_id_ok H k t i h E)). Qed.
Print Assumptions C27_output_id.
Theorem C27_output_id_data : forall H k l t u i j d, is_legacy t = is_legacy u -> output_id_data H k t i d -> output_id_data H l u j d ->
  k = l /\ i = j /\ exists x, id_input H t = Ok x /\ id_input H u = Ok x.
Proof. exact output_id_data_inj. Qed.
Print Assumptions C27_output_id_data.
(** A legacy and another transaction share output id data only above 2^56 bytes. *)
Theorem C27_legacy_apart : forall H k l s u i j d, s_legacy s = true -> is_legacy u = false -> Forall in_ok (s_cin s) ->
  output_id_data H k (T1 s) i d -> output_id_data H l u j d -> 2 ^ 56 <= lenN d.
Proof. exact legacy_output_apart. Qed.
Print Assumptions C27_legacy_apart.
(** Coin outputs that do not exist are refused. *)
Theorem C27_absent_coin_refused : forall H t i, ~ (0 <= i < Z.of_nat (length (coin_outputs t)))%Z ->
  output_id H CoinOut t i = Err ValueError.
Proof. exact (fun H => output_id_refused H CoinOut). Qed.
Print Assumptions C27_absent_coin_refused.
(** Not so for block stake outputs: existing ones are refused, absent ones are given an id. *)
Theorem C27_stake_bound_refuted : (exists t, forall H, blockstake_outputs t <> [] /\ output_id H StakeOut t 0 = Err ValueError) /\
  (exists t, forall H, blockstake_outputs t = [] /\ is_ok (output_id H StakeOut t 0) = true).
Proof.
  split.
  - exists (T1 (mkstd false [] [] [] [ex_o] [] [])). intros H. split; [discriminate | reflexivity].
  - exists (T1 (mkstd false [] [ex_o] [] [] [] [])). intros H. split; [reflexivity|]. vm_compute. reflexivity.
Qed.
Print Assumptions C27_stake_bound_refuted.
