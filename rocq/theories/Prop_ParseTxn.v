(** Property C80: a transaction read from JSON is the one the JSON says. *)
From Verif Require Import Base BaseFacts Primitive Currency Types Conditions Fulfillments ThreeBotTypes Txn TxnJson Spec_Types Spec_Fulfil Spec_Parse Spec_ParseTxn ConditionFacts2 CondParseFacts Prop_Types Prop_Fulfil Prop_ThreeBot Prop_Parse ParseTxnFacts.

(** Exactly the values which say a transaction are read, as that transaction, at any time. *)
Theorem C80_reads : forall H ip now j t, txn_from_json H ip now j = Ok t <-> says_txn H ip j t.
Proof. intros. symmetry. apply txn_iff. Qed.
Print Assumptions C80_reads.
(** So a value says at most one transaction. *)
Theorem C80_one : forall H ip j t u, says_txn H ip j t -> says_txn H ip j u -> t = u.
Proof. intros H ip j t u A B. apply (C80_reads H ip 0) in A, B. rewrite A in B. now apply ok_inj in B. Qed.
Print Assumptions C80_one.

(** *** Fields nobody asks for *)
Definition known : list string := ["version"; "data"; "coininputs"; "coinoutputs"; "blockstakeinputs"; "blockstakeoutputs"; "minerfees"; "arbitrarydata"; "nonce"; "mintcondition"; "mintfulfillment";
  "address"; "value"; "txfee"; "refundcoinoutput"; "blockid"; "txid"; "pubkey"; "signature"; "regfee"; "addresses"; "names"; "nrofmonths"; "identification"; "id"; "sender"; "receiver"]%string.
Lemma jfind_extra k k' v l : k <> k' -> jfind k (l ++ [(k', v)]) = jfind k l.
Proof.
  intro N. induction l as [|[a w] l IH]; cbn [app jfind]; [|rewrite IH; reflexivity]. destruct (String.eqb k k' : bool) eqn:E; [apply String.eqb_eq in E; contradiction|reflexivity].
Qed.
Lemma jget_d_extra k k' v l d : k <> k' -> jget_d k d (JObj (l ++ [(k', v)])) = jget_d k d (JObj l).
Proof. intro N. cbn [jget_d]. rewrite jfind_extra by exact N. reflexivity. Qed.
Lemma jget_extra k k' v l : k <> k' -> jget k (JObj (l ++ [(k', v)])) = jget k (JObj l).
Proof. intro N. cbn [jget]. rewrite jfind_extra by exact N. reflexivity. Qed.
Lemma jin_extra k k' v l : k <> k' -> jin k (JObj (l ++ [(k', v)])) = jin k (JObj l).
Proof. intro N. cbn [jin jhas]. rewrite jfind_extra by exact N. reflexivity. Qed.
Lemma jopt_extra {A} k (f : json -> res A) d k' v l : k <> k' -> jopt k f d (JObj (l ++ [(k', v)])) = jopt k f d (JObj l).
Proof. intro N. unfold jopt. rewrite jin_extra, jget_extra by exact N. reflexivity. Qed.
Lemma jlist_extra {A} k (f : json -> res A) k' v l : k <> k' -> jlist k f (JObj (l ++ [(k', v)])) = jlist k f (JObj l).
Proof. intro N. unfold jlist. rewrite jget_d_extra by exact N. reflexivity. Qed.
Lemma jint0_extra k k' v l : k <> k' -> jint0 k (JObj (l ++ [(k', v)])) = jint0 k (JObj l).
Proof. intro N. unfold jint0. rewrite jget_d_extra by exact N. reflexivity. Qed.
Ltac not_known N := let E := fresh in intro E; apply N; rewrite <- E; unfold known; cbn [In]; tauto.
Lemma data_extra H ip now v k w l : ~ In k known -> txn_of_version H ip now v (JObj (l ++ [(k, w)])) = txn_of_version H ip now v (JObj l).
Proof.
  intro N. unfold txn_of_version, std_from_json, bot_from_json, upd_from_json, name_from_json, conv_from_json, gen_from_json, reg_from_json, mintdef_from_json, mintcoins_from_json, arbitrary_from_json, sig_or_none.
  repeat first [rewrite jlist_extra by not_known N | rewrite jopt_extra by not_known N | rewrite jint0_extra by not_known N | rewrite jget_d_extra by not_known N]. reflexivity.
Qed.
(** A field with a name not in the list, added after the others of the transaction, changes nothing. *)
Theorem C80_unknown_field : forall H ip now l k w, ~ In k known -> txn_from_json H ip now (JObj (l ++ [(k, w)])) = txn_from_json H ip now (JObj l).
Proof.
  intros H ip now l k w N. unfold txn_from_json. rewrite jget_d_extra by not_known N. destruct (jget_d "version" (JNum (-1)) (JObj l)) as [x|e]; [|reflexivity]. cbn [bind].
  destruct (version_of x) as [v|]; [|reflexivity]. destruct (v =? 0)%Z; [unfold legacy_from_json; rewrite jin_extra, jget_extra by not_known N; reflexivity|].
  rewrite jget_d_extra by not_known N. reflexivity.
Qed.
Print Assumptions C80_unknown_field.
(** Nor does one added to its data. *)
Theorem C80_unknown_data : forall H ip now v l k w, ~ In k known ->
  txn_from_json H ip now (JObj [("version"%string, v); ("data"%string, JObj (l ++ [(k, w)]))]) = txn_from_json H ip now (JObj [("version"%string, v); ("data"%string, JObj l)]).
Proof.
  intros H ip now v l k w N. unfold txn_from_json. cbn [jget_d jfind String.eqb Ascii.eqb Bool.eqb bind]. destruct (version_of v) as [z|]; [|reflexivity]. destruct (z =? 0)%Z.
  - unfold legacy_from_json, legacy_list, arbitrary_from_json. cbn [jin jhas jget jget_d jfind String.eqb Ascii.eqb Bool.eqb bind guard].
    rewrite !jopt_extra by not_known N. change (match jfind "arbitrarydata" (l ++ [(k, w)]) with Some _ => true | None => false end) with (jhas "arbitrarydata" (JObj (l ++ [(k, w)]))).
    cbn [jhas]. rewrite jfind_extra by not_known N. reflexivity.
  - rewrite data_extra by exact N. reflexivity.
Qed.
Print Assumptions C80_unknown_data.

(** *** Examples: a conversion to ERC20 without amount, an old transaction, an update of a 3Bot; a registration at another price and a value of no version say nothing *)
Definition exq_txn (v : json) (l : list (string * json)) : json := JObj [("version"%string, v); ("data"%string, JObj l)].
Definition exq_in : json := JObj [("parentid"%string, JStr (hex (repeat 22 32))); ("fulfillment"%string, exp_cond 1 (exp_pair 7 8))].
Definition exq_out : json := JObj [("value"%string, JStr (s2b "5000000000")); ("condition"%string, exp_multi)].
Definition exq_old_in : json := JObj [("parentid"%string, JStr (hex (repeat 22 32))); ("unlocker"%string, JObj [("type"%string, JNum 1);
  ("condition"%string, JObj [("publickey"%string, JStr (pk_str (mkpk PKEd25519 (repeat 7 32))))]); ("fulfillment"%string, JObj [("signature"%string, JStr (hex (repeat 8 64)))])])].
Definition exq_old_out : json := JObj [("value"%string, JStr (s2b "1")); ("unlockhash"%string, exp_text (ex_uh 1 7))].
Definition exq_input : input := mkin (repeat 22 32) (FSingle (mkpk PKEd25519 (repeat 7 32)) (Some (repeat 8 64))) None.
Example C80_ex :
  says_txn ex_H2 ex_ip_parse (exq_txn (JNum 208) [("address"%string, JStr (s2b "0x" ++ hex (repeat 9 20))); ("coininputs"%string, JArr [exq_in]); ("txfee"%string, JStr (s2b "100000000")); ("refundcoinoutput"%string, exq_out)])
    (T208 (mkconv (repeat 9 20) 0 (Some 100000000) [exq_input] (Some (mkout 5000000000 (CMulti [ex_uh 1 7; ex_uh 1 3] 2) [])))) /\
  says_txn ex_H2 ex_ip_parse (exq_txn (JNum 0) [("coininputs"%string, JArr [exq_old_in]); ("coinoutputs"%string, JArr [exq_old_out]); ("minerfees"%string, JArr [JStr (s2b "10")])])
    (T1 (mkstd true [exq_input] [mkout 1 (CUnlockHash (ex_uh 1 7)) []] [] [] [10] [])) /\
  says_txn ex_H2 ex_ip_parse (exq_txn (JNum 145) [("id"%string, JNum 3); ("names"%string, JObj [("remove"%string, JArr [JStr (s2b "alpha.bravo")])]); ("nrofmonths"%string, JNum 4)])
    (T145 (mkupd 3 [] [] [] [s2b "alpha.bravo"] 4 None [] None (Some (false, [])) None)) /\
  (forall t, ~ says_txn ex_H2 ex_ip_parse (exq_txn (JNum 210) [("regfee"%string, JStr (s2b "1"))]) t) /\ (forall t, ~ says_txn ex_H2 ex_ip_parse (exq_txn (JNum 2) []) t).
Proof.
  split; [apply (C80_reads _ _ 0); vm_compute; reflexivity|]. split; [apply (C80_reads _ _ 0); vm_compute; reflexivity|]. split; [apply (C80_reads _ _ 0); vm_compute; reflexivity|].
  split; intros t A; apply (C80_reads _ _ 0) in A; vm_compute in A; discriminate A.
Qed.
