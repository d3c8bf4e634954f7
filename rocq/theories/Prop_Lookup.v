(** Theorems about the client's lookups (C64-C70). *)
From Verif Require Import Base BaseFacts Encoders Currency Primitive Types Conditions Spec_Types TypesFacts TypesFacts2 ConditionFacts Fulfillments
  ThreeBotTypes Txn Spec_Txn Spec_ThreeBot ThreeBotFacts ThreeBotFacts2 TxnJson Spec_Json JsonFacts JsonFacts2 Wallet Explorer Spec_Wallet Spec_Explorer
  ExplorerFacts ExplorerFacts2 ExplorerFacts3 Lookups Spec_Lookup LookupFacts TxnFacts3 Prop_Fulfil Prop_Txn Prop_ThreeBot Prop_Json Prop_Explorer Prop_Sign.
From Coq Require Import Permutation Sorted ZifyBool ZifyNat ZifyN.
Ltac Zify.zify_post_hook ::= Z.div_mod_to_equations.

(** ** C46, accepted answers: whenever an answer tells a transaction (in any signing state), it is read, and as told. *)
Theorem C46_accepts : forall H ip_parse ip_str now, hash_ok H -> ip_library ip_parse ip_str ->
  forall e t id parents stake_parents ids stake_ids height,
  told_txn H ip_str e t id parents stake_parents ids stake_ids height -> sensible ip_parse t id parents stake_parents ids stake_ids height ->
  exists x, explorer_txn H ip_parse now e = Ok x /\ as_told x t id parents stake_parents ids stake_ids height.
Proof. intros H ip is_ now HH L. exact (told_read H ip is_ now HH L). Qed.
Print Assumptions C46_accepts.
(** *** An answer of this kind: the one built by the examples of C46 *)
Example C46_ex_told : told_txn ex_H2 ex_ip_str exx_full ex_std (repeat 35 32) [exx_pay 50] [exx_pay 3] [repeat 26 32; repeat 27 32] [repeat 28 32] None /\
  sensible ex_ip_parse ex_std (repeat 35 32) [exx_pay 50] [exx_pay 3] [repeat 26 32; repeat 27 32] [repeat 28 32] None.
Proof.
  split.
  - split.
    + eexists. split; [eexists; split; [reflexivity|]; vm_compute; reflexivity|]. eexists. split; [vm_compute; reflexivity|]. split; [eexists; split; [reflexivity|]; reflexivity|].
      left. eexists. split; [reflexivity|]. reflexivity.
    + eexists. split; reflexivity.
    + eexists. split; [left; eexists; split; [reflexivity|]; vm_compute; reflexivity|]. repeat constructor.
    + eexists. split; [left; eexists; split; [reflexivity|]; vm_compute; reflexivity|]. repeat constructor.
    + eexists. split; [left; eexists; split; [reflexivity|]; vm_compute; reflexivity|]. repeat constructor.
    + eexists. split; [left; eexists; split; [reflexivity|]; vm_compute; reflexivity|]. repeat constructor.
    + eexists. split; reflexivity.
  - pose proof C28_ex_hypotheses as F. inversion F as [|? ? (P & _) _]; subst. split; [exact P|apply hash32_b; reflexivity| | | | |discriminate].
    + split; [|reflexivity]. constructor; [|constructor]. split; [reflexivity|]. apply (ex_print_uh 2). reflexivity.
    + split; [|reflexivity]. repeat (constructor; [apply hash32_b; reflexivity|]). constructor.
    + split; [|reflexivity]. constructor; [|constructor]. apply (ex_print_uh 2). reflexivity.
    + split; [|reflexivity]. repeat (constructor; [apply hash32_b; reflexivity|]). constructor.
Qed.

(** ** C70: transactions by id *)
Theorem C70_asked : forall H ip_parse now net v id x, normalize v = Ok id -> client_transaction_get H ip_parse now net v = Ok x ->
  (forall h, hash_new v = Ok h -> wf_bytes h) -> hash_str (e_id x) = id /\
  exists resp r, net (s2b "/explorer/hashes/" ++ id) = Ok resp /\ field "transaction" resp r /\ explorer_txn H ip_parse now r = Ok x.
Proof.
  intros H ip now net v id x N E W. unfold client_transaction_get in E. rewrite N in E. cbn [bind] in E. apply bind_ok in E as (resp & En & E).
  unfold transaction_get in E. apply key_error_ok in E. apply bind_ok in E as (? & _ & E). apply bind_ok in E as (r & Er & E). apply bind_ok in E as (i & Ei & E).
  apply bind_ok in E as (? & G & E). apply guard_ok in G.
  split.
  - destruct i as [| | | s| | |]; try discriminate G. apply listN_eqb_eq in G. subst s.
    apply explorer_txn_inv in E as (raw & id' & t & ido & ins & cps & cpos & cids & chs & bps & bpos & bids & bhs & _ & E2 & E3 & _ & _ & _ & _ & _ & _ & _ & _ & _ & _ & _ & _ & _ & _ & Eid & _).
    rewrite Ei in E2. apply ok_inj in E2. subst id'. cbn [jbval] in E3. unfold txn_parse in E3. apply bind_ok in E3 as (t0 & _ & E3). unfold id_set in E3. apply bind_ok in E3 as (h & Eh & E3).
    apply ok_inj in E3. injection E3 as _ <-. rewrite Eid. unfold normalize in N. apply bind_ok in N as (g & Eg & N). apply ok_inj in N. subst id.
    assert (K : hash32 g \/ g = []) by (destruct (hash_new_shape _ _ Eg); [now right | left; split; [assumption | exact (W g Eg)]]).
    destruct K as [K| ->]; [rewrite hash_str_full in Eh by exact K; rewrite (hash_new_hex _ K) in Eh; apply ok_inj in Eh; now subst|].
    vm_compute in Eh. apply ok_inj in Eh. subst h. reflexivity.
  - exists resp, r. split; [exact En|]. split; [|exact E]. destruct resp as [| | | | | l|]; try discriminate Er. cbn [jget] in Er. exists l. split; [reflexivity|]. destruct (jfind "transaction" l); [|discriminate Er]. now apply ok_inj in Er; subst.
Qed.
Print Assumptions C70_asked.
(** The transaction told is the transaction returned. *)
Theorem C70_read : forall H ip_parse ip_str now net v resp r t id ps sps ids sids h, hash_ok H -> ip_library ip_parse ip_str -> normalize v = Ok (hash_str id) ->
  net (s2b "/explorer/hashes/" ++ hash_str id) = Ok resp -> field "hashtype" resp (JStr (s2b "transactionid")) -> field "transaction" resp r ->
  told_txn H ip_str r t id ps sps ids sids h -> sensible ip_parse t id ps sps ids sids h ->
  exists x, client_transaction_get H ip_parse now net v = Ok x /\ as_told x t id ps sps ids sids h.
Proof.
  intros H ip is_ now net v resp r t id ps sps ids sids h HH L N En Fh Ft T Se. destruct (told_read H ip is_ now HH L _ _ _ _ _ _ _ _ T Se) as (x & Ex & A). exists x. split; [|exact A].
  unfold client_transaction_get. rewrite N. cbn [bind]. unfold hashes. rewrite En. cbn [bind]. unfold transaction_get. rewrite (hashtype_field _ _ Fh). cbn [bind].
  rewrite (field_get _ _ _ Ft). cbn [bind]. rewrite (field_get _ _ _ (tt_id _ _ _ _ _ _ _ _ _ _ T)). cbn [bind]. rewrite listN_eqb_refl. cbn [guard bind]. rewrite Ex. reflexivity.
Qed.
Print Assumptions C70_read.
(** An answer about something else is refused. *)
Theorem C70_other : forall H ip_parse now net v resp id r other, normalize v = Ok id -> net (s2b "/explorer/hashes/" ++ id) = Ok resp ->
  field "hashtype" resp (JStr (s2b "transactionid")) -> field "transaction" resp r -> field "id" r other -> other <> JStr id ->
  client_transaction_get H ip_parse now net v = Err ExplorerInvalidResponse.
Proof.
  intros H ip now net v resp id r other N En Fh Ft Fi D. unfold client_transaction_get. rewrite N. cbn [bind]. unfold hashes. rewrite En. cbn [bind]. unfold transaction_get.
  rewrite (hashtype_field _ _ Fh). cbn [bind]. rewrite (field_get _ _ _ Ft). cbn [bind]. rewrite (field_get _ _ _ Fi). cbn [bind].
  destruct other as [| | |s| | |]; try reflexivity. destruct (listN_eqb s id) eqn:E; [apply listN_eqb_eq in E; subst; contradiction | reflexivity].
Qed.
Print Assumptions C70_other.
(** Submitting returns the id the explorer answers. *)
Theorem C70_put : forall resp h, hash32 h -> field "transactionid" resp (JStr (hash_str h)) -> transaction_put resp = Ok (hash_str h).
Proof. intros resp h K F. unfold transaction_put. rewrite (field_get _ _ _ F). cbn [bind jbval]. rewrite (proj1 (proj2 (normalize_hash h K))). reflexivity. Qed.
Print Assumptions C70_put.
Definition exu_resp (kind : string) (k : string) (r : json) : json := JObj [("hashtype"%string, JStr (s2b kind)); (k, r)].
Definition exu_net (id : N) (resp : json) (e : pystr) : res json := if listN_eqb e (hashes (hash_str (repeat id 32))) then Ok resp else Err ExplorerNoContent.
Example C70_ex : is_ok (client_transaction_get ex_H2 ex_ip_parse 0 (exu_net 35 (exu_resp "transactionid" "transaction" exx_full)) (BVBytes (repeat 35 32))) = true /\
  client_transaction_get ex_H2 ex_ip_parse 0 (exu_net 36 (exu_resp "transactionid" "transaction" exx_full)) (BVBytes (repeat 36 32)) = Err ExplorerInvalidResponse.
Proof. split; vm_compute; reflexivity. Qed.

(** ** C64: blocks *)
(** A block asked for by its id is the block with that id. *)
Theorem C64_asked : forall H ip_parse now net v id b, normalize v = Ok id -> (forall h, hash_new v = Ok h -> wf_bytes h) ->
  block_get H ip_parse now net (ById v) = Ok b -> hash_str (k_bid b) = id.
Proof.
  intros H ip now net v id b N W E. unfold block_get in E. apply key_error_ok in E. rewrite N in E. cbn [bind] in E. apply bind_ok in E as (resp & En & E).
  apply bind_ok in E as (? & _ & E). apply bind_ok in E as (r & Er & E). apply bind_ok in E as (i & Ei & E). apply bind_ok in E as (? & G & E). apply guard_ok in G.
  apply text_is_eq in G. subst i. apply block_inv in E as (l & raw & ids & ps & ts & pj & hj & tj & ij & _ & _ & _ & _ & _ & _ & _ & _ & _ & _ & _ & _ & _ & _ & _ & Eij & Eb).
  rewrite Ei in Eij. apply ok_inj in Eij. subst ij. unfold normalize in N. apply bind_ok in N as (g & Eg & N). apply ok_inj in N. subst id.
  apply hash_text_back; [|exact Eb]. destruct (hash_new_shape _ _ Eg); [now right | left; split; [assumption | exact (W g Eg)]].
Qed.
Print Assumptions C64_asked.
(** What is told about a block is what is returned, whichever way it is asked for. *)
Theorem C64_read : forall H ip_parse now net resp r b, hash_ok H -> field "block" resp r ->
  told_block H (fun j x => explorer_txn H ip_parse now j = Ok x) r b -> block_ok b ->
  (forall v, normalize v = Ok (hash_str (k_bid b)) -> net (s2b "/explorer/hashes/" ++ hash_str (k_bid b)) = Ok resp ->
     field "hashtype" resp (JStr (s2b "blockid")) -> block_get H ip_parse now net (ById v) = Ok b) /\
  (net (s2b "/explorer/blocks/" ++ z_str (k_bheight b)) = Ok resp -> block_get H ip_parse now net (ByHeight (k_bheight b)) = Ok b).
Proof.
  intros H ip now net resp r b HH Fb T K. pose proof (block_read H ip now r b HH T K) as R. split.
  - intros v N En Fh. unfold block_get. rewrite N. cbn [bind]. unfold hashes. rewrite En. cbn [bind]. rewrite (hashtype_field _ _ Fh). cbn [bind].
    rewrite (field_get _ _ _ Fb). cbn [bind]. rewrite (field_get _ _ _ (tb_id _ _ _ _ T)). cbn [bind text_is]. rewrite listN_eqb_refl. cbn [guard bind]. rewrite R. reflexivity.
  - intro En. unfold block_get. rewrite En. cbn [bind]. rewrite (field_get _ _ _ Fb). cbn [bind]. rewrite R. reflexivity.
Qed.
Print Assumptions C64_read.
(** Whatever is returned comes from the answer: every transaction, and every payout with the id at its position. *)
Theorem C64_content : forall H ip_parse now net v b, block_get H ip_parse now net v = Ok b ->
  exists e resp r l raw ids ps ts, net e = Ok resp /\ field "block" resp r /\
    (match v with ByHeight h => e = s2b "/explorer/blocks/" ++ z_str h | ById v => exists id, normalize v = Ok id /\ e = s2b "/explorer/hashes/" ++ id end) /\
    field "transactions" r l /\ jelems l = Ok ts /\ Forall2 (fun j x => explorer_txn H ip_parse now j = Ok x) ts (k_txns b) /\
    field "rawblock" r raw /\ listed "minerpayoutids" r ids /\ listed "minerpayouts" raw ps /\ length ids = length (k_payouts b) /\ length ps = length (k_payouts b) /\
    (forall n x, nth_error (k_payouts b) n = Some x -> exists i p vj uj, nth_error ids n = Some i /\ nth_error ps n = Some p /\
       hash_from_json i = Ok (p_id x) /\ field "value" p vj /\ amt_from_json vj = Ok (p_value x) /\ field "unlockhash" p uj /\ uh_from_json H uj = Ok (p_uh x)) /\
    exists pj hj tj, field "parentid" raw pj /\ hash_from_json pj = Ok (k_parent b) /\ field "height" r hj /\ jint hj = Ok (k_bheight b) /\
      field "timestamp" raw tj /\ jint tj = Ok (k_btime b).
Proof.
  intros H ip now net v b E. unfold block_get in E. apply key_error_ok in E.
  assert (G : exists e resp r, net e = Ok resp /\ field "block" resp r /\ block_of H ip now r = Ok b /\
    match v with ByHeight h => e = s2b "/explorer/blocks/" ++ z_str h | ById v => exists id, normalize v = Ok id /\ e = s2b "/explorer/hashes/" ++ id end).
  { destruct v as [h|v].
    - apply bind_ok in E as (resp & En & E). apply bind_ok in E as (r & Er & E). exists (s2b "/explorer/blocks/" ++ z_str h), resp, r. repeat split; auto. exact (get_field _ _ _ Er).
    - apply bind_ok in E as (id & N & E). apply bind_ok in E as (resp & En & E). apply bind_ok in E as (? & _ & E). apply bind_ok in E as (r & Er & E).
      apply bind_ok in E as (i & _ & E). apply bind_ok in E as (? & _ & E). exists (hashes id), resp, r. repeat split; auto. 1: exact (get_field _ _ _ Er). exists id. auto. }
  destruct G as (e & resp & r & En & Fb & R & Me). apply block_inv in R as (l & raw & ids & ps & ts & pj & hj & tj & ij & Q1 & Q2 & Q3 & Q4 & Q5 & Q6 & Q7 & Q8 & Q9 & Q10 & Q11 & Q12 & Q13 & Q14 & Q15 & Q16 & Q17).
  exists e, resp, r, l, raw, ids, ps, ts. split; [exact En|]. split; [exact Fb|]. split; [exact Me|]. split; [exact (get_field _ _ _ Q1)|]. split; [exact Q2|]. split; [exact Q3|].
  split; [exact (get_field _ _ _ Q4)|]. split; [exact Q7|]. split; [exact Q8|]. split; [exact Q9|]. split; [exact Q10|]. split.
  - intros n x N. destruct (Q11 n x N) as (i & p & vj & uj & R1 & R2 & R3 & R4 & R5 & R6 & R7). exists i, p, vj, uj. repeat split; auto; apply get_field; assumption.
  - exists pj, hj, tj. repeat split; auto; apply get_field; assumption.
Qed.
Print Assumptions C64_content.
(** *** Example: a block with two transactions and two payouts *)
Definition exu_payouts : list payout := [mkpayout (repeat 51 32) 1000000000 exx_uh; mkpayout (repeat 52 32) 7 (mkuh 1 (repeat 3 32))].
Definition exu_text (u : uh) : json := match uh_str ex_H2 u with Ok s => JStr s | Err _ => JNull end.
Definition exu_block (h : Z) (ids : list json) : json :=
  JObj [("minerpayoutids"%string, JArr ids); ("transactions"%string, JArr [exx_a1; exx_full]);
        ("rawblock"%string, JObj [("parentid"%string, exx_hash 61); ("timestamp"%string, JNum 1600000000);
          ("minerpayouts"%string, JArr (map (fun p => JObj [("value"%string, amt_json (p_value p)); ("unlockhash"%string, exu_text (p_uh p))]) exu_payouts))]);
        ("blockid"%string, exx_hash 62); ("height"%string, JNum h)].
Definition exu_answer (h : Z) : json := exu_resp "blockid" "block" (exu_block h [exx_hash 51; exx_hash 52]).
Example C64_ex : exists b, told_block ex_H2 (fun j x => explorer_txn ex_H2 ex_ip_parse 0 j = Ok x) (exu_block 12 [exx_hash 51; exx_hash 52]) b /\ block_ok b /\
  length (k_txns b) = 2%nat /\ k_payouts b = exu_payouts /\ block_get ex_H2 ex_ip_parse 0 (exu_net 62 (exu_answer 12)) (ById (BVBytes (repeat 62 32))) = Ok b /\
  block_get ex_H2 ex_ip_parse 0 (exu_net 62 (exu_resp "blockid" "block" (exu_block 12 [exx_hash 51]))) (ById (BVBytes (repeat 62 32))) = Err ExplorerInvalidResponse.
Proof.
  destruct (explorer_txn ex_H2 ex_ip_parse 0 exx_a1) as [x1|] eqn:E1; [|vm_compute in E1; discriminate E1].
  destruct (explorer_txn ex_H2 ex_ip_parse 0 exx_full) as [x2|] eqn:E2; [|vm_compute in E2; discriminate E2].
  exists (mkblock (repeat 62 32) (repeat 61 32) 12 1600000000 [x1; x2] exu_payouts).
  assert (T : told_block ex_H2 (fun j x => explorer_txn ex_H2 ex_ip_parse 0 j = Ok x) (exu_block 12 [exx_hash 51; exx_hash 52]) (mkblock (repeat 62 32) (repeat 61 32) 12 1600000000 [x1; x2] exu_payouts)).
  { split; cbn [k_txns k_parent k_btime k_payouts k_bheight k_bid].
    - eexists. split; [eexists; split; reflexivity|]. constructor; [exact E1|]. constructor; [exact E2|]. constructor.
    - eexists. split; [eexists; split; reflexivity|]. split; [eexists; split; reflexivity|]. split; [eexists; split; reflexivity|].
      exists [exx_hash 51; exx_hash 52]. eexists. split; [left; eexists; split; reflexivity|]. split; [left; eexists; split; reflexivity|]. split; [reflexivity|]. split; [reflexivity|].
      intros n i p x N1 N2 N3. destruct n as [|[|n]]; [| |destruct n; discriminate N1]; injection N1 as <-; injection N2 as <-; injection N3 as <-.
      + split; [reflexivity|]. split; [eexists; split; reflexivity|]. eexists. split; [vm_compute; reflexivity|]. eexists. split; [reflexivity|]. vm_compute. reflexivity.
      + split; [reflexivity|]. split; [eexists; split; reflexivity|]. eexists. split; [vm_compute; reflexivity|]. eexists. split; [reflexivity|]. vm_compute. reflexivity.
    - eexists. split; reflexivity.
    - eexists. split; reflexivity. }
  assert (K : block_ok (mkblock (repeat 62 32) (repeat 61 32) 12 1600000000 [x1; x2] exu_payouts)).
  { split; [apply hash32_b; reflexivity|]. split; [apply hash32_b; reflexivity|].
    constructor; [|constructor; [|constructor]]; (split; [apply hash32_b; reflexivity|]; split; [reflexivity|]); (split; [cbn; auto|]; split; [apply hash32_b; reflexivity | discriminate]). }
  split; [exact T|]. split; [exact K|]. split; [reflexivity|]. split; [reflexivity|]. split; [|vm_compute; reflexivity].
  apply (proj1 (C64_read ex_H2 ex_ip_parse 0 (exu_net 62 (exu_answer 12)) (exu_answer 12) _ _ ex_H2_ok (ex_intro _ _ (conj eq_refl eq_refl)) T K)).
  - reflexivity.
  - vm_compute. reflexivity.
  - eexists. split; reflexivity.
Qed.
(** Refuted: a block asked for by its height may be one of another height. *)
Theorem C64_height_refuted : exists net b, block_get ex_H2 ex_ip_parse 0 net (ByHeight 12) = Ok b /\ k_bheight b = 13%Z.
Proof.
  exists (fun _ => Ok (exu_answer 13)). destruct (block_get ex_H2 ex_ip_parse 0 (fun _ => Ok (exu_answer 13)) (ByHeight 12)) as [b|] eqn:E; [|vm_compute in E; discriminate E].
  exists b. split; [reflexivity|]. vm_compute in E. apply ok_inj in E. subst b. reflexivity.
Qed.
Print Assumptions C64_height_refuted.

(** ** C65: the last block *)
(** The block returned is the one the explorer names as its last. *)
Theorem C65_last : forall H ip_parse now net resp j h b, net (s2b "/explorer") = Ok resp -> field "blockid" resp j -> hash_from_json j = Ok h ->
  blockchain_info_get H ip_parse now net = Ok b -> hash_str (k_bid b) = hash_str h /\
  exists answer, net (s2b "/explorer/hashes/" ++ hash_str h) = Ok answer /\ field "hashtype" answer (JStr (s2b "blockid")) /\ exists r, field "block" answer r /\ field "blockid" r (JStr (hash_str h)).
Proof.
  intros H ip now net resp j h b En Fb Eh E. unfold blockchain_info_get in E. rewrite En in E. cbn [bind] in E. rewrite (field_get _ _ _ Fb) in E. cbn [bind] in E. rewrite Eh in E. cbn [bind] in E.
  assert (N : hash_new (BVData (hash_bd h)) = Ok h) by (apply hash_new_ok; split; [reflexivity|]; destruct (hash_from_json_sound _ _ Eh) as [->|K]; [now left | right; apply K]).
  assert (Nn : normalize (BVData (hash_bd h)) = Ok (hash_str h)) by (unfold normalize; rewrite N; reflexivity).
  split.
  - apply (C64_asked H ip now net _ _ _ Nn) in E; [exact E|]. intros g Eg. rewrite N in Eg. apply ok_inj in Eg. subst g. destruct (hash_from_json_sound _ _ Eh) as [->|K]; [constructor | apply K].
  - unfold block_get in E. apply key_error_ok in E. rewrite Nn in E. cbn [bind] in E. apply bind_ok in E as (answer & Ea & E). exists answer. split; [exact Ea|].
    apply bind_ok in E as (u & Et & E). split; [exact (hashtype_inv _ _ _ Et)|]. apply bind_ok in E as (r & Er & E). exists r. split; [exact (get_field _ _ _ Er)|].
    apply bind_ok in E as (i & Ei & E). apply bind_ok in E as (? & G & E). apply guard_ok in G. apply text_is_eq in G. subst i. exact (get_field _ _ _ Ei).
Qed.
Print Assumptions C65_last.
(** What is told about it is returned. *)
Theorem C65_read : forall H ip_parse now net first resp r b, hash_ok H -> net (s2b "/explorer") = Ok first -> field "blockid" first (JStr (hash_str (k_bid b))) ->
  net (s2b "/explorer/hashes/" ++ hash_str (k_bid b)) = Ok resp -> field "hashtype" resp (JStr (s2b "blockid")) -> field "block" resp r ->
  told_block H (fun j x => explorer_txn H ip_parse now j = Ok x) r b -> block_ok b -> blockchain_info_get H ip_parse now net = Ok b.
Proof.
  intros H ip now net first resp r b HH E1 F1 E2 F2 F3 T K. unfold blockchain_info_get. rewrite E1. cbn [bind]. rewrite (field_get _ _ _ F1). cbn [bind].
  destruct (K) as (Kb & _). rewrite (hash_str_rt _ Kb). cbn [bind]. apply (proj1 (C64_read H ip now net resp r b HH F3 T K)); [|exact E2|exact F2]. apply normalize_hash. exact Kb.
Qed.
Print Assumptions C65_read.
Definition exu_chain (e : pystr) : res json :=
  if listN_eqb e (s2b "/explorer") then Ok (JObj [("blockid"%string, exx_hash 62)]) else exu_net 62 (exu_answer 12) e.
Example C65_ex : exists b, blockchain_info_get ex_H2 ex_ip_parse 0 exu_chain = Ok b /\ k_bid b = repeat 62 32 /\ k_bheight b = 12%Z.
Proof.
  destruct (blockchain_info_get ex_H2 ex_ip_parse 0 exu_chain) as [b|] eqn:E; [|vm_compute in E; discriminate E].
  exists b. split; [reflexivity|]. vm_compute in E. apply ok_inj in E. subst b. split; reflexivity.
Qed.
(** Refuted: an answer which does not name a block is no ExplorerInvalidResponse, as it is for every other lookup; the KeyError escapes. *)
Theorem C65_no_block_refuted : forall H ip_parse now net first, net (s2b "/explorer") = Ok first -> absent "blockid" first ->
  blockchain_info_get H ip_parse now net = Err KeyError.
Proof. intros H ip now net first E (l & -> & A). unfold blockchain_info_get. rewrite E. cbn [bind jget]. rewrite A. reflexivity. Qed.
Print Assumptions C65_no_block_refuted.
Example C65_ex_no_block : absent "blockid" (JObj [("height"%string, JNum 5)]).
Proof. eexists. split; reflexivity. Qed.

(** ** C66: failures of lookups *)
(** No lookup raises a KeyError, whatever an explorer answers. *)
Theorem C66_no_key_error : forall H ip_parse now net, (forall e, net e <> Err KeyError) ->
  (forall v, block_get H ip_parse now net v <> Err KeyError) /\ (forall v, client_transaction_get H ip_parse now net v <> Err KeyError) /\
  (forall k v, client_output_get H ip_parse now net k v <> Err KeyError) /\ (forall a resp, unlockhash_get H ip_parse now a resp <> Err KeyError) /\
  (forall h, mint_condition_get H now net h <> Err KeyError) /\ (forall b, record_get ip_parse net b <> Err KeyError) /\ (forall u, erc20_address_get H net u <> Err KeyError) /\
  (forall resp, transaction_put resp <> Err KeyError).
Proof.
  intros H ip now net N. repeat match goal with |- _ /\ _ => split end.
  - intro v. apply key_error_not.
  - intro v. apply nk_bind; [apply normalize_nk|]. intros id _. apply nk_bind; [apply N|]. intros resp _. apply key_error_not.
  - intros k v. apply nk_bind; [apply normalize_nk|]. intros id _. apply nk_bind; [apply N|]. intros resp _. apply key_error_not.
  - intros a resp. apply key_error_not.
  - intro h. apply nk_bind; [apply mint_endpoint_nk|]. intros e _. apply nk_bind; [apply N|]. intros resp _. apply key_error_not.
  - intro b. apply nk_bind; [apply bot_endpoint_nk|]. intros e _. apply nk_bind; [|intros resp _; apply key_error_not].
    specialize (N e). unfold no_key. destruct (net e) as [a|[]]; congruence.
  - intro u. apply nk_bind; [destruct u; try discriminate; apply uh_from_json_nk|]. intros u' _. apply nk_bind; [apply nk_guard; discriminate|]. intros _ _.
    apply nk_bind; [apply uh_str_nk|]. intros s _. apply nk_bind; [apply N|]. intros resp _. apply key_error_not.
  - intro resp. apply key_error_not.
Qed.
Print Assumptions C66_no_key_error.
(** An answer without the thing asked for is refused with ExplorerInvalidResponse. *)
Theorem C66_absent : forall H ip_parse now net resp,
  (forall h, net (s2b "/explorer/blocks/" ++ z_str h) = Ok resp -> absent "block" resp -> block_get H ip_parse now net (ByHeight h) = Err ExplorerInvalidResponse) /\
  (forall v id, normalize v = Ok id -> net (s2b "/explorer/hashes/" ++ id) = Ok resp ->
     (absent "hashtype" resp \/ (exists k, field "hashtype" resp k /\ k <> JStr (s2b "blockid")) \/ field "hashtype" resp (JStr (s2b "blockid")) /\ absent "block" resp) ->
     block_get H ip_parse now net (ById v) = Err ExplorerInvalidResponse) /\
  (forall v id, normalize v = Ok id -> net (s2b "/explorer/hashes/" ++ id) = Ok resp ->
     (absent "hashtype" resp \/ (exists k, field "hashtype" resp k /\ k <> JStr (s2b "transactionid")) \/ field "hashtype" resp (JStr (s2b "transactionid")) /\ absent "transaction" resp) ->
     client_transaction_get H ip_parse now net v = Err ExplorerInvalidResponse) /\
  (forall h e, mint_asks h e -> net e = Ok resp -> absent "mintcondition" resp -> mint_condition_get H now net h = Err ExplorerInvalidResponse) /\
  (forall b e, bot_asks b e -> net e = Ok resp -> absent "record" resp -> record_get ip_parse net b = Err ExplorerInvalidResponse) /\
  (absent "transactionid" resp -> transaction_put resp = Err ExplorerInvalidResponse).
Proof.
  intros H ip now net resp.
  assert (KT : forall k (A : Type) (f : unit -> res A), absent "hashtype" resp \/ (exists j, field "hashtype" resp j /\ j <> JStr (s2b k)) -> key_error (do u <- hashtype_is k resp; f u) = Err ExplorerInvalidResponse).
  { intros k A f [(l & -> & F)|(j & F & D)]; unfold hashtype_is; [cbn [jget]; rewrite F; reflexivity|]. rewrite (field_get _ _ _ F). cbn [bind].
    destruct j as [| | |s| | |]; try reflexivity. destruct (listN_eqb s (s2b k)) eqn:Es; [apply listN_eqb_eq in Es; subst; contradiction | reflexivity]. }
  repeat match goal with |- _ /\ _ => split end.
  - intros h E A. unfold block_get. rewrite E. cbn [bind]. apply key_error_absent. exact A.
  - intros v id N E C. unfold block_get. rewrite N. cbn [bind]. unfold hashes. rewrite E. cbn [bind]. destruct C as [C|[C|(F & A)]]; [apply KT; now left|apply KT; now right|].
    rewrite (hashtype_field _ _ F). cbn [bind]. apply key_error_absent. exact A.
  - intros v id N E C. unfold client_transaction_get. rewrite N. cbn [bind]. unfold hashes. rewrite E. cbn [bind]. unfold transaction_get. destruct C as [C|[C|(F & A)]]; [apply KT; now left|apply KT; now right|].
    rewrite (hashtype_field _ _ F). cbn [bind]. apply key_error_absent. exact A.
  - intros h e M E A. apply mint_endpoint_ok in M. unfold mint_condition_get. rewrite M. cbn [bind]. rewrite E. cbn [bind]. apply key_error_absent. exact A.
  - intros b e M E A. apply bot_endpoint_ok in M. unfold record_get. rewrite M. cbn [bind]. rewrite E. cbn [bind]. apply key_error_absent. exact A.
  - intro A. unfold transaction_put. apply key_error_absent. exact A.
Qed.
Print Assumptions C66_absent.
(** What explorers fail with is what a lookup fails with, except for an unknown 3Bot. *)
Theorem C66_passed_on : forall H ip_parse now net e, e <> KeyError ->
  (forall h, net (s2b "/explorer/blocks/" ++ z_str h) = Err e -> block_get H ip_parse now net (ByHeight h) = Err e) /\
  (forall v id, normalize v = Ok id -> net (s2b "/explorer/hashes/" ++ id) = Err e ->
     block_get H ip_parse now net (ById v) = Err e /\ client_transaction_get H ip_parse now net v = Err e /\ (forall k, client_output_get H ip_parse now net k v = Err e)) /\
  (net (s2b "/explorer") = Err e -> blockchain_info_get H ip_parse now net = Err e) /\
  (forall h x, mint_asks h x -> net x = Err e -> mint_condition_get H now net h = Err e) /\
  (forall b x, bot_asks b x -> net x = Err e -> record_get ip_parse net b = Err (match e with ExplorerNoContent => ThreeBotNotFound | _ => e end)).
Proof.
  intros H ip now net e N. repeat match goal with |- _ /\ _ => split end.
  - intros h E. unfold block_get. rewrite E. cbn [bind]. apply key_error_err; [exact N | reflexivity].
  - intros v id Nv E. unfold block_get, client_transaction_get, client_output_get, hashes. rewrite Nv. cbn [bind]. rewrite E. cbn [bind]. split; [|auto]. apply key_error_err; [exact N | reflexivity].
  - intro E. unfold blockchain_info_get. rewrite E. reflexivity.
  - intros h x M E. apply mint_endpoint_ok in M. unfold mint_condition_get. rewrite M. cbn [bind]. rewrite E. reflexivity.
  - intros b x M E. apply bot_endpoint_ok in M. unfold record_get. rewrite M. cbn [bind]. rewrite E. destruct e; reflexivity.
Qed.
Print Assumptions C66_passed_on.
(** Refuted: answers which are not understood need not end as ExplorerInvalidResponse.  An explorer written in Go answers [null] for a list
    without entries, and an address which only received block rewards has no transactions: the TypeError of iterating over None escapes. *)
Theorem C66_null_refuted : forall H ip_parse now a resp, field "hashtype" resp (JStr (s2b "unlockhash")) -> field "transactions" resp JNull ->
  unlockhash_get H ip_parse now a resp = Err TypeError.
Proof. intros H ip now a resp F G. unfold unlockhash_get. rewrite (hashtype_field _ _ F). cbn [bind]. rewrite (field_get _ _ _ G). reflexivity. Qed.
Print Assumptions C66_null_refuted.
Theorem C66_null_block_refuted : forall H ip_parse now net h resp r, net (s2b "/explorer/blocks/" ++ z_str h) = Ok resp -> field "block" resp r -> field "transactions" r JNull ->
  block_get H ip_parse now net (ByHeight h) = Err TypeError.
Proof. intros H ip now net h resp r E F G. unfold block_get. rewrite E. cbn [bind]. rewrite (field_get _ _ _ F). cbn [bind]. unfold block_of. rewrite (field_get _ _ _ G). reflexivity. Qed.
Print Assumptions C66_null_block_refuted.
Example C66_ex : field "transactions" (exu_resp "unlockhash" "transactions" JNull) JNull /\ field "hashtype" (exu_resp "unlockhash" "transactions" JNull) (JStr (s2b "unlockhash")) /\
  absent "block" (exu_resp "blockid" "transactions" JNull) /\ (forall e, exu_net 3 JNull e <> Err KeyError).
Proof.
  split; [eexists; split; reflexivity|]. split; [eexists; split; reflexivity|]. split; [eexists; split; reflexivity|]. intro e. unfold exu_net. destruct (listN_eqb _ _); discriminate.
Qed.

(** ** C67: 3Bot records *)
(** One request is made, to the place for the kind of identifier; what the explorers answer there is what counts. *)
Theorem C67_asks : forall ip_parse net b e, bot_asks b e ->
  record_get ip_parse net b = match net e with
    | Ok resp => key_error (do r <- jget "record" resp; record_of ip_parse r)
    | Err ExplorerNoContent => Err ThreeBotNotFound
    | Err x => Err x
    end.
Proof. intros ip net b e A. apply bot_endpoint_ok in A. unfold record_get. rewrite A. cbn [bind]. destruct (net e) as [r|[]]; reflexivity. Qed.
Print Assumptions C67_asks.
(** Anything else is refused before a request is made. *)
Theorem C67_refused : forall ip_parse b, (forall e, ~ bot_asks b e) ->
  exists x, (forall net, record_get ip_parse net b = Err x) /\ (x = TypeError /\ b = ROther \/ (x = ValueError \/ x = InvalidPublicKeySpecifier) /\ exists s, b = RStr s).
Proof.
  intros ip b N. destruct (bot_endpoint b) as [e|x] eqn:E; [apply bot_endpoint_ok in E; destruct (N _ E)|]. exists x. split; [intro net; unfold record_get; rewrite E; reflexivity|].
  destruct b as [z|b|s|p|s|]; try discriminate E; [|left; now injection E as <-]. right. cbn [bot_endpoint] in E. destruct (re_match botname_re s); [discriminate E|].
  apply bind_err in E as [E|(p & _ & E)]; [|discriminate E]. split; [exact (pk_text_err _ _ E) | eauto].
Qed.
Print Assumptions C67_refused.
(** No text is both a name and a key, so each text is looked up at one place. *)
Theorem C67_one_place : forall b e e', bot_asks b e -> bot_asks b e' -> e = e'.
Proof. intros b e e' A B. apply bot_endpoint_ok in A, B. rewrite A in B. now apply ok_inj in B. Qed.
Print Assumptions C67_one_place.
(** What is told about a 3Bot is returned. *)
Theorem C67_read : forall ip_parse ip_str net b e resp r x, ip_library ip_parse ip_str -> bot_asks b e -> net e = Ok resp -> field "record" resp r ->
  told_record ip_str r x -> record_ok ip_parse x -> record_get ip_parse net b = Ok x.
Proof.
  intros ip is_ net b e resp r x L A En F [Ti Tn Ta Tk Te] (Pn & Pa & Pk). rewrite (C67_asks ip net b e A), En. rewrite (field_get _ _ _ F). cbn [bind]. unfold record_of.
  rewrite (field_get _ _ _ Ti). cbn [bind jint]. rewrite (list_field_of _ _ _ Tn). cbn [bind]. change (map JStr (r_names x)) with (map bn_json (r_names x)). rewrite (names_rt _ Pn). cbn [bind].
  rewrite (list_field_of _ _ _ Ta). cbn [bind]. change (map (fun a => JStr (na_str is_ a)) (r_addrs x)) with (map (na_json is_) (r_addrs x)). rewrite (addrs_rt _ _ L _ Pa). cbn [bind].
  rewrite (field_get _ _ _ Tk). cbn [bind]. rewrite (pk_round_trip _ Pk). cbn [bind]. rewrite (field_get _ _ _ Te). cbn [bind jint]. destruct x; reflexivity.
Qed.
Print Assumptions C67_read.
(** Whatever is returned was answered: every part of the record is read from its field. *)
Theorem C67_content : forall ip_parse net b x, record_get ip_parse net b = Ok x ->
  exists e resp r ij kj ej ns as_, bot_asks b e /\ net e = Ok resp /\ field "record" resp r /\ field "id" r ij /\ jint ij = Ok (r_id x) /\
    listed "names" r ns /\ Forall2 (fun j n => bn_from_json j = Ok n) ns (r_names x) /\ listed "addresses" r as_ /\ Forall2 (fun j a => na_from_json ip_parse j = Ok a) as_ (r_addrs x) /\
    field "publickey" r kj /\ pk_from_json kj = Ok (r_key x) /\ field "expiration" r ej /\ jint ej = Ok (r_expires x).
Proof.
  intros ip net b x E. unfold record_get in E. apply bind_ok in E as (e & Ee & E). apply bot_endpoint_ok in Ee. apply bind_ok in E as (resp & En & E). apply key_error_ok in E.
  assert (Eq : net e = Ok resp) by (destruct (net e) as [y|[]]; try discriminate En; exact En). apply bind_ok in E as (r & Er & E). unfold record_of in E.
  apply bind_ok in E as (i & E1 & E). apply bind_ok in E1 as (ij & E1 & E1'). apply bind_ok in E as (ns & E2 & E). apply bind_ok in E2 as (nl & E2 & E2').
  apply bind_ok in E as (as_ & E3 & E). apply bind_ok in E3 as (al & E3 & E3'). apply bind_ok in E as (k & E4 & E). apply bind_ok in E4 as (kj & E4 & E4').
  apply bind_ok in E as (t & E5 & E). apply bind_ok in E5 as (ej & E5 & E5'). apply ok_inj in E. subst x. cbn [r_id r_names r_addrs r_key r_expires].
  exists e, resp, r, ij, kj, ej, nl, al. repeat match goal with |- _ /\ _ => split end; auto using get_field, jlist_of_listed, F2_mapM.
Qed.
Print Assumptions C67_content.
(** *** Example *)
Definition exu_record : record := mkrecord 3 [s2b "hello.there"; s2b "hellothere"] [mkna 0 (s2b "example.com")] (mkpk PKEd25519 (repeat 9 32)) 1600000000.
Definition exu_record_json : json :=
  JObj [("id"%string, JNum 3); ("names"%string, JArr [JStr (s2b "hello.there"); JStr (s2b "hellothere")]); ("addresses"%string, JArr [JStr (s2b "example.com")]);
        ("publickey"%string, JStr (pk_str (mkpk PKEd25519 (repeat 9 32)))); ("expiration"%string, JNum 1600000000)].
Example C67_ex : told_record ex_ip_str exu_record_json exu_record /\ record_ok ex_ip_parse exu_record /\
  bot_asks (RStr (s2b "hello.there")) (s2b "/explorer/whois/3bot/hello.there") /\ bot_asks (RInt 3) (s2b "/explorer/3bot/3") /\
  record_get ex_ip_parse (fun e => if listN_eqb e (s2b "/explorer/whois/3bot/hello.there") then Ok (JObj [("record"%string, exu_record_json)]) else Err ExplorerNoContent) (RStr (s2b "hello.there")) = Ok exu_record /\
  record_get ex_ip_parse (fun e => if listN_eqb e (s2b "/explorer/whois/3bot/hello.there") then Ok (JObj [("record"%string, exu_record_json)]) else Err ExplorerNoContent) (RStr (s2b "hallo.there")) = Err ThreeBotNotFound.
Proof.
  split.
  { split; try (eexists; split; reflexivity); left; eexists; split; reflexivity. }
  split.
  { split; [|split; [|apply hash32_b; reflexivity]].
    - constructor; [exists (Some (s2b "hello.there")); vm_compute; reflexivity|]. constructor; [exists (Some (s2b "hellothere")); vm_compute; reflexivity|]. constructor.
    - constructor; [exists (Some (s2b "example.com")); vm_compute; reflexivity|]. constructor. }
  split.
  { apply bot_endpoint_ok. vm_compute. reflexivity. }
  split; [exact (BA_int 3)|]. split; vm_compute; reflexivity.
Qed.
(** Refuted: a text which is neither a name nor a key is promised a ValueError, but one with a colon may raise InvalidPublicKeySpecifier, which is none. *)
Theorem C67_specifier_refuted : exists s, (forall e, ~ bot_asks (RStr s) e) /\ forall ip_parse net, record_get ip_parse net (RStr s) = Err InvalidPublicKeySpecifier.
Proof.
  exists (s2b "rsa:00"). split; [|intros; vm_compute; reflexivity]. intros e A. apply bot_endpoint_ok in A. vm_compute in A. discriminate A.
Qed.
Print Assumptions C67_specifier_refuted.
(** Refuted: the empty text is no identifier, but it is asked for (as a key). *)
Theorem C67_empty_refuted : bot_asks (RStr []) (s2b "/explorer/3bot/").
Proof. apply (BA_str_key []). now left. Qed.
Print Assumptions C67_empty_refuted.
(** Refuted: the record returned need not be the one asked for; a number, key or name which differs is not noticed. *)
Theorem C67_other_refuted : exists net x, record_get ex_ip_parse net (RInt 7) = Ok x /\ r_id x = 3%Z.
Proof. exists (fun _ => Ok (JObj [("record"%string, exu_record_json)])), exu_record. split; vm_compute; reflexivity. Qed.
Print Assumptions C67_other_refuted.

(** ** C68: mint conditions *)
Theorem C68_asks : forall H now net h e, mint_asks h e -> mint_condition_get H now net h =
  match net e with Ok resp => key_error (do c <- jget "mintcondition" resp; cond_from_json H now c) | Err x => Err x end.
Proof. intros H now net h e A. apply mint_endpoint_ok in A. unfold mint_condition_get. rewrite A. cbn [bind]. destruct (net e); reflexivity. Qed.
Print Assumptions C68_asks.
(** Anything which is not a height is refused without a request. *)
Theorem C68_refused : forall H now h, (forall e, ~ mint_asks h e) ->
  exists x, (forall net, mint_condition_get H now net h = Err x) /\ (x = TypeError /\ h = HOther \/ exists s, h = HStr s /\ py_int s = Err x).
Proof.
  intros H now h N. destruct (mint_endpoint h) as [e|x] eqn:E; [apply mint_endpoint_ok in E; destruct (N _ E)|]. exists x. split; [intro net; unfold mint_condition_get; rewrite E; reflexivity|].
  destruct h as [|z|s|]; try discriminate E; [|left; now injection E as <-]. right. exists s. split; [reflexivity|]. cbn [mint_endpoint] in E. apply bind_err in E as [E|(z & _ & E)]; [exact E | discriminate E].
Qed.
Print Assumptions C68_refused.
(** The condition told is the condition returned. *)
Theorem C68_read : forall H now net h e resp c j, hash_ok H -> network_cond c -> mint_asks h e -> net e = Ok resp -> cond_json H c = Ok j -> field "mintcondition" resp j ->
  mint_condition_get H now net h = Ok c.
Proof.
  intros H now net h e resp c j HH N A En Ej F. rewrite (C68_asks H now net h e A), En. rewrite (field_get _ _ _ F). cbn [bind].
  destruct (cond_json_round_trip H now c HH N) as (j' & Ej' & R). rewrite Ej in Ej'. apply ok_inj in Ej'. subst j'. rewrite R. reflexivity.
Qed.
Print Assumptions C68_read.
(** ... and nothing but what the answer tells is returned. *)
Theorem C68_content : forall H now net h c, mint_condition_get H now net h = Ok c ->
  exists e resp j, mint_asks h e /\ net e = Ok resp /\ field "mintcondition" resp j /\ cond_from_json H now j = Ok c.
Proof.
  intros H now net h c E. unfold mint_condition_get in E. apply bind_ok in E as (e & Ee & E). apply mint_endpoint_ok in Ee. apply bind_ok in E as (resp & En & E). apply key_error_ok in E.
  apply bind_ok in E as (j & Ej & E). exists e, resp, j. auto using get_field.
Qed.
Print Assumptions C68_content.
Definition exu_cond : cond := CMulti [exx_uh; mkuh 1 (repeat 3 32)] 1.
Example C68_ex : exists j, cond_json ex_H2 exu_cond = Ok j /\ network_cond exu_cond /\ mint_asks (HStr (s2b " 12")) (s2b "/explorer/mintcondition/12") /\
  mint_condition_get ex_H2 0 (fun e => if listN_eqb e (s2b "/explorer/mintcondition/12") then Ok (JObj [("mintcondition"%string, j)]) else Err ExplorerNoContent) (HStr (s2b " 12")) = Ok exu_cond.
Proof.
  destruct (cond_json ex_H2 exu_cond) as [j|] eqn:E; [|vm_compute in E; discriminate E]. exists j. split; [reflexivity|].
  assert (A : mint_asks (HStr (s2b " 12")) (s2b "/explorer/mintcondition/12")) by (apply mint_endpoint_ok; vm_compute; reflexivity).
  assert (N : network_cond exu_cond) by (cbn; repeat (constructor || split || auto || apply hash32_b; try reflexivity || discriminate)).
  split; [exact N|]. split; [exact A|]. eapply (C68_read ex_H2 0 _ _ _ (JObj [("mintcondition"%string, j)]) _ j ex_H2_ok N A); [reflexivity | exact E | eexists; split; reflexivity].
Qed.

(** ** C69: ERC20 withdrawal addresses *)
(** Only addresses of single keys can be looked up. *)
Theorem C69_only_keys : forall H net u, uh_type u <> 1%Z -> erc20_address_get H net (UHash u) = Err TypeError.
Proof. intros H net u N. unfold erc20_address_get. cbn [bind]. destruct (uh_type u =? 1)%Z eqn:E; [lia | reflexivity]. Qed.
Print Assumptions C69_only_keys.
(** ... which can be given as text too. *)
Theorem C69_text : forall H net u s, hash_ok H -> address u -> uh_str H u = Ok s -> erc20_address_get H net (UStr s) = erc20_address_get H net (UHash u).
Proof. intros H net u s HH A E. unfold erc20_address_get. destruct (address_json H u HH A) as (s' & E' & R). rewrite E in E'. apply ok_inj in E'. subst s'. rewrite R. reflexivity. Qed.
Print Assumptions C69_text.
Theorem C69_read : forall H net u s resp v a c, hash_ok H -> uh_type u = 1%Z -> uh_str H u = Ok s -> net (s2b "/explorer/hashes/" ++ s) = Ok resp ->
  address v -> length a = 20%nat -> wf_bytes a -> told_erc20 H resp v a c -> erc20_address_get H net (UHash u) = Ok (v, a, c).
Proof.
  intros H net u s resp v a c HH T Es En Av La Wa To. unfold erc20_address_get. cbn [bind]. rewrite T. cbn [Z.eqb Pos.eqb guard bind]. rewrite Es. cbn [bind]. unfold hashes. rewrite En. cbn [bind].
  destruct (told_erc20_read H resp v a c HH Av La Wa To) as (Q1 & Q2). rewrite Q1. cbn [bind]. rewrite Q2. reflexivity.
Qed.
Print Assumptions C69_read.
Theorem C69_unregistered : forall H net u s resp, uh_type u = 1%Z -> uh_str H u = Ok s -> net (s2b "/explorer/hashes/" ++ s) = Ok resp ->
  field "hashtype" resp (JStr (s2b "unlockhash")) -> absent "erc20info" resp -> erc20_address_get H net (UHash u) = Err ExplorerNoContent.
Proof.
  intros H net u s resp T Es En Fh A. unfold erc20_address_get. cbn [bind]. rewrite T. cbn [Z.eqb Pos.eqb guard bind]. rewrite Es. cbn [bind]. unfold hashes. rewrite En. cbn [bind].
  rewrite (hashtype_field _ _ Fh). cbn [bind]. destruct A as (l & -> & A). unfold erc20info, jin, jhas. rewrite A. reflexivity.
Qed.
Print Assumptions C69_unregistered.
(** The lookup of the address itself says the same. *)
Theorem C69_agrees : forall H ip_parse now net u s resp r, uh_type u = 1%Z -> uh_str H u = Ok s -> net (s2b "/explorer/hashes/" ++ s) = Ok resp -> unlockhash_get H ip_parse now s resp = Ok r ->
  erc20_address_get H net (UHash u) = match h_erc20 r with Some x => Ok x | None => Err ExplorerNoContent end.
Proof.
  intros H ip now net u s resp r T Es En E. unfold erc20_address_get. cbn [bind]. rewrite T. cbn [Z.eqb Pos.eqb guard bind]. rewrite Es. cbn [bind]. unfold hashes. rewrite En. cbn [bind].
  unfold unlockhash_get in E. apply key_error_ok in E. apply bind_ok in E as (q & Eq & E). rewrite Eq. cbn [bind]. apply bind_ok in E as (? & _ & E). apply bind_ok in E as (? & _ & E). apply bind_ok in E as (? & _ & E).
  apply bind_ok in E as (? & _ & E). apply bind_ok in E as (? & _ & E). apply bind_ok in E as (i & Ei & E). apply bind_ok in E as (? & _ & E). apply ok_inj in E. subst r. cbn [h_erc20]. rewrite Ei. cbn [bind]. destruct i; reflexivity.
Qed.
Print Assumptions C69_agrees.
(** *** Example *)
Definition exu_erc20 (u : uh) : json := JObj [("hashtype"%string, JStr (s2b "unlockhash")); ("transactions"%string, JArr []);
  ("erc20info"%string, JObj [("tftaddress"%string, exu_text u); ("erc20address"%string, prefixed_json (repeat 7 20)); ("confirmations"%string, JNum 30)])].
Example C69_ex : uh_type exx_uh = 1%Z /\ (exists s, uh_str ex_H2 exx_uh = Ok s /\ is_ok (unlockhash_get ex_H2 ex_ip_parse 0 s (exu_erc20 exx_uh)) = true) /\ told_erc20 ex_H2 (exu_erc20 exx_uh) exx_uh (repeat 7 20) 30 /\
  erc20_address_get ex_H2 (fun _ => Ok (exu_erc20 exx_uh)) (UHash exx_uh) = Ok (exx_uh, repeat 7 20, 30%Z).
Proof.
  split; [reflexivity|]. split; [eexists; split; [vm_compute; reflexivity|]; vm_compute; reflexivity|]. split; [|vm_compute; reflexivity].
  split; [eexists; split; reflexivity|]. eexists _, _. split; [eexists; split; reflexivity|]. split; [vm_compute; reflexivity|]. repeat split; eexists; split; vm_compute; reflexivity.
Qed.
(** Refuted: the registration returned need not be one of the address asked for. *)
Theorem C69_other_refuted : exists net u, u <> exx_uh /\ erc20_address_get ex_H2 net (UHash exx_uh) = Ok (u, repeat 7 20, 30%Z).
Proof. exists (fun _ => Ok (exu_erc20 (mkuh 1 (repeat 3 32)))), (mkuh 1 (repeat 3 32)). split; [discriminate|]. vm_compute. reflexivity. Qed.
Print Assumptions C69_other_refuted.

(** ** C48, accepted answers: every answer which tells a history is read, as told and newest first. *)
Theorem C48_read : forall H ip_parse now resp u s xs ms erc20, hash_ok H -> address u -> uh_str H u = Ok s ->
  told_history H (fun j x => explorer_txn H ip_parse now j = Ok x) resp xs ms erc20 -> history_ok ms erc20 -> (forall x, In x xs -> (e_height x < MAXSIZE)%Z) ->
  exists r, unlockhash_get H ip_parse now s resp = Ok r /\ h_uh r = u /\ Permutation xs (h_txns r) /\ StronglySorted newer (h_txns r) /\ h_multisigs r = ms /\ h_erc20 r = erc20.
Proof.
  intros H ip now resp u s xs ms e HH Au Es T (Pm & Pe) B. exists (mkuhr u (sort_desc xs) ms e).
  assert (E : unlockhash_get H ip now s resp = Ok (mkuhr u (sort_desc xs) ms e)).
  { destruct T as [Th (l & Fl & Ml) (lm & Fm & Mm) Te]. unfold unlockhash_get. rewrite (hashtype_field _ _ Th). cbn [bind]. rewrite (field_get _ _ _ Fl). cbn [bind jelems].
    rewrite (mapM_F2 _ _ _ Ml). cbn [bind]. rewrite (list_field_of _ _ _ Fm). cbn [bind].
    assert (mapM (uh_from_json H) lm = Ok ms) as ->.
    { clear - HH Pm Mm. induction Mm as [|j v lm ms (t & -> & Et) Mm IH]; [reflexivity|]. inversion Pm as [|? ? (Av & _) Pm']; subst. cbn [mapM].
      destruct (address_json H v HH Av) as (t' & Et' & R). rewrite Et in Et'. apply ok_inj in Et'. subst t'. rewrite R. cbn [bind]. rewrite (IH Pm'). reflexivity. }
    cbn [bind]. assert (forallb (fun u0 => (uh_type u0 =? 3)%Z) ms = true) as -> by (apply forallb_forall; intros v I; rewrite Forall_forall in Pm; destruct (Pm v I) as (_ & ->); reflexivity).
    cbn [guard bind]. assert (erc20info H resp = Ok e) as ->.
    { destruct e as [((v, a), c)|]; [destruct Pe as (Av & La & Wa); exact (proj2 (told_erc20_read H resp v a c HH Av La Wa Te))|]. destruct Te as (l0 & -> & A). unfold erc20info, jin, jhas. rewrite A. reflexivity. }
    cbn [bind]. destruct (address_json H u HH Au) as (t' & Et' & R). rewrite Es in Et'. apply ok_inj in Et'. subst t'. rewrite R. reflexivity. }
  split; [exact E|]. cbn [h_uh h_txns h_multisigs h_erc20]. split; [reflexivity|]. split; [apply sort_perm|]. split; [|auto].
  destruct (C48_newest_first H ip now s resp _ E) as (es & xs' & _ & _ & P & So & _). cbn [h_txns] in P, So. apply So. intros x I. apply B.
  apply (Permutation_in _ (Permutation_sym (sort_perm xs))). exact (Permutation_in _ P I).
Qed.
Print Assumptions C48_read.
Example C48_ex_told : exists xs s, uh_str ex_H2 exx_uh = Ok s /\ length xs = 2%nat /\ (forall x, In x xs -> (e_height x < MAXSIZE)%Z) /\ history_ok [mkuh 3 (repeat 4 32)] None /\
  told_history ex_H2 (fun j x => explorer_txn ex_H2 ex_ip_parse 0 j = Ok x)
    (JObj [("hashtype"%string, JStr (s2b "unlockhash")); ("transactions"%string, JArr [exx_a1; exx_full]); ("multisigaddresses"%string, JArr [exu_text (mkuh 3 (repeat 4 32))])]) xs [mkuh 3 (repeat 4 32)] None.
Proof.
  destruct (explorer_txn ex_H2 ex_ip_parse 0 exx_a1) as [x1|] eqn:E1; [|vm_compute in E1; discriminate E1].
  destruct (explorer_txn ex_H2 ex_ip_parse 0 exx_full) as [x2|] eqn:E2; [|vm_compute in E2; discriminate E2].
  exists [x1; x2]. eexists. split; [vm_compute; reflexivity|]. split; [reflexivity|]. split.
  { intros x [<-|[<-|[]]]; [vm_compute in E1; apply ok_inj in E1; subst x1 | vm_compute in E2; apply ok_inj in E2; subst x2]; reflexivity. }
  split; [split; [|exact I]; constructor; [|constructor]; split; [|reflexivity]; split; [cbn; auto|]; split; [apply hash32_b; reflexivity | discriminate]|].
  split.
  - eexists. split; reflexivity.
  - eexists. split; [eexists; split; reflexivity|]. constructor; [exact E1|]. constructor; [exact E2|]. constructor.
  - eexists. split; [left; eexists; split; reflexivity|]. constructor; [|constructor]. eexists. split; [vm_compute; reflexivity|]. vm_compute. reflexivity.
  - eexists. split; reflexivity.
Qed.
