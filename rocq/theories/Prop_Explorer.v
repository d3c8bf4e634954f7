(** Theorems about what explorers answer: C45 (requests), C46 (transactions), C47 (outputs), C48 (histories), C49 (balances), and
    what C29 means for submitting. *)
From Coq Require Import Sorting.Sorted.
From Verif Require Import Base BaseFacts Encoders Currency Primitive Types Conditions Fulfillments ThreeBotTypes Txn TxnJson Wallet Explorer
  Spec_Types Spec_Wallet Spec_Explorer TypesFacts WalletFacts WalletFacts2 ExplorerFacts ExplorerFacts2 ExplorerFacts3 Prop_Fulfil Prop_Txn Prop_ThreeBot Prop_Json Prop_Wallet.
From Verif Require Spec_Txn FundFacts3 ExplorerFacts4.
From Coq Require Import ZifyBool ZifyNat ZifyN.
Ltac Zify.zify_post_hook ::= Z.div_mod_to_equations.

(** ** C45 *)
(** Every call is a search: explorers are contacted one after the other in the shuffled order, each at most once, the search
    goes on only past those that are silent, and the result is what the last one contacted says. *)
Theorem C45_get : forall addrs net order, texts addrs -> shuffled addrs order ->
  let x := explorer_get addrs net order in search get_says net order (fst x) (snd x) /\ NoDup (fst x).
Proof.
  intros addrs net order T P. destruct (shuffled_bound addrs order P) as (B & N). unfold explorer_get. cbv zeta.
  pose proof (try_search get_step get_says get_step_none get_step_some addrs net order T B) as Q. split; [exact Q|].
  destruct Q as [(-> & _)|(b & i & r & -> & -> & _)]; [exact N|].
  change (b ++ i :: r) with (b ++ [i] ++ r) in N. rewrite app_assoc in N. apply NoDup_app_iff in N. tauto.
Qed.
Print Assumptions C45_get.
Theorem C45_post : forall dumps addrs data b net order, texts addrs -> shuffled addrs order -> post_data dumps data = Ok b ->
  let x := explorer_post dumps addrs data net order in search post_says net order (fst x) (snd x) /\ NoDup (fst x).
Proof.
  intros dumps addrs data d net order T P D. destruct (shuffled_bound addrs order P) as (B & N). unfold explorer_post. rewrite D. cbn [bind]. cbv zeta.
  pose proof (try_search post_step post_says post_step_none post_step_some addrs net order T B) as Q. split; [exact Q|].
  destruct Q as [(-> & _)|(b & i & r & -> & -> & _)]; [exact N|].
  change (b ++ i :: r) with (b ++ [i] ++ r) in N. rewrite app_assoc in N. apply NoDup_app_iff in N. tauto.
Qed.
Print Assumptions C45_post.
(** An answer comes from an explorer that was contacted. *)
Theorem C45_answer : forall addrs net order line, texts addrs -> shuffled addrs order -> snd (explorer_get addrs net order) = Ok line ->
  exists i, In i (fst (explorer_get addrs net order)) /\ net i = Answered 200 line.
Proof.
  intros addrs net order line T P E. destruct (C45_get addrs net order T P) as ([(_ & _ & R)|(b & i & r & _ & -> & _ & _ & Q)] & _); [congruence|].
  rewrite E in Q. exists i. split; [apply in_or_app; right; left; reflexivity|]. inversion Q. reflexivity.
Qed.
Print Assumptions C45_answer.
(** Unavailability is reported exactly when every explorer is silent, whatever the order. *)
Theorem C45_unavailable : forall addrs net order, texts addrs -> shuffled addrs order -> (forall i, net i <> Raised ExplorerNotAvailable) ->
  (snd (explorer_get addrs net order) = Err ExplorerNotAvailable <-> forall i, (i < length addrs)%nat -> silent (net i)).
Proof.
  intros addrs net order T P NR.
  assert (I : forall i, In i order <-> (i < length addrs)%nat).
  { intro i. split; intro Q; [apply (Permutation_in _ P) in Q; apply in_seq in Q; lia | apply (Permutation_in _ (Permutation_sym P)), in_seq; lia]. }
  destruct (C45_get addrs net order T P) as ([(_ & F & R)|(b & i & r & E & _ & _ & Ns & Q)] & _).
  - split; [|intros _; exact R]. intros _ i L. apply I in L. exact (proj1 (Forall_forall _ _) F i L).
  - split.
    + intro D. rewrite D in Q. inversion Q; destruct (NR i); congruence.
    + intro A. destruct Ns. apply A. apply I. rewrite E. apply in_or_app. right. left. reflexivity.
Qed.
Print Assumptions C45_unavailable.
(** As long as every explorer is either silent or works, one that works is found in every order. *)
Theorem C45_working_partial : forall addrs net order, texts addrs -> shuffled addrs order ->
  (forall i, (i < length addrs)%nat -> silent (net i) \/ exists line, net i = Answered 200 line) ->
  (exists i, (i < length addrs)%nat /\ ~ silent (net i)) ->
  exists line, snd (explorer_get addrs net order) = Ok line.
Proof.
  intros addrs net order T P W (j & Lj & Nj).
  assert (I : forall i, In i order <-> (i < length addrs)%nat).
  { intro i. split; intro Q; [apply (Permutation_in _ P) in Q; apply in_seq in Q; lia | apply (Permutation_in _ (Permutation_sym P)), in_seq; lia]. }
  destruct (C45_get addrs net order T P) as ([(_ & F & _)|(b & i & r & E & _ & _ & Ns & Q)] & _).
  - destruct Nj. apply I in Lj. exact (proj1 (Forall_forall _ _) F j Lj).
  - destruct (W i) as [D|(line & D)]; [apply I; rewrite E; apply in_or_app; right; left; reflexivity|contradiction|].
    rewrite D in Q. inversion Q as [l El Er| | |code l N1 N2 N3| | |]; [eauto | congruence].
Qed.
Print Assumptions C45_working_partial.
(** In general it is not: an explorer in trouble (an error status, an address that cannot be used) hides the others. *)
Theorem C45_working_refuted : exists addrs line, texts addrs /\ forall trouble,
  trouble = Refused 500 [] \/ trouble = Answered 202 [] \/ trouble = Raised ValueError ->
  exists net order order', shuffled addrs order /\ shuffled addrs order' /\ net 0%nat = trouble /\ net 1%nat = Answered 200 line /\
  is_ok (snd (explorer_get addrs net order)) = false /\ fst (explorer_get addrs net order) = [0%nat] /\
  snd (explorer_get addrs net order') = Ok line.
Proof.
  exists [Some (s2b "https://a"); Some (s2b "https://b")], (s2b "{}"). split; [repeat constructor; discriminate|]. intros tr D.
  exists (fun i => match i with O => tr | _ => Answered 200 (s2b "{}") end), [0%nat; 1%nat], [1%nat; 0%nat].
  split; [apply Permutation_refl|]. split; [apply perm_swap|]. repeat split; destruct D as [-> |[-> | ->]]; reflexivity.
Qed.
Print Assumptions C45_working_refuted.
(** An address which is not a text, likewise; it is not noticed when the client is made. *)
Theorem C45_address_refuted : exists addrs net order line, client_new (Some addrs) = Ok addrs /\ shuffled addrs order /\
  net 1%nat = Answered 200 line /\ explorer_get addrs net order = ([], Err TypeError).
Proof.
  exists [None; Some (s2b "https://b")], (fun _ => Answered 200 []), [0%nat; 1%nat], []. repeat split. apply Permutation_refl.
Qed.
Print Assumptions C45_address_refuted.
Theorem C45_constructor : forall l, (exists x, client_new l = Ok x) <-> exists a r, l = Some (a :: r).
Proof.
  intro l. split; [|intros (a & r & ->); eexists; reflexivity]. intros (x & E). destruct l as [[|a r]|]; try discriminate. eauto.
Qed.
Print Assumptions C45_constructor.
Example C45_ex : let addrs := [Some (s2b "https://a"); Some (s2b "https://b"); Some (s2b "https://c")] in
  let net i := match i with 0%nat => Unreachable | 1%nat => Answered 200 (s2b "{}") | _ => Refused 0 [] end in
  texts addrs /\ shuffled addrs [2; 0; 1]%nat /\ explorer_get addrs net [2; 0; 1]%nat = ([2; 0; 1]%nat, Ok (s2b "{}")) /\
  explorer_get addrs net [1; 0; 2]%nat = ([1]%nat, Ok (s2b "{}")).
Proof.
  cbv zeta. split; [repeat constructor; discriminate|]. split; [|split; reflexivity].
  apply Permutation_sym.
  change (Permutation [0; 1; 2]%nat [2; 0; 1]%nat). apply (Permutation_cons_app [2]%nat [1]%nat 0%nat). apply perm_swap.
Qed.

(** C29, in effect: a transaction object is never submitted: nobody is contacted and a TypeError is raised. *)
Theorem C29_never_posted : forall H ip_str dumps addrs net order t j, texts addrs -> shuffled addrs order -> addrs <> [] ->
  txn_json H ip_str t = Ok j -> explorer_post dumps addrs (PDict j) net order = ([], Err TypeError).
Proof.
  intros H is_ dumps addrs net order t j T P NE E. unfold explorer_post. cbn [post_data]. rewrite (C29_refuted H is_ t j E). cbn [bind].
  destruct (shuffled_bound addrs order P) as (B & _). destruct order as [|i order].
  - apply Permutation_length in P. rewrite seq_length in P. destruct addrs; [contradiction | discriminate].
  - inversion B as [|? ? Bi B' ]; subst. cbn [try_all]. destruct (nth_error addrs i) as [a|] eqn:N; [|apply nth_error_None in N; lia].
    assert (A : a <> None) by (exact (proj1 (Forall_forall _ _) T a (nth_error_In _ _ N))). destruct a; [reflexivity | contradiction].
Qed.
Print Assumptions C29_never_posted.

(** ** C46 *)
(** Whatever is read from an explorer: the transaction is the one the raw JSON stands for; its inputs have been told the outputs they
    spend, its outputs their ids, each from its position in the answer, and all the numbers agree.  Outputs of an ERC20
    conversion to TFT (version 209) stay without id. *)
Theorem C46_attached : forall H ip_parse now e x, explorer_txn H ip_parse now e = Ok x ->
  exists raw id t ido cps cids bps bids,
    jget "rawtransaction" e = Ok raw /\ jget "id" e = Ok id /\ txn_parse H ip_parse now raw (jbval id) = Ok (t, ido) /\
    (ido = None \/ ido = Some (e_id x)) /\
    listed "coininputoutputs" e cps /\ with_parents (cout_from_json H now) (inputs_of t) cps (inputs_of (e_txn x)) /\
    listed "coinoutputids" e cids /\ length cids = length (coin_outputs t) /\
    ((forall g, t <> T209 g) -> with_ids (coin_outputs t) cids (coin_outputs (e_txn x))) /\
    listed "blockstakeinputoutputs" e bps /\ with_parents (bout_from_json H now) (blockstake_inputs t) bps (blockstake_inputs (e_txn x)) /\
    listed "blockstakeoutputids" e bids /\ with_ids (blockstake_outputs t) bids (blockstake_outputs (e_txn x)).
Proof.
  intros H ip now e x E. apply explorer_txn_inv in E as (raw & id & t & ido & ins & cps & cpos & cids & chs & bps & bpos & bids & bhs & E1 & E2 & E3 & Eins & Lc & L1 & M1 & Li & L2 & M2 & Lb & L3 & M3 & Lj & L4 & M4 & Et & Eid & _).
  exists raw, id, t, ido, cps, cids, bps, bids. split; [exact E1|]. split; [exact E2|]. split; [exact E3|].
  split; [destruct ido; [right; rewrite Eid; reflexivity | left; reflexivity]|].
  destruct (put_cin_outs t (set_parents ins cpos)) as (O1 & O2 & O3).
  destruct (coin_ids_same (put_cin t (set_parents ins cpos)) chs) as (P1 & P2 & P3).
  remember (put_bin (set_coin_ids (put_cin t (set_parents ins cpos)) chs) (set_parents (blockstake_inputs t) bpos)) as tp eqn:Etp.
  destruct (put_bin_same (set_coin_ids (put_cin t (set_parents ins cpos)) chs) (set_parents (blockstake_inputs t) bpos)) as (Q1 & Q2 & Q3). rewrite <- Etp in Q1, Q2, Q3.
  destruct (stake_ids_same tp bhs) as (R1 & R2 & R3).
  split; [exact (jlist_of_listed _ _ _ Lc)|]. split.
  { unfold inputs_of at 2. rewrite Et, R1, Q2, P1, (put_cin_ins t _ ins Eins (set_parents_length _ _)). unfold inputs_of. rewrite Eins. exact (parents_ok _ _ _ _ M1 L1). }
  split; [exact (jlist_of_listed _ _ _ Li)|]. split; [exact L2|]. split.
  { intro G. rewrite Et, R3, Q1, coin_ids_outs; [rewrite O1; exact (ids_ok _ _ _ M2 L2)| |rewrite O1, (mapM_ok_length _ _ M2); exact L2].
    intros g D. destruct t; try discriminate D. apply (G _ eq_refl). }
  split; [exact (jlist_of_listed _ _ _ Lb)|]. split.
  { rewrite Et, R2, Etp, put_bin_ins; [exact (parents_ok _ _ _ _ M3 L3) | rewrite P2, O2; apply set_parents_length]. }
  split; [exact (jlist_of_listed _ _ _ Lj)|].
  rewrite Et, stake_ids_outs; [|rewrite Q3, P3, O3, (mapM_ok_length _ _ M4); exact L4]. rewrite Q3, P3, O3. exact (ids_ok _ _ _ M4 L4).
Qed.
Print Assumptions C46_attached.
(** Nothing the chain sees of the transaction changes by that: version, content, fulfilments. *)
Theorem C46_unchanged : forall H ip_parse now e x raw id t ido, explorer_txn H ip_parse now e = Ok x ->
  jget "rawtransaction" e = Ok raw -> jget "id" e = Ok id -> txn_parse H ip_parse now raw (jbval id) = Ok (t, ido) ->
  version (e_txn x) = version t /\ Spec_Txn.content_of (e_txn x) = Spec_Txn.content_of t /\ Spec_Txn.witnesses (e_txn x) = Spec_Txn.witnesses t.
Proof. intros H ip now e x raw id t ido. apply ExplorerFacts4.explorer_seen. Qed.
Print Assumptions C46_unchanged.
(** Answers in which some number does not agree are refused: an otherwise readable answer raises ExplorerInvalidResponse. *)
Theorem C46_mismatch : forall H ip_parse now e raw id t ido ins cps cids bps bids,
  jget "rawtransaction" e = Ok raw -> jget "id" e = Ok id -> txn_parse H ip_parse now raw (jbval id) = Ok (t, ido) -> coin_inputs t = Ok ins ->
  listed "coininputoutputs" e cps -> listed "coinoutputids" e cids -> listed "blockstakeinputoutputs" e bps -> listed "blockstakeoutputids" e bids ->
  Forall (fun j => is_ok (cout_from_json H now j) = true) cps -> Forall (fun j => is_ok (hash_from_json j) = true) (cids ++ bids) ->
  Forall (fun j => is_ok (bout_from_json H now j) = true) bps ->
  length cps <> length ins \/ length cids <> length (coin_outputs t) \/ length bps <> length (blockstake_inputs t) \/
    length bids <> length (blockstake_outputs t) ->
  explorer_txn H ip_parse now e = Err ExplorerInvalidResponse.
Proof.
  intros H ip now e raw id t ido ins cps cids bps bids E1 E2 E3 E4 L1 L2 L3 L4 F1 F2 F3 D.
  apply listed_jlist_of in L1, L2, L3, L4. unfold explorer_txn. rewrite E1. cbn [bind]. rewrite E2. cbn [bind]. rewrite E3. cbn [bind fst snd].
  rewrite L1. cbn [bind]. rewrite E4. cbn [bind]. unfold same_length at 1.
  destruct (length ins =? length cps)%nat eqn:N1; [|reflexivity]. apply Nat.eqb_eq in N1. cbn [guard bind].
  apply Forall_app in F2 as (F2 & F4).
  destruct (FundFacts3.mapM_total _ _ F1) as (pos & ->). cbn [bind]. rewrite L2. cbn [bind].
  destruct (put_cin_outs t (set_parents ins pos)) as (O1 & O2 & O3). rewrite O1.
  unfold same_length at 1. destruct (length (coin_outputs t) =? length cids)%nat eqn:N2; [|reflexivity]. apply Nat.eqb_eq in N2. cbn [guard bind].
  destruct (FundFacts3.mapM_total _ _ F2) as (chs & ->). cbn [bind]. rewrite L3. cbn [bind].
  destruct (coin_ids_same (put_cin t (set_parents ins pos)) chs) as (P1 & P2 & P3). rewrite P2, O2.
  unfold same_length at 1. destruct (length (blockstake_inputs t) =? length bps)%nat eqn:N3; [|reflexivity]. apply Nat.eqb_eq in N3. cbn [guard bind].
  destruct (FundFacts3.mapM_total _ _ F3) as (bpos & ->). cbn [bind]. rewrite L4. cbn [bind].
  destruct (put_bin_same (set_coin_ids (put_cin t (set_parents ins pos)) chs) (set_parents (blockstake_inputs t) bpos)) as (Q1 & Q2 & Q3).
  rewrite Q3, P3, O3. unfold same_length at 1. destruct (length (blockstake_outputs t) =? length bids)%nat eqn:N4; [|reflexivity]. apply Nat.eqb_eq in N4.
  destruct D as [D|[D|[D|D]]]; congruence.
Qed.
Print Assumptions C46_mismatch.

(** *** Example answers: a payment, two conversions from ERC20, a spend *)
(** the JSON an explorer has of a transaction: the version as a number *)
Definition exx_raw (t : txn) : json :=
  match txn_json ex_H2 ex_ip_str t with Ok (JObj (_ :: l)) => JObj (("version"%string, JNum (version t)) :: l) | _ => JNull end.
Definition exx_hash (x : N) : json := JStr (hash_str (repeat x 32)).
Definition exx_out (o : output) : json := match out_json ex_H2 o with Ok j => j | Err _ => JNull end.
Definition exx_answer (t : txn) (id : N) (parents stakes : list output) (ids sids : list N) (h : Z) (unconfirmed : bool) : json :=
  JObj [("id"%string, exx_hash id); ("height"%string, JNum h); ("rawtransaction"%string, exx_raw t);
        ("coininputoutputs"%string, match parents with [] => JNull | _ => JArr (map exx_out parents) end);
        ("coinoutputids"%string, JArr (map exx_hash ids));
        ("blockstakeinputoutputs"%string, JArr (map (fun o => JObj [("value"%string, JStr (s2b "3")); ("condition"%string, match exx_out o with JObj [_; (_, c)] => c | _ => JNull end)]) stakes));
        ("blockstakeoutputids"%string, JArr (map exx_hash sids)); ("unconfirmed"%string, JBool unconfirmed)].
Definition exx_uh : uh := mkuh 1 (repeat 2 32).
Definition exx_pay (v : N) : output := mkout v (CUnlockHash exx_uh) [].
Definition exx_std (i : N) (os : list output) : txn := T1 (mkstd false [mkin (repeat i 32) (FSingle (ex_key 7) (Some (repeat 1 64))) None] os [] [] [100] []).
Definition exx_gen (v x : N) : txn := T209 (mkgen exx_uh v (Some 1) (repeat 8 32) (repeat x 32)).
(** a payment of 10 and 20 to the address (ids 21 and 22), its later spend of the first *)
Definition exx_a1 : json := exx_answer (exx_std 5 [exx_pay 10; exx_pay 20]) 31 [exx_pay 31] [] [21; 22] [] 7 false.
Definition exx_a2 : json := exx_answer (exx_std 21 [mkout 9 (CUnlockHash (mkuh 1 (repeat 3 32))) []]) 32 [exx_pay 10] [] [23] [] 9 false.
Definition exx_g1 : json := exx_answer (exx_gen 10 41) 33 [] [] [24] [] 8 false.
Definition exx_g2 : json := exx_answer (exx_gen 20 42) 34 [] [] [25] [] 8 false.
Definition exx_full : json := exx_answer ex_std 35 [exx_pay 50] [exx_pay 3] [26; 27] [28] 11 true.
Definition exx_txn (e : json) : res etx := explorer_txn ex_H2 ex_ip_parse 0 e.
Example C46_ex : forallb (fun e => is_ok (exx_txn e)) [exx_a1; exx_a2; exx_g1; exx_g2; exx_full] = true /\
  match exx_txn exx_full with
  | Ok x => map o_id (coin_outputs (e_txn x)) = [repeat 26 32; repeat 27 32] /\ map o_id (blockstake_outputs (e_txn x)) = [repeat 28 32] /\
            spent_by (e_txn x) = [mkout 50 (CUnlockHash exx_uh) (repeat 3 32)] /\ e_unconfirmed x = true
  | Err _ => False
  end /\
  exx_txn (exx_answer ex_std 35 [exx_pay 50] [exx_pay 3] [26] [28] 11 true) = Err ExplorerInvalidResponse.
Proof. vm_compute. auto 10. Qed.
(** The outputs of a conversion from ERC20 are not told their ids. *)
Theorem C46_conversion_refuted : forall H ip_parse now e x g, explorer_txn H ip_parse now e = Ok x -> e_txn x = T209 g ->
  exists o, coin_outputs (e_txn x) = [o] /\ o_id o = [].
Proof. intros H ip now e x g E T. rewrite T. eexists. split; reflexivity. Qed.
Print Assumptions C46_conversion_refuted.
Example C46_ex_conversion : exists x g, exx_txn exx_g1 = Ok x /\ e_txn x = T209 g /\ jget "coinoutputids" exx_g1 = Ok (JArr [exx_hash 24]).
Proof. do 2 eexists. split; [vm_compute; reflexivity|]. split; reflexivity. Qed.

(** ** C47 *)
(** What a lookup returns: an output with the id asked for, the first such of the transaction returned as its creation, which is
    one of the transactions of the answer; the spend is the other one. *)
Theorem C47_found : forall H ip_parse now k id resp o c s, hash32 id -> id <> zeros 32 ->
  output_get H ip_parse now k (hash_str id) resp = Ok (o, c, s) ->
  o_id o = id /\ (exists a b, outputs_of k (e_txn c) = a ++ o :: b /\ Forall (fun y => o_id y <> id) a) /\
  exists l, jget "transactions" resp = Ok (JArr l) /\
  ((exists cj, l = [cj] /\ explorer_txn H ip_parse now cj = Ok c /\ s = None) \/
   (exists cj sj y, (l = [cj; sj] \/ l = [sj; cj]) /\ explorer_txn H ip_parse now cj = Ok c /\ explorer_txn H ip_parse now sj = Ok y /\ s = Some y)).
Proof.
  intros H ip now k id resp o c s Hid NZ E. apply output_get_inv in E as (l & El & Ho & (a & b & Eo & Fa) & D). split; [|split].
  - assert (I : exists e, explorer_txn H ip now e = Ok c).
    { destruct D as [(cj & _ & Ec & _)|(cj & sj & y & _ & Ec & _)]; eauto. }
    destruct I as (e & Ee). assert (Io : In o (outputs_of k (e_txn c))) by (rewrite Eo; apply in_or_app; right; left; reflexivity).
    assert (F : o_id o = [] \/ hash32 (o_id o)).
    { destruct (explorer_ids H ip now e c o k Ee Io) as [N|(j & Ej)]; [left; exact N | exact (hash_from_json_sound j _ Ej)]. }
    rewrite (hash_str_full id Hid) in Ho. destruct F as [N|F].
    + rewrite N in Ho. exfalso. apply NZ. apply hex_inj; [apply Hid | repeat constructor|]. rewrite <- Ho. reflexivity.
    + rewrite (hash_str_full _ F) in Ho. apply hex_inj in Ho; [exact Ho | apply F | apply Hid].
  - exists a, b. split; [exact Eo|]. eapply Forall_impl; [|exact Fa]. intros y Q D'. apply Q. rewrite D'. reflexivity.
  - exists l. auto.
Qed.
Print Assumptions C47_found.
(** So with an honest answer, in which only one of two transactions creates the output, no wrong roles are ever reported. *)
Theorem C47_roles : forall H ip_parse now k id resp a b x y o c s, hash32 id -> id <> zeros 32 ->
  jget "transactions" resp = Ok (JArr [a; b]) \/ jget "transactions" resp = Ok (JArr [b; a]) ->
  explorer_txn H ip_parse now a = Ok x -> explorer_txn H ip_parse now b = Ok y ->
  (forall q, In q (outputs_of k (e_txn y)) -> o_id q <> id) ->
  output_get H ip_parse now k (hash_str id) resp = Ok (o, c, s) -> c = x /\ s = Some y.
Proof.
  intros H ip now k id resp a b x y o c s Hid NZ L Ea Eb Nb E.
  apply (C47_found H ip now k id resp o c s Hid NZ) in E as (Ho & (p & q & Eo & _) & l & El & D).
  assert (Io : In o (outputs_of k (e_txn c))) by (rewrite Eo; apply in_or_app; right; left; reflexivity).
  destruct D as [(cj & -> & _)|(cj & sj & z & Ls & Ec & Es & ->)].
  - destruct L as [L|L]; rewrite El in L; discriminate.
  - destruct L as [L|L]; rewrite El in L; apply ok_inj in L; injection L as L; destruct Ls as [Ls|Ls]; rewrite Ls in L; injection L as -> ->;
    rewrite Ea in *; rewrite Eb in *; repeat match goal with X : Ok _ = Ok _ |- _ => apply ok_inj in X end;
    first [split; congruence | exfalso; apply (Nb o); [congruence | exact Ho]].
Qed.
Print Assumptions C47_roles.
(** And an output of which the answer tells is found: unspent, when the answer has its creation only; with creation and spend in their roles when the
    answer has both, in whatever order, the spend at a greater height. *)
Definition output_hashtype (k : okind) : json := JStr (s2b (match k with KCoin => "coinoutputid" | KStake => "blockstakeoutputid" end)).
Theorem C47_finds : forall H ip_parse now k id resp a x o, hash32 id -> id <> zeros 32 -> jget "hashtype" resp = Ok (output_hashtype k) ->
  explorer_txn H ip_parse now a = Ok x -> In o (outputs_of k (e_txn x)) -> o_id o = id ->
  (jget "transactions" resp = Ok (JArr [a]) -> exists o', output_get H ip_parse now k (hash_str id) resp = Ok (o', x, None) /\ o_id o' = id) /\
  (forall b y ha hb, jget "transactions" resp = Ok (JArr [a; b]) \/ jget "transactions" resp = Ok (JArr [b; a]) -> explorer_txn H ip_parse now b = Ok y ->
    jget "height" a = Ok (JNum ha) -> jget "height" b = Ok (JNum hb) -> (ha < hb)%Z ->
    exists o', output_get H ip_parse now k (hash_str id) resp = Ok (o', x, Some y) /\ o_id o' = id).
Proof.
  intros H ip now k id resp a x o Hid NZ Ty Ea Io Eo.
  assert (Hk : hashtype_is (kind_text k) resp = Ok tt). { unfold hashtype_is. rewrite Ty. destruct k; reflexivity. }
  assert (Fi : exists o', find (fun o => listN_eqb (hash_str (o_id o)) (hash_str id)) (outputs_of k (e_txn x)) = Some o').
  { destruct (find _ _) as [o'|] eqn:F; [eauto|]. exfalso. pose proof (find_none _ _ F o Io) as Q. cbn beta in Q. rewrite Eo, listN_eqb_refl in Q. discriminate Q. }
  destruct Fi as (o' & Fi).
  assert (R : forall s, output_get H ip now k (hash_str id) resp = Ok (o', x, s) -> exists o', output_get H ip now k (hash_str id) resp = Ok (o', x, s) /\ o_id o' = id).
  { intros s E. exists o'. split; [exact E|]. now apply (C47_found H ip now k id resp o' x s Hid NZ) in E as (E & _). }
  split.
  - intro L. apply R. unfold output_get. rewrite Hk, L. cbn [bind fst snd]. rewrite Ea. cbn [bind]. rewrite Fi. reflexivity.
  - intros b y ha hb [L|L] Eb Ha Hb Lt; apply R; unfold output_get; rewrite Hk, L; cbn [bind]; rewrite Ha, Hb; cbn [bind jgt jnum];
      [assert ((ha <? hb)%Z = true) as -> by lia | assert ((hb <? ha)%Z = false) as -> by lia]; cbn [bind fst snd]; rewrite Ea; cbn [bind]; rewrite Eb; cbn [bind]; rewrite Fi; reflexivity.
Qed.
Print Assumptions C47_finds.
(** For two transactions with different heights the order of the answer does not matter. *)
Definition exx_resp (kind : string) (l : list json) : json := JObj [("hashtype"%string, JStr (s2b kind)); ("transactions"%string, JArr l)].
Theorem C47_order_partial : forall H ip_parse now k id a b ha hb, jget "height" a = Ok (JNum ha) -> jget "height" b = Ok (JNum hb) -> ha <> hb ->
  forall kind, output_get H ip_parse now k id (exx_resp kind [a; b]) = output_get H ip_parse now k id (exx_resp kind [b; a]).
Proof.
  intros H ip now k id a b ha hb Ea Eb N kind. unfold output_get, exx_resp. cbn [jget jfind String.eqb Ascii.eqb Bool.eqb bind]. rewrite Ea, Eb. cbn [bind jgt jnum].
  destruct (hashtype_is _ _); [|reflexivity]. cbn [bind].
  destruct (ha <? hb)%Z eqn:A, (hb <? ha)%Z eqn:B; try reflexivity; lia.
Qed.
Print Assumptions C47_order_partial.
Definition exx_lookup (id : N) (l : list json) := output_get ex_H2 ex_ip_parse 0 KCoin (hash_str (repeat id 32)) (exx_resp "coinoutputid" l).
Example C47_ex : match exx_txn exx_a1, exx_txn exx_a2 with
  | Ok x, Ok y => exx_lookup 21 [exx_a1; exx_a2] = Ok (mkout 10 (CUnlockHash exx_uh) (repeat 21 32), x, Some y) /\
                  exx_lookup 21 [exx_a2; exx_a1] = exx_lookup 21 [exx_a1; exx_a2] /\
                  exx_lookup 22 [exx_a1] = Ok (mkout 20 (CUnlockHash exx_uh) (repeat 22 32), x, None)
  | _, _ => False
  end.
Proof. vm_compute. auto. Qed.
(** With equal heights (created and spent in one block) it depends on the order whether the output is found. *)
Theorem C47_same_block_refuted : exists a b, jget "height" a = Ok (JNum 7) /\ jget "height" b = Ok (JNum 7) /\
  is_ok (exx_lookup 21 [b; a]) = true /\ exx_lookup 21 [a; b] = Err ExplorerInvalidResponse.
Proof.
  exists exx_a1, (exx_answer (exx_std 21 [mkout 9 (CUnlockHash (mkuh 1 (repeat 3 32))) []]) 32 [exx_pay 10] [] [23] [] 7 false).
  vm_compute. auto.
Qed.
Print Assumptions C47_same_block_refuted.
(** An unconfirmed spend, which an explorer reports at height 0, makes the lookup fail in both orders. *)
Theorem C47_unconfirmed_spend_refuted : exists a b x y, exx_txn a = Ok x /\ exx_txn b = Ok y /\ e_unconfirmed y = true /\
  In (repeat 21 32) (map o_id (coin_outputs (e_txn x))) /\ map o_id (spent_by (e_txn y)) = [repeat 21 32] /\
  exx_lookup 21 [a; b] = Err ExplorerInvalidResponse /\ exx_lookup 21 [b; a] = Err ExplorerInvalidResponse.
Proof.
  exists exx_a1, (exx_answer (exx_std 21 [mkout 9 (CUnlockHash (mkuh 1 (repeat 3 32))) []]) 32 [exx_pay 10] [] [23] [] 0 true).
  do 2 eexists. split; [vm_compute; reflexivity|]. split; [vm_compute; reflexivity|]. vm_compute. auto 10.
Qed.
Print Assumptions C47_unconfirmed_spend_refuted.
(** Nothing checks that the transaction reported as the spend spends the output. *)
Theorem C47_spend_unchecked_refuted : exists a b o c y, exx_lookup 22 [a; b] = Ok (o, c, Some y) /\ ~ In (o_id o) (map o_id (spent_by (e_txn y))).
Proof.
  exists exx_a1, exx_a2. do 3 eexists. split; [vm_compute; reflexivity|]. vm_compute. intros [D|[]]. discriminate D.
Qed.
Print Assumptions C47_spend_unchecked_refuted.
(** No output created by a conversion from ERC20 can be looked up. *)
Theorem C47_conversion_refuted : forall H ip_parse now id resp a x g, hash32 id -> id <> zeros 32 ->
  jget "transactions" resp = Ok (JArr [a]) -> explorer_txn H ip_parse now a = Ok x -> e_txn x = T209 g ->
  forall r, output_get H ip_parse now KCoin (hash_str id) resp <> Ok r.
Proof.
  intros H ip now id resp a x g Hid NZ L Ea T [[o c] s] E.
  apply (C47_found H ip now KCoin id resp o c s Hid NZ) in E as (Ho & (p & q & Eo & _) & l & El & D). rewrite L in El. apply ok_inj in El. injection El as <-.
  destruct D as [(cj & Q & Ec & _)|(cj & sj & y & [Q|Q] & _)]; try discriminate Q. injection Q as ->. rewrite Ea in Ec. apply ok_inj in Ec. subst c.
  rewrite T in Eo. cbn [outputs_of coin_outputs] in Eo. destruct p as [|p [|]]; try discriminate Eo. injection Eo as <- _. cbn [o_id] in Ho. subst id. destruct Hid as [Hl _]. discriminate Hl.
Qed.
Print Assumptions C47_conversion_refuted.
Example C47_ex_conversion : exx_lookup 24 [exx_g1] = Err ExplorerInvalidResponse.
Proof. vm_compute. reflexivity. Qed.

(** ** C48 *)
Theorem C48_newest_first : forall H ip_parse now a resp r, unlockhash_get H ip_parse now a resp = Ok r ->
  exists es xs, (exists ts, jget "transactions" resp = Ok ts /\ jelems ts = Ok es) /\
    Forall2 (fun e x => explorer_txn H ip_parse now e = Ok x) es xs /\ Permutation xs (h_txns r) /\
    ((forall x, In x xs -> (e_height x < MAXSIZE)%Z) -> StronglySorted newer (h_txns r)) /\
    (forall u h, filter (fun x => Bool.eqb (e_unconfirmed x) u && (e_height x =? h)%Z) (h_txns r) =
                 filter (fun x => Bool.eqb (e_unconfirmed x) u && (e_height x =? h)%Z) xs).
Proof.
  intros H ip now a resp r E. unfold unlockhash_get in E. apply key_error_ok in E. apply bind_ok in E as (u0 & _ & E).
  apply bind_ok in E as (ts & Ets & E). apply bind_ok in E as (es & Ees & E). apply bind_ok in E as (xs & Exs & E). apply bind_ok in E as (ms & Ems & E).
  apply bind_ok in E as (u1 & _ & E). apply bind_ok in E as (i & Ei & E). apply bind_ok in E as (u & Eu & E). apply ok_inj in E. subst r. cbn [h_txns].
  exists es, xs. split; [eauto|]. apply mapM_Forall2_iff in Exs. split; [exact Exs|]. split; [apply sort_perm|].
  assert (ST : forall x, In x xs -> (e_unconfirmed x = true /\ e_height x = (-1)%Z) \/ (e_unconfirmed x = false /\ (0 <= e_height x)%Z)).
  { clear - Exs. intros x I. induction Exs as [|e y es ys Q F IH]; [destruct I|]. destruct I as [->|I]; [exact (explorer_txn_state H ip now e x Q) | auto]. }
  assert (IN : forall x, In x (sort_desc xs) -> In x xs) by (intros x I; exact (Permutation_in _ (Permutation_sym (sort_perm xs)) I)).
  split.
  - intro B. apply (StronglySorted_impl_in key_ge); [|apply sort_sorted]. intros x y Ix Iy K. apply IN in Ix, Iy. unfold key_ge, sort_key in K.
    destruct (ST x Ix) as [(Ux & _)|(Ux & Px)]; [left; exact Ux|]. right. specialize (B x Ix).
    destruct (ST y Iy) as [(Uy & Py)|(Uy & Py)]; [exfalso|].
    + rewrite Py in K. change (-1 <? 0)%Z with true in K. cbv iota in K. destruct (e_height x <? 0)%Z eqn:Q; lia.
    + exists (e_height x), (e_height y). split; [split; auto|]. split; [split; auto|]. destruct (e_height y <? 0)%Z eqn:Q, (e_height x <? 0)%Z eqn:Q'; lia.
  - intros b h.
    assert (F : forall l, (forall x, In x l -> In x xs) -> (h < 0 \/ h < MAXSIZE)%Z -> filter (fun x => Bool.eqb (e_unconfirmed x) b && (e_height x =? h)%Z) l =
      filter (fun x => Bool.eqb (e_unconfirmed x) b && (e_height x =? h)%Z) (with_key (if (h <? 0)%Z then MAXSIZE else h) l)).
    { intros l Il Hh. unfold with_key. induction l as [|x l IH]; [reflexivity|]. cbn [filter].
      specialize (IH (fun y Iy => Il y (or_intror Iy))). pose proof (ST x (Il x (or_introl eq_refl))) as Sx. unfold sort_key at 1.
      destruct (Bool.eqb (e_unconfirmed x) b && (e_height x =? h)%Z) eqn:Q.
      - assert (Q2 : e_height x = h) by (apply andb_true_iff in Q as (_ & Q2); apply Z.eqb_eq; exact Q2).
        match goal with |- context [filter _ (if ?c then _ else _)] => assert (QC : c = true) end; [|rewrite QC; cbn [filter]; rewrite Q; f_equal; exact IH].
        apply Z.eqb_eq. rewrite Q2. reflexivity.
      - match goal with |- context [filter _ (if ?c then _ else _)] => destruct c end; [cbn [filter]; rewrite Q|]; exact IH. }
    assert (G : forall l, (forall x, In x l -> In x xs) -> (0 <= h)%Z -> filter (fun x => Bool.eqb (e_unconfirmed x) b && (e_height x =? h)%Z) l =
      filter (fun x => Bool.eqb (e_unconfirmed x) b && (e_height x =? h)%Z) (with_key h l)).
    { intros l Il Hh. unfold with_key. induction l as [|x l IH]; [reflexivity|]. cbn [filter].
      specialize (IH (fun y Iy => Il y (or_intror Iy))). pose proof (ST x (Il x (or_introl eq_refl))) as Sx. unfold sort_key at 1.
      destruct (Bool.eqb (e_unconfirmed x) b && (e_height x =? h)%Z) eqn:Q.
      - assert (Q2 : e_height x = h) by (apply andb_true_iff in Q as (_ & Q2); apply Z.eqb_eq; exact Q2).
        match goal with |- context [filter _ (if ?c then _ else _)] => assert (QC : c = true) end; [|rewrite QC; cbn [filter]; rewrite Q; f_equal; exact IH].
        apply Z.eqb_eq. rewrite Q2. destruct (Z.ltb_spec h 0); lia.
      - match goal with |- context [filter _ (if ?c then _ else _)] => destruct c end; [cbn [filter]; rewrite Q|]; exact IH. }
    destruct (Z.ltb_spec h 0).
    + rewrite (F (sort_desc xs) IN), (F xs (fun x I => I)) by lia. rewrite sort_stable. reflexivity.
    + rewrite (G (sort_desc xs) IN), (G xs (fun x I => I)) by lia. rewrite sort_stable. reflexivity.
Qed.
Print Assumptions C48_newest_first.
(** Only a height beyond every real one would come before unconfirmed transactions. *)
Definition exx_address (l : list json) : res uhresult :=
  unlockhash_get ex_H2 ex_ip_parse 0 (match uh_str ex_H2 exx_uh with Ok s => s | Err _ => [] end)
    (JObj [("hashtype"%string, JStr (s2b "unlockhash")); ("transactions"%string, JArr l)]).
Example C48_ex : match exx_address [exx_a1; exx_full; exx_a2; exx_g1; exx_g2] with
  | Ok r => map e_height (h_txns r) = [-1; 9; 8; 8; 7]%Z /\ map e_id (h_txns r) = map (fun x => repeat x 32) [35; 32; 33; 34; 31] /\
            forallb (fun x => (e_height x <? MAXSIZE)%Z) (h_txns r) = true
  | Err _ => False
  end.
Proof. vm_compute. auto. Qed.
Theorem C48_outside_domain : exists a b r, exx_address [a; b] = Ok r /\ map e_unconfirmed (h_txns r) = [false; true].
Proof.
  exists (exx_answer (exx_std 5 [exx_pay 10; exx_pay 20]) 31 [exx_pay 31] [] [21; 22] [] (MAXSIZE + 1) false), exx_full.
  eexists. split; vm_compute; reflexivity.
Qed.
Print Assumptions C48_outside_domain.

(** ** C49 *)
(** The balance of a history listed newest first (as C48 gives it) reports an output
    - as confirmed exactly when a confirmed transaction of the history creates it paying to the address and none spends it,
    - as unconfirmed exactly when only unconfirmed ones create it and none spends it,
    - as spent exactly when a confirmed transaction spends it, as unconfirmed spent when only unconfirmed ones do.
    For multi-signature addresses as long as the history has no mint definition. *)
Theorem C49_balance_partial : forall H r info address m b id, uh_str H (h_uh r) = Ok address -> StronglySorted newer (h_txns r) ->
  Forall (fun x => no_definition (e_txn x)) (h_txns r) \/ uh_type (h_uh r) <> 3%Z -> result_balance H r info = Ok (m, b) ->
  let created u := exists x, In x (h_txns r) /\ e_unconfirmed x = u /\ creates H address x id in
  let spent u := exists x, In x (h_txns r) /\ e_unconfirmed x = u /\ uses H address x id in
  (has (w_outs b) id <-> created false /\ ~ spent false /\ ~ spent true) /\
  (has (w_unc b) id <-> created true /\ ~ created false /\ ~ spent false /\ ~ spent true) /\
  (has (w_spent b) id <-> spent false) /\
  (has (w_uncspent b) id <-> spent true /\ ~ spent false).
Proof.
  intros H r info address m b id A Q D E. cbv zeta. pose proof (result_balance_core H r info m b address A D E) as C.
  pose proof (C30_classification (history H address (h_txns r)) id) as K. cbv zeta in K. rewrite <- C in K. unfold core in K. cbn [w_outs w_unc w_spent w_uncspent] in K.
  unfold seen_spent in K. rewrite (last_created_iff H address _ id Q), !seen_created, !seen_used in K. cbn [negb] in K. tauto.
Qed.
Print Assumptions C49_balance_partial.
(** When ids tell outputs apart, the confirmed part is the list of the outputs created and not spent, each once. *)
Theorem C49_outputs_partial : forall H r info address m b, uh_str H (h_uh r) = Ok address -> StronglySorted newer (h_txns r) ->
  Forall (fun x => no_definition (e_txn x)) (h_txns r) \/ uh_type (h_uh r) <> 3%Z -> result_balance H r info = Ok (m, b) ->
  consistent (history H address (h_txns r)) ->
  let confirmed := filter (fun x => negb (e_unconfirmed x)) (h_txns r) in
  let created := filter (pays H address) (flat_map (fun x => coin_outputs (e_txn x)) confirmed) in
  let spent := ids (filter (pays H address) (flat_map (fun x => spent_by (e_txn x)) (h_txns r))) in
  NoDup (ids created) ->
  Permutation (values (w_outs b)) (filter (fun o => negb (existsb (listN_eqb (o_id o)) spent)) created) /\
  available b + locked b = worth (filter (fun o => negb (existsb (listN_eqb (o_id o)) spent)) created).
Proof.
  intros H r info address m b A Q D E CO. cbv zeta. intro ND.
  pose proof (result_balance_core H r info m b address A D E) as C.
  pose proof (inv_observe (history H address (h_txns r))) as V. rewrite <- C in V.
  set (created := filter (pays H address) (flat_map (fun x => coin_outputs (e_txn x)) (filter (fun x => negb (e_unconfirmed x)) (h_txns r)))) in *.
  set (spent := ids (filter (pays H address) (flat_map (fun x => spent_by (e_txn x)) (h_txns r)))) in *.
  assert (IV : ids (values (w_outs b)) = map fst (w_outs b)) by (apply (values_ids _ (w_outs (core b)) _ V); auto).
  assert (NV : NoDup (ids (values (w_outs b)))).
  { rewrite IV. pose proof (C30_contents (history H address (h_txns r)) (w_outs b)) as X. rewrite <- C in X. exact (proj1 (X (or_introl eq_refl))). }
  assert (P : Permutation (values (w_outs b)) (filter (fun o => negb (existsb (listN_eqb (o_id o)) spent)) created)).
  { apply perm_by_ids; [exact NV| |].
    - unfold ids in *. clear - ND. induction created as [|o l IH]; [constructor|]. cbn [filter map] in *. inversion ND as [|? ? N1 N2]; subst.
      destruct (negb _); [|exact (IH N2)]. cbn [map]. constructor; [|exact (IH N2)]. intro I. apply N1. apply in_map_iff in I as (y & Ey & I). apply filter_In in I as (I & _).
      apply in_map_iff. exists y. auto.
    - intro o.
      assert (SP : forall i, In i spent <-> seen_spent (history H address (h_txns r)) i).
      { intro i. rewrite seen_spent_used. unfold spent, ids. rewrite in_map_iff. split.
        - intros (y & <- & I). apply filter_In in I as (I & Py). apply in_flat_map in I as (x & Ix & Iy). exists x. split; [exact Ix|]. exists y. auto.
        - intros (x & Ix & y & Iy & Py & Ey). exists y. split; [exact Ey|]. apply filter_In. split; [|exact Py]. apply in_flat_map. eauto. }
      assert (CR : forall y, In y created -> seen (history H address (h_txns r)) true false (o_id y) /\ In (mkobs y true false) (history H address (h_txns r))).
      { intros y I. apply filter_In in I as (I & Py). apply in_flat_map in I as (x & Ix & Iy). apply filter_In in Ix as (Ix & Ux). apply negb_true_iff in Ux.
        split; [apply seen_created; exists x; repeat split; [exact Ix | exact Ux | exists y; auto]|]. apply in_history. exists x. split; [exact Ix|].
        apply in_observations. cbn. rewrite Ux. auto. }
      assert (RC : forall i, seen (history H address (h_txns r)) true false i -> exists y, In y created /\ o_id y = i).
      { intros i Si. apply seen_created in Si as (x & Ix & Ux & y & Iy & Py & Ey). exists y. split; [|exact Ey]. apply filter_In. split; [|exact Py].
        apply in_flat_map. exists x. split; [|exact Iy]. apply filter_In. split; [exact Ix|]. cbn [negb] in Ux. rewrite Ux. reflexivity. }
      pose proof (C30_contents (history H address (h_txns r)) (w_outs b)) as K. rewrite <- C in K. cbn [core w_outs] in K. specialize (K (or_introl eq_refl)). destruct K as (_ & K).
      rewrite filter_In, negb_true_iff. split.
      + intro I. apply in_map_iff in I as ([i y] & Ey & I). cbn in Ey. subst y. destruct (K i o I) as (Ei & z & Iz & Ez).
        assert (HI : has (w_outs (core b)) i) by (apply (in_map fst) in I; exact I).
        rewrite (i_outs _ _ V i) in HI. destruct HI as (Ns & Sn). destruct (RC i Sn) as (y & Iy & Eyi).
        assert (Yo : y = o). { destruct (CR y Iy) as (_ & Oy). rewrite <- Ez. apply (CO _ _ Oy Iz). cbn. congruence. }
        rewrite Yo in Iy. split; [exact Iy|]. apply not_true_is_false. intro T. apply existsb_exists in T as (j & Ij & Tj). apply listN_eqb_eq in Tj. apply Ns. rewrite <- Ei. apply SP. rewrite Tj. exact Ij.
      + intros (Ic & Nx). destruct (CR o Ic) as (Sn & Oo).
        assert (HI : has (w_outs (core b)) (o_id o)).
        { rewrite (i_outs _ _ V (o_id o)). split; [|exact Sn]. intro T. apply SP in T. assert (X : existsb (listN_eqb (o_id o)) spent = true); [|congruence].
          apply existsb_exists. exists (o_id o). split; [exact T | apply listN_eqb_refl]. }
        unfold has in HI. cbn [core w_outs] in HI. apply in_map_iff in HI as ([i y] & Ei & I). cbn in Ei. subst i. destruct (K (o_id o) y I) as (Ey & z & Iz & Ez).
        assert (Yo : y = o). { rewrite <- Ez. apply (CO _ _ Iz Oo). cbn. congruence. }
        rewrite Yo in I. apply in_map_iff. exists (o_id o, o). split; [reflexivity | exact I]. }
  split; [exact P|]. rewrite <- (worth_perm _ _ P). apply C31_partition.
Qed.
Print Assumptions C49_outputs_partial.
(** Nothing is counted twice. *)
Theorem C49_counted_once_partial : forall H r info address m b, uh_str H (h_uh r) = Ok address -> StronglySorted newer (h_txns r) ->
  Forall (fun x => no_definition (e_txn x)) (h_txns r) \/ uh_type (h_uh r) <> 3%Z -> result_balance H r info = Ok (m, b) ->
  NoDup (ids (values (w_outs b) ++ values (w_unc b))).
Proof.
  intros H r info address m b A Q D E. pose proof (result_balance_core H r info m b address A D E) as C.
  pose proof (all_ids_nodup _ (history_unconfirmed_first H address _ Q)) as K. cbv zeta in K. rewrite <- C in K. exact K.
Qed.
Print Assumptions C49_counted_once_partial.
(** The chain context is the one given, and no other address is reported. *)
Theorem C49_context : forall H r h t k m b, result_balance H r (Some (h, t, k)) = Ok (m, b) -> w_height b = h /\ w_time b = t /\ w_block b = k.
Proof.
  intros H r h t k m b E. unfold result_balance, multisig_balance, address_balance in E. destruct (uh_type (h_uh r) =? 3)%Z.
  - apply bind_ok in E as (a & _ & E). apply bind_ok in E as (y & _ & E). apply ok_inj in E. destruct y as [[m' x]|]; injection E as <- <-; auto.
  - apply bind_ok in E as (b' & Eb & E). apply ok_inj in E. injection E as <- <-. apply bind_ok in Eb as (a & _ & Eb). apply bind_ok in Eb as (y & _ & Eb).
    apply ok_inj in Eb. subst. auto.
Qed.
Print Assumptions C49_context.
Definition exx_info : option (Z * Z * bytes) := Some (100, 1600000000, [])%Z.
Definition exx_balance (l : list json) : res bal := do r <- exx_address l; do x <- result_balance ex_H2 r exx_info; Ok (snd x).
Example C49_ex : match exx_address [exx_a1; exx_a2] with
  | Ok r => match result_balance ex_H2 r exx_info with
            | Ok (m, b) => map fst (w_outs b) = [repeat 22 32] /\ map fst (w_spent b) = [repeat 21 32; repeat 5 32] /\ available b = 20 /\ uh_type (h_uh r) = 1%Z
            | Err _ => False
            end
  | Err _ => False
  end.
Proof. vm_compute. auto. Qed.
(** Conversions from ERC20 have no id: of two deposits of 10 and 20 only one is in the balance. *)
Theorem C49_conversion_refuted : exists a b x y bal, exx_txn a = Ok x /\ exx_txn b = Ok y /\
  coin_outputs (e_txn x) = [exx_pay 10] /\ coin_outputs (e_txn y) = [exx_pay 20] /\ exx_balance [a; b] = Ok bal /\ available bal = 20 /\ locked bal = 0 /\ w_spent bal = [].
Proof.
  exists exx_g1, exx_g2. do 3 eexists. split; [vm_compute; reflexivity|]. split; [vm_compute; reflexivity|].
  split; [reflexivity|]. split; [reflexivity|]. split; [vm_compute; reflexivity|]. vm_compute. auto.
Qed.
Print Assumptions C49_conversion_refuted.
(** *** Multi-signature addresses *)
Definition exx_multi : cond := CMulti [exx_uh; mkuh 1 (repeat 3 32)] 1.
Definition exx_at (c : cond) (l : list json) : res uhresult :=
  unlockhash_get ex_H2 ex_ip_parse 0 (match cond_address ex_H2 c with Ok s => s | Err _ => [] end)
    (JObj [("hashtype"%string, JStr (s2b "unlockhash")); ("transactions"%string, JArr l)]).
Definition exx_mpay : json := exx_answer (exx_std 5 [mkout 10 exx_multi []; exx_pay 20]) 31 [exx_pay 31] [] [21; 22] [] 7 false.
Definition exx_def (c : cond) : txn := TMint (mkmint (Some (FSingle (ex_key 7) (Some (repeat 1 64)))) (MCond c) [100] [] (repeat 9 8) None).
Example C49_ex_multi : match exx_at exx_multi [exx_mpay] with
  | Ok r => uh_type (h_uh r) = 3%Z /\ Forall (fun x => no_definition (e_txn x)) (h_txns r) /\
            match result_balance ex_H2 r exx_info with
            | Ok (Some (us, n), b) => us = [exx_uh; mkuh 1 (repeat 3 32)] /\ n = 1%Z /\ map fst (w_outs b) = [repeat 21 32] /\ available b = 10
            | _ => False
            end
  | Err _ => False
  end.
Proof. vm_compute. repeat split; repeat constructor. Qed.
(** A mint definition in the history of a multi-signature address throws away what was counted before; one to an ordinary address makes
    the balance fail. *)
Theorem C49_definition_refuted : exists e d d' r r', exx_at exx_multi [e; d] = Ok r /\ exx_at exx_multi [e; d'] = Ok r' /\
  (exists x o, In x (h_txns r) /\ In o (coin_outputs (e_txn x)) /\ o_cond o = exx_multi /\ o_value o = 10 /\ e_unconfirmed x = false) /\
  (exists m b, result_balance ex_H2 r exx_info = Ok (m, b) /\ w_outs b = [] /\ w_spent b = [] /\ w_uncspent b = [] /\ available b = 0) /\
  result_balance ex_H2 r' exx_info = Err AttributeError.
Proof.
  exists exx_mpay, (exx_answer (exx_def exx_multi) 36 [] [] [] [] 6 false), (exx_answer (exx_def (CUnlockHash exx_uh)) 36 [] [] [] [] 6 false).
  do 2 eexists. split; [vm_compute; reflexivity|]. split; [vm_compute; reflexivity|]. split; [|split].
  - do 2 eexists. split; [left; reflexivity|]. split; [left; reflexivity|]. repeat split.
  - do 2 eexists. split; [vm_compute; reflexivity|]. repeat split.
  - vm_compute. reflexivity.
Qed.
Print Assumptions C49_definition_refuted.
