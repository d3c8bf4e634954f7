(** Theorems about atomic swaps on a ledger (C94). *)
From Coq Require Import Permutation Sorting.Sorted.
From Verif Require Import Base BaseFacts Encoders Currency Primitive Types Conditions Fulfillments ThreeBotTypes Txn TxnJson TxnSign Wallet Explorer AtomicSwap Lookups SwapLookup Ops WalletLoad Session
  Spec_Types Spec_Txn Spec_Json Spec_ThreeBot ThreeBotFacts ThreeBotFacts2 Spec_Wallet Spec_Ops Spec_Explorer Spec_Load Spec_Session Spec_Sign Spec_Fits Spec_Swap Spec_Lookup TypesFacts WalletFacts WalletFacts2 ExplorerFacts ExplorerFacts2 ExplorerFacts3 LookupFacts LoadFacts SessionFacts
  TxnFacts3 SwapFacts SwapFacts2 Prop_Fulfil Prop_Txn Prop_ThreeBot Prop_Json Prop_Wallet Prop_Explorer Prop_Sign Prop_Swap Prop_Ops Prop_SwapTwo Prop_Lookup Prop_Load Prop_Session Spec_Ledger LedgerFacts Prop_Ledger Spec_Trade TradeFacts.
From Coq Require Import ZifyBool ZifyNat ZifyN.
Ltac Zify.zify_post_hook ::= Z.div_mod_to_equations.

(** ** Looking up a contract *)
(** With explorers which show the ledger, looking up an id that an output of the ledger has finds that output.  It is found unspent exactly when nothing in the ledger
    (in a block or waiting) spends it; and an unspent one is always found. *)
Theorem C94_lookup : forall H ip_parse ip_str now net l id, hash_ok H -> ip_library ip_parse ip_str -> Forall (entry_ok ip_parse) l -> consistent_ledger l ->
  hash32 id -> id <> zeros 32 -> shows_output H ip_str l id (net (s2b "/explorer/hashes/" ++ hash_str id)) ->
  (forall o, output_fetch H ip_parse now net id = Ok (o, false) <-> In o (unspent l) /\ o_id o = id) /\
  (forall o, output_fetch H ip_parse now net id = Ok (o, true) -> In o (all_made l) /\ o_id o = id /\ ~ In o (unspent l)).
Proof.
  intros H ip is now net l id HH L F C Hid Nz Sh. split.
  - intro o. split; [exact (fetch_unspent H ip is now HH L l net id F Hid Nz Sh o)|]. intros (I & E). exact (fetch_finds H ip is now HH L l net id F C Hid Nz Sh o I E).
  - intros o E. destruct (fetch_found H ip is now HH L l net id F Hid Nz Sh o true E) as (I & Eo & K). split; [exact I|]. split; [exact Eo|]. intro U. apply unspent_ids in U as (_ & U). rewrite Eo in U. apply K in U. discriminate U.
Qed.
Print Assumptions C94_lookup.
(** What is spent in a later block than it was made in is found with the transaction that spends it: its id, and its inputs as they are. *)
Theorem C94_spend : forall H ip_parse ip_str now net l c s o, hash_ok H -> ip_library ip_parse ip_str -> Forall (entry_ok ip_parse) l -> consistent_ledger l ->
  In c l -> In s l -> In o (makes c) -> In o (Spec_Ledger.spends s) -> earlier c s -> hash32 (o_id o) -> o_id o <> zeros 32 ->
  shows_output H ip_str l (o_id o) (net (s2b "/explorer/hashes/" ++ hash_str (o_id o))) ->
  exists x y, client_output_get H ip_parse now net KCoin (BVBytes (o_id o)) = Ok (o, x, Some y) /\ e_id y = en_id s /\ spent_by (e_txn y) = Spec_Ledger.spends s /\
    inputs_of (e_txn y) = give_parents (inputs_of (read_back (en_txn s))) (en_parents s).
Proof.
  intros H ip is now net l c s o HH L F C Ic Is Io Ios Ea Hid Nz Sh.
  destruct (client_spent H ip is now HH L l net (o_id o) F C Hid Nz Sh o c s Ic Io eq_refl Is Ios Ea) as (x & y & E & _ & R & Ei & Ii). exists x, y. split; [exact E|]. split; [exact Ei|]. split; [exact (rd_spends _ _ R)|exact Ii].
Qed.
Print Assumptions C94_spend.
(** So who redeems a contract tells the secret to everyone who looks the contract up afterwards. *)
Theorem C94_secret : forall H ip_parse ip_str now net l c s o sec, hash_ok H -> ip_library ip_parse ip_str -> Forall (entry_ok ip_parse) l -> consistent_ledger l ->
  In c l -> In s l -> In o (makes c) -> In o (Spec_Ledger.spends s) -> earlier c s -> hash32 (o_id o) -> o_id o <> zeros 32 ->
  shows_output H ip_str l (o_id o) (net (s2b "/explorer/hashes/" ++ hash_str (o_id o))) -> reveals s sec ->
  exists x y i p sg, client_output_get H ip_parse now net KCoin (BVBytes (o_id o)) = Ok (o, x, Some y) /\
    inputs_of (e_txn y) = [i] /\ i_parent i = o_id o /\ i_ff i = FSwap p sg (Some sec).
Proof.
  intros H ip is now net l c s o sec HH L F C Ic Is Io Ios Ea Hid Nz Sh (i & p & g & Ei & Ef).
  destruct (C94_spend H ip is now net l c s o HH L F C Ic Is Io Ios Ea Hid Nz Sh) as (x & y & E & _ & _ & Ii).
  assert (Rb : inputs_of (read_back (en_txn s)) = [read_cin i]).
  { assert (G : inputs_of (read_back (en_txn s)) = map read_cin (inputs_of (en_txn s))).
    { destruct (en_txn s) as [a|m|cv|g'|r|b|u|n]; unfold inputs_of; cbn; try reflexivity; [destruct (r_cin r)|destruct (n_cin n)]; reflexivity. }
    rewrite G, Ei. reflexivity. }
  rewrite Forall_forall in F. destruct (F s Is) as (Se & _ & _). pose proof (proj2 (se_parents _ _ _ _ _ _ _ _ Se)) as Lp. rewrite Ei in Lp. cbn [length] in Lp.
  unfold Spec_Ledger.spends in Ios. rewrite Ei in Ios. destruct (en_parents s) as [|q [|? ?]] eqn:Ep; try discriminate Lp. cbn [combine map fst snd In] in Ios. destruct Ios as [Ios|[]].
  rewrite Rb in Ii. unfold give_parents in Ii. cbn [combine map fst snd] in Ii. exists x, y. eexists. exists (read_key p), (Some (odef g)). split; [exact E|]. split; [exact Ii|]. cbn [i_parent i_ff read_cin]. rewrite <- Ios, Ef. split; reflexivity.
Qed.
Print Assumptions C94_secret.

(** ** Steps *)
Lemma secret_sized v sec : secret_new v = Ok sec -> sec = [] \/ length sec = 32%nat.
Proof. intro E. change (hash_new v = Ok sec) in E. now apply hash_new_ok in E as (_ & E). Qed.
Lemma pay_step H ip_parse ip_str l t p e : hash_ok H -> ip_library ip_parse ip_str -> Forall (entry_ok ip_parse) l -> consistent_ledger l ->
  operates H ip_parse ip_str l t p -> recorded t l e ->
  extends e l /\ (exists addrs, Forall (text_of H 1) addrs /\ forall o, In o (Spec_Ledger.spends e) -> for_any H addrs o = true) /\ worth (Spec_Ledger.spends e) = worth (makes e) + p.
Proof.
  intros HH L F C (now & net & info & addrs & w & primary & source & refund & fee & pays & price & T & Ho & E & Fu & Src & ->) R.
  destruct (funded_step H ip_parse ip_str now net info addrs w l primary source refund fee pays price t e HH L F C T Ho E Fu Src R) as (X & Own & Ws).
  split; [exact X|]. split; [exists addrs; auto|]. rewrite Ws. assert (Wm : worth (makes e) = worth (coin_outputs t)) by (destruct R as (R1 & _ & R3 & _); unfold makes; rewrite R1; apply give_worth; exact R3). lia.
Qed.
Lemma make_step H sign ip_parse ip_str l t p e : hash_ok H -> ip_library ip_parse ip_str -> Forall (entry_ok ip_parse) l -> consistent_ledger l ->
  makes_contract H sign ip_parse ip_str l p t -> recorded t l e -> operates H ip_parse ip_str l (nameless t) p.
Proof.
  intros HH L F C (now & net & info & v & x & receiver & amount & sh & lock & f & data & submit & sub & T & Ho & Op & Src & E & ->) R.
  unfold opened in Op. apply bind_ok in Op as (w & Ew & Op). apply ok_inj in Op. apply C36_contract in E as (_ & _ & Fu & _). rewrite <- Op in Fu, Src. cbn [x_bal x_address x_fee] in Fu, Src.
  do 11 eexists. split; [exact T|]. split; [exact Ho|]. split; [exact Ew|]. split; [exact Fu|]. split; [exact Src|symmetry; apply N.add_0_r].
Qed.
Lemma unnamed_extends e l : extends (unnamed e) l -> extends e l.
Proof. intros [X1 X2 X3 X4]. rewrite unnamed_makes in *. rewrite unnamed_spends in *. split; assumption. Qed.
Lemma contract_step H sign ip_parse ip_str l t p e : hash_ok H -> ip_library ip_parse ip_str -> Forall (entry_ok ip_parse) l -> consistent_ledger l ->
  makes_contract H sign ip_parse ip_str l p t -> recorded t l e ->
  extends e l /\ (exists addrs, Forall (text_of H 1) addrs /\ forall o, In o (Spec_Ledger.spends e) -> for_any H addrs o = true) /\ worth (Spec_Ledger.spends e) = worth (makes e) + p.
Proof.
  intros HH L F C M R. destruct (pay_step H ip_parse ip_str l (nameless t) p (unnamed e) HH L F C (make_step H sign ip_parse ip_str l t p e HH L F C M R) (unnamed_recorded t l e R)) as (X & A & W).
  rewrite unnamed_spends, ?unnamed_makes in *. split; [exact (unnamed_extends e l X)|]. auto.
Qed.
Lemma claim_step H S256 sign ip_parse ip_str at_ l id fee t e : hash_ok H -> ip_library ip_parse ip_str -> (forall k h, length (sign k h) = 64%nat) -> Forall (entry_ok ip_parse) l -> consistent_ledger l ->
  claims_from H S256 sign ip_parse ip_str at_ l id fee t -> recorded t l e ->
  exists o k, In o (unspent l) /\ o_id o = id /\ is_contract o k /\ extends e l /\ Spec_Ledger.spends e = [o] /\ worth (makes e) + fee = o_value o /\
    (redeemed S256 o k e \/ refunded at_ o k e).
Proof.
  intros HH L S64 F C (now & net & primary & ks & data & WO & Hid & Nz & Ho & D) R. specialize (Ho id Hid).
  destruct D as [(secret & E)|(time & At & E)].
  - apply (redeem_shape H S256 sign primary ks S64 HH WO) in E as (o & k & sec & G & K & Sec & Kh & _ & Q). apply (fetch_unspent H ip_parse ip_str now HH L l net id F Hid Nz Ho) in G as (I & Eo).
    exists o, k. split; [exact I|]. split; [exact Eo|]. split; [exact K|]. split; [exact (claim_extends _ _ _ _ _ _ _ Q R C I)|]. split; [exact (claim_spends _ _ _ _ _ _ _ Q R)|]. split; [exact (claim_worth _ _ _ _ _ _ _ Q R)|].
    left. exists fee, sec. split; [exact (claim_collects _ _ _ _ _ _ _ Q R)|]. split; [exact Kh|]. destruct Q as (_ & p & s & d & Et). destruct R as (R & _).
    destruct (secret_sized _ _ Sec) as [Ls|Ls]; [right; exact Ls|].
    destruct secret; [right; cbn in Sec; now apply ok_inj in Sec| | | |]; (left; split; [|exact Ls]; unfold reveals; rewrite R, Et; do 3 eexists; split; [reflexivity|cbn [i_ff]; reflexivity]).
  - apply (refund_shape H S256 sign primary ks S64 HH WO) in E as (o & k & G & K & T & _ & Q). apply (fetch_unspent H ip_parse ip_str now HH L l net id F Hid Nz Ho) in G as (I & Eo).
    exists o, k. split; [exact I|]. split; [exact Eo|]. split; [exact K|]. split; [exact (claim_extends _ _ _ _ _ _ _ Q R C I)|]. split; [exact (claim_spends _ _ _ _ _ _ _ Q R)|]. split; [exact (claim_worth _ _ _ _ _ _ _ Q R)|].
    right. exists fee, time. split; [exact (claim_collects _ _ _ _ _ _ _ Q R)|]. auto.
Qed.

(** Claiming a contract: who asked for it gets its amount less the miner fee, nobody else gets or loses anything, and the contract is gone. *)
Theorem C94_claims : forall H S256 (sign : pubkey -> bytes -> bytes) ip_parse ip_str at_ l id fee t e, hash_ok H -> ip_library ip_parse ip_str -> (forall k h, length (sign k h) = 64%nat) ->
  Forall (entry_ok ip_parse) l -> consistent_ledger l -> claims_from H S256 sign ip_parse ip_str at_ l id fee t -> recorded t l e ->
  exists o k to, In o (unspent l) /\ o_id o = id /\ is_contract o k /\ (redeemed S256 o k e /\ to = k_receiver k \/ refunded at_ o k e /\ to = k_sender k) /\
    consistent_ledger (e :: l) /\ ~ In o (unspent (e :: l)) /\
    forall addrs, Forall (text_of H 1) addrs ->
      fortune H addrs (e :: l) = fortune H addrs l + if for_any H addrs (mkout 0 (CUnlockHash to) []) then o_value o - fee else 0.
Proof.
  intros H S256 sign ip is at_ l id fee t e HH L S64 F C Cl R.
  destruct (claim_step H S256 sign ip is at_ l id fee t e HH L S64 F C Cl R) as (o & k & I & Eo & K & X & Sp & W & D).
  assert (Col : exists to, collects o to fee e /\ (redeemed S256 o k e /\ to = k_receiver k \/ refunded at_ o k e /\ to = k_sender k)).
  { destruct D as [D|D]; pose proof D as D'; [destruct D as (fee' & sec & Co & _); exists (k_receiver k)|destruct D as (fee' & time & Co & _); exists (k_sender k)];
    (assert (fee' = fee) as <-; [|auto]);
    destruct Co as (_ & Cc & Cf & Le); assert (Wm : worth (makes e) = worth (coin_outputs (en_txn e))) by (destruct R as (R1 & _ & R3 & _); unfold makes; apply give_worth; rewrite R1; exact R3); rewrite Cc in Wm; unfold worth in Wm, W; cbn [map sum o_value] in Wm; lia. }
  destruct Col as (to & Co & D'). exists o, k, to. split; [exact I|]. split; [exact Eo|]. split; [exact K|]. split; [exact D'|]. split; [exact (extend_ok e l C X)|]. split.
  - intro U. apply unspent_ids in U as (_ & U). apply U. cbn [all_spent flat_map]. rewrite Sp. left. reflexivity.
  - intros addrs T. pose proof (extend_fortune H addrs e l C X) as Q. rewrite Sp in Q. cbn [filter] in Q. rewrite (swap_apart H addrs o k HH T K) in Q.
    assert (Mk : worth (filter (for_any H addrs) (makes e)) = worth (filter (for_any H addrs) (coin_outputs (en_txn e)))).
    { destruct R as (R1 & _ & R3 & _). unfold makes. rewrite R1. apply give_filter. exact R3. }
    destruct Co as (_ & Cc & _). rewrite Mk, Cc in Q. cbn [filter] in Q. change (for_any H addrs (mkout (o_value o - fee) (CUnlockHash to) [])) with (for_any H addrs (mkout 0 (CUnlockHash to) [])) in Q.
    destruct (for_any H addrs (mkout 0 (CUnlockHash to) [])); unfold worth in Q; cbn [map sum o_value] in Q; unfold worth; lia.
Qed.
Print Assumptions C94_claims.

(** Making one: its output is on the ledger with the id the wallet gave it, unspent; the wallet is left with what it had less amount and miner fee, and nobody else gets or loses anything. *)
Theorem C94_made : forall H (sign : pubkey -> bytes -> bytes) ip_parse ip_str l e, hash_ok H -> ip_library ip_parse ip_str -> Forall (entry_ok ip_parse) l -> consistent_ledger l ->
  forall now net info v x receiver amount sh lock f data submit t sub home, Forall (text_of H 1) (v_addrs v) -> honest H ip_str l net (v_addrs v) -> opened H ip_parse now net info v = Ok x ->
  f_source f = None -> f_refund f = None -> uh_str H (v_address v) = Ok home -> In home (v_addrs v) ->
  wallet_contract H sign now x receiver amount sh lock f data submit = Ok (t, sub) -> recorded t l e -> en_ids e = map o_id (coin_outputs t) ->
  exists o k, k_amount k = amount /\ k_sender k = v_address v /\ k_receiver k = receiver /\ k_hash k = Some sh /\ k_refund k = lock /\ is_contract o k /\ hd_error (coin_outputs t) = Some o /\
    consistent_ledger (e :: l) /\ In o (unspent (e :: l)) /\ fortune H (v_addrs v) (e :: l) + amount + v_fee v = fortune H (v_addrs v) l /\
    forall others, Forall (text_of H 1) others -> (forall a, In a others -> ~ In a (v_addrs v)) -> fortune H others (e :: l) = fortune H others l.
Proof.
  intros H sign ip is l e HH L F C now net info v x receiver amount sh lock f data submit t sub home T Ho Op Fs Fr Eh Ih E R Eid.
  destruct (C78_contract _ _ _ _ _ _ _ _ _ _ _ _ _ HH E) as (o & N & _ & Lo & K). unfold opened in Op. apply bind_ok in Op as (w & Ew & Op). apply ok_inj in Op.
  apply C36_contract in E as (_ & _ & Fu & _). rewrite Fs, Fr in *. rewrite <- Op in Fu, K. cbn [x_bal x_address x_fee refund_to] in Fu, K.
  assert (Hd : exists os, coin_outputs t = o :: os) by (destruct (coin_outputs t) as [|o' os]; [discriminate N|]; cbn in N; injection N as ->; eauto). destruct Hd as (os & Co).
  assert (Rf : for_any H (v_addrs v) (mkout 0 (refund_to w (v_address v) None None) []) = true).
  { apply for_any_in. exists home. split; [exact Ih|]. unfold Spec_Explorer.pays. cbn [o_cond refund_to cond_unlockhash]. rewrite Eh. apply listN_eqb_refl. }
  pose proof (unnamed_recorded t l e R) as Ru.
  destruct (C90_moves H ip is now net info (v_addrs v) w l (v_address v) None None (v_fee v) _ _ _ (unnamed e) HH L F C T Ho Ew Fu (or_introl eq_refl) Ru Rf) as (C' & Ms & Mo).
  destruct (funded_step H ip is now net info (v_addrs v) w l (v_address v) None None (v_fee v) _ _ _ (unnamed e) HH L F C T Ho Ew Fu (or_introl eq_refl) Ru) as (X & _). apply unnamed_extends in X.
  apply (proj1 (unnamed_consistent e l)) in C'. unfold fortune in Ms, Mo. rewrite !unnamed_unspent in Ms.
  set (k := mkct (o_id o) amount (v_address v) receiver (Some sh) lock true) in K. exists o, k.
  assert (Sw : forall addrs, Forall (text_of H 1) addrs -> for_any H addrs (mkout amount (CSwap (v_address v) receiver (Some sh) lock) []) = false).
  { intros addrs Ta. rewrite <- (swap_apart H addrs o k HH Ta K). unfold for_any, Spec_Explorer.pays. rewrite (proj1 K). reflexivity. }
  do 5 (split; [reflexivity|]). split; [exact K|]. split; [rewrite Co; reflexivity|]. split; [exact C'|]. split; [|split].
  - apply unspent_ids. assert (Io : In o (makes e)).
    { unfold makes. destruct R as (-> & _). rewrite Eid, Co. unfold give_ids. cbn [map combine fst snd]. left. destruct o. reflexivity. }
    cbn [all_made all_spent flat_map]. split; [apply in_or_app; now left|]. unfold ids. rewrite map_app. intro J.
    pose proof (ex_new _ _ X (o_id o) (in_map _ _ _ Io)) as (N1 & N2). apply in_app_or in J as [J|J]; [|exact (N2 J)].
    apply in_map_iff in J as (q & Eq & J). apply (ex_left _ _ X) in J. apply unspent_ids in J as (J & _). apply N1. rewrite <- Eq. apply in_map. exact J.
  - cbn [filter] in Ms. rewrite (Sw _ T) in Ms. cbn [negb] in Ms. unfold fortune. unfold worth at 2 in Ms. cbn [map sum o_value] in Ms. lia.
  - intros others Ta D. specialize (Mo others D). rewrite unnamed_unspent in Mo. cbn [filter] in Mo. rewrite (Sw _ Ta) in Mo. unfold fortune. rewrite Mo. cbn. lia.
Qed.
Print Assumptions C94_made.

(** ** Histories *)
(** Through every history of any number of wallets that pay, make contracts and claim them, nothing is spent twice, no id is used twice, and no coins come into being or get lost:
    the unspent outputs (contracts among them) are worth what they were, less what went to miners or off the chain. *)
Theorem C94_run : forall H S256 (sign : pubkey -> bytes -> bytes) ip_parse ip_str (at_ : Z -> Prop) l l' c, hash_ok H -> ip_library ip_parse ip_str -> (forall k h, length (sign k h) = 64%nat) ->
  Forall (entry_ok ip_parse) l -> consistent_ledger l -> trade H S256 sign ip_parse ip_str at_ l l' c ->
  Forall (entry_ok ip_parse) l' /\ consistent_ledger l' /\ worth (unspent l') + c = worth (unspent l).
Proof.
  intros H S256 sign ip is at_ l l' c HH L S64 F C R.
  assert (Add : forall l0 l1 e p, Forall (entry_ok ip) l1 /\ consistent_ledger l1 /\ worth (unspent l1) + p = worth (unspent l0) -> forall q, entry_ok ip e -> extends e l1 ->
    worth (Spec_Ledger.spends e) = worth (makes e) + q -> Forall (entry_ok ip) (e :: l1) /\ consistent_ledger (e :: l1) /\ worth (unspent (e :: l1)) + (p + q) = worth (unspent l0)).
  { intros l0 l1 e p (F' & C' & W) q Ok X Ws. split; [constructor; assumption|]. split; [exact (extend_ok e l1 C' X)|]. pose proof (worth_perm _ _ (extend_unspent e l1 C' X)) as Q. rewrite !worth_app in Q. lia. }
  induction R as [l|l l' c t e p R IH O Rc Ok|l l' c t e fee R IH O Rc Ok|l l' c t e id fee R IH O Rc Ok|l l' l'' m c R IH P Mv F'].
  - split; [exact F|]. split; [exact C|]. lia.
  - specialize (IH F C). pose proof IH as (F' & C' & W). destruct (pay_step H ip is l' t p e HH L F' C' O Rc) as (X & _ & Ws). exact (Add l l' e c IH p Ok X Ws).
  - specialize (IH F C). pose proof IH as (F' & C' & W). destruct (contract_step H sign ip is l' t fee e HH L F' C' O Rc) as (X & _ & Ws). exact (Add l l' e c IH fee Ok X Ws).
  - specialize (IH F C). pose proof IH as (F' & C' & W). destruct (claim_step H S256 sign ip is at_ l' id fee t e HH L S64 F' C' O Rc) as (o & k & I & _ & _ & X & Sp & Wm & _).
    apply (Add l l' e c IH fee Ok X). rewrite Sp. unfold worth at 1. cbn [map sum]. lia.
  - destruct (IH F C) as (_ & C' & W). split; [exact F'|]. destruct (moved_ledger l' m l'' C' P Mv) as (C'' & Q & _). split; [exact C''|]. rewrite <- W. f_equal. apply worth_perm. apply Permutation_sym. exact (same_unspent l' l'' C' C'' Q).
Qed.
Print Assumptions C94_run.

Lemma moved_fate S256 at_ o k e e' : moved e e' -> redeemed S256 o k e \/ refunded at_ o k e -> redeemed S256 o k e' \/ refunded at_ o k e'.
Proof. intros (h & ->) D. exact D. Qed.
Lemma same_contract o k k' : is_contract o k -> is_contract o k' -> k_sender k = k_sender k' /\ k_receiver k = k_receiver k' /\ k_hash k = k_hash k' /\ k_refund k = k_refund k'.
Proof. intros (E & _) (E' & _). rewrite E in E'. injection E' as -> -> -> ->. auto. Qed.

(** What becomes of a contract, whatever happens: it is still there, or exactly one transaction claimed it, and that one either was made with the secret and pays to the receiver,
    or was made when the refund time had come and pays to the sender. *)
Theorem C94_fate : forall H S256 (sign : pubkey -> bytes -> bytes) ip_parse ip_str (at_ : Z -> Prop) l l' c o k, hash_ok H -> ip_library ip_parse ip_str -> (forall k h, length (sign k h) = 64%nat) ->
  Forall (entry_ok ip_parse) l -> consistent_ledger l -> In o (unspent l) -> is_contract o k -> trade H S256 sign ip_parse ip_str at_ l l' c ->
  In o (unspent l') \/
  exists e, In e l' /\ (redeemed S256 o k e \/ refunded at_ o k e) /\ (forall e', In e' l' -> In (o_id o) (ids (Spec_Ledger.spends e')) -> e' = e).
Proof.
  intros H S256 sign ip is at_ l l' c o k HH L S64 F C I K R.
  assert (G : In o (unspent l') \/ exists e, In e l' /\ (redeemed S256 o k e \/ refunded at_ o k e)).
  { induction R as [l|l l' c t e p R IH O Rc Ok|l l' c t e fee R IH O Rc Ok|l l' c t e id fee R IH O Rc Ok|l l' l'' m c R IH P Mv F'].
    - left. exact I.
    - destruct (C94_run H S256 sign ip is at_ l l' c HH L S64 F C R) as (F' & C' & _). destruct (IH F C I) as [U|(e' & Ie & D)]; [left|right; exists e'; split; [right; exact Ie|exact D]].
      destruct (pay_step H ip is l' t p e HH L F' C' O Rc) as (X & (addrs & Ta & Own) & _). apply unspent_ids. apply unspent_ids in U as (U1 & U2).
      cbn [all_made all_spent flat_map]. split; [apply in_or_app; now right|]. unfold ids. rewrite map_app. intro J. apply in_app_or in J as [J|J]; [|exact (U2 J)].
      apply in_map_iff in J as (q & Eq & J). pose proof (ex_left _ _ X q J) as Uq. apply unspent_ids in Uq as (Uq & _). rewrite (made_one l' q o (lc_made l' C') Uq U1 Eq) in J. specialize (Own o J). rewrite (swap_apart H addrs o k HH Ta K) in Own. discriminate Own.
    - destruct (C94_run H S256 sign ip is at_ l l' c HH L S64 F C R) as (F' & C' & _). destruct (IH F C I) as [U|(e' & Ie & D)]; [left|right; exists e'; split; [right; exact Ie|exact D]].
      destruct (contract_step H sign ip is l' t fee e HH L F' C' O Rc) as (X & (addrs & Ta & Own) & _). apply unspent_ids. apply unspent_ids in U as (U1 & U2).
      cbn [all_made all_spent flat_map]. split; [apply in_or_app; now right|]. unfold ids. rewrite map_app. intro J. apply in_app_or in J as [J|J]; [|exact (U2 J)].
      apply in_map_iff in J as (q & Eq & J). pose proof (ex_left _ _ X q J) as Uq. apply unspent_ids in Uq as (Uq & _). rewrite (made_one l' q o (lc_made l' C') Uq U1 Eq) in J. specialize (Own o J). rewrite (swap_apart H addrs o k HH Ta K) in Own. discriminate Own.
    - destruct (C94_run H S256 sign ip is at_ l l' c HH L S64 F C R) as (F' & C' & _). destruct (IH F C I) as [U|(e' & Ie & D)]; [|right; exists e'; split; [right; exact Ie|exact D]].
      destruct (claim_step H S256 sign ip is at_ l' id fee t e HH L S64 F' C' O Rc) as (q & k' & Iq & _ & Kq & X & Sp & _ & D).
      apply unspent_ids in U as (U1 & U2). apply unspent_ids in Iq as (Iq & _). destruct (list_eq_dec N.eq_dec (o_id q) (o_id o)) as [Eq|Nq].
      + right. exists e. split; [now left|]. pose proof (made_one l' q o (lc_made l' C') Iq U1 Eq) as Eqo. rewrite Eqo in *. destruct (same_contract o k k' K Kq) as (E1 & E2 & E3 & E4).
        unfold redeemed, refunded in *. rewrite E1, E2, E3, E4. exact D.
      + left. apply unspent_ids. cbn [all_made all_spent flat_map]. split; [apply in_or_app; now right|]. rewrite Sp. cbn [app ids map]. intros [J|J]; [exact (Nq J)|exact (U2 J)].
    - destruct (C94_run H S256 sign ip is at_ l l' c HH L S64 F C R) as (_ & C' & _). destruct (moved_ledger l' m l'' C' P Mv) as (_ & Q & _). destruct (IH F C I) as [U|(e & Ie & D)]; [left; now apply Q|right].
      apply (Permutation_in _ P) in Ie. destruct (Forall2_in_l _ _ _ Mv e Ie) as (e' & Ie' & Me). exists e'. split; [exact Ie'|]. exact (moved_fate S256 at_ o k e e' Me D). }
  destruct G as [G|(e & Ie & D)]; [now left|right]. exists e. split; [exact Ie|]. split; [exact D|]. intros e' Ie' J.
  destruct (C94_run H S256 sign ip is at_ l l' c HH L S64 F C R) as (_ & C' & _).
  assert (Io : In o (Spec_Ledger.spends e)) by (destruct D as [(fee & sec & (Sp & _) & _)|(fee & time & (Sp & _) & _)]; rewrite Sp; now left).
  apply in_map_iff in J as (q & Eq & J). exact (proj1 (flat_ids Spec_Ledger.spends l' e' e q o (lc_once l' C') Ie' Ie J Io Eq)).
Qed.
Print Assumptions C94_fate.

(** So before the refund time nobody but the receiver, who needs the secret for it, takes it. *)
Theorem C94_safe : forall H S256 (sign : pubkey -> bytes -> bytes) ip_parse ip_str (at_ : Z -> Prop) l l' c o k, hash_ok H -> ip_library ip_parse ip_str -> (forall k h, length (sign k h) = 64%nat) ->
  Forall (entry_ok ip_parse) l -> consistent_ledger l -> In o (unspent l) -> is_contract o k -> (forall time, at_ time -> (time < k_refund k)%Z) -> trade H S256 sign ip_parse ip_str at_ l l' c ->
  In o (unspent l') \/ exists e, In e l' /\ redeemed S256 o k e.
Proof.
  intros H S256 sign ip is at_ l l' c o k HH L S64 F C I K Early R. destruct (C94_fate H S256 sign ip is at_ l l' c o k HH L S64 F C I K R) as [U|(e & Ie & D & _)]; [now left|right]. exists e. split; [exact Ie|].
  destruct D as [D|(fee & time & _ & At & T)]; [exact D|]. specialize (Early time At). lia.
Qed.
Print Assumptions C94_safe.

(** ** Claims are possible *)
(** As long as the contract is there, who has the receiver's key and the secret can redeem it, and, from the refund time on, who has the sender's key can refund it. *)
Theorem C94_works : forall H S256 (sign : pubkey -> bytes -> bytes) ip_parse ip_str now net primary ks l o k, hash_ok H -> ip_library ip_parse ip_str -> (forall k h, length (sign k h) = 64%nat) ->
  (forall x, length (S256 x) = 32%nat) -> wallet_ok H primary ks -> Forall (fun k => small_key (snd k)) ks ->
  Forall (entry_ok ip_parse) l -> consistent_ledger l -> In o (unspent l) -> hash32 (o_id o) -> o_id o <> zeros 32 ->
  shows_output H ip_str l (o_id o) (net (s2b "/explorer/hashes/" ++ hash_str (o_id o))) -> is_contract o k -> address (k_sender k) -> address (k_receiver k) -> modest (k_amount k) ->
  forall fee data, fee <= k_amount k -> (length data <= 83)%nat ->
  (forall secret sec, secret_new secret = Ok sec -> k_hash k = Some (S256 sec) -> has_key H ks (k_receiver k) -> real_address H (k_receiver k) ->
     exists t, redeem H S256 sign primary ks (output_fetch H ip_parse now net) fee (o_id o) secret data = Ok t) /\
  (forall time, (k_refund k <= time)%Z -> has_key H ks (k_sender k) -> real_address H (k_sender k) ->
     exists t, AtomicSwap.refund H sign time primary ks (output_fetch H ip_parse now net) fee (o_id o) data = Ok t).
Proof.
  intros H S256 sign ip is now net primary ks l o k HH L S64 L2 WO SK F C I Hid Nz Sh K As Ar M fee data Fe Ld.
  pose proof (fetch_finds H ip is now HH L l net (o_id o) F C Hid Nz Sh o I eq_refl) as G.
  assert (SM : forall u, address u -> small_uh u).
  { intros u (T & (Lh & _) & _). split; [|lia]. destruct T as [T|[T|[T|T]]]; rewrite T; lia. }
  split.
  - intros secret sec Sec Kh Hk Re. exact (C40_redeem_works H S256 sign primary ks S64 HH WO L2 SK _ fee (o_id o) secret sec data o k G K Hk Re Sec Kh Fe Ld (SM _ As) (SM _ Ar) M).
  - intros time T Hk Re. exact (C40_refund_works H sign primary ks S64 HH WO SK time _ fee (o_id o) data o k G K Hk Re T Fe Ld (SM _ As) (SM _ Ar) M).
Qed.
Print Assumptions C94_works.
(** Once it was claimed, no library makes a claim any more; and when the claim is in a later block than the contract everyone is told that it is spent. *)
Theorem C94_gone : forall H S256 (sign : pubkey -> bytes -> bytes) ip_parse ip_str now net primary ks l o k, hash_ok H -> ip_library ip_parse ip_str ->
  Forall (entry_ok ip_parse) l -> consistent_ledger l -> In o (all_made l) -> ~ In o (unspent l) -> hash32 (o_id o) -> o_id o <> zeros 32 -> is_contract o k ->
  shows_output H ip_str l (o_id o) (net (s2b "/explorer/hashes/" ++ hash_str (o_id o))) ->
  forall fee data secret time, let get := output_fetch H ip_parse now net in
  (forall t, redeem H S256 sign primary ks get fee (o_id o) secret data <> Ok t /\ AtomicSwap.refund H sign time primary ks get fee (o_id o) data <> Ok t) /\
  ((exists c s, In c l /\ In s l /\ In o (makes c) /\ In o (Spec_Ledger.spends s) /\ earlier c s) ->
     redeem H S256 sign primary ks get fee (o_id o) secret data = Err AtomicSwapContractSpent /\ AtomicSwap.refund H sign time primary ks get fee (o_id o) data = Err AtomicSwapContractSpent).
Proof.
  intros H S256 sign ip is now net primary ks l o k HH L F C I N Hid Nz K Sh fee data secret time get. split.
  - assert (G : forall o', get (o_id o) <> Ok (o', false)).
    { intros o' E. apply (fetch_unspent H ip is now HH L l net (o_id o) F Hid Nz Sh) in E as (U & E). apply N. pose proof U as U'. apply unspent_ids in U' as (U' & _). rewrite <- (made_one l o' o (lc_made l C) U' I E). exact U. }
    intro t. split; intro E.
    + unfold redeem in E. apply bind_ok in E as ([o' b] & Ef & E). apply (proj1 (fetch_ok _ _ _ _)) in Ef. apply bind_ok in E as (k' & _ & E). apply bind_ok in E as (? & B & _). apply guard_ok in B. apply negb_true_iff in B. subst b. exact (G o' Ef).
    + unfold AtomicSwap.refund in E. apply bind_ok in E as ([o' b] & Ef & E). apply (proj1 (fetch_ok _ _ _ _)) in Ef. apply bind_ok in E as (k' & _ & E). apply bind_ok in E as (? & B & _). apply guard_ok in B. apply negb_true_iff in B. subst b. exact (G o' Ef).
  - intros (c & s & Ic & Is & Io & Ios & Ea). destruct (C94_spend H ip is now net l c s o HH L F C Ic Is Io Ios Ea Hid Nz Sh) as (x & y & E & _).
    assert (G : get (o_id o) = Ok (o, true)) by (unfold get, output_fetch; rewrite E; reflexivity).
    destruct (C78_once H S256 sign primary ks get fee (o_id o) secret data time o k G K) as (A & B & _). auto.
Qed.
Print Assumptions C94_gone.

(** ** Exchanging *)
Lemma trade_made H S256 sign ip_parse ip_str (at_ : Z -> Prop) l l' c : hash_ok H -> ip_library ip_parse ip_str -> (forall k h, length (sign k h) = 64%nat) ->
  Forall (entry_ok ip_parse) l -> consistent_ledger l -> trade H S256 sign ip_parse ip_str at_ l l' c -> forall o, In o (all_made l) -> In o (all_made l').
Proof.
  intros HH L S64 F C R. induction R as [l|l l' c t e p R IH O Rc Ok|l l' c t e fee R IH O Rc Ok|l l' c t e id fee R IH O Rc Ok|l l' l'' m c R IH P Mv F']; intros o I; [exact I|..].
  - cbn [all_made flat_map]. apply in_or_app. right. exact (IH F C o I).
  - cbn [all_made flat_map]. apply in_or_app. right. exact (IH F C o I).
  - cbn [all_made flat_map]. apply in_or_app. right. exact (IH F C o I).
  - destruct (C94_run H S256 sign ip_parse ip_str at_ l l' c HH L S64 F C R) as (_ & C' & _). destruct (moved_ledger l' m l'' C' P Mv) as (_ & _ & Q). exact (Q o (IH F C o I)).
Qed.
(** Two contracts with the same secret hash, on two chains (or one).  When the second was taken before its refund time, then its sender can look the secret up,
    and with it redeem the first, as long as that is there. *)
Theorem C94_exchange : forall H S256 (sign : pubkey -> bytes -> bytes) ip_parse ip_str h, hash_ok H -> ip_library ip_parse ip_str -> (forall k h, length (sign k h) = 64%nat) -> (forall x, length (S256 x) = 32%nat) ->
  S256 [] <> h ->
  (* the second contract *)
  forall (at_ : Z -> Prop) l l' c o' k', Forall (entry_ok ip_parse) l -> consistent_ledger l -> In o' (unspent l) -> is_contract o' k' -> k_hash k' = Some h -> (forall time, at_ time -> (time < k_refund k')%Z) ->
  trade H S256 sign ip_parse ip_str at_ l l' c -> ~ In o' (unspent l') -> (forall e s, In e l' -> In s l' -> In o' (makes e) -> In o' (Spec_Ledger.spends s) -> earlier e s) ->
  hash32 (o_id o') -> o_id o' <> zeros 32 -> forall now' net', shows_output H ip_str l' (o_id o') (net' (s2b "/explorer/hashes/" ++ hash_str (o_id o'))) ->
  (* the first contract *)
  forall m o k, Forall (entry_ok ip_parse) m -> consistent_ledger m -> In o (unspent m) -> is_contract o k -> k_hash k = Some h -> address (k_sender k) -> address (k_receiver k) -> modest (k_amount k) ->
  hash32 (o_id o) -> o_id o <> zeros 32 -> forall now net, shows_output H ip_str m (o_id o) (net (s2b "/explorer/hashes/" ++ hash_str (o_id o))) ->
  (* the wallet with the key of the receiver of the first *)
  forall primary ks fee data, wallet_ok H primary ks -> Forall (fun k => small_key (snd k)) ks -> has_key H ks (k_receiver k) -> real_address H (k_receiver k) -> fee <= k_amount k -> (length data <= 83)%nat ->
  exists sec x y i p sg, client_output_get H ip_parse now' net' KCoin (BVBytes (o_id o')) = Ok (o', x, Some y) /\ inputs_of (e_txn y) = [i] /\ i_ff i = FSwap p sg (Some sec) /\
    exists t, redeem H S256 sign primary ks (output_fetch H ip_parse now net) fee (o_id o) (BVBytes sec) data = Ok t.
Proof.
  intros H S256 sign ip is h HH L S64 L2 Nh at_ l l' c o' k' F C I' K' Kh' Early R N Ea Hid' Nz' now' net' Sh' m o k Fm Cm I K Kh As Ar M Hid Nz now net Sh primary ks fee data WO SK Hk Re Fe Ld.
  destruct (C94_safe H S256 sign ip is at_ l l' c o' k' HH L S64 F C I' K' Early R) as [U|(s & Is & fee' & sec & Co & Ks & Rv)]; [contradiction|].
  destruct (C94_run H S256 sign ip is at_ l l' c HH L S64 F C R) as (F' & C' & _).
  rewrite Kh' in Ks. injection Ks as Eh. destruct Rv as [(Rv & Ls)|Rv]; [|subst sec; symmetry in Eh; contradiction].
  assert (Im : In o' (all_made l')) by (apply (trade_made H S256 sign ip is at_ l l' c HH L S64 F C R); apply unspent_ids in I'; tauto). apply in_flat_map in Im as (e & Ie & Io).
  assert (Ios : In o' (Spec_Ledger.spends s)) by (destruct Co as (-> & _); now left).
  destruct (C94_secret H ip is now' net' l' e s o' sec HH L F' C' Ie Is Io Ios (Ea e s Ie Is Io Ios) Hid' Nz' Sh' Rv) as (x & y & i & p & sg & E & Ei & _ & Ef).
  exists sec, x, y, i, p, sg. split; [exact E|]. split; [exact Ei|]. split; [exact Ef|].
  apply (proj1 (C94_works H S256 sign ip is now net primary ks m o k HH L S64 L2 WO SK Fm Cm I Hid Nz Sh K As Ar M fee data Fe Ld) (BVBytes sec) sec); auto.
  - change (hash_new (BVBytes sec) = Ok sec). apply hash_new_ok. split; [reflexivity|now right].
  - rewrite Kh, Eh. reflexivity.
Qed.
Print Assumptions C94_exchange.

(** *** Cases: the wallet of the cases of C36 makes a contract of 5 TFT for the key 9, which redeems it in the next block. *)
Definition extr_pay : txn := Eval vm_compute in match wallet_contract ex_H2 ex_sign 1500000000 exo_x (ex_key_uh 9) (5 * TFT) (exs_S exs_secret) 1600000000 exo_f [] true with Ok (t, _) => t | Err _ => ex_std end.
Definition extr_c : entry := Eval vm_compute in mkentry extr_pay (repeat 61 32) (spent_by extr_pay) [] (map o_id (coin_outputs extr_pay)) [] (Some 11%Z).
Definition extr_o : output := Eval vm_compute in match coin_outputs extr_pay with o :: _ => o | [] => exo_a end.
Definition extr_k : contract := mkct (o_id extr_o) (5 * TFT) (ex_key_uh 7) (ex_key_uh 9) (Some (exs_S exs_secret)) 1600000000 true.
Definition extr_json (e : entry) (h : Z) : json :=
  JObj [("id"%string, JStr (hash_str (en_id e))); ("height"%string, JNum h); ("rawtransaction"%string, exx_raw (en_txn e));
        ("coininputoutputs"%string, JArr (map exx_out (en_parents e))); ("coinoutputids"%string, JArr (map (fun i => JStr (hash_str i)) (en_ids e)));
        ("blockstakeinputoutputs"%string, JArr []); ("blockstakeoutputids"%string, JArr []); ("unconfirmed"%string, JBool false)].
Definition extr_net (l : list json) : pystr -> res json := fun a =>
  if existsb (fun i => listN_eqb a (s2b "/explorer/hashes/" ++ hash_str i)) (en_ids extr_c) then Ok (exx_resp "coinoutputid" l) else Err ExplorerNoContent.
Definition extr_claim : res txn := redeem ex_H2 exs_S ex_sign (ex_addr 9) exy_ks (output_fetch ex_H2 ex_ip_parse 0 (extr_net [extr_json extr_c 11])) 100000000 (o_id extr_o) (BVBytes exs_secret) [].
Definition extr_take : txn := Eval vm_compute in match extr_claim with Ok t => t | Err _ => ex_std end.
Definition extr_s : entry := Eval vm_compute in mkentry extr_take (repeat 62 32) (spent_by extr_take) [] [repeat 63 32] [] (Some 12%Z).
Lemma extr_ok : Forall (entry_ok ex_ip_parse) [extr_s; extr_c].
Proof. repeat apply Forall_cons; try apply Forall_nil; apply exe_entry_ok; vm_compute; reflexivity. Qed.
Lemma extr_told1 : tells ex_H2 ex_ip_str (extr_json extr_c 11) extr_c.
Proof.
  split.
  - eexists. split; [eexists; split; [reflexivity|]; vm_compute; reflexivity|]. eexists. split; [vm_compute; reflexivity|]. split; [eexists; split; [reflexivity|]; vm_compute; reflexivity|].
    left. eexists. split; [reflexivity|]. vm_compute. reflexivity.
  - eexists. split; reflexivity.
  - eexists. split; [left; eexists; split; [reflexivity|]; vm_compute; reflexivity|]. constructor; [vm_compute; reflexivity|constructor].
  - eexists. split; [left; eexists; split; [reflexivity|]; vm_compute; reflexivity|]. constructor; [vm_compute; reflexivity|]. constructor; [vm_compute; reflexivity|constructor].
  - eexists. split; [left; eexists; split; [reflexivity|]; vm_compute; reflexivity|]. constructor.
  - eexists. split; [left; eexists; split; [reflexivity|]; vm_compute; reflexivity|]. constructor.
  - split; [left; eexists; split; reflexivity|eexists; split; reflexivity].
Qed.
Lemma extr_told2 : tells ex_H2 ex_ip_str (extr_json extr_s 12) extr_s.
Proof.
  split.
  - eexists. split; [eexists; split; [reflexivity|]; vm_compute; reflexivity|]. eexists. split; [vm_compute; reflexivity|]. split; [eexists; split; [reflexivity|]; vm_compute; reflexivity|].
    left. eexists. split; [reflexivity|]. vm_compute. reflexivity.
  - eexists. split; reflexivity.
  - eexists. split; [left; eexists; split; [reflexivity|]; vm_compute; reflexivity|]. constructor; [vm_compute; reflexivity|constructor].
  - eexists. split; [left; eexists; split; [reflexivity|]; vm_compute; reflexivity|]. constructor; [vm_compute; reflexivity|constructor].
  - eexists. split; [left; eexists; split; [reflexivity|]; vm_compute; reflexivity|]. constructor.
  - eexists. split; [left; eexists; split; [reflexivity|]; vm_compute; reflexivity|]. constructor.
  - split; [left; eexists; split; reflexivity|eexists; split; reflexivity].
Qed.
Lemma extr_consistent : consistent_ledger [extr_c] /\ consistent_ledger [extr_s; extr_c].
Proof.
  split; split.
  1, 3, 4, 6: vm_compute; repeat (constructor; [intros I; repeat destruct I as [I|I]; try contradiction; discriminate I|]); constructor.
  all: intros o p I J E; vm_compute in I, J; repeat destruct I as [<-|I]; try contradiction; repeat destruct J as [<-|J]; try contradiction; try discriminate E; reflexivity.
Qed.
Lemma extr_hash : hash32 (o_id extr_o) /\ o_id extr_o <> zeros 32.
Proof. split; [split; vm_compute; [reflexivity|repeat constructor]|vm_compute; discriminate]. Qed.
(** the explorer shows the ledger, before and after *)
Lemma extr_made : shows_output ex_H2 ex_ip_str [extr_c] (o_id extr_o) (extr_net [extr_json extr_c 11] (s2b "/explorer/hashes/" ++ hash_str (o_id extr_o))).
Proof.
  right. exists (exx_resp "coinoutputid" [extr_json extr_c 11]), extr_c, (extr_json extr_c 11). split; [vm_compute; reflexivity|]. split; [eexists; split; reflexivity|]. split; [now left|]. split; [vm_compute; now left|].
  split; [exact extr_told1|]. left. split; [|eexists; split; reflexivity]. vm_compute. intros I. repeat destruct I as [I|I]; try contradiction; discriminate I.
Qed.
Lemma extr_spent : shows_output ex_H2 ex_ip_str [extr_s; extr_c] (o_id extr_o) (extr_net [extr_json extr_c 11; extr_json extr_s 12] (s2b "/explorer/hashes/" ++ hash_str (o_id extr_o))).
Proof.
  right. exists (exx_resp "coinoutputid" [extr_json extr_c 11; extr_json extr_s 12]), extr_c, (extr_json extr_c 11). split; [vm_compute; reflexivity|]. split; [eexists; split; reflexivity|]. split; [right; now left|]. split; [vm_compute; now left|].
  split; [exact extr_told1|]. right. exists extr_s, (extr_json extr_s 12). split; [now left|]. split; [vm_compute; now left|]. split; [exact extr_told2|]. left. eexists; split; reflexivity.
Qed.
Lemma extr_honest : honest_outputs ex_H2 ex_ip_str [extr_c] (extr_net [extr_json extr_c 11]).
Proof.
  intros id Hid. unfold extr_net. destruct (existsb _ (en_ids extr_c)) eqn:E.
  - apply existsb_exists in E as (i & Ii & E). apply (proj1 (listN_eqb_eq _ _)) in E. apply app_inv_head in E.
    assert (Hi : hash32 i) by (vm_compute in Ii; repeat destruct Ii as [<-|Ii]; try contradiction; split; vm_compute; try reflexivity; repeat constructor).
    rewrite !hash_str_full in E by assumption. apply hex_inj in E; [subst i|apply Hid|apply Hi].
    right. exists (exx_resp "coinoutputid" [extr_json extr_c 11]), extr_c, (extr_json extr_c 11). split; [reflexivity|]. split; [eexists; split; reflexivity|]. split; [now left|].
    split. { assert (Em : ids (makes extr_c) = en_ids extr_c) by (vm_compute; reflexivity). rewrite Em. exact Ii. }
    split; [exact extr_told1|]. left. split; [|eexists; split; reflexivity].
    intro J. vm_compute in Ii, J. repeat destruct Ii as [<-|Ii]; try contradiction; repeat destruct J as [J|J]; try contradiction; discriminate J.
  - left. split; [|now left]. intro J. assert (Em : ids (all_made [extr_c]) = en_ids extr_c) by (vm_compute; reflexivity). rewrite Em in J.
    assert (B : existsb (fun i => listN_eqb (s2b "/explorer/hashes/" ++ hash_str id) (s2b "/explorer/hashes/" ++ hash_str i)) (en_ids extr_c) = true) by (apply existsb_exists; exists id; split; [exact J|apply listN_eqb_refl]).
    rewrite B in E. discriminate E.
Qed.
(** the contract is one, it is there before and not after, the claim is taken into the ledger and tells the secret *)
Example C94_ex : In extr_o (unspent [extr_c]) /\ is_contract extr_o extr_k /\ ~ In extr_o (unspent [extr_s; extr_c]) /\
  extr_claim = Ok extr_take /\ recorded extr_take [extr_c] extr_s /\ earlier extr_c extr_s /\ reveals extr_s exs_secret /\
  map o_value (unspent [extr_c]) = [5 * TFT; 994900000000] /\ map o_value (unspent [extr_s; extr_c]) = [4900000000; 994900000000].
Proof.
  split; [vm_compute; now left|]. split. { split; [vm_compute; reflexivity|]. repeat split; vm_compute; reflexivity. }
  split. { vm_compute. intros I. repeat destruct I as [I|I]; try contradiction; discriminate I. }
  split; [vm_compute; reflexivity|]. split.
  - split; [reflexivity|]. split; [reflexivity|]. split; [vm_compute; reflexivity|]. split; [repeat constructor; intros []|].
    intros i [<-|[]]. split; intro I; vm_compute in I; repeat destruct I as [I|I]; try contradiction; discriminate I.
  - split; [exists 11%Z, 12%Z; repeat split|]. split; [|split; vm_compute; reflexivity]. eexists _, _, _. split; vm_compute; reflexivity.
Qed.
(** a history in which the contract is claimed *)
Example C94_ex_trade : trade ex_H2 exs_S ex_sign ex_ip_parse ex_ip_str (fun time => (time < 1600000000)%Z) [extr_c] [extr_s; extr_c] 100000000.
Proof.
  apply (T_claims _ _ _ _ _ _ [extr_c] [extr_c] 0 extr_take extr_s (o_id extr_o) 100000000); [apply T_start| |apply C94_ex|].
  - exists 0%Z, (extr_net [extr_json extr_c 11]), (ex_addr 9), exy_ks, []. split; [apply C78_ex|]. split; [apply extr_hash|]. split; [apply extr_hash|]. split; [exact extr_honest|].
    left. exists (BVBytes exs_secret). apply C94_ex.
  - pose proof extr_ok as K. inversion K; assumption.
Qed.
(** and now anyone can look the secret up, and nobody can claim it again *)
Example C94_ex_after : (exists x y i p s, client_output_get ex_H2 ex_ip_parse 0 (extr_net [extr_json extr_c 11; extr_json extr_s 12]) KCoin (BVBytes (o_id extr_o)) = Ok (extr_o, x, Some y) /\
    inputs_of (e_txn y) = [i] /\ i_ff i = FSwap p s (Some exs_secret)) /\
  redeem ex_H2 exs_S ex_sign (ex_addr 9) exy_ks (output_fetch ex_H2 ex_ip_parse 0 (extr_net [extr_json extr_c 11; extr_json extr_s 12])) 100000000 (o_id extr_o) (BVBytes exs_secret) [] = Err AtomicSwapContractSpent.
Proof. split; [do 5 eexists; split; [|split]|]; vm_compute; reflexivity. Qed.
