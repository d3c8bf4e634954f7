(** Theorems about wallets made anew from their seed, and about what a wallet can pay by the ledger (C91, C90). *)
From Coq Require Import Permutation.
From Verif Require Import Base BaseFacts Encoders Currency Primitive Types Conditions Fulfillments ThreeBotTypes Txn TxnJson TxnSign Wallet Explorer AtomicSwap Ops WalletLoad Submit Session KeyScan Recover
  Spec_Types Spec_Txn Spec_Json Spec_ThreeBot Spec_Currency Spec_Wallet Spec_Ops Spec_Sign Spec_Swap Spec_Fits Spec_Afford Spec_Afford2 Spec_Explorer Spec_Load Spec_Session Spec_Lookup Spec_Keys
  TypesFacts ConditionFacts ConditionFacts2 WalletFacts WalletFacts2 FundFacts2 ExplorerFacts ExplorerFacts2 ExplorerFacts3 LookupFacts LoadFacts SessionFacts AffordFacts AffordFacts2 AffordFacts3 KeyFacts Prop_Keys Prop_Load Prop_Ops Prop_Afford Spec_Ledger LedgerFacts Prop_Ledger Spec_Recover RecoverFacts.
From Coq Require Import ZifyBool ZifyNat ZifyN.
Ltac Zify.zify_post_hook ::= Z.div_mod_to_equations.

(** ** C90 *)
(** Sending from the wallet's own addresses, with explorers that show the ledger and take the transaction: if at most 99 outputs of the ledger that are the
    wallet's, unspent and not locked are worth the amount and the fee, one complete transaction is submitted, which pays the amount to the recipient;
    otherwise nothing is submitted and the complaint is that there is not enough money. *)
Theorem C90_pays : forall H S256 (sign : pubkey -> bytes -> bytes) ip_parse ip_str now put own rebal net h t k v w l recipient amount data,
  hash_ok H -> ip_library ip_parse ip_str -> (forall k h, length (sign k h) = 64%nat) -> Forall (entry_ok ip_parse) l -> consistent_ledger l ->
  Forall (text_of H 1) (v_addrs v) -> wallet_ok H (v_primary v) (v_keys v) -> Forall (holds_key H (v_keys v)) (v_addrs v) -> small_uh (v_address v) ->
  honest H ip_str l net (v_addrs v) -> wallet_balance H ip_parse now net (h, t, k) (v_addrs v) = Ok w -> (0 < h)%Z -> (0 < t)%Z -> modest (fortune H (v_addrs v) l) ->
  (forall u, fst (put u) = true) -> fits_cond recipient -> 0 < amount -> (length data <= 83)%nat ->
  let r := perform H S256 sign ip_parse now put own rebal net (h, t, k) v (OSend recipient amount (mkfunding None None) data) in
  (ledger_pays H l (v_addrs v) h t (amount + v_fee v) -> exists u, fst r = [u] /\ complete u /\ hd_error (coin_outputs u) = Some (mkout amount recipient [])) /\
  (~ ledger_pays H l (v_addrs v) h t (amount + v_fee v) -> r = ([], Err InsufficientFunds)).
Proof.
  intros H S256 sign ip is now put own rebal net h t k v w l recipient amount data HH L S64 F C T WO KA SU Ho W Ph Pt M Pu FC Pos LD r.
  pose proof (ledger_ready H ip is now HH L net h t k (v_addrs v) w l F C T Ho W Ph Pt v eq_refl WO KA SU M) as Re.
  pose proof (pays_iff H ip is now HH L net h t k (v_addrs v) w l F C T Ho W Ph Pt) as Iff.
  pose proof (C77_send H sign _ recipient amount _ data HH S64 Re FC Pos LD) as G. unfold r, perform, opened. rewrite W. cbn [bind]. unfold Submit.run, prepare.
  unfold goes_through in G. cbn [x_fee x_bal f_source purse_of] in G.
  destruct (wallet_send H sign _ recipient amount _ data) as [[u b]|e] eqn:E.
  - destruct G as (-> & A). cbn [fst]. rewrite Pu. split; [|intro X; exfalso; apply X; apply Iff; exact A]. intros _. exists u. split; [reflexivity|].
    apply C36_send in E as (_ & (_ & _ & ins & used & rem & _ & _ & _ & _ & ->) & _ & B). split; [apply B; reflexivity|reflexivity].
  - destruct G as (-> & A). split; [intro X; exfalso; apply A; apply Iff; exact X|reflexivity].
Qed.
Print Assumptions C90_pays.

(** ** C91 *)
(** *** A lemma: what the balance of a recovered wallet is collected from *)
Lemma recovered H pub ip_parse ip_str now seed addr l m ask fuel n start scan k a : hash_ok H -> ip_library ip_parse ip_str -> seeded H pub seed addr ->
  Forall (entry_ok ip_parse) l -> all_before H addr l m -> (Z.of_nat m <= 2 ^ 64)%Z -> (n <= 2 ^ 64)%Z ->
  tell H ip_str l addr ask -> (0 < scan_count scan)%nat -> wallet_keys addr (probe_of H ip_parse now ask) fuel n start scan = Some (k, a) ->
  without_gaps H addr l (Z.to_nat (Z.max 1 n)) \/ all_before H addr l (Z.to_nat (Z.max 1 n) + scan_count scan) ->
  kinv k /\ a = Ok (addr 0%nat) /\
  forall ask' fuel' count' net info k' r, tell H ip_str l addr ask' -> (forall i, tell H ip_str l addr (net i)) ->
    balance_get H ip_parse now addr ask' fuel' count' net info k = Some (k', r) ->
    (forall i, touched H addr l i -> loaded k' i) /\ (forall i, loaded k' i -> (Z.of_nat i < 2 ^ 64)%Z) /\ Forall (text_of H 1) (map addr (k_pairs k')) /\ honest H ip_str l net (map addr (k_pairs k')) /\
    r = wallet_balance H ip_parse now net info (map addr (k_pairs k')) /\ (forall x e, In e l -> concerns H x e -> (In x (map addr (k_pairs k')) <-> In x (map addr (seq 0 m)))).
Proof.
  intros HH L Se F Be Bm Bn Te C0 E G.
  destruct (open_loads H ip_parse ip_str now pub seed addr HH L Se l ask m F Te Be Bm fuel n start scan k a C0 E G) as (V & Ea & _ & Lt & Ll). split; [exact V|]. split; [exact Ea|].
  intros ask' fuel' count' net info k' r Te' Tn E'. unfold balance_get in E'.
  destruct (key_scan addr (probe_of H ip_parse now ask') fuel' count' k) as [[k1 r1]|] eqn:S1; [|discriminate E'].
  destruct (scan_adds H ip_parse ip_str now pub seed addr HH L Se l ask' m F Te' Be Bm fuel' count' k k1 r1 V S1) as (V1 & O1 & A1 & B1). destruct r1 as [b1|]; [|discriminate O1].
  unfold addresses in E'. destruct (key_scan addr (probe_of H ip_parse now ask') fuel' count' k1) as [[k2 r2]|] eqn:S2; [|discriminate E'].
  destruct (scan_adds H ip_parse ip_str now pub seed addr HH L Se l ask' m F Te' Be Bm fuel' count' k1 k2 r2 V1 S2) as (V2 & O2 & A2 & B2). destruct r2 as [b2|]; [|discriminate O2].
  cbn [bind] in E'. injection E' as <- <-.
  assert (Bd : forall i, loaded k2 i -> (Z.of_nat i < 2 ^ 64)%Z).
  { intros i I. assert (D : (i < Z.to_nat (Z.max 1 n))%nat \/ touched H addr l i). { apply B2 in I as [I|I]; [apply B1 in I as [I|I]; [exact (Ll i I)|auto]|auto]. }
    destruct D as [D|D]; [|apply Be in D]; lia. }
  assert (Al : forall i, touched H addr l i -> loaded k2 i) by (intros i I; auto). split; [exact Al|]. split; [exact Bd|]. split; [|split; [|split; [reflexivity|]]].
  - apply Forall_forall. intros x I. apply in_map_iff in I as (i & <- & I). exact (text_at H pub seed addr HH Se i (Bd i I)).
  - intros q x I. apply in_map_iff in I as (i & <- & I). destruct (Tn q i) as [(Q & N)|(_ & _ & Q)]; [|exact Q]. exists []. left. split; [exact Q|]. intros e Ie Ce. apply N. exists e. auto.
  - intros x e Ie Ce. split; intro I; apply in_map_iff in I as (i & <- & I); apply in_map.
    + apply in_seq. assert (i < m)%nat; [apply Be; exists e; auto|lia].
    + apply Al. exists e. auto.
Qed.
(** A wallet opened anew from its seed, with any number of keys to start with, and any window of at least one key to scan for more: if the keys that follow
    are used without gaps, or all used ones are within the window, then its balance is all that the seed's owner has. *)
Theorem C91_recovers : forall H pub ip_parse ip_str now seed addr l m ask fuel n start scan k a, hash_ok H -> ip_library ip_parse ip_str -> seeded H pub seed addr ->
  Forall (entry_ok ip_parse) l -> consistent_ledger l -> all_before H addr l m -> (Z.of_nat m <= 2 ^ 64)%Z -> (n <= 2 ^ 64)%Z ->
  tell H ip_str l addr ask -> (0 < scan_count scan)%nat -> wallet_keys addr (probe_of H ip_parse now ask) fuel n start scan = Some (k, a) ->
  without_gaps H addr l (Z.to_nat (Z.max 1 n)) \/ all_before H addr l (Z.to_nat (Z.max 1 n) + scan_count scan) ->
  a = Ok (addr 0%nat) /\
  forall ask' fuel' count' net info k' w, tell H ip_str l addr ask' -> (forall i, tell H ip_str l addr (net i)) ->
    balance_get H ip_parse now addr ask' fuel' count' net info k = Some (k', Ok w) -> everything w = belongings H addr l m.
Proof.
  intros H pub ip is now seed addr l m ask fuel n start scan k a HH L Se F C Be Bm Bn Te C0 E G.
  destruct (recovered H pub ip is now seed addr l m ask fuel n start scan k a HH L Se F Be Bm Bn Te C0 E G) as (_ & Ea & R). split; [exact Ea|].
  intros ask' fuel' count' net info k' w Te' Tn E'. destruct (R _ _ _ _ _ _ _ Te' Tn E') as (_ & _ & T & Ho & W & Sm). symmetry in W.
  destruct (C90_balance H ip is now net info _ w l HH L F C T Ho W) as (_ & _ & _ & _ & ->). apply fortune_same. exact Sm.
Qed.
Print Assumptions C91_recovers.
(** So two wallets of one seed, however opened, have the same amount ... *)
Theorem C91_same : forall H pub ip_parse ip_str now seed addr l m, hash_ok H -> ip_library ip_parse ip_str -> seeded H pub seed addr ->
  Forall (entry_ok ip_parse) l -> consistent_ledger l -> all_before H addr l m -> (Z.of_nat m <= 2 ^ 64)%Z -> without_gaps H addr l 1 ->
  forall ask1 ask2 fuel1 fuel2 n1 n2 start1 start2 scan1 scan2 k1 k2 a1 a2, (n1 <= 2 ^ 64)%Z -> (n2 <= 2 ^ 64)%Z -> tell H ip_str l addr ask1 -> tell H ip_str l addr ask2 ->
  (0 < scan_count scan1)%nat -> (0 < scan_count scan2)%nat ->
  wallet_keys addr (probe_of H ip_parse now ask1) fuel1 n1 start1 scan1 = Some (k1, a1) -> wallet_keys addr (probe_of H ip_parse now ask2) fuel2 n2 start2 scan2 = Some (k2, a2) ->
  forall net1 net2 info1 info2 fuel1' fuel2' count1 count2 k1' k2' w1 w2, (forall i, tell H ip_str l addr (net1 i)) -> (forall i, tell H ip_str l addr (net2 i)) ->
  balance_get H ip_parse now addr ask1 fuel1' count1 net1 info1 k1 = Some (k1', Ok w1) -> balance_get H ip_parse now addr ask2 fuel2' count2 net2 info2 k2 = Some (k2', Ok w2) ->
  everything w1 = everything w2.
Proof.
  intros H pub ip is now seed addr l m HH L Se F C Be Bm G ask1 ask2 f1 f2 n1 n2 s1 s2 sc1 sc2 k1 k2 a1 a2 B1 B2 T1 T2 C1 C2 E1 E2 net1 net2 i1 i2 g1 g2 c1 c2 k1' k2' w1 w2 N1 N2 W1 W2.
  assert (G' : forall n, without_gaps H addr l (Z.to_nat (Z.max 1 n))) by (intros n i j I; apply G; lia).
  destruct (C91_recovers H pub ip is now seed addr l m ask1 f1 n1 s1 sc1 k1 a1 HH L Se F C Be Bm B1 T1 C1 E1 (or_introl (G' n1))) as (_ & R1).
  destruct (C91_recovers H pub ip is now seed addr l m ask2 f2 n2 s2 sc2 k2 a2 HH L Se F C Be Bm B2 T2 C2 E2 (or_introl (G' n2))) as (_ & R2).
  rewrite (R1 _ _ _ _ _ _ _ T1 N1 W1), (R2 _ _ _ _ _ _ _ T2 N2 W2). reflexivity.
Qed.
Print Assumptions C91_same.
(** ... and they can spend it: a payment goes through if and only if at most 99 of all outputs of the seed's owner, unspent and not locked, suffice. *)
Theorem C91_spends : forall H pub S256 (sign : pubkey -> bytes -> bytes) ip_parse ip_str now seed addr l m ask fuel n start scan k a, hash_ok H -> ip_library ip_parse ip_str -> seeded H pub seed addr ->
  (forall k h, length (sign k h) = 64%nat) -> Forall (entry_ok ip_parse) l -> consistent_ledger l -> all_before H addr l m -> (Z.of_nat m <= 2 ^ 64)%Z -> (n <= 2 ^ 64)%Z ->
  tell H ip_str l addr ask -> (0 < scan_count scan)%nat -> wallet_keys addr (probe_of H ip_parse now ask) fuel n start scan = Some (k, a) ->
  without_gaps H addr l (Z.to_nat (Z.max 1 n)) \/ all_before H addr l (Z.to_nat (Z.max 1 n) + scan_count scan) ->
  forall ask' fuel' count' net h t b k' w fee, tell H ip_str l addr ask' -> (forall i, tell H ip_str l addr (net i)) -> (0 < h)%Z -> (0 < t)%Z ->
    balance_get H ip_parse now addr ask' fuel' count' net (h, t, b) k = Some (k', Ok w) -> modest (belongings H addr l m) ->
  exists v, purse_at H pub seed k' fee = Ok v /\
  forall put own rebal recipient amount data, (forall u, fst (put u) = true) -> fits_cond recipient -> 0 < amount -> (length data <= 83)%nat ->
  let r := perform H S256 sign ip_parse now put own rebal net (h, t, b) v (OSend recipient amount (mkfunding None None) data) in
  (ledger_pays H l (map addr (seq 0 m)) h t (amount + fee) -> exists u, fst r = [u] /\ complete u /\ hd_error (coin_outputs u) = Some (mkout amount recipient [])) /\
  (~ ledger_pays H l (map addr (seq 0 m)) h t (amount + fee) -> r = ([], Err InsufficientFunds)).
Proof.
  intros H pub S256 sign ip is now seed addr l m ask fuel n start scan k a HH L Se S64 F C Be Bm Bn Te C0 E G ask' fuel' count' net h t b k' w fee Te' Tn Ph Pt E' M.
  destruct (recovered H pub ip is now seed addr l m ask fuel n start scan k a HH L Se F Be Bm Bn Te C0 E G) as (_ & _ & R).
  destruct (R _ _ _ _ _ _ _ Te' Tn E') as (Al & Bd & T & Ho & W & Sm). symmetry in W.
  assert (P : forall l0, (forall i, In i l0 -> (Z.of_nat i < 2 ^ 64)%Z) -> exists ps, mapM (pair_at H pub seed) l0 = Ok ps /\ map fst ps = map addr l0 /\ Forall (fun x => pk_address H (snd x) = Ok (fst x)) ps).
  { induction l0 as [|i l0 IH]; intro B; [exists []; split; [reflexivity|split; [reflexivity|constructor]]|]. destruct (IH (fun j J => B j (or_intror J))) as (ps & E1 & E2 & E3).
    destruct (se_key _ _ _ _ Se i (B i (or_introl eq_refl))) as (q & Eq). exists ((addr i, q) :: ps). cbn [mapM]. rewrite Eq. cbn [bind]. rewrite E1. cbn [bind map fst]. rewrite E2.
    split; [reflexivity|]. split; [reflexivity|]. constructor; [|exact E3]. exact (proj2 (pair_text H pub seed addr HH i q Eq)). }
  destruct (P (k_pairs k') Bd) as (ps & E1 & E2 & E3). destruct (se_key _ _ _ _ Se 0%nat) as (q & Eq); [reflexivity|].
  destruct (pair_text H pub seed addr HH 0%nat q Eq) as (_ & Aq). pose proof Aq as Aq'. unfold pk_address in Aq'. apply bind_ok in Aq' as (u & Eu & _).
  exists (mkpurse (addr 0%nat) ps u (map fst ps) fee). split; [unfold purse_at; rewrite Eq; cbn [bind snd fst]; rewrite Eu; cbn [bind]; rewrite E1; reflexivity|].
  intros put own rebal recipient amount data Pu FC Pos LD. cbv zeta.
  assert (Su : small_uh u). { destruct (pk_address_fun H _ _ Eu) as (Ty & d & _ & Eh). split; [lia|]. rewrite Eh. pose proof (HH d) as (Ld & _). lia. }
  assert (KA : Forall (holds_key H ps) (map fst ps)).
  { apply Forall_forall. intros x I. split; [|rewrite E2 in I; apply in_map_iff in I as (i & <- & _); apply (se_real _ _ _ _ Se)]. apply in_map_iff in I as ([y p] & <- & I). exists p. exact I. }
  assert (Eq' : forall amt, ledger_pays H l (map fst ps) h t amt <-> ledger_pays H l (map addr (seq 0 m)) h t amt).
  { intro amt. rewrite E2. split; intros (s & N & Ls & A & Fo); exists s; (split; [exact N|]; split; [exact Ls|]; split; [exact A|]);
      (eapply Forall_impl; [|exact Fo]); intros o (I & Fa & Op); (split; [exact I|]; split; [|exact Op]);
      [rewrite <- (for_any_same H l _ _ o Sm I)|rewrite (for_any_same H l _ _ o Sm I)]; exact Fa. }
  assert (Mo : modest (fortune H (map fst ps) l)). { rewrite E2, (fortune_same H l _ _ Sm). exact M. }
  rewrite <- E2 in T, Ho, W.
  pose proof (C90_pays H S256 sign ip is now put own rebal net h t b (mkpurse (addr 0%nat) ps u (map fst ps) fee) w l recipient amount data HH L S64 F C T E3 KA Su Ho W Ph Pt Mo Pu FC Pos LD) as Fin.
  cbv zeta in Fin. cbn [v_addrs v_fee] in Fin. rewrite Eq' in Fin. exact Fin.
Qed.
Print Assumptions C91_spends.

(** Opening and asking for the balance do succeed: the scans end, the primary address is that of the first key, and if the explorers know of no
    multi-signature wallets there is a balance. *)
Theorem C91_opens : forall H pub ip_parse ip_str now seed addr l m ask n start scan, hash_ok H -> ip_library ip_parse ip_str -> seeded H pub seed addr ->
  Forall (entry_ok ip_parse) l -> all_before H addr l m -> (Z.of_nat m <= 2 ^ 64)%Z -> (n <= 2 ^ 64)%Z -> tell H ip_str l addr ask -> (0 < scan_count scan)%nat ->
  exists k, wallet_keys addr (probe_of H ip_parse now ask) (S m) n start scan = Some (k, Ok (addr 0%nat)) /\
  (without_gaps H addr l (Z.to_nat (Z.max 1 n)) \/ all_before H addr l (Z.to_nat (Z.max 1 n) + scan_count scan) ->
   forall ask' count' net h t b, tell H ip_str l addr ask' -> (forall i, tell H ip_str l addr (net i)) -> (forall i j, shows H ip_str l [] (addr j) (net i (addr j))) ->
     (0 < h)%Z -> (0 < t)%Z -> (forall o, In o (all_made l ++ all_spent l) -> exists a, Spec_Explorer.pays H a o = true) ->
     exists k' w, balance_get H ip_parse now addr ask' (S m) count' net (h, t, b) k = Some (k', Ok w)).
Proof.
  intros H pub ip is now seed addr l m ask n start scan HH L Se F Be Bm Bn Te C0. pose proof (se_apart _ _ _ _ Se) as NC.
  assert (Ends : forall ask', tell H is l addr ask' -> forall count k, kinv k -> exists k' r, key_scan addr (probe_of H ip now ask') (S m) count k = Some (k', r)).
  { intros ask' Te' count k V. unfold key_scan. destruct (_ || _) eqn:G; [eauto|]. apply orb_false_iff in G as (_ & G). apply Nat.eqb_neq in G.
    destruct (scan_loop_ends addr NC _ _ (probe_chain H ip is now pub seed addr HH L Se l ask' m F Te' Be Bm) count m (none_used H is addr l ask' m Te' Be) (S m) k) as ((k' & r) & E); [lia|exact V|lia|lia|].
    rewrite E. eauto. }
  assert (O : exists k a, wallet_keys addr (probe_of H ip now ask) (S m) n start scan = Some (k, a)).
  { unfold wallet_keys. cbv zeta. destruct (snd (key_new addr (mkkw 0 [] []))) as [i|e] eqn:E; [|eauto].
    pose proof (key_new_inv addr NC _ kinv_empty) as V1. pose proof (key_news_spec addr NC (Z.to_nat (Z.max 1 n) - 1) _ V1) as (V2 & _).
    destruct (snd (key_news addr _ (fst (key_new addr (mkkw 0 [] []))))) eqn:E2; [|eauto].
    destruct (Ends ask Te (scan_count scan) _ V2) as (k' & r & ->). eauto. }
  destruct O as (k & a & E). destruct (C38_open addr NC (probe_of H ip now ask) _ (probe_chain H ip is now pub seed addr HH L Se l ask m F Te Be Bm) (S m) n start scan k a C0 E) as (-> & _).
  exists k. split; [exact E|]. intros G ask' count' net h t b Te' Tn Sh Ph Pt Pa.
  destruct (recovered H pub ip is now seed addr l m ask (S m) n start scan k _ HH L Se F Be Bm Bn Te C0 E G) as (V & _ & R).
  assert (B : exists k' r, balance_get H ip now addr ask' (S m) count' net (h, t, b) k = Some (k', r)).
  { unfold balance_get. destruct (Ends ask' Te' count' k V) as (k1 & r1 & E1). rewrite E1. destruct r1 as [b1|]; [|eauto].
    destruct (scan_adds H ip is now pub seed addr HH L Se l ask' m F Te' Be Bm (S m) count' k k1 _ V E1) as (V1 & _). unfold addresses.
    destruct (Ends ask' Te' count' k1 V1) as (k2 & r2 & ->). eauto. }
  destruct B as (k' & r & B). destruct (R _ _ _ _ _ _ _ Te' Tn B) as (_ & _ & T & _ & Er & _).
  destruct (C90_succeeds H ip is now net h t b (map addr (k_pairs k')) l HH L Ph Pt F Pa T) as (w & Ew & _).
  { intros q x I. apply in_map_iff in I as (j & <- & _). apply Sh. }
  exists k', w. rewrite B, Er, Ew. reflexivity.
Qed.
Print Assumptions C91_opens.

(** *** Cases.  With the last 32 bytes of a text as its hash, and with private keys for public ones, the address of the key [i] of this seed holds the seed and
    the index, so that no two are the same. *)
From Verif Require Import EncodersFacts TypesFacts2 Prop_Fulfil Prop_Json Prop_ThreeBot Prop_Sign Prop_Explorer Prop_Session.
Definition exc_seed : bytes := repeat 5 32.
Definition exc_pub (b : bytes) : bytes := b.
Definition exc_hash (i : nat) : bytes := repeat 5 24 ++ le 8 (N.of_nat i).
Definition exc_uh (i : nat) : uh := mkuh 1 (exc_hash i).
Definition exc_addr (i : nat) : pystr := match pair_at ex_H2 exc_pub exc_seed i with Ok (a, _) => a | Err _ => repeat 97 i end.
Lemma exc_last x b : length b = 32%nat -> wf_bytes b -> ex_H2 (x ++ b) = b.
Proof.
  intros E W. unfold ex_H2. rewrite app_length, E. replace (length x + 32 - 32)%nat with (length x) by lia.
  rewrite skipn_app, skipn_all, Nat.sub_diag. cbn [skipn app]. rewrite <- E. apply le_le_dec. exact W.
Qed.
Lemma exc_hash_ok i : hash32 (exc_hash i).
Proof.
  split; [unfold exc_hash; rewrite app_length, le_length; reflexivity|]. apply Forall_app. split; [repeat constructor|]. apply le_wf.
Qed.
Lemma exc_uh_ok i : full_uh (exc_uh i).
Proof. split; [cbn [exc_uh uh_type]; lia|]. exact (exc_hash_ok i). Qed.
Lemma exc_pair i : (Z.of_nat i < 2 ^ 64)%Z -> exists k, pair_at ex_H2 exc_pub exc_seed i = Ok (exc_addr i, k) /\ uh_str ex_H2 (exc_uh i) = Ok (exc_addr i).
Proof.
  intro B. assert (E : key_at ex_H2 exc_pub exc_seed i = Ok (mkpk PKEd25519 (exc_hash i))).
  { unfold key_at, key_seed. rewrite sia_int_total by lia. cbn [bind]. f_equal. f_equal. unfold exc_pub, exc_seed. replace (Z.to_N (Z.of_nat i)) with (N.of_nat i) by lia.
    change (repeat 5 32) with (repeat 5 8 ++ repeat 5 24). rewrite <- app_assoc. fold (exc_hash i). apply exc_last; apply exc_hash_ok. }
  destruct (exc_hash_ok i) as (Lh & Wh).
  assert (U : pk_unlockhash ex_H2 (mkpk PKEd25519 (exc_hash i)) = Ok (exc_uh i)).
  { unfold pk_unlockhash, pk_uh_input, pk_sia. cbn [pk_hash pk_spec]. rewrite sia_slice_spec, Lh. change (Z.of_nat 32) with 32%Z. rewrite sia_int_total by lia. cbn [rapp bind].
    rewrite sia_slice_spec. rewrite sia_int_total. 2:{ rewrite !app_length, Lh, le_length. vm_compute. intuition congruence. }
    cbn [rapp bind]. unfold exc_uh. f_equal. f_equal. rewrite !app_assoc. apply exc_last; assumption. }
  destruct (uh_str_ok ex_H2 (exc_uh i) ex_H2_ok) as (c & Ec & Es); [apply exc_uh_ok|].
  exists (mkpk PKEd25519 (exc_hash i)). unfold exc_addr, pair_at. rewrite E. cbn [bind]. unfold pk_address. rewrite U. cbn [bind]. rewrite Es. cbn [bind]. split; reflexivity.
Qed.
Lemma exc_high i : ~ (Z.of_nat i < 2 ^ 64)%Z -> exc_addr i = repeat 97 i.
Proof.
  intro B. unfold exc_addr, pair_at, key_at, key_seed. rewrite sia_int_spec. replace ((0 <=? Z.of_nat i) && (Z.of_nat i <? 2 ^ 64))%Z with false by lia. reflexivity.
Qed.
Lemma exc_length i : (Z.of_nat i < 2 ^ 64)%Z -> length (exc_addr i) = 78%nat.
Proof. intro B. destruct (exc_pair i B) as (k & _ & E). refine (uh_str_length ex_H2 (exc_uh i) _ ex_H2_ok _ E). left. apply exc_hash_ok. Qed.
Lemma exc_seeded : seeded ex_H2 exc_pub exc_seed exc_addr.
Proof.
  split.
  - intros i B. destruct (exc_pair i B) as (k & E & _). exists k. exact E.
  - intros i j E. destruct (Z_lt_ge_dec (Z.of_nat i) (2 ^ 64)) as [Bi|Bi], (Z_lt_ge_dec (Z.of_nat j) (2 ^ 64)) as [Bj|Bj].
    + destruct (exc_pair i Bi) as (_ & _ & Ei). destruct (exc_pair j Bj) as (_ & _ & Ej). rewrite <- E in Ej.
      pose proof (uh_str_inj ex_H2 _ _ _ ex_H2_ok (exc_uh_ok i) (exc_uh_ok j) Ei Ej) as Q. apply (f_equal uh_hash) in Q. cbn [exc_uh uh_hash] in Q. unfold exc_hash in Q. apply app_inj_len in Q as (_ & Q); [|reflexivity].
      apply le_inj in Q; [lia| |]; change (256 ^ N.of_nat 8) with (2 ^ 64); lia.
    + exfalso. pose proof (exc_length i Bi) as Q. rewrite E, exc_high, repeat_length in Q by lia. lia.
    + exfalso. pose proof (exc_length j Bj) as Q. rewrite <- E, exc_high, repeat_length in Q by lia. lia.
    + apply (f_equal (@length N)) in E. rewrite !exc_high, !repeat_length in E by lia. exact E.
  - intros i E. destruct (Z_lt_ge_dec (Z.of_nat i) (2 ^ 64)) as [Bi|Bi].
    + destruct (exc_pair i Bi) as (_ & _ & Ei). unfold pk_address in E. apply bind_ok in E as (u & Eu & Es). vm_compute in Eu. apply ok_inj in Eu. 
      assert (Fu : full_uh u). { subst u. split; [cbn [uh_type]; lia|]. split; [reflexivity|]. repeat constructor. }
      pose proof (uh_str_inj ex_H2 _ _ _ ex_H2_ok Fu (exc_uh_ok i) Es Ei) as Q. subst u. discriminate Q.
    + rewrite exc_high in E by lia. assert (L : forall a, pk_address ex_H2 pk_default = Ok a -> length a = 78%nat) by (intros a; vm_compute; intro Q; apply ok_inj in Q; subst a; reflexivity).
      apply L in E. rewrite repeat_length in E. lia.
Qed.

(** A chain with one transaction, that pays 10 TFT and more to keys of the seed; the explorers tell of it those who ask for one of these. *)
Definition exc_out (i : nat) : output := mkout (N.of_nat (10 + i) * TFT) (CUnlockHash (exc_uh i)) [].
Definition exc_txn (us : list nat) : txn := exx_std 5 (map exc_out us).
Definition exc_ids (us : list nat) : list N := map (fun i => N.of_nat (100 + i)) us.
Definition exc_entry (us : list nat) : entry := mkentry (exc_txn us) (repeat 31 32) [exx_pay 31] [] (map (fun x => repeat x 32) (exc_ids us)) [] (Some 7%Z).
Definition exc_json (us : list nat) : json := exx_answer (exc_txn us) 31 [exx_pay 31] [] (exc_ids us) [] 7 false.
Definition exc_ask (us : list nat) (a : pystr) : res json := if existsb (fun i => listN_eqb a (exc_addr i)) us then Ok (exl_resp [exc_json us] []) else Err ExplorerNoContent.
Lemma exc_pays i j v : (Z.of_nat j < 2 ^ 64)%Z -> Spec_Explorer.pays ex_H2 (exc_addr i) (mkout v (CUnlockHash (exc_uh j)) []) = true <-> i = j.
Proof.
  intro B. destruct (exc_pair j B) as (_ & _ & E). unfold Spec_Explorer.pays. cbn [o_cond cond_unlockhash bind]. rewrite E.
  split; [intro Q; apply listN_eqb_eq in Q; symmetry; exact (se_apart _ _ _ _ exc_seeded _ _ Q)|intros ->; apply listN_eqb_refl].
Qed.
Lemma exc_touched us i : Forall (fun j => (Z.of_nat j < 2 ^ 64)%Z) us -> touched ex_H2 exc_addr [exc_entry us] i <-> In i us.
Proof.
  intro B. rewrite Forall_forall in B. unfold touched, concerns. split.
  - intros (e & [<-|[]] & o & I & P). apply in_app_or in I as [I|I].
    + unfold makes, give_ids in I. apply in_map_iff in I as ([p x] & <- & I). apply in_combine_l in I. cbn [fst snd] in P.
      change (coin_outputs (en_txn (exc_entry us))) with (map exc_out us) in I. apply in_map_iff in I as (j & <- & I). apply (exc_pays i j (o_value (exc_out j)) (B j I)) in P. subst j. exact I.
    + exfalso. destruct I as [<-|[]]. unfold Spec_Explorer.pays in P. cbn [snd fst o_cond exx_pay cond_unlockhash] in P.
      destruct (uh_str ex_H2 exx_uh) as [x|] eqn:Ex; [|discriminate P]. apply listN_eqb_eq in P. subst x. destruct (Z_lt_ge_dec (Z.of_nat i) (2 ^ 64)) as [Bi|Bi].
      * destruct (exc_pair i Bi) as (_ & _ & Ei). assert (Fu : full_uh exx_uh). { split; [cbn [exx_uh uh_type]; lia|]. split; [reflexivity|]. repeat constructor. }
        pose proof (uh_str_inj ex_H2 _ _ _ ex_H2_ok Fu (exc_uh_ok i) Ex Ei) as Q. apply (f_equal uh_hash) in Q. discriminate Q.
      * apply uh_str_length in Ex; [|exact ex_H2_ok|left; split; [reflexivity|repeat constructor]]. rewrite exc_high, repeat_length in Ex by lia. lia.
  - intro I. exists (exc_entry us). split; [now left|]. exists (mkout (N.of_nat (10 + i) * TFT) (CUnlockHash (exc_uh i)) (repeat (N.of_nat (100 + i)) 32)). split.
    + apply in_or_app. left. unfold makes, give_ids. change (coin_outputs (en_txn (exc_entry us))) with (map exc_out us). cbn [exc_entry en_ids]. unfold exc_ids. rewrite map_map.
      apply in_map_iff. exists (exc_out i, repeat (N.of_nat (100 + i)) 32). split; [reflexivity|]. clear B. induction us as [|u us IH]; [destruct I|]. cbn [map combine]. destruct I as [<-|I]; [now left|right; auto].
    + exact (proj2 (exc_pays i i (N.of_nat (10 + i) * TFT) (B i I)) eq_refl).
Qed.
Lemma exc_tell us : Forall (fun j => (Z.of_nat j < 2 ^ 64)%Z) us -> tells ex_H2 ex_ip_str (exc_json us) (exc_entry us) -> 
  tell ex_H2 ex_ip_str [exc_entry us] exc_addr (exc_ask us) /\ forall j, shows ex_H2 ex_ip_str [exc_entry us] [] (exc_addr j) (exc_ask us (exc_addr j)).
Proof.
  intros B T. assert (G : forall i, In i us -> exc_ask us (exc_addr i) = Ok (exl_resp [exc_json us] []) /\ shows ex_H2 ex_ip_str [exc_entry us] [] (exc_addr i) (exc_ask us (exc_addr i))).
  { intros i I. assert (E : exc_ask us (exc_addr i) = Ok (exl_resp [exc_json us] [])).
    { unfold exc_ask. replace (existsb _ us) with true; [reflexivity|]. symmetry. apply existsb_exists. exists i. split; [exact I|apply listN_eqb_refl]. }
    split; [exact E|]. rewrite E. right. exists (exl_resp [exc_json us] []), [exc_entry us], [], None. split; [reflexivity|].
    split; [apply exe_history; constructor; [exact T|constructor]|]. split; [split; constructor|]. rewrite app_nil_r. split; [apply Permutation_refl|intros e []]. }
  assert (G' : forall i, ~ In i us -> exc_ask us (exc_addr i) = Err ExplorerNoContent).
  { intros i N. unfold exc_ask. replace (existsb _ us) with false; [reflexivity|]. symmetry. apply Bool.not_true_iff_false. intro X. apply existsb_exists in X as (j & J & X).
    apply listN_eqb_eq in X. apply (se_apart _ _ _ _ exc_seeded) in X. subst j. contradiction. }
  split.
  - intro i. rewrite (exc_touched us i B). destruct (in_dec Nat.eq_dec i us) as [I|I]; [right|left; auto]. destruct (G i I) as (E & Sh). split; [exact I|]. split; [rewrite E; discriminate|eauto].
  - intro j. destruct (in_dec Nat.eq_dec j us) as [I|I]; [apply (G j I)|]. left. split; [exact (G' j I)|]. intros e Ie Ce. apply I. apply (exc_touched us j B). exists e. auto.
Qed.
Ltac exc_told := split;
  [eexists; split; [eexists; split; [reflexivity|]; vm_compute; reflexivity|]; eexists; split; [vm_compute; reflexivity|]; split; [eexists; split; [reflexivity|]; reflexivity|]; left; eexists; split; [reflexivity|]; reflexivity
  |eexists; split; reflexivity
  |eexists; split; [left; eexists; split; [reflexivity|]; vm_compute; reflexivity|]; constructor; [vm_compute; reflexivity|constructor]
  |eexists; split; [left; eexists; split; [reflexivity|]; vm_compute; reflexivity|]; repeat (constructor; [vm_compute; reflexivity|]); constructor
  |eexists; split; [left; eexists; split; [reflexivity|]; vm_compute; reflexivity|]; constructor
  |eexists; split; [left; eexists; split; [reflexivity|]; vm_compute; reflexivity|]; constructor
  |split; [left; eexists; split; reflexivity|eexists; split; reflexivity]].
Ltac exc_whole := split;
  [vm_compute; repeat (constructor; [intros I; repeat destruct I as [I|I]; try contradiction; discriminate I|]); constructor
  |intros o p I J E; exfalso; vm_compute in I, J; repeat destruct I as [<-|I]; try contradiction; repeat destruct J as [<-|J]; try contradiction; discriminate E
  |vm_compute; constructor; [intros []|constructor]].
(** keys 0, 1, 2 and 3 are used: all are found, starting from one, with the default window, and the balance is the 46 TFT there are *)
Example C91_ex : seeded ex_H2 exc_pub exc_seed exc_addr /\ Forall (entry_ok ex_ip_parse) [exc_entry [0; 1; 2; 3]%nat] /\ consistent_ledger [exc_entry [0; 1; 2; 3]%nat] /\
  all_before ex_H2 exc_addr [exc_entry [0; 1; 2; 3]%nat] 4 /\ without_gaps ex_H2 exc_addr [exc_entry [0; 1; 2; 3]%nat] 1 /\ tell ex_H2 ex_ip_str [exc_entry [0; 1; 2; 3]%nat] exc_addr (exc_ask [0; 1; 2; 3]%nat) /\
  (forall j, shows ex_H2 ex_ip_str [exc_entry [0; 1; 2; 3]%nat] [] (exc_addr j) (exc_ask [0; 1; 2; 3]%nat (exc_addr j))) /\
  (forall o, In o (all_made [exc_entry [0; 1; 2; 3]%nat] ++ all_spent [exc_entry [0; 1; 2; 3]%nat]) -> exists a, Spec_Explorer.pays ex_H2 a o = true) /\
  belongings ex_H2 exc_addr [exc_entry [0; 1; 2; 3]%nat] 4 = 46 * TFT /\
  exists k k' w, wallet_keys exc_addr (probe_of ex_H2 ex_ip_parse 0 (exc_ask [0; 1; 2; 3]%nat)) 5 1 0 (-1) = Some (k, Ok (exc_addr 0%nat)) /\
    balance_get ex_H2 ex_ip_parse 0 exc_addr (exc_ask [0; 1; 2; 3]%nat) 5 3 (fun _ => exc_ask [0; 1; 2; 3]%nat) exl_info k = Some (k', Ok w) /\ everything w = 46 * TFT.
Proof.
  assert (B : Forall (fun j => (Z.of_nat j < 2 ^ 64)%Z) [0; 1; 2; 3]%nat) by repeat constructor.
  assert (T : tells ex_H2 ex_ip_str (exc_json [0; 1; 2; 3]%nat) (exc_entry [0; 1; 2; 3]%nat)) by exc_told.
  destruct (exc_tell _ B T) as (Te & Sh).
  split; [exact exc_seeded|]. split; [constructor; [apply exe_entry_ok; vm_compute; reflexivity|constructor]|]. split; [exc_whole|].
  split; [intros i I; apply (exc_touched _ _ B) in I; cbn [In] in I; lia|]. split; [intros i j I J; apply (exc_touched _ _ B) in J; apply (exc_touched _ _ B); cbn [In] in *; lia|].
  split; [exact Te|]. split; [exact Sh|]. split.
  { intros o I. assert (K : forallb (fun o => existsb (fun a => Spec_Explorer.pays ex_H2 a o) (exl_text (CUnlockHash exx_uh) :: map exc_addr [0; 1; 2; 3]%nat)) (all_made [exc_entry [0; 1; 2; 3]%nat] ++ all_spent [exc_entry [0; 1; 2; 3]%nat]) = true) by (vm_compute; reflexivity).
    rewrite forallb_forall in K. specialize (K o I). apply existsb_exists in K as (a & _ & K). exists a. exact K. }
  split; [vm_compute; reflexivity|].
  eexists. eexists. eexists. split; [vm_compute; reflexivity|]. split; [vm_compute; reflexivity|]. vm_compute. reflexivity.
Qed.
(** What the hypothesis on gaps is for: with the keys 0, 3, 5 and 7 used, no gap longer than the default window of three, a wallet opened with the
    defaults has the coins of 0, 3 and 5 only, 38 of 55 TFT: those of the key 7 are never found. *)
Theorem C91_gap_refuted : exists H pub ip_parse ip_str seed addr l m ask k k' w, hash_ok H /\ ip_library ip_parse ip_str /\ seeded H pub seed addr /\
  Forall (entry_ok ip_parse) l /\ consistent_ledger l /\ all_before H addr l m /\ tell H ip_str l addr ask /\
  (forall i, (1 <= i <= 7)%nat -> exists j, (i <= j < i + 3)%nat /\ touched H addr l j) /\
  wallet_keys addr (probe_of H ip_parse 0 ask) 9 1 0 (-1) = Some (k, Ok (addr 0%nat)) /\
  balance_get H ip_parse 0 addr ask 9 3 (fun _ => ask) exl_info k = Some (k', Ok w) /\ everything w = 38 * TFT /\ belongings H addr l m = 55 * TFT.
Proof.
  assert (B : Forall (fun j => (Z.of_nat j < 2 ^ 64)%Z) [0; 3; 5; 7]%nat) by repeat constructor.
  assert (T : tells ex_H2 ex_ip_str (exc_json [0; 3; 5; 7]%nat) (exc_entry [0; 3; 5; 7]%nat)) by exc_told.
  destruct (exc_tell _ B T) as (Te & Sh).
  exists ex_H2, exc_pub, ex_ip_parse, ex_ip_str, exc_seed, exc_addr, [exc_entry [0; 3; 5; 7]%nat], 8%nat, (exc_ask [0; 3; 5; 7]%nat). eexists. eexists. eexists.
  split; [exact ex_H2_ok|]. split; [exact C43_library|]. split; [exact exc_seeded|]. split; [constructor; [apply exe_entry_ok; vm_compute; reflexivity|constructor]|]. split; [exc_whole|].
  split; [intros i I; apply (exc_touched _ _ B) in I; cbn [In] in I; lia|]. split; [exact Te|]. split.
  { intros i I. destruct (Nat.le_gt_cases i 3); [exists 3%nat|destruct (Nat.le_gt_cases i 5); [exists 5%nat|exists 7%nat]]; (split; [lia|apply (exc_touched _ _ B); cbn [In]; lia]). }
  split; [vm_compute; reflexivity|]. split; [vm_compute; reflexivity|]. split; [vm_compute; reflexivity|]. vm_compute. reflexivity.
Qed.
Print Assumptions C91_gap_refuted.
