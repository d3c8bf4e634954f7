(** Lemmas about atomic swaps on a ledger (C94). *)
From Coq Require Import Permutation Sorting.Sorted.
From Verif Require Import Base BaseFacts Encoders Currency Primitive Types Conditions Fulfillments ThreeBotTypes Txn TxnJson TxnSign Wallet Explorer AtomicSwap Lookups SwapLookup Ops WalletLoad Session
  Spec_Types Spec_Txn Spec_Json Spec_ThreeBot Spec_Wallet Spec_Ops Spec_Explorer Spec_Load Spec_Session Spec_Sign Spec_Swap Spec_Lookup TypesFacts WalletFacts WalletFacts2 ExplorerFacts ExplorerFacts2 ExplorerFacts3 LookupFacts LoadFacts SessionFacts
  SwapFacts SwapFacts2 Prop_Wallet Prop_Explorer Prop_Swap Prop_Ops Prop_Lookup Prop_Load Spec_Ledger LedgerFacts Prop_Ledger Spec_Trade.
From Coq Require Import ZifyBool ZifyNat ZifyN.
Ltac Zify.zify_post_hook ::= Z.div_mod_to_equations.

Section Look.
Variables (H : bytes -> bytes) (ip_parse : pystr -> res bytes) (ip_str : bytes -> pystr) (now : Z).
Hypothesis HH : hash_ok H.
Hypothesis L : ip_library ip_parse ip_str.
Variables (l : ledger) (net : pystr -> res json) (id : bytes).
Hypothesis F : Forall (entry_ok ip_parse) l.
Hypothesis C : consistent_ledger l.
Hypothesis Hid : hash32 id.
Hypothesis Nz : id <> zeros 32.
Hypothesis Sh : shows_output H ip_str l id (net (s2b "/explorer/hashes/" ++ hash_str id)).

Lemma made_in c o : In c l -> In o (makes c) -> In o (all_made l).
Proof. intros I J. apply in_flat_map. exists c. auto. Qed.
Lemma spent_in s o : In s l -> In o (Spec_Ledger.spends s) -> In o (all_spent l).
Proof. intros I J. apply in_flat_map. exists s. auto. Qed.
Lemma client_asks : client_output_get H ip_parse now net KCoin (BVBytes id) = do resp <- net (s2b "/explorer/hashes/" ++ hash_str id); output_get H ip_parse now KCoin (hash_str id) resp.
Proof. unfold client_output_get. rewrite (proj1 (normalize_hash id Hid)). reflexivity. Qed.
(** what comes back is the output of the ledger with this id *)
Lemma client_found o x s : client_output_get H ip_parse now net KCoin (BVBytes id) = Ok (o, x, s) ->
  In o (all_made l) /\ o_id o = id /\ (s = None <-> ~ In id (ids (all_spent l))).
Proof.
  rewrite client_asks. intro E. apply bind_ok in E as (resp & En & E). destruct Sh as [(N & [A|(resp' & t & A & Ft & Ne)])|(resp' & c & jc & A & Ft & Ic & Im & Tc & D)]; rewrite En in A; try discriminate A; apply ok_inj in A; subst resp'.
  - exfalso. unfold output_get, key_error, hashtype_is in E. rewrite (field_get _ _ _ Ft) in E. cbn [bind] in E. 
    destruct (listN_eqb t (s2b (kind_text KCoin))) eqn:Q; [apply listN_eqb_eq in Q; contradiction|]. cbn [guard bind] in E. discriminate E.
  - pose proof F as FF; rewrite Forall_forall in FF. destruct (entry_read H ip_parse ip_str now HH L jc c (FF c Ic) Tc) as (xc & Exc & Rc).
    apply (C47_found H ip_parse now KCoin id resp o x s Hid Nz) in E as (Eo & (a & b & Eouts & _) & tl & Etl & K).
    assert (Io : In o (coin_outputs (e_txn x))) by (change (coin_outputs (e_txn x)) with (outputs_of KCoin (e_txn x)); rewrite Eouts; apply in_or_app; right; left; reflexivity).
    destruct D as [(Ns & Ft1)|(sp & js & Is & Ins & Ts & Ft2)].
    + rewrite (field_get _ _ _ Ft1) in Etl. apply ok_inj in Etl. injection Etl as <-. destruct K as [(cj & K1 & K2 & ->)|(cj & sj & y & [K1|K1] & _)]; try discriminate K1. injection K1 as <-.
      rewrite Exc in K2. apply ok_inj in K2. subst x. split; [apply (made_in c); [exact Ic|]; rewrite <- (rd_makes _ _ Rc); exact Io|]. split; [exact Eo|]. split; auto.
    + destruct (entry_read H ip_parse ip_str now HH L js sp (FF sp Is) Ts) as (xs & Exs & Rs).
      assert (Sp : In id (ids (all_spent l))) by (apply in_map_iff in Ins as (q & <- & Iq); apply in_map; exact (spent_in sp q Is Iq)).
      assert (Two : exists cj sj y, (tl = [cj; sj] \/ tl = [sj; cj]) /\ explorer_txn H ip_parse now cj = Ok x /\ explorer_txn H ip_parse now sj = Ok y /\ s = Some y).
      { destruct K as [(cj & K1 & _)|K]; [|exact K]. exfalso. subst tl. destruct Ft2 as [Q|Q]; rewrite (field_get _ _ _ Q) in Etl; apply ok_inj in Etl; discriminate Etl. }
      destruct Two as (cj & sj & y & Two & K2 & K3 & ->).
      assert (Cx : x = xc \/ x = xs).
      { destruct Ft2 as [Q|Q]; rewrite (field_get _ _ _ Q) in Etl; apply ok_inj in Etl; injection Etl as <-; destruct Two as [W|W]; injection W as <- <-; rewrite K2 in *; [left|right|right|left]; congruence. }
      assert (Im' : In o (all_made l)) by (destruct Cx as [-> | ->]; [apply (made_in c o Ic); rewrite <- (rd_makes _ _ Rc)|apply (made_in sp o Is); rewrite <- (rd_makes _ _ Rs)]; exact Io).
      split; [exact Im'|]. split; [exact Eo|]. split; [discriminate|]. intro Q. destruct (Q Sp).
Qed.
Lemma fetch_found o b : output_fetch H ip_parse now net id = Ok (o, b) -> In o (all_made l) /\ o_id o = id /\ (b = false <-> ~ In id (ids (all_spent l))).
Proof.
  unfold output_fetch. intro E. apply bind_ok in E as ([[o' x] s] & E1 & E). apply ok_inj in E. injection E as <- <-. destruct (client_found _ _ _ E1) as (I & J & K).
  split; [exact I|]. split; [exact J|]. rewrite <- K. destruct s; split; congruence.
Qed.
Lemma unspent_ids o : In o (unspent l) <-> In o (all_made l) /\ ~ In (o_id o) (ids (all_spent l)).
Proof.
  unfold unspent. rewrite not_spent. apply and_iff_compat_l. split.
  - intros N I. apply in_map_iff in I as (p & E & I). exact (N p I E).
  - intros N p I E. apply N. rewrite <- E. apply in_map. exact I.
Qed.
Lemma fetch_unspent o : output_fetch H ip_parse now net id = Ok (o, false) -> In o (unspent l) /\ o_id o = id.
Proof. intro E. apply fetch_found in E as (I & <- & K). split; [|reflexivity]. apply unspent_ids. split; [exact I|]. now apply K. Qed.
Lemma fetch_finds o : In o (unspent l) -> o_id o = id -> output_fetch H ip_parse now net id = Ok (o, false).
Proof.
  intros I Eo. apply unspent_ids in I as (I & N). rewrite Eo in N.
  assert (X : exists o' x, client_output_get H ip_parse now net KCoin (BVBytes id) = Ok (o', x, None)).
  { rewrite client_asks. destruct Sh as [(Q & _)|(resp & c & jc & A & Ft & Ic & Im & Tc & D)]; [destruct Q; rewrite <- Eo; apply in_map; exact I|].
    destruct D as [(_ & Ft1)|(sp & js & Is & Ins & _)]; [|exfalso; apply N; apply in_map_iff in Ins as (q & <- & Iq); apply in_map; exact (spent_in sp q Is Iq)].
    rewrite A. cbn [bind]. pose proof F as FF; rewrite Forall_forall in FF. destruct (entry_read H ip_parse ip_str now HH L jc c (FF c Ic) Tc) as (xc & Exc & Rc).
    apply in_map_iff in Im as (o1 & E1 & I1).
    destruct (C47_finds H ip_parse now KCoin id resp jc xc o1 Hid Nz (field_get _ _ _ Ft) Exc) as (G & _); [cbn [outputs_of]; rewrite (rd_makes _ _ Rc); exact I1|exact E1|].
    destruct (G (field_get _ _ _ Ft1)) as (o' & G' & _). eauto. }
  destruct X as (o' & x & X). destruct (client_found _ _ _ X) as (I' & E' & _). unfold output_fetch. rewrite X. cbn [bind].
  rewrite (made_one l o' o (lc_made l C) I' I) by congruence. reflexivity.
Qed.
(** the spend, when it is in a later block *)
Lemma client_spent o c s : In c l -> In o (makes c) -> o_id o = id -> In s l -> In o (Spec_Ledger.spends s) -> earlier c s ->
  exists x y, client_output_get H ip_parse now net KCoin (BVBytes id) = Ok (o, x, Some y) /\ reads x c /\ reads y s /\ e_id y = en_id s /\ inputs_of (e_txn y) = give_parents (inputs_of (read_back (en_txn s))) (en_parents s).
Proof.
  intros Ic Io Eo Is Ios (h & h' & Hc & Hs & Lt). pose proof (spent_in s o Is Ios) as Sp. pose proof (made_in c o Ic Io) as Im.
  destruct Sh as [(Q & _)|(resp & c' & jc & A & Ft & Ic' & Im' & Tc & D)]; [destruct Q; rewrite <- Eo; apply in_map; exact Im|].
  destruct D as [(Q & _)|(s' & js & Is' & Ins & Ts & Ft2)]; [destruct Q; rewrite <- Eo; apply in_map; exact Sp|].
  apply in_map_iff in Im' as (o1 & E1 & I1). apply in_map_iff in Ins as (o2 & E2 & I2).
  destruct (flat_ids makes l c c' o o1 (lc_made l C) Ic Ic' Io I1) as (<- & _); [congruence|].
  destruct (flat_ids Spec_Ledger.spends l s s' o o2 (lc_once l C) Is Is' Ios I2) as (<- & _); [congruence|].
  pose proof F as FF; rewrite Forall_forall in FF. destruct (entry_read H ip_parse ip_str now HH L jc c (FF c Ic) Tc) as (xc & Exc & Rc).
  destruct (entry_read H ip_parse ip_str now HH L js s (FF s Is) Ts) as (xs & Exs & Rs).
  assert (Hj : forall j e k, tells H ip_str j e -> en_height e = Some k -> jget "height" j = Ok (JNum k)) by (intros j e k T E; destruct T as [_ _ _ _ _ _ T]; rewrite E in T; exact (field_get _ _ _ (proj2 T))).
  destruct (C47_finds H ip_parse now KCoin id resp jc xc o1 Hid Nz (field_get _ _ _ Ft) Exc) as (_ & G); [cbn [outputs_of]; rewrite (rd_makes _ _ Rc); exact I1|exact E1|].
  destruct (G js xs h h') as (o' & G' & Eo'); [destruct Ft2 as [Q|Q]; [left|right]; exact (field_get _ _ _ Q)|exact Exs|exact (Hj _ _ _ Tc Hc)|exact (Hj _ _ _ Ts Hs)|exact Lt|].
  assert (X : client_output_get H ip_parse now net KCoin (BVBytes id) = Ok (o', xc, Some xs)) by (rewrite client_asks, A; exact G').
  destruct (client_found _ _ _ X) as (I' & _ & _). assert (o' = o) as -> by (apply (made_one l o' o (lc_made l C) I' Im); congruence).
  exists xc, xs. split; [exact X|]. split; [exact Rc|]. split; [exact Rs|].
  destruct (FF s Is) as (Se & _ & _). destruct (C46_accepts H ip_parse ip_str now HH L js _ _ _ _ _ _ _ Ts Se) as (x2 & Ex2 & At). rewrite Exs in Ex2. apply ok_inj in Ex2. subst x2.
  split; [exact (at_id _ _ _ _ _ _ _ _ At)|exact (at_inputs _ _ _ _ _ _ _ _ At)].
Qed.
End Look.

(** *** What a claim is *)
Section Claim.
Variables (H S256 : bytes -> bytes) (sign : pubkey -> bytes -> bytes) (primary : pystr) (ks : TxnSign.keys).
Hypothesis sign64 : forall k h, length (sign k h) = 64%nat.
Hypothesis HH : hash_ok H.
Hypothesis WO : wallet_ok H primary ks.
Definition claim_shape (o : output) (to : uh) (fee : N) (se : option bytes) (t : txn) : Prop :=
  fee <= o_value o /\ exists p s d, t = T1 (mkstd false [mkin (o_id o) (FSwap p s se) (Some o)] [mkout (o_value o - fee) (CUnlockHash to) []] [] [] [fee] d).
Lemma redeem_shape get fee id secret data t : redeem H S256 sign primary ks get fee id secret data = Ok t ->
  exists o k sec, get id = Ok (o, false) /\ is_contract o k /\ secret_new secret = Ok sec /\ k_hash k = Some (S256 sec) /\ has_key H ks (k_receiver k) /\
    claim_shape o (k_receiver k) fee (match secret with BVNone => None | _ => Some sec end) t.
Proof.
  unfold redeem. intro E. apply bind_ok in E as ([o spent] & F & E). apply (proj1 (fetch_ok _ _ _ _)) in F. apply bind_ok in E as (k & K & E).
  apply contract_new_ok in K as (K & _ & KO). apply bind_ok in E as (? & G & E). apply guard_ok in G. apply negb_true_iff in G. subst spent.
  apply bind_ok in E as (b & V & E). apply bind_ok in E as (? & G & E). apply guard_ok in G. subst b.
  unfold verify_secret in V. apply bind_ok in V as (sec & Sec & V). apply bind_ok in V as (h & Hh & V).
  apply hash_new_ok in Hh as (Hh & _). cbn in Hh. apply ok_inj in Hh. subst h.
  apply bind_ok in E as (b & B & E). apply bind_ok in E as (? & G & E). apply guard_ok in G. subst b.
  destruct (uh_in_ok H primary ks HH WO (k_receiver k)) as (b & B' & I). rewrite B in B'. apply ok_inj in B'. subst b.
  apply bind_ok in E as (so & So & E). exists o, k, sec. split; [exact F|]. split; [exact K|]. split; [exact Sec|]. split; [apply (hash_cmp_ok _ _ _ V); reflexivity|]. split; [now apply I|].
  apply (claim_inv H S256 sign primary ks sign64) in E as (Fe & Ld & us & l & by_ & dd & Us & O & D & ->).
  assert (so = match secret with BVNone => None | _ => Some sec end) as <-.
  { unfold secret_opt in So. rewrite Sec in So. cbn [bind] in So. destruct secret; now apply ok_inj in So. }
  destruct K as (K1 & K2 & K3). unfold claim_shape, claim_tx, one. rewrite KO, K2, K3. split; [exact Fe|]. do 3 eexists. reflexivity.
Qed.
Lemma refund_shape time get fee id data t : AtomicSwap.refund H sign time primary ks get fee id data = Ok t ->
  exists o k, get id = Ok (o, false) /\ is_contract o k /\ (k_refund k <= time)%Z /\ has_key H ks (k_sender k) /\ claim_shape o (k_sender k) fee None t.
Proof.
  unfold AtomicSwap.refund. intro E. apply bind_ok in E as ([o spent] & F & E). apply (proj1 (fetch_ok _ _ _ _)) in F. apply bind_ok in E as (k & K & E).
  apply contract_new_ok in K as (K & _ & KO). apply bind_ok in E as (? & G & E). apply guard_ok in G. apply negb_true_iff in G. subst spent.
  apply bind_ok in E as (? & G & E). apply guard_ok in G.
  apply bind_ok in E as (b & B & E). apply bind_ok in E as (? & G2 & E). apply guard_ok in G2. subst b.
  destruct (uh_in_ok H primary ks HH WO (k_sender k)) as (b & B' & I). rewrite B in B'. apply ok_inj in B'. subst b.
  exists o, k. split; [exact F|]. split; [exact K|]. split; [lia|]. split; [now apply I|].
  apply (claim_inv H S256 sign primary ks sign64) in E as (Fe & Ld & us & l & by_ & dd & Us & O & D & ->).
  destruct K as (K1 & K2 & K3). unfold claim_shape, claim_tx, one. rewrite KO, K2, K3. split; [exact Fe|]. do 3 eexists. reflexivity.
Qed.
End Claim.

(** *** What a claim does to a ledger *)
Lemma claim_spends o to fee se t l e : claim_shape o to fee se t -> recorded t l e -> Spec_Ledger.spends e = [o].
Proof.
  intros (_ & p & s & d & ->) R. apply (recorded_spends _ l e [mkin (o_id o) (FSwap p s se) (Some o)] [o] R); [reflexivity|]. constructor; [split; reflexivity|constructor].
Qed.
Lemma claim_extends o to fee se t l e : claim_shape o to fee se t -> recorded t l e -> consistent_ledger l -> In o (unspent l) -> extends e l.
Proof.
  intros (Fe & p & s & d & ->) R C I. apply (recorded_extends _ l e [mkin (o_id o) (FSwap p s se) (Some o)] [o] R); [reflexivity|constructor; [split; reflexivity|constructor]| |exact C].
  apply in_split in I as (a & b & ->). exists (a ++ b). cbn [app]. apply Permutation_middle.
Qed.
Lemma claim_collects o to fee se t l e : claim_shape o to fee se t -> recorded t l e -> collects o to fee e.
Proof.
  intros Q R. pose proof (claim_spends o to fee se t l e Q R) as Sp. destruct Q as (Fe & p & s & d & ->). destruct R as (R & _). split; [exact Sp|]. rewrite R. cbn [coin_outputs s_cout miner_fees s_fees]. auto.
Qed.
Lemma claim_worth o to fee se t l e : claim_shape o to fee se t -> recorded t l e -> worth (makes e) + fee = o_value o.
Proof.
  intros Q R. destruct Q as (Fe & p & s & d & ->). destruct R as (R1 & _ & R3 & _). unfold makes. rewrite R1. rewrite give_worth by exact R3. cbn [coin_outputs s_cout]. unfold worth. cbn [map sum o_value]. lia.
Qed.
(** no address that one key owns is paid by a contract *)
Lemma swap_apart H addrs o k : hash_ok H -> Forall (text_of H 1) addrs -> is_contract o k -> for_any H addrs o = false.
Proof.
  intros HH T (E & _). destruct (for_any H addrs o) eqn:Q; [|reflexivity]. exfalso. apply for_any_in in Q as (a & Ia & P). rewrite Forall_forall in T. destruct (T a Ia) as (u & (_ & Fu & _) & Ty & Eu).
  unfold Spec_Explorer.pays in P. rewrite E in P. cbn [cond_unlockhash] in P. destruct (swap_uh_input _ _ _ _) as [d|]; [|discriminate P]. cbn [bind] in P.
  destruct (uh_str H (mkuh UH_ATOMIC_SWAP (H d))) as [s|] eqn:Es; [|discriminate P]. apply listN_eqb_eq in P. subst s.
  assert (mkuh UH_ATOMIC_SWAP (H d) = u) as <-; [|discriminate Ty]. apply (uh_str_inj H _ _ a HH); [split; [cbn; unfold UH_ATOMIC_SWAP; lia|exact (HH d)]|split; [lia|exact Fu]|exact Es|exact Eu].
Qed.

(** *** Blocks *)
Lemma moved_ledger l m l' : consistent_ledger l -> Permutation l m -> Forall2 moved m l' -> consistent_ledger l' /\ (forall o, In o (unspent l) <-> In o (unspent l')) /\ (forall o, In o (all_made l) -> In o (all_made l')).
Proof.
  intros C' P Mv.
  assert (P1 : map makes m = map makes l' /\ map Spec_Ledger.spends m = map Spec_Ledger.spends l').
  { clear - Mv. induction Mv as [|e e' m l' (h & ->) Mv (IH1 & IH2)]; [auto|]. cbn [map]. rewrite IH1, IH2. auto. }
  assert (Q1 : Permutation (all_made l) (all_made l')) by (unfold all_made; rewrite !flat_map_concat_map, <- (proj1 P1); apply perm_concat, Permutation_map; exact P).
  assert (Q2 : Permutation (all_spent l) (all_spent l')) by (unfold all_spent; rewrite !flat_map_concat_map, <- (proj2 P1); apply perm_concat, Permutation_map; exact P).
  split.
  - split; [exact (Permutation_NoDup (Permutation_map _ Q1) (lc_made _ C'))| |exact (Permutation_NoDup (Permutation_map _ Q2) (lc_once _ C'))].
    intros o p I J. apply (lc_same _ C'); [exact (Permutation_in _ (Permutation_sym Q1) I)|exact (Permutation_in _ (Permutation_sym Q2) J)].
  - split; [|intros o I; exact (Permutation_in _ Q1 I)]. intro o. unfold unspent. rewrite !not_spent. split; intros (I & N); (split; [|intros p J; apply N]).
    + exact (Permutation_in _ Q1 I).
    + exact (Permutation_in _ (Permutation_sym Q2) J).
    + exact (Permutation_in _ (Permutation_sym Q1) I).
    + exact (Permutation_in _ Q2 J).
Qed.
Lemma same_unspent l l' : consistent_ledger l -> consistent_ledger l' -> (forall o, In o (unspent l) <-> In o (unspent l')) -> Permutation (unspent l) (unspent l').
Proof. intros C C' Q. apply perm_by_ids; [apply unspent_nodup; exact C|apply unspent_nodup; exact C'|exact Q]. Qed.

(** *** Contracts, whose transactions carry the ids of their outputs *)
Definition unnamed (e : entry) : entry := mkentry (nameless (en_txn e)) (en_id e) (en_parents e) (en_stake_parents e) (en_ids e) (en_stake_ids e) (en_height e).
Lemma unnamed_makes e : makes (unnamed e) = makes e.
Proof.
  unfold makes, unnamed. cbn [en_txn en_ids]. destruct (en_txn e) as [a| | | | | | |]; try reflexivity. cbn [nameless coin_outputs s_cout]. unfold give_ids.
  generalize (en_ids e). induction (s_cout a) as [|o os IH]; intros [|i is_]; cbn [map combine fst snd o_value o_cond]; try reflexivity. f_equal. apply IH.
Qed.
Lemma nameless_inputs t : coin_inputs (nameless t) = coin_inputs t.
Proof. destruct t; reflexivity. Qed.
Lemma unnamed_spends e : Spec_Ledger.spends (unnamed e) = Spec_Ledger.spends e.
Proof. unfold Spec_Ledger.spends, unnamed, inputs_of. cbn [en_txn en_parents]. rewrite nameless_inputs. reflexivity. Qed.
Lemma unnamed_recorded t l e : recorded t l e -> recorded (nameless t) l (unnamed e).
Proof.
  intros (R1 & R2 & R3 & R4 & R5). unfold recorded, unnamed. cbn [en_txn en_parents en_ids]. rewrite R1. split; [reflexivity|]. split.
  - rewrite R2. unfold spent_by, inputs_of. rewrite nameless_inputs. reflexivity.
  - split; [|auto]. rewrite R3. destruct t as [a| | | | | | |]; try reflexivity. cbn [nameless coin_outputs s_cout]. now rewrite map_length.
Qed.
Lemma unnamed_unspent e l : unspent (unnamed e :: l) = unspent (e :: l).
Proof. unfold unspent, left_over. cbn [all_made all_spent flat_map]. rewrite unnamed_makes, unnamed_spends. reflexivity. Qed.
Lemma unnamed_consistent e l : consistent_ledger (unnamed e :: l) <-> consistent_ledger (e :: l).
Proof.
  split; intros [C1 C2 C3]; split; cbn [all_made all_spent flat_map] in *; rewrite ?unnamed_makes, ?unnamed_spends in *; assumption.
Qed.
