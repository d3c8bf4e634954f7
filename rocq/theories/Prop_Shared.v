(** Theorems about multi-signature wallets on the chain (C92). *)
From Coq Require Import Permutation Sorting.Sorted.
From Verif Require Import Base BaseFacts Encoders Currency Primitive Types Conditions Fulfillments ThreeBotTypes Txn TxnJson TxnSign Wallet Explorer AtomicSwap Ops WalletLoad Submit Session Front
  Spec_Types Spec_Txn Spec_Json Spec_ThreeBot ThreeBotFacts ThreeBotFacts2 Spec_Currency Spec_Wallet Spec_Ops Spec_Front Spec_Explorer Spec_Load Spec_Session Spec_Lookup TypesFacts WalletFacts WalletFacts2 FundFacts2 AffordFacts3 ExplorerFacts ExplorerFacts2 ExplorerFacts3 LookupFacts LoadFacts SessionFacts
  TxnFacts3 Prop_Fulfil Prop_Txn Prop_ThreeBot Prop_Json Prop_Wallet Prop_Explorer Prop_Sign Prop_Ops Prop_Lookup Prop_Load Prop_Submit Prop_Front Prop_Session Prop_Wire Spec_Ledger LedgerFacts Prop_Ledger Spec_Shared SharedFacts.
From Coq Require Import ZifyBool ZifyNat ZifyN.
Ltac Zify.zify_post_hook ::= Z.div_mod_to_equations.

(** ** C92 *)
(** With explorers which show the ledger and the multi-signature wallets of the owner of an address, a balance has, each once, exactly the multi-signature wallets
    that one of the wallet's addresses co-owns; with owners and a number of signatures that have its address; and it lists exactly the outputs that
    pay to it and are not spent. *)
Theorem C92_balance : forall H ip_parse ip_str now net info addrs w l, hash_ok H -> ip_library ip_parse ip_str ->
  Forall (entry_ok ip_parse) l -> consistent_ledger l -> no_definitions l -> Forall (text_of H 1) addrs -> frank H ip_str l net addrs ->
  wallet_balance H ip_parse now net info addrs = Ok w ->
  NoDup (map ms_addr (wb_ms w)) /\
  (forall u, In u (map ms_addr (wb_ms w)) <-> exists a, In a addrs /\ shared_with H l a u) /\
  (forall m, In m (wb_ms w) -> cond_unlockhash H (CMulti (ms_owners m) (ms_count m)) = Ok (ms_addr m) /\ exists b, uh_str H (ms_addr m) = Ok b /\
     Permutation (values (w_outs (ms_bal m))) (filter (Spec_Explorer.pays H b) (unspent_confirmed l)) /\
     Permutation (values (w_unc (ms_bal m))) (filter (Spec_Explorer.pays H b) (unspent_pending l)) /\
     available (ms_bal m) + locked (ms_bal m) = worth (filter (Spec_Explorer.pays H b) (unspent_confirmed l)) /\
     unconfirmed (ms_bal m) + unconfirmed_locked (ms_bal m) = worth (filter (Spec_Explorer.pays H b) (unspent_pending l))).
Proof.
  intros H ip is now net info addrs w l HH L F C D T Fr E. destruct (shared_lists H ip is now HH L net l F info addrs w C D T Fr E) as (ND & Iff & Ls).
  split; [exact ND|]. split; [exact Iff|]. intros m Im. destruct (Ls m Im) as (Eu & b & Eb & P1 & P2). split; [exact Eu|]. exists b. split; [exact Eb|]. split; [exact P1|]. split; [exact P2|].
  destruct (C31_partition (ms_bal m)) as (E1 & E2). rewrite (worth_perm _ _ P1) in E1. rewrite (worth_perm _ _ P2) in E2. auto.
Qed.
Print Assumptions C92_balance.
(** Asked for its multi-signature addresses, the wallet lists, each once, the texts of exactly those wallets. *)
Theorem C92_addresses : forall H ip_parse ip_str now net info v texts l, hash_ok H -> ip_library ip_parse ip_str ->
  Forall (entry_ok ip_parse) l -> consistent_ledger l -> no_definitions l -> Forall (text_of H 1) (v_addrs v) -> frank H ip_str l net (v_addrs v) ->
  addresses_multisig H ip_parse now net info v = Ok texts ->
  NoDup texts /\ forall b, In b texts <-> exists a u, In a (v_addrs v) /\ shared_with H l a u /\ uh_str H u = Ok b.
Proof.
  intros H ip is now net info v texts l HH L F C D T Fr E. unfold addresses_multisig in E. apply bind_ok in E as (w & Ew & E).
  destruct (C92_balance H ip is now net info (v_addrs v) w l HH L F C D T Fr Ew) as (ND & Iff & Ms).
  unfold Submit.multisig_texts in E. apply mapM_Forall2_iff in E.
  assert (Fu : Forall (fun m => full_uh (ms_addr m)) (wb_ms w)).
  { apply Forall_forall. intros m Im. destruct (Ms m Im) as (Eu & _). apply address_full. exact (proj1 (proj2 (asks_address H _ _ _ _ HH (or_introl eq_refl) Eu))). }
  split.
  - revert E ND Fu. clear -HH. generalize (wb_ms w). intros ml E ND Fu. induction E as [|m b ms bs Em E IH]; [constructor|]. cbn [map] in ND. apply NoDup_cons_iff in ND as (N1 & N2). inversion Fu as [|? ? F1 F2]; subst. constructor; [|exact (IH N2 F2)].
    intro I. apply N1. destruct (Forall2_in_r _ _ _ E _ I) as (m' & Im & E'). rewrite Forall_forall in F2. rewrite (uh_str_inj H _ _ _ HH F1 (F2 _ Im) Em E'). exact (in_map _ _ _ Im).
  - intro b. split.
    + intro I. destruct (Forall2_in_r _ _ _ E _ I) as (m & Im & E'). destruct (proj1 (Iff _) (in_map _ _ _ Im)) as (a & Ia & Sw). exists a, (ms_addr m). auto.
    + intros (a & u & Ia & Sw & Es). assert (In u (map ms_addr (wb_ms w))) as I by (apply Iff; eauto). apply in_map_iff in I as (m & <- & Im).
      destruct (Forall2_in_l _ _ _ E _ Im) as (b' & Ib & E'). rewrite Es in E'. apply ok_inj in E'. subst b'. exact Ib.
Qed.
Print Assumptions C92_addresses.

(** Such a balance can be had once the chain has a second block, if no two of the wallet's addresses co-own the same multi-signature wallet (with two, there
    is none: C62_both_owners_refuted), all that pays to a multi-signature wallet names its owners (otherwise there may be none: C92_poisoned_refuted). *)
Theorem C92_succeeds_partial : forall H ip_parse ip_str now net h t k addrs l, hash_ok H -> ip_library ip_parse ip_str -> (0 < h)%Z -> (0 < t)%Z ->
  Forall (entry_ok ip_parse) l -> no_definitions l -> proper H l -> (forall o, In o (all_made l ++ all_spent l) -> exists a, Spec_Explorer.pays H a o = true) ->
  Forall (text_of H 1) addrs -> NoDup addrs -> frank H ip_str l net addrs ->
  (forall a b u, In a addrs -> In b addrs -> shared_with H l a u -> shared_with H l b u -> a = b) ->
  exists w, wallet_balance H ip_parse now net (h, t, k) addrs = Ok w.
Proof.
  intros H ip is now net h t k addrs l HH L Ph Pt F D Pr Pa T NA Fr Ap.
  destruct (frank_own H ip is now HH L net l F addrs T Fr 0%nat) as (own & A & Fo & Co). pose proof (multisig_texts H l own addrs Fo) as Tx.
  destruct (frank_multi H ip is now HH L net l F addrs (flat_map (fun ar => multisigs H (snd ar)) own) Fr) with (n := length addrs) as (multi & Am & Fm & Eq).
  { intros b I. apply Tx in I as (a & r & u & I & Sw & Es). exists a, u. split; [exact (proj1 (Fo a r I))|]. auto. }
  assert (Rd : forall n a r, lookup H ip now net n a = Ok r -> forall x, In x (h_txns r) -> exists ins, coin_inputs (e_txn x) = Ok ins).
  { intros n a r Lk x Ix. unfold lookup in Lk. apply bind_ok in Lk as (j & _ & Lk). apply C48_newest_first in Lk as (es & xs & _ & Fx & Px & _). apply (Permutation_in _ (Permutation_sym Px)) in Ix.
    destruct (Forall2_in_r _ _ _ Fx x Ix) as (e & _ & Ee). exact (read_inputs H ip now e x Ee). }
  assert (Es : forall a r, found H l a r -> forall x, In x (h_txns r) -> exists e, In e l /\ forall o, In o (spent_by (e_txn x) ++ coin_outputs (e_txn x)) -> In o (makes e ++ Spec_Ledger.spends e)).
  { intros a r Fd x Ix. destruct (found_in H l a r Fd x Ix) as (e & Ie & [R1 R2 _ _ _]). exists e. split; [exact Ie|]. intros o Io. rewrite R1, R2 in Io. apply in_app_or in Io. apply in_or_app. tauto. }
  assert (All : forall e o, In e l -> In o (makes e ++ Spec_Ledger.spends e) -> In o (all_made l ++ all_spent l)).
  { intros e o Ie Io. apply in_app_or in Io as [Io|Io]; apply in_or_app; [left|right]; apply in_flat_map; exists e; auto. }
  destruct (C62_succeeds_partial H ip now net h t k addrs own multi HH T Ph Pt A Am) as (w & E).
  - intros a r I. apply in_app_or in I as [I|I].
    + destruct (answers_look H ip now net _ _ _ A a r I) as (n & Lk & Ia). rewrite Forall_forall in T. destruct (lookup_text H ip now net 1 n a r HH (T a Ia) Lk) as (_ & Ty & Str).
      unfold result_balance. rewrite Ty. change (1 =? 3)%Z with false. cbv iota. unfold address_balance. rewrite Str. cbn [bind].
      destruct (add_all H a (h_txns r)) with (b := bal_new) as (b & ->); [|reflexivity]. intros x Ix. split; [exact (Rd n a r Lk x Ix)|]. intros o Io.
      destruct (Fo a r I) as (_ & Fd & _). destruct (Es a r Fd x Ix) as (e & Ie & Q). apply Pa. exact (All e o Ie (Q o Io)).
    + destruct (answers_look H ip now net _ _ _ Am a r I) as (n & Lk & Ia). destruct (Fm a r I) as (_ & Fd).
      destruct (multi_look H ip now net own a n r HH) as (_ & Ty & Str); [intros b s Ib; destruct (answers_look H ip now net _ _ _ A b s Ib) as (k' & L' & _); eauto|exact Ia|exact Lk|].
      unfold result_balance. rewrite Ty. change (3 =? 3)%Z with true. cbv iota. unfold multisig_balance. rewrite Str. cbn [bind].
      destruct (madd_all H a (h_txns r)) with (b := @None mbal) as (b & ->); [|reflexivity]. intros x Ix. split; [exact (Rd n a r Lk x Ix)|]. split.
      { pose proof (found_definitions H l a r D Fd) as Q. rewrite Forall_forall in Q. exact (Q x Ix). }
      intros o Io. destruct (Es a r Fd x Ix) as (e & Ie & Q). specialize (Q o Io). split; [apply Pa; exact (All e o Ie Q)|]. intro P. unfold Spec_Explorer.pays in P.
      destruct (cond_unlockhash H (o_cond o)) as [u|] eqn:Eu; [|discriminate P]. destruct (uh_str H u) as [s|] eqn:Et; [|discriminate P]. apply listN_eqb_eq in P. subst s.
      apply (Pr e o u Ie Q Eu). rewrite (str_type H u (h_uh r) a Et Str). exact Ty.
  - intros a r I. exact (found_definitions H l a r D (proj2 (Fm a r I))).
  - assert (N1 : NoDup own) by (apply (NoDup_map_inv fst); exact (answers_nodup _ _ _ _ A NA)).
    assert (N2 : NoDup (map fst own)) by exact (answers_nodup _ _ _ _ A NA).
    apply nodup_flat; [exact N1| |].
    + intros [a r] I. cbn [snd]. destruct (Fo a r I) as (_ & _ & Nm & Iff). unfold multisigs. apply nodup_flat; [exact Nm| |].
      * intros u _. destruct (uh_str H u); [constructor; [intros []|constructor]|constructor].
      * intros u v s Iu Iv Ju Jv. apply Iff in Iu, Iv. destruct (uh_str H u) as [s1|] eqn:Eu; [|destruct Ju]. destruct (uh_str H v) as [s2|] eqn:Ev; [|destruct Jv]. destruct Ju as [->|[]]. destruct Jv as [->|[]].
        destruct (shared_address H l a u HH Iu) as (Au & _). destruct (shared_address H l a v HH Iv) as (Av & _). exact (one_text H u v s HH Au Av Eu Ev).
    + intros [a r] [b q] s Ia Ib Ja Jb. cbn [snd] in *. destruct (Fo a r Ia) as (Aa & _ & _ & Iff1). destruct (Fo b q Ib) as (Ab & _ & _ & Iff2).
      unfold multisigs in Ja, Jb. apply in_flat_map in Ja as (u & Iu & Ju). apply in_flat_map in Jb as (v & Iv & Jv). apply Iff1 in Iu. apply Iff2 in Iv.
      destruct (uh_str H u) as [s1|] eqn:Eu; [|destruct Ju]. destruct (uh_str H v) as [s2|] eqn:Ev; [|destruct Jv]. destruct Ju as [->|[]]. destruct Jv as [->|[]].
      destruct (shared_address H l a u HH Iu) as (Au & _). destruct (shared_address H l b v HH Iv) as (Av & _). pose proof (one_text H u v s HH Au Av Eu Ev). subst v.
      pose proof (Ap a b u Aa Ab Iu Iv). subst b. f_equal. clear - N2 Ia Ib. induction own as [|[c x] own IH]; [destruct Ia|]. cbn [map fst] in N2. inversion N2 as [|? ? M1 M2]; subst.
      destruct Ia as [Ia|Ia], Ib as [Ib|Ib]; [congruence| | |exact (IH M2 Ia Ib)].
      * injection Ia as -> ->. destruct M1. apply in_map_iff. exists (a, q). auto.
      * injection Ib as -> ->. destruct M1. apply in_map_iff. exists (a, r). auto.
  - eauto.
Qed.
Print Assumptions C92_succeeds_partial.

(** *** Lemmas: a transaction funded from any sources *)
Lemma shared_step H ip_parse ip_str now net info addrs w l primary source refund fee pays cost t e : hash_ok H -> ip_library ip_parse ip_str ->
  Forall (entry_ok ip_parse) l -> consistent_ledger l -> no_definitions l -> Forall (text_of H 1) addrs -> frank H ip_str l net addrs ->
  wallet_balance H ip_parse now net info addrs = Ok w ->
  funded H w primary source refund fee pays cost t -> recorded t l e ->
  extends e l /\ (forall o, In o (Spec_Ledger.spends e) -> In o (pool H w source) /\ (for_any H addrs o = true \/ exists m b, In m (wb_ms w) /\ uh_str H (ms_addr m) = Ok b /\ Spec_Explorer.pays H b o = true)) /\
  worth (Spec_Ledger.spends e) = worth (coin_outputs t) + fee + cost.
Proof.
  intros HH L F C D T Fr E (Cs & Mf & ins & used & rem & Ci & Tk & Sel & _ & Co) R.
  destruct (shared_pool H ip_parse ip_str now HH L net l info addrs w F C D T Fr E source) as (ND & Pl).
  assert (Ip : forall o, In o used -> In o (pool H w source)) by (intros o I; destruct Sel as (rest & P); apply (Permutation_in _ P); apply in_or_app; now left).
  rewrite (recorded_spends t l e ins used R Ci Tk). split; [|split].
  - apply (recorded_extends t l e ins used R Ci Tk); [|exact C]. destruct (sel_of used (unspent l)) as (rest & P); [|intros o I; exact (proj1 (Pl o (Ip o I)))|exists rest; exact P].
    apply (NoDup_map_inv o_id). exact (sel_nodup o_id _ _ Sel ND).
  - intros o I. split; [exact (Ip o I)|]. exact (proj2 (Pl o (Ip o I))).
  - destruct Cs as (ins' & Ci' & Wi). rewrite Ci in Ci'. apply ok_inj in Ci'. subst ins'. rewrite Mf in Wi. cbn [sum] in Wi.
    assert (worth used = in_worth ins); [|lia]. clear - Tk. induction Tk as [|i o ins used (_ & E2) Tk IH]; [reflexivity|]. unfold worth, in_worth in *. cbn [map sum]. rewrite E2, IH. reflexivity.
Qed.

(** Once a transaction that a wallet funded, from its own addresses or its multi-signature wallets, is recorded, the ledger is still consistent: nothing is spent
    twice.  Let [all] have the wallet's addresses and those of its multi-signature wallets: together they are left with what they had less what is paid
    to others, the miner fee and the price (the change stays with them); and others have what they had and what is paid to them. *)
Theorem C92_moves : forall H ip_parse ip_str now net info addrs w l primary source refund fee pays cost t e all home, hash_ok H -> ip_library ip_parse ip_str ->
  Forall (entry_ok ip_parse) l -> consistent_ledger l -> no_definitions l -> Forall (text_of H 1) addrs -> frank H ip_str l net addrs ->
  wallet_balance H ip_parse now net info addrs = Ok w ->
  funded H w primary source refund fee pays cost t -> recorded t l e -> 0 < fee ->
  (forall a, In a addrs -> In a all) -> (forall m, In m (wb_ms w) -> exists b, uh_str H (ms_addr m) = Ok b /\ In b all) ->
  uh_str H primary = Ok home -> In home all -> (forall c, refund = Some c -> for_any H all (mkout 0 c []) = true) ->
  consistent_ledger (e :: l) /\
  fortune H all (e :: l) + worth (filter (fun o => negb (for_any H all o)) pays) + fee + cost = fortune H all l /\
  forall others, (forall a, In a others -> ~ In a all) -> fortune H others (e :: l) = fortune H others l + worth (filter (for_any H others) pays).
Proof.
  intros H ip is now net info addrs w l primary source refund fee pays cost t e all home HH L F C D T Fr E Fu R Pf Sub Ms Eh Ih Rc. pose proof Fu as (_ & _ & _ & _ & rem & _ & _ & _ & _ & Co).
  destruct (shared_step H ip is now net info addrs w l primary source refund fee pays cost t e HH L F C D T Fr E Fu R) as (X & Own & Wu).
  assert (Own' : forall o, In o (Spec_Ledger.spends e) -> for_any H all o = true).
  { intros o I. apply for_any_in. destruct (Own o I) as (_ & [Q|(m & b & Im & Eb & P)]).
    - apply for_any_in in Q as (a & Ia & P). exists a. auto.
    - destruct (Ms m Im) as (b' & Eb' & Ib'). assert (b' = b) as -> by congruence. exists b. auto. }
  assert (Prim : for_any H all (mkout 0 (CUnlockHash primary) []) = true).
  { apply for_any_in. exists home. split; [exact Ih|]. unfold Spec_Explorer.pays. cbn [o_cond cond_unlockhash]. rewrite Eh. apply listN_eqb_refl. }
  assert (Rf : for_any H all (mkout 0 (refund_to w primary source refund) []) = true).
  { unfold refund_to. destruct refund as [c|]; [exact (Rc c eq_refl)|]. destruct source as [[|u [|v s]]|]; try exact Prim. destruct (uh_type u =? 1)%Z eqn:Tu.
    - (* the wallet has an output of this address, or there was nothing to pay with *)
      destruct (Spec_Ledger.spends e) as [|o os] eqn:Es; [exfalso; change (worth []) with 0 in Wu; lia|]. destruct (Own o (or_introl eq_refl)) as (Ip & _). pose proof (Own' o (or_introl eq_refl)) as Qo.
      unfold pool in Ip. apply in_app_or in Ip as [Ip|Ip].
      + apply filter_In in Ip as (_ & Py). unfold pays_to in Py. destruct (cond_unlockhash H (o_cond o)) as [v|] eqn:Ev; [|discriminate Py]. apply existsb_exists in Py as (u' & Iu & Py).
        unfold personal in Iu. apply filter_In in Iu as ([<-|[]] & _). unfold for_any, Spec_Explorer.pays in Qo |- *. rewrite Ev in Qo. cbn [o_cond cond_unlockhash].
        assert (v = u) as <-; [|exact Qo]. symmetry. unfold uh_eqb in Py. apply andb_prop in Py as [P1 P2]. apply Z.eqb_eq in P1. apply listN_eqb_eq in P2. destruct u as [ut uhh], v as [vt vh]; cbn [Types.uh_type Types.uh_hash] in *; congruence.
      + exfalso. apply in_flat_map in Ip as (m & Im & Ip). destruct (existsb (uh_eqb (ms_addr m)) [u]) eqn:Q; [|destruct Ip]. cbn [existsb] in Q. rewrite orb_false_r in Q. unfold uh_eqb in Q. apply andb_prop in Q as [Q _].
        destruct (multi_spendable H ip is now HH L net l info addrs w F C D T Fr E m o Im Ip) as (_ & _ & Ty & _). lia.
    - destruct (find _ _) as [m|] eqn:Fi; [|exact Prim]. apply find_some in Fi as (Im & _). destruct (Ms m Im) as (b & Eb & Ib). apply for_any_in. exists b. split; [exact Ib|].
      destruct (C92_balance H ip is now net info addrs w l HH L F C D T Fr E) as (_ & _ & Ls). destruct (Ls m Im) as (Eu & _). unfold Spec_Explorer.pays. cbn [o_cond]. rewrite Eu, Eb. apply listN_eqb_refl. }
  assert (Ext : forall f os, (forall o : output, In o os -> f o = true) -> filter f os = os).
  { intros f os. induction os as [|o os IH]; intro A; [reflexivity|]. cbn [filter]. rewrite (A o (or_introl eq_refl)). f_equal. apply IH. intros p I. apply A. now right. }
  assert (Non : forall f os, (forall o : output, In o os -> f o = false) -> filter f os = []).
  { intros f os. induction os as [|o os IH]; intro A; [reflexivity|]. cbn [filter]. rewrite (A o (or_introl eq_refl)). apply IH. intros p I. apply A. now right. }
  assert (Mk : forall as_, worth (filter (for_any H as_) (makes e)) = worth (filter (for_any H as_) (coin_outputs t))).
  { intro as_. destruct R as (R1 & _ & R3 & _). unfold makes. rewrite R1. apply give_filter. exact R3. }
  split; [exact (extend_ok e l C X)|]. split.
  - pose proof (extend_fortune H all e l C X) as Q. rewrite (Ext _ _ Own'), Mk, Co, filter_app, worth_app in Q. rewrite Co, worth_app in Wu.
    assert (Ch : filter (for_any H all) (Spec_Wallet.change rem (refund_to w primary source refund)) = Spec_Wallet.change rem (refund_to w primary source refund)).
    { unfold Spec_Wallet.change. destruct (rem =? 0); [reflexivity|]. cbn [filter]. change (for_any H all (mkout rem (refund_to w primary source refund) [])) with (for_any H all (mkout 0 (refund_to w primary source refund) [])). rewrite Rf. reflexivity. }
    rewrite Ch in Q. assert (Sp : worth pays = worth (filter (for_any H all) pays) + worth (filter (fun o => negb (for_any H all o)) pays)).
    { clear. induction pays as [|o os IH]; [reflexivity|]. cbn [filter]. unfold worth in *. destruct (for_any H all o); cbn [negb map sum]; lia. }
    lia.
  - intros others Dj. assert (Ex : forall o, for_any H all o = true -> for_any H others o = false).
    { intros o I. destruct (for_any H others o) eqn:K; [|reflexivity]. exfalso. apply for_any_in in I as (a & Ia & Pa). apply for_any_in in K as (b & Ib & Pb). apply (Dj b Ib). rewrite <- (pays_fun H a b o Pa Pb). exact Ia. }
    pose proof (extend_fortune H others e l C X) as Q. rewrite Mk, Co, filter_app, worth_app in Q.
    rewrite (Non (for_any H others) (Spec_Ledger.spends e)) in Q by (intros o I; apply Ex, Own'; exact I). rewrite (Non (for_any H others) (Spec_Wallet.change _ _)) in Q; [change (worth []) with 0 in Q; lia|].
    intros o I. apply Ex. unfold Spec_Wallet.change in I. destruct (rem =? 0); [destruct I|]. destruct I as [<-|[]]. exact Rf.
Qed.
Print Assumptions C92_moves.

(** So through every history of any number of wallets that pay from their own addresses and from multi-signature wallets, nothing is ever spent twice, no id is used
    twice, and no coins come into being or get lost. *)
Theorem C92_run : forall H ip_parse ip_str l l' c, hash_ok H -> ip_library ip_parse ip_str -> Forall (entry_ok ip_parse) l -> consistent_ledger l -> no_definitions l ->
  run_shared H ip_parse ip_str l l' c ->
  Forall (entry_ok ip_parse) l' /\ consistent_ledger l' /\ no_definitions l' /\ worth (unspent l') + c = worth (unspent l).
Proof.
  intros H ip is l l' c HH L F C D R. induction R as [l|l l' c t p R IH O|l l' c t e p R IH O Rc Ok Nd|l l' l'' m c R IH P Mv F'].
  - split; [exact F|]. split; [exact C|]. split; [exact D|]. lia.
  - exact (IH F C D).
  - destruct (IH F C D) as (F' & C' & D' & W). destruct O as (now & net & info & addrs & w & primary & source & refund & fee & pays & price & T & Fr & E & Fu & ->).
    destruct (shared_step H ip is now net info addrs w l' primary source refund fee pays price t e HH L F' C' D' T Fr E Fu Rc) as (X & _ & Ws).
    split; [constructor; assumption|]. split; [exact (extend_ok e l' C' X)|]. split.
    { intros e' [<-|I]; [|exact (D' e' I)]. destruct Rc as (-> & _). exact Nd. }
    pose proof (worth_perm _ _ (extend_unspent e l' C' X)) as Q. rewrite !worth_app in Q.
    assert (Wm : worth (makes e) = worth (coin_outputs t)) by (destruct Rc as (R1 & _ & R3 & _); unfold makes; rewrite R1; apply give_worth; exact R3). lia.
  - destruct (IH F C D) as (F0 & C' & D' & W). split; [exact F'|].
    assert (P1 : map makes m = map makes l'' /\ map Spec_Ledger.spends m = map Spec_Ledger.spends l'').
    { clear - Mv. induction Mv as [|e e' m l'' (h & ->) Mv (IH1 & IH2)]; [auto|]. cbn [map]. rewrite IH1, IH2. auto. }
    assert (Q1 : Permutation (all_made l') (all_made l'')) by (unfold all_made; rewrite !flat_map_concat_map, <- (proj1 P1); apply perm_concat, Permutation_map; exact P).
    assert (Q2 : Permutation (all_spent l') (all_spent l'')) by (unfold all_spent; rewrite !flat_map_concat_map, <- (proj2 P1); apply perm_concat, Permutation_map; exact P).
    split; [|split].
    + split; [exact (Permutation_NoDup (Permutation_map _ Q1) (lc_made _ C'))| |exact (Permutation_NoDup (Permutation_map _ Q2) (lc_once _ C'))].
      intros o p I J. apply (lc_same _ C'); [exact (Permutation_in _ (Permutation_sym Q1) I)|exact (Permutation_in _ (Permutation_sym Q2) J)].
    + intros e' I. destruct (Forall2_in_r _ _ _ Mv e' I) as (e & Ie & (h & ->)). cbn [en_txn]. apply D'. exact (Permutation_in _ (Permutation_sym P) Ie).
    + rewrite <- W. f_equal. apply worth_perm. apply perm_by_ids.
      * apply ids_filter. exact (Permutation_NoDup (Permutation_map _ Q1) (lc_made _ C')).
      * apply ids_filter. exact (lc_made _ C').
      * intro o. unfold unspent. rewrite !not_spent. split; intros (I & N); (split; [|intros p J; apply N]).
        -- exact (Permutation_in _ (Permutation_sym Q1) I).
        -- exact (Permutation_in _ Q2 J).
        -- exact (Permutation_in _ Q1 I).
        -- exact (Permutation_in _ (Permutation_sym Q2) J).
Qed.
Print Assumptions C92_run.

(** Every payment, from whatever sources the caller names, is a step of such a history. *)
Theorem C92_operates : forall H ip_parse ip_str (sign : pubkey -> bytes -> bytes) l now net info v x p amount source refund lock data t sub,
  Forall (text_of H 1) (v_addrs v) -> frank H ip_str l net (v_addrs v) -> opened H ip_parse now net info v = Ok x ->
  (forall c, amount = CICur c -> is_currency c) -> (forall a, ~ names_erc20 p a) ->
  coins_send_args H sign now x p amount source refund lock data = Ok (t, sub) -> operates_shared H ip_parse ip_str l t (v_fee v).
Proof.
  intros H ip is sign l now net info v x p amount source refund lock data t sub T Ho Op Am Ne E.
  unfold opened in Op. apply bind_ok in Op as (w & Ew & Op). apply ok_inj in Op.
  apply C75_sends in E as (n & s & r & _ & _ & Ns & _ & _ & K); [|exact Am].
  destruct K as [(a & _ & Na & _)|(i & c & b & a & _ & _ & _ & _ & -> & _ & Fu)]; [destruct (Ne a Na)|].
  rewrite <- Op in Fu. cbn [x_bal x_address x_fee] in Fu.
  exists now, net, info, (v_addrs v), w, (v_address v), s, r, (v_fee v), [mkout n c []], 0.
  split; [exact T|]. split; [exact Ho|]. split; [exact Ew|]. split; [exact Fu|]. symmetry; apply N.add_0_r.
Qed.
Print Assumptions C92_operates.

(** Refuted: that nobody else can take a balance away.  Whoever pays to the address of a multi-signature wallet without naming its owners, as every payment to the
    address's text does, makes the balance of all wallets of its co-owners fail from then on: none of their coins can be seen or spent with the library. *)
Theorem C92_poisoned_refuted : forall H ip_parse ip_str now net info addrs l a u e o, hash_ok H -> ip_library ip_parse ip_str ->
  Forall (entry_ok ip_parse) l -> Forall (text_of H 1) addrs -> frank H ip_str l net addrs ->
  In a addrs -> shared_with H l a u -> In e l -> In o (makes e) -> o_cond o = CUnlockHash u ->
  forall w, wallet_balance H ip_parse now net info addrs <> Ok w.
Proof.
  intros H ip is now net info addrs l a u e o HH L F T Fr Ia Sw Ie Io Ec w E.
  destruct (frank_own H ip is now HH L net l F addrs T Fr 0%nat) as (own & A & Fo & Co). pose proof (multisig_texts H l own addrs Fo) as Tx.
  destruct (frank_multi H ip is now HH L net l F addrs (flat_map (fun ar => multisigs H (snd ar)) own) Fr) with (n := length addrs) as (multi & Am & Fm & Eq).
  { intros b I. apply Tx in I as (c & r & v & I & Sv & Es). exists c, v. split; [exact (proj1 (Fo c r I))|]. auto. }
  destruct (shared_address H l a u HH Sw) as (Au & Ty & b & Eb). destruct (Co a u Ia Sw) as (r & Ir).
  assert (J : In b (map fst multi)) by (rewrite Eq; apply Tx; exists a, r, u; auto). apply in_map_iff in J as ([b' q] & Qb & J). cbn [fst] in Qb. subst b'.
  apply (wallet_balance_inv H ip now net) in E as (own' & multi' & bs & ps & ars & An & An2 & _ & _ & _ & Fe & I1 & I2 & _ & _ & Fm'); [|exact HH|exact T].
  rewrite (answers_fun H ip now net _ _ _ An own A) in *. rewrite (answers_fun H ip now net _ _ _ An2 multi Am) in *. rewrite Forall_forall in Fm'. destruct (Fm' _ J) as (Tq & Str). cbn [fst snd] in *.
  assert (Rb : exists y, result_balance H q (Some info) = Ok y).
  { destruct (I2 _ J) as [(x & Px)|Iq]; [cbn [snd] in Px; exists (None, x); exact Px|]. destruct (Forall2_in_l _ _ _ Fe _ Iq) as (m & _ & En). exists (Some (ms_owners m, ms_count m), ms_bal m). exact (proj1 En). }
  destruct Rb as (y & Rb). unfold result_balance in Rb. rewrite Tq in Rb. change (3 =? 3)%Z with true in Rb. cbv iota in Rb. unfold multisig_balance in Rb. rewrite Str in Rb. cbn [bind] in Rb. apply bind_ok in Rb as (z & Ez & _).
  assert (P : Spec_Explorer.pays H b o = true) by (unfold Spec_Explorer.pays; rewrite Ec; cbn [cond_unlockhash]; rewrite Eb; apply listN_eqb_refl).
  destruct (found_back H l b q (proj2 (Fm b q J)) e Ie) as (x & Ix & [R1 _ _ _ _]); [exists o; split; [apply in_or_app; now left|exact P]|].
  destruct (madd_named_all H b (h_txns q) None z Ez x o Ix) as (us & n & As); [apply in_or_app; right; rewrite R1; exact Io|exact P|].
  rewrite Ec in As. destruct As as [As|(k & As)]; discriminate As.
Qed.
Print Assumptions C92_poisoned_refuted.

(** *** Cases.  Somebody pays 10 to a multi-signature wallet that one of the wallet's addresses co-owns, and 20 to that address. *)
Definition exsh_uh : uh := match cond_unlockhash ex_H2 exx_multi with Ok u => u | Err _ => mkuh 0 [] end.
Definition exsh_e : entry := mkentry (exx_std 5 [mkout 10 exx_multi []; exx_pay 20]) (repeat 31 32) [exx_pay 31] [] [repeat 21 32; repeat 22 32] [] (Some 7%Z).
(** later somebody pays 9 to the address of the multi-signature wallet *)
Definition exsh_p : entry := mkentry (exx_std 22 [mkout 9 (CUnlockHash exsh_uh) []]) (repeat 32 32) [exx_pay 20] [] [repeat 23 32] [] (Some 9%Z).
Definition exsh_poison : json := exx_answer (exx_std 22 [mkout 9 (CUnlockHash exsh_uh) []]) 32 [exx_pay 20] [] [23] [] 9 false.
Definition exsh_a : pystr := exl_text (CUnlockHash exx_uh).
Definition exsh_net (l : list json) (n : nat) (a : pystr) : res json :=
  if listN_eqb a exsh_a then Ok (exl_resp l [exx_multi]) else if listN_eqb a (exl_text exx_multi) then Ok (exl_resp l []) else Err ExplorerNoContent.
Lemma exsh_ok : Forall (entry_ok ex_ip_parse) [exsh_p; exsh_e].
Proof. repeat apply Forall_cons; try apply Forall_nil; apply exe_entry_ok; vm_compute; reflexivity. Qed.
Ltac exsh_told :=
  split;
  [eexists; split; [eexists; split; [reflexivity|]; vm_compute; reflexivity|]; eexists; split; [vm_compute; reflexivity|]; split; [eexists; split; [reflexivity|]; reflexivity|];
    left; eexists; split; [reflexivity|]; vm_compute; reflexivity
  |eexists; split; reflexivity
  |eexists; split; [left; eexists; split; [reflexivity|]; vm_compute; reflexivity|]; repeat (constructor; [vm_compute; reflexivity|]); constructor
  |eexists; split; [left; eexists; split; [reflexivity|]; vm_compute; reflexivity|]; repeat (constructor; [vm_compute; reflexivity|]); constructor
  |eexists; split; [left; eexists; split; [reflexivity|]; vm_compute; reflexivity|]; constructor
  |eexists; split; [left; eexists; split; [reflexivity|]; vm_compute; reflexivity|]; constructor
  |split; [left; eexists; split; reflexivity|eexists; split; reflexivity]].
Lemma exsh_told_e : tells ex_H2 ex_ip_str exx_mpay exsh_e.
Proof. exsh_told. Qed.
Lemma exsh_told_p : tells ex_H2 ex_ip_str exsh_poison exsh_p.
Proof. exsh_told. Qed.
Lemma exsh_texts : Forall (text_of ex_H2 1) [exsh_a].
Proof. pose proof exl_texts as T. unfold exl_own in T. inversion T; subst. apply Forall_cons; [assumption|apply Forall_nil]. Qed.
Lemma exsh_shared l a u : l = [exsh_e] \/ l = [exsh_p; exsh_e] -> (shared_with ex_H2 l a u <-> u = exsh_uh /\ In a [exsh_a; exl_text (CUnlockHash (mkuh 1 (repeat 3 32)))]).
Proof.
  intro Hl. split.
  - intros (e & o & us & n & x & Ie & Io & As & E & Ix & Ex).
    assert (Eo : o_cond o = exx_multi).
    { assert (K : o_cond o = exx_multi \/ exists v, o_cond o = CUnlockHash v).
      { destruct Hl as [->| ->]; repeat destruct Ie as [<-|Ie]; try contradiction; vm_compute in Io; repeat destruct Io as [<-|Io]; try contradiction; cbn [o_cond]; solve [left; reflexivity|right; eexists; reflexivity]. }
      destruct K as [K|(v & K)]; [exact K|]. rewrite K in As. destruct As as [As|(k & As)]; discriminate As. }
    rewrite Eo in E, As. split; [unfold exsh_uh; rewrite E; reflexivity|]. unfold exx_multi in As. destruct As as [As|(k & As)]; [|discriminate As]. injection As as Eus En. subst us.
    assert (Q : exl_text (CUnlockHash x) = a) by (unfold exl_text, cond_address; cbn [cond_unlockhash bind]; rewrite Ex; reflexivity).
    destruct Ix as [<-|[<-|[]]]; [left; exact Q|right; left; exact Q].
  - intros (-> & I). exists exsh_e, (mkout 10 exx_multi (repeat 21 32)), [exx_uh; mkuh 1 (repeat 3 32)], 1%Z.
    destruct I as [<-|[<-|[]]]; [exists exx_uh|exists (mkuh 1 (repeat 3 32))].
    all: split; [destruct Hl as [->| ->]; cbn [In]; auto|]; split; [left; reflexivity|]; split; [left; reflexivity|]; split; [vm_compute; reflexivity|]; split; [cbn [In]; auto|vm_compute; reflexivity].
Qed.
Lemma exsh_frank js l : l = [exsh_e] \/ l = [exsh_p; exsh_e] -> Forall2 (tells ex_H2 ex_ip_str) js l -> frank ex_H2 ex_ip_str l (exsh_net js) [exsh_a].
Proof.
  intros Hl F n. assert (Hi : forall ms us, Forall2 (fun c u => c = exx_multi /\ u = exsh_uh) ms us -> Spec_Lookup.told_history ex_H2 (tells ex_H2 ex_ip_str) (exl_resp js ms) l us None).
  { intros ms us Fm. split.
    - eexists. split; reflexivity.
    - exists js. split; [eexists; split; reflexivity|exact F].
    - exists (map (fun c => JStr (exl_text c)) ms). split; [left; eexists; split; reflexivity|]. induction Fm as [|c u ms us (-> & ->) Fm IH]; [constructor|]. constructor; [|exact IH]. 
      exists (exl_text exx_multi). split; [vm_compute; reflexivity|reflexivity].
    - eexists. split; reflexivity. }
  assert (Ad : address exsh_uh) by (apply exe_addr_ok; vm_compute; reflexivity). split.
  - intros a [<-|[]]. exists [exsh_uh]. split; [|split; [constructor; [intros []|constructor]|split]].
    + right. exists (exl_resp js [exx_multi]), l, [], None. split; [unfold exsh_net; rewrite listN_eqb_refl; reflexivity|]. split; [apply Hi; constructor; [auto|constructor]|].
      split; [split; [constructor; [split; [exact Ad|vm_compute; reflexivity]|constructor]|exact Logic.I]|]. rewrite app_nil_r. split; [apply Permutation_refl|intros e []].
    + intro u. rewrite (exsh_shared l exsh_a u Hl). split; [intros [<-|[]]; split; [reflexivity|now left]|intros (-> & _); now left].
    + unfold exsh_net. rewrite listN_eqb_refl. discriminate.
  - intros a u b _ Sw Eb. apply (exsh_shared l a u Hl) in Sw as (-> & _). exists []. right. exists (exl_resp js []), l, [], None.
    assert (b = exl_text exx_multi) as ->.
    { assert (Q : uh_str ex_H2 exsh_uh = Ok (exl_text exx_multi)) by (vm_compute; reflexivity). rewrite Q in Eb. apply ok_inj in Eb. now symmetry. }
    split; [unfold exsh_net; replace (listN_eqb (exl_text exx_multi) exsh_a) with false by (vm_compute; reflexivity); rewrite listN_eqb_refl; reflexivity|]. split; [apply Hi; constructor|].
    split; [split; [constructor|exact Logic.I]|]. rewrite app_nil_r. split; [apply Permutation_refl|intros e []].
Qed.
(** The balance of the co-owner: its own 20, and the 10 of the multi-signature wallet; it pays from the latter.  After the payment to the address, there is none. *)
Example C92_ex : hash_ok ex_H2 /\ ip_library ex_ip_parse ex_ip_str /\ Forall (entry_ok ex_ip_parse) [exsh_e] /\ consistent_ledger [exsh_e] /\ no_definitions [exsh_e] /\ proper ex_H2 [exsh_e] /\
  (forall o, In o (all_made [exsh_e] ++ all_spent [exsh_e]) -> exists a, Spec_Explorer.pays ex_H2 a o = true) /\
  Forall (text_of ex_H2 1) [exsh_a] /\ frank ex_H2 ex_ip_str [exsh_e] (exsh_net [exx_mpay]) [exsh_a] /\ shared_with ex_H2 [exsh_e] exsh_a exsh_uh /\
  exists w, wallet_balance ex_H2 ex_ip_parse 0 (exsh_net [exx_mpay]) exl_info [exsh_a] = Ok w /\ available (wb_own w) = 20 /\
    map (fun m => (ms_count m, available (ms_bal m))) (wb_ms w) = [(1%Z, 10)] /\ map ms_addr (wb_ms w) = [exsh_uh].
Proof.
  split; [exact ex_H2_ok|]. split; [exact C43_library|]. pose proof exsh_ok as F. inversion F as [|? ? _ Fe]; subst. split; [exact Fe|]. split.
  { split.
    - vm_compute. repeat (constructor; [intros I; repeat destruct I as [I|I]; try contradiction; discriminate I|]). constructor.
    - intros o p I J E. exfalso. vm_compute in I, J. repeat destruct I as [<-|I]; try contradiction; repeat destruct J as [<-|J]; try contradiction; discriminate E.
    - vm_compute. constructor; [intros []|constructor]. }
  split; [intros e [<-|[]]; exact Logic.I|]. split.
  { intros e o u [<-|[]] Io E Ty. vm_compute in Io. destruct Io as [<-|[<-|[<-|[]]]].
    - exists [exx_uh; mkuh 1 (repeat 3 32)], 1%Z. split; [left; reflexivity|cbn [length]; lia].
    - vm_compute in E. apply ok_inj in E. subst u. discriminate Ty.
    - vm_compute in E. apply ok_inj in E. subst u. discriminate Ty. }
  split.
  { intros o Io. vm_compute in Io. destruct Io as [<-|[<-|[<-|[]]]]; [exists (exl_text exx_multi)|exists exsh_a|exists exsh_a]; vm_compute; reflexivity. }
  split; [exact exsh_texts|]. split; [apply exsh_frank; [now left|constructor; [exact exsh_told_e|constructor]]|]. split; [apply exsh_shared; [now left|split; [reflexivity|now left]]|].
  eexists. split; [vm_compute; reflexivity|]. split; [|split]; vm_compute; reflexivity.
Qed.
Example C92_ex_poisoned : Forall (entry_ok ex_ip_parse) [exsh_p; exsh_e] /\ frank ex_H2 ex_ip_str [exsh_p; exsh_e] (exsh_net [exsh_poison; exx_mpay]) [exsh_a] /\
  shared_with ex_H2 [exsh_p; exsh_e] exsh_a exsh_uh /\ (exists o, In o (makes exsh_p) /\ o_cond o = CUnlockHash exsh_uh) /\
  wallet_balance ex_H2 ex_ip_parse 0 (exsh_net [exsh_poison; exx_mpay]) exl_info [exsh_a] = Err TypeError /\
  (* the text of the address names the address, and nobody else (Spec_Front.v) *)
  names_payee ex_H2 (PVal (RStr (exl_text exx_multi))) (CUnlockHash exsh_uh).
Proof.
  split; [exact exsh_ok|]. split; [apply exsh_frank; [now right|constructor; [exact exsh_told_p|constructor; [exact exsh_told_e|constructor]]]|].
  split; [apply exsh_shared; [now right|split; [reflexivity|now left]]|]. split; [eexists; split; [left; reflexivity|reflexivity]|]. split; [vm_compute; reflexivity|].
  eexists. split; [reflexivity|]. constructor. vm_compute. reflexivity.
Qed.
(** The co-owner pays 4 of the 10, and a miner fee of 1, from the multi-signature wallet: the other 5 stay there. *)
Definition exsh_t : txn := T1 (mkstd false [mkin (repeat 21 32) (FMulti []) (Some (mkout 10 exx_multi (repeat 21 32)))] [mkout 4 (CUnlockHash (ex_key_uh 9)) []; mkout 5 exx_multi []] [] [] [1] []).
Definition exsh_r : entry := mkentry exsh_t (repeat 33 32) [mkout 10 exx_multi (repeat 21 32)] [] [repeat 24 32; repeat 25 32] [] None.
Example C92_ex_moves : exists w, wallet_balance ex_H2 ex_ip_parse 0 (exsh_net [exx_mpay]) exl_info [exsh_a] = Ok w /\
  funded ex_H2 w exx_uh (Some [exsh_uh]) None 1 [mkout 4 (CUnlockHash (ex_key_uh 9)) []] 0 exsh_t /\ recorded exsh_t [exsh_e] exsh_r /\ entry_ok ex_ip_parse exsh_r /\ no_definition exsh_t /\
  uh_str ex_H2 exx_uh = Ok exsh_a /\ (forall m, In m (wb_ms w) -> exists b, uh_str ex_H2 (ms_addr m) = Ok b /\ In b [exsh_a; exl_text exx_multi]) /\
  fortune ex_H2 [exsh_a; exl_text exx_multi] [exsh_e] = 30 /\ fortune ex_H2 [exsh_a; exl_text exx_multi] [exsh_r; exsh_e] = 25 /\ fortune ex_H2 [ex_addr 9] [exsh_r; exsh_e] = 4 /\
  run_shared ex_H2 ex_ip_parse ex_ip_str [exsh_e] [exsh_r; exsh_e] 1.
Proof.
  destruct C92_ex as (_ & _ & _ & _ & _ & _ & _ & T & Fr & _ & w & E & Av & Mb & Ma).
  assert (Fu : funded ex_H2 w exx_uh (Some [exsh_uh]) None 1 [mkout 4 (CUnlockHash (ex_key_uh 9)) []] 0 exsh_t).
  { clear - E. vm_compute in E. apply ok_inj in E. subst w. split; [eexists; split; [reflexivity|vm_compute; reflexivity]|]. split; [reflexivity|]. eexists. exists [mkout 10 exx_multi (repeat 21 32)], 5.
    split; [reflexivity|]. split; [constructor; [split; reflexivity|constructor]|]. split; [exists []; vm_compute; apply Permutation_refl|]. split; [cbn [length]; lia|vm_compute; reflexivity]. }
  assert (Rc : recorded exsh_t [exsh_e] exsh_r).
  { split; [reflexivity|]. split; [reflexivity|]. split; [reflexivity|]. split.
    - repeat (constructor; [intros I; vm_compute in I; repeat destruct I as [I|I]; try contradiction; discriminate I|]). constructor.
    - intros i I. cbn [en_ids exsh_r In] in I. split; intro J; vm_compute in J; repeat destruct J as [<-|J]; try contradiction; vm_compute in I; repeat destruct I as [I|I]; try contradiction; discriminate I. }
  assert (Ok : entry_ok ex_ip_parse exsh_r).
  { assert (P : Forall print_out [mkout 10 exx_multi (repeat 21 32)]) by (apply (exe_all exe_outb); [exact exe_outb_ok|vm_compute; reflexivity]).
    split; [|split; [discriminate|discriminate]]. split.
    - cbn [en_txn exsh_r exsh_t printable s_cin s_cout s_bin s_bout s_fees s_data]. split; [constructor; [split; [exact (exe_bytes_ok 32 (repeat 21 32) eq_refl)|constructor]|constructor]|].
      split; [apply (exe_all exe_outb); [exact exe_outb_ok|vm_compute; reflexivity]|]. split; [constructor|]. split; [constructor|]. split; [|constructor]. constructor; [vm_compute; reflexivity|constructor].
    - exact (exe_bytes_ok 32 (repeat 33 32) eq_refl).
    - split; [exact P|reflexivity].
    - split; [|reflexivity]. constructor; [exact (exe_bytes_ok 32 (repeat 24 32) eq_refl)|]. constructor; [exact (exe_bytes_ok 32 (repeat 25 32) eq_refl)|constructor].
    - split; [constructor|reflexivity].
    - split; [constructor|reflexivity].
    - discriminate. }
  exists w. split; [exact E|]. split; [exact Fu|]. split; [exact Rc|]. split; [exact Ok|]. split; [exact Logic.I|]. split; [vm_compute; reflexivity|]. split.
  { intros m Im. assert (Q : In (ms_addr m) [exsh_uh]) by (rewrite <- Ma; apply in_map; exact Im). destruct Q as [Q|[]]. rewrite <- Q. exists (exl_text exx_multi). split; [vm_compute; reflexivity|cbn [In]; auto]. }
  split; [vm_compute; reflexivity|]. split; [vm_compute; reflexivity|]. split; [vm_compute; reflexivity|].
  change 1 with (0 + (1 + 0)). apply (RS_taken ex_H2 ex_ip_parse ex_ip_str [exsh_e] [exsh_e] 0 exsh_t exsh_r (1 + 0)); [apply RS_start| |exact Rc|exact Ok|exact Logic.I].
  exists 0%Z, (exsh_net [exx_mpay]), exl_info, [exsh_a], w, exx_uh, (Some [exsh_uh]), None, 1, [mkout 4 (CUnlockHash (ex_key_uh 9)) []], 0.
  split; [exact T|]. split; [exact Fr|]. split; [exact E|]. split; [exact Fu|reflexivity].
Qed.
