(** Facts about multi-signature wallets on the chain. *)
From Coq Require Import Permutation Sorting.Sorted.
From Verif Require Import Base BaseFacts Encoders Currency Primitive Types Conditions Fulfillments ThreeBotTypes Txn TxnJson Wallet Explorer WalletLoad
  Spec_Types Spec_Txn Spec_Json Spec_ThreeBot Spec_Wallet Spec_Explorer Spec_Load Spec_Session Spec_Lookup TypesFacts WalletFacts WalletFacts2 ExplorerFacts ExplorerFacts2 ExplorerFacts3 LookupFacts LoadFacts SessionFacts Spec_Ops
  FundFacts2 Prop_Wallet Prop_Explorer Prop_Lookup Prop_Load Prop_Wire Spec_Ledger LedgerFacts Spec_Shared.
From Coq Require Import ZifyBool ZifyNat ZifyN.
Ltac Zify.zify_post_hook ::= Z.div_mod_to_equations.

(** *** Addresses of multi-signature wallets *)
Lemma asks_address H c us n u : hash_ok H -> asks_for c us n -> cond_unlockhash H c = Ok u -> cond_unlockhash H (CMulti us n) = Ok u /\ address u /\ uh_type u = 3%Z.
Proof.
  intros HO A E. assert (E' : cond_unlockhash H (CMulti us n) = Ok u) by (destruct A as [->|(k & ->)]; exact E). split; [exact E'|].
  pose proof (proj1 (C84_condition_address _ _ _) E') as P. inversion P as [| | | |? ? ? ? r _ _ M]. cbn [uh_hash uh_type]. split; [|reflexivity].
  split; [cbn; auto|]. split; [cbn [uh_hash]; inversion M; apply HO|discriminate].
Qed.
Lemma shared_address H l a u : hash_ok H -> shared_with H l a u -> address u /\ uh_type u = 3%Z /\ exists b, uh_str H u = Ok b.
Proof.
  intros HO (e & o & us & n & x & _ & _ & A & E & _). destruct (asks_address H _ us n u HO A E) as (_ & Au & Ty). split; [exact Au|]. split; [exact Ty|].
  destruct (address_round_trip H u HO Au) as (s & Es & _). eauto.
Qed.
Lemma shared_concerns H l a u b : shared_with H l a u -> uh_str H u = Ok b -> exists e, In e l /\ concerns H b e.
Proof.
  intros (e & o & us & n & x & Ie & Io & _ & E & _) Eb. exists e. split; [exact Ie|]. exists o. split; [exact Io|]. unfold pays. rewrite E, Eb. apply listN_eqb_refl.
Qed.

Section Read.
Variables (H : bytes -> bytes) (ip_parse : pystr -> res bytes) (ip_str : bytes -> pystr) (now : Z).
Hypothesis HH : hash_ok H.
Hypothesis L : ip_library ip_parse ip_str.
Variables (net : nat -> pystr -> res json) (l : ledger).
Hypothesis F : Forall (entry_ok ip_parse) l.
Notation look := (lookup H ip_parse now net).

Lemma frank_honest addrs : frank H ip_str l net addrs -> honest H ip_str l net addrs.
Proof using. intros Fr n a I. destruct (Fr n) as (Q & _). destruct (Q a I) as (ms & Sh & _). eauto. Qed.
(** the answers of frank explorers for the wallet's addresses ... *)
Lemma frank_own addrs : Forall (text_of H 1) addrs -> frank H ip_str l net addrs ->
  forall n, exists own, answers look n addrs own /\
    (forall a r, In (a, r) own -> In a addrs /\ found H l a r /\ NoDup (h_multisigs r) /\ forall u, In u (h_multisigs r) <-> shared_with H l a u) /\
    (forall a u, In a addrs -> shared_with H l a u -> exists r, In (a, r) own).
Proof using HH L F.
  intros T Fr. induction T as [|a addrs Ta T IH]; intro n; [exists []; split; [constructor|split; [intros a r []|intros a u []]]|].
  assert (Fr' : frank H ip_str l net addrs).
  { intro k. destruct (Fr k) as (A & B). split; [intros b I; apply A; now right|intros b u c I; apply B; now right]. }
  destruct (IH Fr' (S n)) as (own & A & Fo & Co). destruct (Fr n) as (Ca & _). destruct (Ca a (or_introl eq_refl)) as (ms & Sh & ND & Iff & Z).
  destruct (shown_as H ip_parse ip_str now HH L 1 net l ms n a F Ta Sh) as [((Zn & E) & N)|(r & E & Fd & Em)].
  - exists own. split; [apply A_unused; assumption|]. split.
    + intros b r I. destruct (Fo b r I) as (Q & R). split; [now right|exact R].
    + intros b u [<-|I] Sw; [|eauto]. exfalso. apply Iff in Sw. rewrite (Z Zn) in Sw. destruct Sw.
  - exists ((a, r) :: own). split; [apply A_found; assumption|]. split.
    + intros b s [I|I]; [injection I as <- <-; split; [now left|]; split; [exact Fd|]; rewrite Em; auto|]. destruct (Fo b s I) as (Q & R). split; [now right|exact R].
    + intros b u [<-|I] Sw; [exists r; now left|]. destruct (Co b u I Sw) as (s & Is). exists s. now right.
Qed.
(** ... and for their multi-signature wallets *)
Lemma frank_multi addrs bs : frank H ip_str l net addrs -> (forall b, In b bs -> exists a u, In a addrs /\ shared_with H l a u /\ uh_str H u = Ok b) ->
  forall n, exists multi, answers look n bs multi /\ (forall b r, In (b, r) multi -> In b bs /\ found H l b r) /\ map fst multi = bs.
Proof using HH L F.
  intros Fr. induction bs as [|b bs IH]; intros K n; [exists []; split; [constructor|split; [intros a r []|reflexivity]]|].
  destruct (IH (fun c I => K c (or_intror I)) (S n)) as (multi & A & Fo & Eq). destruct (K b (or_introl eq_refl)) as (a & u & Ia & Sw & Es).
  destruct (Fr n) as (_ & Sb). destruct (Sb a u b Ia Sw Es) as (ms & Sh). destruct (shared_address H l a u HH Sw) as (Au & Ty & _).
  destruct (shown_as H ip_parse ip_str now HH L 3 net l ms n b F) as [(_ & N)|(r & E & Fd & _)]; [exists u; auto|exact Sh| |].
  - exfalso. destruct (shared_concerns H l a u b Sw Es) as (e & Ie & C). exact (N e Ie C).
  - exists ((b, r) :: multi). split; [apply A_found; assumption|]. split; [|cbn [map fst]; rewrite Eq; reflexivity].
    intros c s [I|I]; [injection I as <- <-; split; [now left|exact Fd]|]. destruct (Fo c s I) as (Q & R). split; [now right|exact R].
Qed.
Lemma found_definitions a r : no_definitions l -> found H l a r -> Forall (fun x => no_definition (e_txn x)) (h_txns r).
Proof using.
  intros D Fd. apply Forall_forall. intros x Ix. destruct (found_in H l a r Fd x Ix) as (e & Ie & [_ _ _ _ R]). apply R. exact (D e Ie).
Qed.
Lemma found_concerned a r e : found H l a r -> In e l -> concerns H a e -> concerned H a (h_txns r).
Proof using.
  intros Fd Ie C. destruct (found_back H l a r Fd e Ie C) as (x & Ix & [R1 R2 _ _ _]). destruct C as (o & Io & P). exists x, o. split; [exact Ix|]. split; [|exact P].
  rewrite R1, R2. apply in_app_or in Io. tauto.
Qed.
(** the lists of a balance made of one history *)
Lemma single_lists a r b : consistent_ledger l -> found H l a r -> seen_in H b [(a, r)] ->
  (forall id, reports b id (is_available H a (h_txns r) id) (is_unconfirmed H a (h_txns r) id) (is_spent H a (h_txns r) id) (is_spent_unconfirmed H a (h_txns r) id)) ->
  Permutation (values (w_outs b)) (filter (pays H a) (unspent_confirmed l)) /\ Permutation (values (w_unc b)) (filter (pays H a) (unspent_pending l)).
Proof using.
  intros C Fd (S1 & S2 & N1 & N2) Re. pose proof (lc_made l C) as NM.
  assert (G1 : forall o, In o (values (w_outs b)) -> In o (filter (pays H a) (unspent_confirmed l))).
  { intros o I. apply values_in in I as (id & I). destruct (S1 id o I) as (<- & a' & r' & Ia & To & (Cr & Ns)). destruct Ia as [Ia|[]]. injection Ia as <- <-.
    pose proof (told_unspent H l a r Fd o To Ns) as Im. pose proof (proj1 (told_in H l a r Fd o To)) as P.
    apply filter_In. split; [|exact P]. apply not_spent. split; [|exact (proj1 (unspent_iff H l a r Fd C o Im P) Ns)].
    apply (created_iff H l a r Fd) in Cr as (e & p & Ie & U & Ip & _ & Q).
    rewrite (filter_same (fun e => negb (pending e)) (fun e => eqb (pending e) false)); [|intro x; destruct (pending x); reflexivity]. apply made_pending; eauto 6. }
  assert (G2 : forall o, In o (values (w_unc b)) -> In o (filter (pays H a) (unspent_pending l))).
  { intros o I. apply values_in in I as (id & I). destruct (S2 id o I) as (<- & a' & r' & Ia & To & (Cr & _ & Ns)). destruct Ia as [Ia|[]]. injection Ia as <- <-.
    pose proof (told_unspent H l a r Fd o To Ns) as Im. pose proof (proj1 (told_in H l a r Fd o To)) as P.
    apply filter_In. split; [|exact P]. apply not_spent. split; [|exact (proj1 (unspent_iff H l a r Fd C o Im P) Ns)].
    apply (created_iff H l a r Fd) in Cr as (e & p & Ie & U & Ip & _ & Q).
    rewrite (filter_same pending (fun e => eqb (pending e) true)); [|intro x; destruct (pending x); reflexivity]. apply made_pending; eauto 6. }
  split; apply perm_by_ids.
  - rewrite (keys_ids _ (fun id o I => proj1 (S1 id o I))). exact N1.
  - apply ids_filter. apply ids_filter. apply made_nodup. exact NM.
  - intro o. split; [apply G1|]. intro I. apply filter_In in I as (I & P). apply not_spent in I as (Im & Ns). pose proof (made_sub _ _ _ Im) as Im'.
    apply in_flat_map in Im as (e & Ie & Io). apply filter_In in Ie as (Ie & U).
    assert (Hs : has (w_outs b) (o_id o)).
    { apply (proj1 (Re (o_id o))). split; [|exact (proj2 (unspent_iff H l a r Fd C o Im' P) Ns)]. apply (created_iff H l a r Fd). exists e, o. apply negb_true_iff in U. auto 6. }
    unfold has in Hs. apply in_map_iff in Hs as ([id o'] & Eid & I'). cbn [fst] in Eid. subst id. assert (Iv : In o' (values (w_outs b))) by (apply values_in; eauto).
    pose proof (proj1 (S1 _ _ I')) as Q. apply G1 in Iv as Iv'. apply filter_In in Iv' as (Iv' & _). apply not_spent in Iv' as (Iv' & _). apply made_sub in Iv'.
    rewrite (made_one l o o' NM Im' Iv' (eq_sym Q)). exact Iv.
  - rewrite (keys_ids _ (fun id o I => proj1 (S2 id o I))). exact N2.
  - apply ids_filter. apply ids_filter. apply made_nodup. exact NM.
  - intro o. split; [apply G2|]. intro I. apply filter_In in I as (I & P). apply not_spent in I as (Im & Ns). pose proof (made_sub _ _ _ Im) as Im'.
    apply in_flat_map in Im as (e & Ie & Io). apply filter_In in Ie as (Ie & U).
    assert (Hs : has (w_unc b) (o_id o)).
    { apply (proj1 (proj2 (Re (o_id o)))). split; [|split; [|exact (proj2 (unspent_iff H l a r Fd C o Im' P) Ns)]].
      - apply (created_iff H l a r Fd). exists e, o. auto 6.
      - intro K2. apply (created_iff H l a r Fd) in K2 as (e2 & p & Ie2 & U2 & Ip & _ & Q). destruct (flat_ids makes l e e2 o p NM Ie Ie2 Io Ip (eq_sym Q)) as (<- & _). congruence. }
    unfold has in Hs. apply in_map_iff in Hs as ([id o'] & Eid & I'). cbn [fst] in Eid. subst id. assert (Iv : In o' (values (w_unc b))) by (apply values_in; eauto).
    pose proof (proj1 (S2 _ _ I')) as Q. apply G2 in Iv as Iv'. apply filter_In in Iv' as (Iv' & _). apply not_spent in Iv' as (Iv' & _). apply made_sub in Iv'.
    rewrite (made_one l o o' NM Im' Iv' (eq_sym Q)). exact Iv.
Qed.
(** the texts of all multi-signature wallets looked up *)
Lemma multisig_texts (own : list (pystr * uhresult)) addrs :
  (forall a r, In (a, r) own -> In a addrs /\ found H l a r /\ NoDup (h_multisigs r) /\ forall u, In u (h_multisigs r) <-> shared_with H l a u) ->
  forall b, In b (flat_map (fun ar => multisigs H (snd ar)) own) <-> exists a r u, In (a, r) own /\ shared_with H l a u /\ uh_str H u = Ok b.
Proof using.
  intros Fo b. rewrite in_flat_map. split.
  - intros ([a r] & I & J). cbn [snd] in J. unfold multisigs in J. apply in_flat_map in J as (u & Iu & J). destruct (Fo a r I) as (_ & _ & _ & Iff). apply Iff in Iu.
    destruct (uh_str H u) as [s|] eqn:Es; [|destruct J]. destruct J as [<-|[]]. exists a, r, u. auto.
  - intros (a & r & u & I & Sw & Es). exists (a, r). split; [exact I|]. cbn [snd]. unfold multisigs. apply in_flat_map. exists u. split; [apply (Fo a r I); exact Sw|]. rewrite Es. now left.
Qed.
(** The multi-signature wallets of a balance. *)
Lemma shared_lists info addrs w : consistent_ledger l -> no_definitions l -> Forall (text_of H 1) addrs -> frank H ip_str l net addrs ->
  wallet_balance H ip_parse now net info addrs = Ok w ->
  NoDup (map ms_addr (wb_ms w)) /\
  (forall u, In u (map ms_addr (wb_ms w)) <-> exists a, In a addrs /\ shared_with H l a u) /\
  (forall m, In m (wb_ms w) -> cond_unlockhash H (CMulti (ms_owners m) (ms_count m)) = Ok (ms_addr m) /\ exists b, uh_str H (ms_addr m) = Ok b /\
     Permutation (values (w_outs (ms_bal m))) (filter (pays H b) (unspent_confirmed l)) /\ Permutation (values (w_unc (ms_bal m))) (filter (pays H b) (unspent_pending l))).
Proof using HH L F.
  intros C D T Fr E. destruct (frank_own addrs T Fr 0%nat) as (own & A & Fo & Co). pose proof (multisig_texts own addrs Fo) as Tx.
  destruct (frank_multi addrs (flat_map (fun ar => multisigs H (snd ar)) own) Fr) with (n := length addrs) as (multi & Am & Fm & Eq).
  { intros b I. apply Tx in I as (a & r & u & I & Sw & Es). exists a, u. split; [exact (proj1 (Fo a r I))|]. auto. }
  assert (RH : real_heights multi) by (apply (found_heights H l); intros a r I; exact (proj2 (Fm a r I))).
  assert (Df : forall a r, In (a, r) multi -> Forall (fun x => no_definition (e_txn x)) (h_txns r)) by (intros a r I; exact (found_definitions a r D (proj2 (Fm a r I)))).
  destruct (C62_multisig_partial H ip_parse now net info addrs w own multi HH T E A Am RH Df) as (ND & M1 & M2).
  assert (Uniq : forall u v s, address u -> address v -> uh_str H u = Ok s -> uh_str H v = Ok s -> u = v).
  { intros u v s Au Av Eu Ev. destruct (address_round_trip H u HH Au) as (s1 & E1 & _ & P1). destruct (address_round_trip H v HH Av) as (s2 & E2 & _ & P2). congruence. }
  assert (Sm : forall m, In m (wb_ms w) -> exists a, In a addrs /\ shared_with H l a (ms_addr m)).
  { intros m Im. destruct (M1 m Im) as (Eu & b & r & Ib & Es & _). assert (J : In b (flat_map (fun ar => multisigs H (snd ar)) own)) by exact (proj1 (Fm b r Ib)).
    apply Tx in J as (a & r' & u & I & Sw & Eu'). exists a. split; [exact (proj1 (Fo a r' I))|]. destruct (shared_address H l a u HH Sw) as (Au & _).
    destruct (asks_address H (CMulti (ms_owners m) (ms_count m)) _ _ _ HH (or_introl eq_refl) Eu) as (_ & Am' & _). rewrite (Uniq _ _ _ Am' Au Es Eu'). exact Sw. }
  split; [exact ND|]. split.
  - intro u. split.
    + intro I. apply in_map_iff in I as (m & <- & Im). exact (Sm m Im).
    + intros (a & Ia & Sw). destruct (shared_address H l a u HH Sw) as (Au & _ & b & Eb). destruct (Co a u Ia Sw) as (r & Ir).
      assert (J : In b (map fst multi)) by (rewrite Eq; apply Tx; exists a, r, u; auto). apply in_map_iff in J as ([b' r'] & Q & J). cbn [fst] in Q. subst b'.
      destruct (shared_concerns H l a u b Sw Eb) as (e & Ie & Ce). destruct (M2 b r' J (found_concerned b r' e (proj2 (Fm b r' J)) Ie Ce)) as (m & Im & Em).
      apply in_map_iff. exists m. split; [|exact Im]. destruct (M1 m Im) as (Eu & _). destruct (asks_address H (CMulti (ms_owners m) (ms_count m)) _ _ _ HH (or_introl eq_refl) Eu) as (_ & Am' & _).
      exact (Uniq _ _ _ Am' Au Em Eb).
  - intros m Im. destruct (M1 m Im) as (Eu & b & r & Ib & Es & Re). split; [exact Eu|]. exists b. split; [exact Es|].
    assert (Bm : exists r', In (b, r') multi /\ (forall id, reports (ms_bal m) id (is_available H b (h_txns r') id) (is_unconfirmed H b (h_txns r') id) (is_spent H b (h_txns r') id) (is_spent_unconfirmed H b (h_txns r') id)) /\ seen_in H (ms_bal m) [(b, r')]).
    { apply (wallet_balance_inv H ip_parse now net) in E as (own' & multi' & bs & ps & ars & An & An2 & _ & _ & _ & Fe & I1 & _ & _ & _ & Fm'); [|exact HH|exact T].
      rewrite (answers_fun H ip_parse now net _ _ _ An own A) in *. rewrite (answers_fun H ip_parse now net _ _ _ An2 multi Am) in *. rewrite Forall_forall in Fm'.
      destruct (Forall2_in_r _ _ _ Fe m Im) as ([b' r'] & Ia & En). pose proof (I1 _ Ia) as Ib'. destruct (Fm' _ Ib') as (Ty & Str). cbn [fst snd] in *.
      destruct (answers_look H ip_parse now net _ _ _ An2 b' r' Ib') as (n & Lk & _). pose proof (look_sorted H ip_parse now net n b' r' Lk (fun x Ix => RH b' r' x Ib' Ix)) as So.
      pose proof (bal_seen H ip_parse r' (Some info) _ (ms_bal m) b' Str So (or_introl (Df b' r' Ib')) (proj1 En)) as Se.
      assert (b' = b) as ->.
      { destruct En as (Er & Eu'). cbn [snd] in Er. unfold result_balance in Er. rewrite Ty in Er. change (3 =? 3)%Z with true in Er. cbv iota in Er. unfold multisig_balance in Er. rewrite Str in Er. cbn [bind] in Er.
        apply bind_ok in Er as (y & Ey & Er). apply ok_inj in Er. destruct y as [[[us n'] x]|]; [|discriminate Er]. injection Er as Eus En' _.
        destruct (multi_new_address H b' (h_txns r') None _ Ey (Df b' r' Ib') ltac:(discriminate) us n' x eq_refl) as (u & Cu & Su).
        rewrite Eus, En' in Cu. rewrite Eu in Cu. apply ok_inj in Cu. subst u. congruence. }
      exists r'. split; [exact Ib'|]. split; [|exact Se]. intro id. exact (balance_reports H r' (Some info) (Some (ms_owners m, ms_count m)) (ms_bal m) b id Str So (or_introl (Df b r' Ib')) (proj1 En)). }
    destruct Bm as (r' & Ib' & Re' & Se). exact (single_lists b r' (ms_bal m) C (proj2 (Fm b r' Ib')) Se Re').
Qed.
End Read.
(** *** Texts of addresses *)
Lemma str_type H u v s : uh_str H u = Ok s -> uh_str H v = Ok s -> uh_type u = uh_type v.
Proof.
  unfold uh_str. intros Eu Ev. apply bind_ok in Eu as (c & _ & Eu). apply bind_ok in Eu as ([] & Gu & Eu). apply guard_ok in Gu.
  apply bind_ok in Ev as (d & _ & Ev). apply bind_ok in Ev as ([] & Gv & Ev). apply guard_ok in Gv. rewrite <- Ev in Eu. apply ok_inj in Eu.
  apply app_inj_len in Eu as [Eu _]; [|reflexivity].
  assert (E3 : [Z.to_N (uh_type u)] = [Z.to_N (uh_type v)]) by (apply hex_inj; [repeat constructor; lia .. | exact Eu]). injection E3 as E3. lia.
Qed.
Lemma one_text H u v s : hash_ok H -> address u -> address v -> uh_str H u = Ok s -> uh_str H v = Ok s -> u = v.
Proof. intros HH Au Av Eu Ev. destruct (address_round_trip H u HH Au) as (s1 & E1 & _ & P1). destruct (address_round_trip H v HH Av) as (s2 & E2 & _ & P2). congruence. Qed.
Lemma nodup_parts {A} (g : A -> list output) l : NoDup l -> (forall x, In x l -> NoDup (ids (g x))) ->
  (forall x y a b, In x l -> In y l -> In a (g x) -> In b (g y) -> o_id a = o_id b -> x = y) -> NoDup (ids (flat_map g l)).
Proof.
  unfold ids. induction 1 as [|x l Nx N IH]; intros D X; [constructor|]. cbn [flat_map]. rewrite map_app. apply NoDup_app_iff. split; [apply D; now left|]. split.
  - apply IH; [intros y I; apply D; now right|]. intros y z a b Iy Iz. apply X; now right.
  - intros i I J. apply in_map_iff in I as (a & <- & I). apply in_map_iff in J as (b & Eb & J). apply in_flat_map in J as (y & Iy & J).
    rewrite (X x y a b (or_introl eq_refl) (or_intror Iy) I J (eq_sym Eb)) in Nx. contradiction.
Qed.
Lemma nodup_flat {A B} (g : A -> list B) l : NoDup l -> (forall x, In x l -> NoDup (g x)) -> (forall x y a, In x l -> In y l -> In a (g x) -> In a (g y) -> x = y) -> NoDup (flat_map g l).
Proof.
  induction 1 as [|x l Nx N IH]; intros D X; [constructor|]. cbn [flat_map]. apply NoDup_app_iff. split; [apply D; now left|]. split.
  - apply IH; [intros y I; apply D; now right|]. intros y z a Iy Iz. apply X; now right.
  - intros a I J. apply in_flat_map in J as (y & Iy & J). rewrite (X x y a (or_introl eq_refl) (or_intror Iy) I J) in Nx. contradiction.
Qed.

(** *** What may be spent *)
Section Pool.
Variables (H : bytes -> bytes) (ip_parse : pystr -> res bytes) (ip_str : bytes -> pystr) (now : Z).
Hypothesis HH : hash_ok H.
Hypothesis L : ip_library ip_parse ip_str.
Variables (net : nat -> pystr -> res json) (l : ledger) (info : Z * Z * bytes) (addrs : list pystr) (w : wbal).
Hypothesis F : Forall (entry_ok ip_parse) l.
Hypothesis C : consistent_ledger l.
Hypothesis D : no_definitions l.
Hypothesis T : Forall (text_of H 1) addrs.
Hypothesis Fr : frank H ip_str l net addrs.
Hypothesis E : wallet_balance H ip_parse now net info addrs = Ok w.
Lemma own_spendable o : In o (spendable (wb_own w)) -> In o (unspent l) /\ for_any H addrs o = true.
Proof using HH L F C T Fr E.
  intro I. destruct (balance_lists H ip_parse ip_str now HH L net info addrs w l F C T (frank_honest H ip_str net l addrs Fr) E) as (P1 & P2).
  destruct (sel_spendable (wb_own w)) as (rest & P). assert (J : In o (values (w_outs (wb_own w)) ++ values (w_unc (wb_own w)))) by (apply (Permutation_in _ P); apply in_or_app; now left).
  assert (K : In o (filter (for_any H addrs) (unspent_confirmed l ++ unspent_pending l))).
  { rewrite filter_app. apply in_app_or in J as [J|J]; apply in_or_app; [left; exact (Permutation_in _ P1 J)|right; exact (Permutation_in _ P2 J)]. }
  apply filter_In in K as (K & Q). split; [|exact Q]. exact (Permutation_in _ (unspent_split l) K).
Qed.
Lemma multi_spendable m o : In m (wb_ms w) -> In o (spendable (ms_bal m)) -> In o (unspent l) /\ address (ms_addr m) /\ uh_type (ms_addr m) = 3%Z /\ exists b, uh_str H (ms_addr m) = Ok b /\ pays H b o = true.
Proof using HH L F C D T Fr E.
  intros Im I. destruct (shared_lists H ip_parse ip_str now HH L net l F info addrs w C D T Fr E) as (ND & Iff & Ls). destruct (Ls m Im) as (Eu & b & Eb & P1 & P2).
  destruct (asks_address H (CMulti (ms_owners m) (ms_count m)) _ _ _ HH (or_introl eq_refl) Eu) as (_ & Am & Ty).
  destruct (sel_spendable (ms_bal m)) as (rest & P). assert (J : In o (values (w_outs (ms_bal m)) ++ values (w_unc (ms_bal m)))) by (apply (Permutation_in _ P); apply in_or_app; now left).
  assert (K : In o (filter (pays H b) (unspent_confirmed l ++ unspent_pending l))).
  { rewrite filter_app. apply in_app_or in J as [J|J]; apply in_or_app; [left; exact (Permutation_in _ P1 J)|right; exact (Permutation_in _ P2 J)]. }
  apply filter_In in K as (K & Q). split; [exact (Permutation_in _ (unspent_split l) K)|]. split; [exact Am|]. split; [exact Ty|]. exists b. auto.
Qed.
Lemma multi_ids m : In m (wb_ms w) -> NoDup (ids (spendable (ms_bal m))).
Proof using HH L F C D T Fr E.
  intro Im. destruct (shared_lists H ip_parse ip_str now HH L net l F info addrs w C D T Fr E) as (ND & Iff & Ls). destruct (Ls m Im) as (Eu & b & Eb & P1 & P2).
  apply (sel_nodup o_id _ _ (sel_spendable (ms_bal m))). apply (Permutation_NoDup (Permutation_map o_id (Permutation_sym (Permutation_app P1 P2)))).
  rewrite <- filter_app. apply ids_filter. exact (Permutation_NoDup (Permutation_map o_id (Permutation_sym (unspent_split l))) (unspent_nodup l C)).
Qed.
Lemma own_ids : NoDup (ids (spendable (wb_own w))).
Proof using HH L F C T Fr E.
  destruct (balance_lists H ip_parse ip_str now HH L net info addrs w l F C T (frank_honest H ip_str net l addrs Fr) E) as (P1 & P2).
  apply (sel_nodup o_id _ _ (sel_spendable (wb_own w))). apply (Permutation_NoDup (Permutation_map o_id (Permutation_sym (Permutation_app P1 P2)))).
  rewrite <- filter_app. apply ids_filter. exact (Permutation_NoDup (Permutation_map o_id (Permutation_sym (unspent_split l))) (unspent_nodup l C)).
Qed.
Lemma unspent_one o p : In o (unspent l) -> In p (unspent l) -> o_id o = o_id p -> o = p.
Proof using C. intros I J Q. apply not_spent in I as (I & _). apply not_spent in J as (J & _). exact (made_one l o p (lc_made l C) I J Q). Qed.
Lemma shared_pool source : NoDup (ids (pool H w source)) /\ forall o, In o (pool H w source) -> In o (unspent l) /\
  (for_any H addrs o = true \/ exists m b, In m (wb_ms w) /\ uh_str H (ms_addr m) = Ok b /\ pays H b o = true).
Proof using HH L F C D T Fr E.
  destruct (shared_lists H ip_parse ip_str now HH L net l F info addrs w C D T Fr E) as (ND & _ & _).
  assert (Q : forall o, In o (pool H w source) -> In o (unspent l) /\
    (for_any H addrs o = true \/ exists m b, In m (wb_ms w) /\ uh_str H (ms_addr m) = Ok b /\ pays H b o = true)).
  { intros o I. unfold pool in I. destruct source as [s|]; [|destruct (own_spendable o I); auto]. apply in_app_or in I as [I|I].
    - apply filter_In in I as (I & _). destruct (own_spendable o I); auto.
    - apply in_flat_map in I as (m & Im & I). destruct (existsb _ _); [|destruct I]. destruct (multi_spendable m o Im I) as (U & _ & _ & b & Eb & P). split; [exact U|]. right. exists m, b. auto. }
  split; [|exact Q]. unfold pool. destruct source as [s|]; [|exact own_ids]. unfold ids. rewrite map_app. apply NoDup_app_iff. split; [apply ids_filter; exact own_ids|]. split.
  - apply nodup_parts.
    + exact (NoDup_map_inv _ _ ND).
    + intros m Im. destruct (existsb _ _); [exact (multi_ids m Im)|constructor].
    + intros m m' a b Im Im' Ia Ib Eq. destruct (existsb _ _); [|destruct Ia]. destruct (existsb _ _); [|destruct Ib].
      destruct (multi_spendable m a Im Ia) as (Ua & Aa & _ & s1 & E1 & P1). destruct (multi_spendable m' b Im' Ib) as (Ub & Ab & _ & s2 & E2 & P2).
      pose proof (unspent_one a b Ua Ub Eq). subst b. pose proof (pays_fun H s1 s2 a P1 P2). subst s2. pose proof (one_text H _ _ s1 HH Aa Ab E1 E2) as X.
      clear - ND Im Im' X. induction (wb_ms w) as [|x ms IH]; [destruct Im|]. cbn [map] in ND. inversion ND as [|? ? N1 N2]; subst.
      destruct Im as [->|Im], Im' as [->|Im']; [reflexivity| | |exact (IH N2 Im Im')]; exfalso; apply N1; [rewrite X|rewrite <- X]; apply in_map; assumption.
  - intros i I J. apply in_map_iff in I as (a & <- & I). apply in_map_iff in J as (b & Eb & J). apply filter_In in I as (I & _). destruct (own_spendable a I) as (Ua & Pa).
    apply in_flat_map in J as (m & Im & J). destruct (existsb _ _); [|destruct J]. destruct (multi_spendable m b Im J) as (Ub & _ & Ty & s2 & E2 & P2).
    pose proof (unspent_one b a Ub Ua Eb). subst b. apply for_any_in in Pa as (s1 & I1 & P1). pose proof (pays_fun H s1 s2 a P1 P2). subst s2.
    rewrite Forall_forall in T. destruct (T s1 I1) as (u & _ & Tu & Eu). pose proof (str_type H _ _ s1 Eu E2). lia.
Qed.
End Pool.

(** *** Reading the history of a multi-signature wallet *)
Lemma madd_total H a c s os : (forall o, In o os -> exists x, pays H x o = true) ->
  (forall o, In o os -> pays H a o = true -> exists us n, asks_for (o_cond o) us n /\ (1 <= n <= Z.of_nat (length us))%Z) ->
  forall b, exists b', madd_matching H a c s b os = Ok b'.
Proof.
  induction os as [|o os IH]; intros Pa Pr b; cbn [madd_matching]; [eauto|]. destruct (Pa o (or_introl eq_refl)) as (x & Px). unfold pays in Px.
  pose proof (Pr o (or_introl eq_refl)) as Po. unfold pays in Po. unfold cond_address, output_add. destruct (cond_unlockhash H (o_cond o)) as [u|] eqn:Eu; [|discriminate Px]. cbn [bind].
  destruct (uh_str H u) as [t|] eqn:Et; [|discriminate Px]. cbn [bind].
  destruct (listN_eqb t a) eqn:Eq; cbn [bind]; [|apply IH; intros p Ip; [apply Pa|apply Pr]; now right].
  destruct (Po eq_refl) as (us & n & As & Ln).
  assert (Em : multi_of (o_cond o) = Ok (us, n)) by (destruct As as [->|(k & ->)]; reflexivity). rewrite Em. cbn [bind].
  assert (Ey : exists y, (match b with Some y => Ok y | None => ms_new (us, n) end) = Ok y).
  { destruct b as [y|]; [eauto|]. unfold ms_new. cbn [fst snd]. unfold guard. replace (1 <=? n)%Z with true by lia. replace (n <=? Z.of_nat (length us))%Z with true by lia. cbn [bind]. eauto. }
  destruct Ey as (y & ->). cbn [bind]. rewrite ?Eu. cbn [bind]. rewrite ?Et. cbn [bind]. apply IH; intros p Ip; [apply Pa|apply Pr]; now right.
Qed.
Lemma madd_all H a xs : (forall x, In x xs -> (exists ins, coin_inputs (e_txn x) = Ok ins) /\ no_definition (e_txn x) /\
    forall o, In o (spent_by (e_txn x) ++ coin_outputs (e_txn x)) -> (exists y, pays H y o = true) /\ (pays H a o = true -> exists us n, asks_for (o_cond o) us n /\ (1 <= n <= Z.of_nat (length us))%Z)) ->
  forall b, exists b', madd_txns H a b xs = Ok b'.
Proof.
  induction xs as [|x xs IH]; intros Hp b; cbn [madd_txns]; [eauto|]. destruct (Hp x (or_introl eq_refl)) as ((ins & Ei) & Nd & Po). unfold madd_txn. rewrite Ei. cbn [bind].
  assert (Sp : spent_by (e_txn x) = map parent_of ins) by (unfold spent_by, inputs_of; rewrite Ei; reflexivity). rewrite Sp in Po.
  destruct (madd_total H a (negb (e_unconfirmed x)) true (map parent_of ins)) with (b := b) as (b1 & ->);
    [intros o Io; apply Po; apply in_or_app; now left|intros o Io; apply Po; apply in_or_app; now left|]. cbn [bind].
  destruct (madd_total H a (negb (e_unconfirmed x)) false (coin_outputs (e_txn x))) with (b := b1) as (b2 & ->);
    [intros o Io; apply Po; apply in_or_app; now right|intros o Io; apply Po; apply in_or_app; now right|]. cbn [bind].
  assert (Er : (match e_txn x with TMint m => match m_new m with MCond (CMulti us n) => do y <- ms_new (us, n); Ok (Some y) | MCond _ => Err AttributeError | MCoins _ => Ok b2 end | _ => Ok b2 end) = Ok b2).
  { destruct (e_txn x) as [| m | | | | | |]; try reflexivity. cbn [no_definition] in Nd. destruct (m_new m); [destruct Nd|reflexivity]. }
  rewrite Er. cbn [bind]. apply IH. intros y Iy. apply Hp. now right.
Qed.
Lemma add_all H a xs : (forall x, In x xs -> (exists ins, coin_inputs (e_txn x) = Ok ins) /\ forall o, In o (spent_by (e_txn x) ++ coin_outputs (e_txn x)) -> exists y, pays H y o = true) ->
  forall b, exists b', add_txns H a b xs = Ok b'.
Proof.
  assert (M : forall c s os b, (forall o, In o os -> exists a, pays H a o = true) -> exists b', add_matching H a c s b os = Ok b').
  { intros c s os. induction os as [|o os IHo]; intros b Hp; cbn [add_matching]; [eauto|]. destruct (Hp o (or_introl eq_refl)) as (a' & Pp). unfold pays in Pp.
    unfold cond_address, output_add. destruct (cond_unlockhash H (o_cond o)) as [u|]; [|discriminate Pp]. cbn [bind]. destruct (uh_str H u) as [s'|]; [|discriminate Pp]. cbn [bind].
    destruct (listN_eqb s' a); cbn [bind]; apply IHo; intros p Ip; apply Hp; now right. }
  induction xs as [|x xs IHx]; intros Hp b; cbn [add_txns]; [eauto|]. destruct (Hp x (or_introl eq_refl)) as ((ins & Ei) & Po). unfold add_txn. rewrite Ei. cbn [bind].
  assert (Sp : spent_by (e_txn x) = map parent_of ins) by (unfold spent_by, inputs_of; rewrite Ei; reflexivity). rewrite Sp in Po.
  destruct (M (negb (e_unconfirmed x)) true (map parent_of ins) b) as (b1 & ->); [intros o Io; apply Po; apply in_or_app; now left|]. cbn [bind].
  destruct (M (negb (e_unconfirmed x)) false (coin_outputs (e_txn x)) b1) as (b2 & ->); [intros o Io; apply Po; apply in_or_app; now right|]. cbn [bind].
  apply IHx. intros y Iy. apply Hp. now right.
Qed.
(** every output of the history that pays to the wallet names its owners, otherwise there is no balance *)
Lemma madd_named H a c s os : forall b b', madd_matching H a c s b os = Ok b' -> forall o, In o os -> pays H a o = true -> exists us n, asks_for (o_cond o) us n.
Proof.
  induction os as [|p os IH]; intros b b' E o I P; [destruct I|]. cbn [madd_matching] in E. apply bind_ok in E as (t & Et & E). apply bind_ok in E as (b1 & Eb & E).
  destruct I as [->|I]; [|exact (IH b1 b' E o I P)]. unfold pays in P. unfold cond_address in Et. apply bind_ok in Et as (u & Eu & Et). rewrite Eu, Et in P. rewrite P in Eb.
  apply bind_ok in Eb as ([us n] & Em & _). unfold multi_of in Em. exists us, n. unfold asks_for. destruct (o_cond o) as [|v|x y h k|k i|vs m]; cbn [cond_unwrap] in Em; try discriminate Em.
  - destruct i; try discriminate Em. apply ok_inj in Em. injection Em as -> ->. right. eauto.
  - apply ok_inj in Em. injection Em as -> ->. now left.
Qed.
Lemma madd_named_all H a xs : forall b b', madd_txns H a b xs = Ok b' -> forall x o, In x xs -> In o (spent_by (e_txn x) ++ coin_outputs (e_txn x)) -> pays H a o = true ->
  exists us n, asks_for (o_cond o) us n.
Proof.
  induction xs as [|y xs IH]; intros b b' E x o I Io P; [destruct I|]. cbn [madd_txns] in E. apply bind_ok in E as (b1 & E1 & E). destruct I as [->|I]; [|exact (IH b1 b' E x o I Io P)].
  unfold madd_txn in E1. apply bind_ok in E1 as (ins & Ei & E1). apply bind_ok in E1 as (b2 & E2 & E1). apply bind_ok in E1 as (b3 & E3 & _).
  assert (Sp : spent_by (e_txn x) = map parent_of ins) by (unfold spent_by, inputs_of; rewrite Ei; reflexivity). rewrite Sp in Io.
  apply in_app_or in Io as [Io|Io]; [exact (madd_named H a _ _ _ _ _ E2 o Io P)|exact (madd_named H a _ _ _ _ _ E3 o Io P)].
Qed.
