(** Facts about wallets made from their seed. *)
From Coq Require Import Permutation.
From Verif Require Import Base BaseFacts Encoders Currency Primitive Types Conditions Fulfillments ThreeBotTypes Txn TxnJson TxnSign Wallet Explorer AtomicSwap Ops WalletLoad Submit Session KeyScan Recover
  Spec_Types Spec_Txn Spec_Json Spec_ThreeBot Spec_Currency Spec_Wallet Spec_Ops Spec_Sign Spec_Swap Spec_Fits Spec_Afford Spec_Afford2 Spec_Explorer Spec_Load Spec_Session Spec_Lookup Spec_Keys
  TypesFacts ConditionFacts ConditionFacts2 WalletFacts WalletFacts2 FundFacts2 ExplorerFacts ExplorerFacts2 ExplorerFacts3 LookupFacts LoadFacts SessionFacts AffordFacts AffordFacts2 AffordFacts3 KeyFacts Prop_Keys Prop_Load Spec_Ledger LedgerFacts Spec_Recover.
From Coq Require Import ZifyBool ZifyNat ZifyN.
Ltac Zify.zify_post_hook ::= Z.div_mod_to_equations.

(** *** Outputs of a ledger *)
Lemma printable_outs ip t o : printable ip t -> (forall g, t <> T209 g) -> In o (coin_outputs t) -> network_cond (o_cond o).
Proof.
  assert (R : forall r, print_refund r -> In o (match r with Some x => [x] | None => [] end) -> network_cond (o_cond o)).
  { intros [x|] P I; cbn [In] in I; [|destruct I]. destruct I as [<-|I]; [|destruct I]. exact (proj2 (P x eq_refl)). }
  assert (R' : forall l : list output, Forall print_out l -> In o l -> network_cond (o_cond o)) by (intros l P I; rewrite Forall_forall in P; exact (proj2 (P o I))).
  destruct t as [a|a|a|a|a|a|a|a]; cbn [printable coin_outputs]; intros P N I.
  - destruct P as (_ & P & _). exact (R' _ P I).
  - destruct P as (_ & _ & P & _). destruct (m_new a); [destruct I|exact (R' _ P I)].
  - apply (R _ (proj2 (proj2 (proj2 (proj2 P)))) I).
  - destruct (N a eq_refl).
  - apply (R _ (proj2 (proj2 (proj2 (proj2 (proj2 P))))) I).
  - destruct P as (_ & _ & _ & _ & P & _). exact (R _ P I).
  - destruct P as (_ & _ & _ & _ & _ & _ & P & _). exact (R _ P I).
  - destruct P as (_ & _ & _ & _ & P & _). exact (R _ P I).
Qed.
Lemma unspent_made l o : In o (unspent l) -> exists e, In e l /\ In o (makes e).
Proof. intro I. apply filter_In in I as (I & _). apply in_flat_map in I. exact I. Qed.
Lemma unspent_cond ip l o : Forall (entry_ok ip) l -> In o (unspent l) -> network_cond (o_cond o).
Proof.
  intros F I. apply unspent_made in I as (e & Ie & I). rewrite Forall_forall in F. destruct (F e Ie) as (S & N & _). unfold makes, give_ids in I.
  apply in_map_iff in I as ([p i] & <- & I). apply in_combine_l in I. cbn [o_cond fst]. exact (printable_outs ip _ p (se_txn _ _ _ _ _ _ _ _ S) N I).
Qed.
(** what is unspent and pays to an address makes the address concerned *)
Lemma unspent_concerns H l a o : In o (unspent l) -> Spec_Explorer.pays H a o = true -> exists e, In e l /\ concerns H a e.
Proof. intros I P. apply unspent_made in I as (e & Ie & I). exists e. split; [exact Ie|]. exists o. split; [apply in_or_app; now left|exact P]. Qed.
(** addresses that nothing concerns make no difference *)
Lemma for_any_same H l A B o : (forall a e, In e l -> concerns H a e -> (In a A <-> In a B)) -> In o (unspent l) -> for_any H A o = for_any H B o.
Proof.
  intros S I. apply Bool.eq_iff_eq_true. rewrite !for_any_in. split; intros (a & J & P); destruct (unspent_concerns H l a o I P) as (e & Ie & C); exists a; (split; [apply (S a e Ie C); exact J|exact P]).
Qed.
Lemma fortune_same H l A B : (forall a e, In e l -> concerns H a e -> (In a A <-> In a B)) -> fortune H A l = fortune H B l.
Proof. intro S. unfold fortune. f_equal. apply filter_ext_in. intros o I. exact (for_any_same H l A B o S I). Qed.

(** *** What a balance can spend, by the ledger *)
Section Pay.
Variables (H : bytes -> bytes) (ip_parse : pystr -> res bytes) (ip_str : bytes -> pystr) (now : Z).
Hypothesis HH : hash_ok H.
Hypothesis L : ip_library ip_parse ip_str.
Variables (net : nat -> pystr -> res json) (h t : Z) (k : bytes) (addrs : list pystr) (w : wbal) (l : ledger).
Hypothesis F : Forall (entry_ok ip_parse) l.
Hypothesis C : consistent_ledger l.
Hypothesis T : Forall (text_of H 1) addrs.
Hypothesis Ho : honest H ip_str l net addrs.
Hypothesis W : wallet_balance H ip_parse now net (h, t, k) addrs = Ok w.
Hypothesis Ph : (0 < h)%Z.
Hypothesis Pt : (0 < t)%Z.
Lemma spendable_ledger o : In o (spendable (wb_own w)) <-> In o (unspent l) /\ for_any H addrs o = true /\ open_at h t o.
Proof using HH L F C T Ho W Ph Pt.
  destruct (balance_lists H ip_parse ip_str now HH L net (h, t, k) addrs w l F C T Ho W) as (P1 & P2).
  destruct (C62_lookups H ip_parse now net h t k addrs w HH T W) as (Eh & Et & _).
  assert (P : Permutation (values (w_outs (wb_own w)) ++ values (w_unc (wb_own w))) (filter (for_any H addrs) (unspent l))).
  { eapply perm_trans; [apply Permutation_app; [exact P1|exact P2]|]. rewrite <- filter_app. apply filter_perm. apply unspent_split. }
  unfold spendable, outputs_available, outputs_unconfirmed_available. rewrite in_app_iff, !unlocked_in by lia. rewrite Eh, Et.
  assert (Q : In o (values (w_outs (wb_own w))) \/ In o (values (w_unc (wb_own w))) <-> In o (unspent l) /\ for_any H addrs o = true).
  { rewrite <- in_app_iff, <- filter_In. split; intro I; [exact (Permutation_in _ P I)|exact (Permutation_in _ (Permutation_sym P) I)]. }
  tauto.
Qed.
Lemma spendable_ids : NoDup (ids (spendable (wb_own w))).
Proof using HH L F C T Ho W.
  destruct (balance_lists H ip_parse ip_str now HH L net (h, t, k) addrs w l F C T Ho W) as (P1 & P2).
  assert (P : Permutation (values (w_outs (wb_own w)) ++ values (w_unc (wb_own w))) (filter (for_any H addrs) (unspent l))).
  { eapply perm_trans; [apply Permutation_app; [exact P1|exact P2]|]. rewrite <- filter_app. apply filter_perm. apply unspent_split. }
  apply (sel_nodup o_id _ (unspent l)); [|exact (unspent_nodup l C)]. apply (sel_trans _ _ _ (sel_spendable (wb_own w))).
  apply (sel_trans _ (filter (for_any H addrs) (unspent l))); [|apply sel_filter]. exists []. rewrite app_nil_r. exact P.
Qed.
Lemma pays_iff amount : affordable (spendable (wb_own w)) amount <-> ledger_pays H l addrs h t amount.
Proof using HH L F C T Ho W Ph Pt.
  split; intros (s & X).
  - destruct X as (S & Ls & A). exists s. split; [apply (sel_nodup o_id s _ S); exact spendable_ids|]. split; [exact Ls|]. split; [exact A|].
    apply Forall_forall. intros o I. apply spendable_ledger. destruct S as (rest & P). apply (Permutation_in _ P). apply in_or_app. now left.
  - destruct X as (N & Ls & A & Fo). exists s. split; [|auto]. apply sel_of; [unfold ids in N; apply NoDup_map_inv in N; exact N|].
    intros o I. apply spendable_ledger. rewrite Forall_forall in Fo. exact (Fo o I).
Qed.
Lemma ledger_ready v : v_addrs v = addrs -> wallet_ok H (v_primary v) (v_keys v) -> Forall (holds_key H (v_keys v)) addrs -> small_uh (v_address v) ->
  modest (fortune H addrs l) -> ready_to_pay H (mkctx (v_primary v) (v_keys v) (v_address v) w (v_fee v)) (mkfunding None None).
Proof using HH L F C T Ho W Ph Pt.
  intros Ea WO KA SU M. split; [exact WO|]. split; [split; [discriminate|]; split|exact SU]; cbn [x_bal x_keys].
  - apply Forall_forall. intros o I. apply spendable_ledger in I as (I & Fa & _). apply for_any_in in Fa as (a & Ia & P). rewrite Forall_forall in KA. pose proof T as T'. rewrite Forall_forall in T'.
    exact (paid_mine H ip_parse HH (v_primary v) (v_keys v) a o WO (T' a Ia) (KA a Ia) (unspent_cond ip_parse l o F I) P).
  - apply (modest_le _ _ M). unfold fortune. apply sel_worth. apply sel_of; [pose proof spendable_ids as N; unfold ids in N; apply NoDup_map_inv in N; exact N|].
    intros o I. apply spendable_ledger in I as (I & Fa & _). apply filter_In. auto.
Qed.
End Pay.

(** *** Keys *)
Section Seed.
Variables (H : bytes -> bytes) (ip_parse : pystr -> res bytes) (ip_str : bytes -> pystr) (now : Z) (pub : bytes -> bytes) (seed : bytes) (addr : nat -> pystr).
Hypothesis HH : hash_ok H.
Hypothesis L : ip_library ip_parse ip_str.
Hypothesis Se : seeded H pub seed addr.
Lemma pair_text i k : pair_at H pub seed i = Ok (addr i, k) -> text_of H 1 (addr i) /\ pk_address H k = Ok (addr i).
Proof using HH.
  intro E. unfold pair_at in E. apply bind_ok in E as (k' & _ & E). apply bind_ok in E as (a & Ea & E). apply ok_inj in E. injection E as <- <-. split; [|exact Ea].
  unfold pk_address in Ea. apply bind_ok in Ea as (u & Eu & Es). destruct (pk_address_fun H _ _ Eu) as (Ty & d & _ & Eh). exists u. split; [|auto].
  split; [rewrite Ty; cbn; auto|]. split; [rewrite Eh; apply HH|rewrite Ty; discriminate].
Qed.
Lemma text_at i : (Z.of_nat i < 2 ^ 64)%Z -> text_of H 1 (addr i).
Proof using HH Se. intro B. destruct (se_key _ _ _ _ Se i B) as (k & E). exact (proj1 (pair_text i k E)). Qed.
Variables (l : ledger) (ask : pystr -> res json) (m : nat).
Hypothesis F : Forall (entry_ok ip_parse) l.
Hypothesis Te : tell H ip_str l addr ask.
Hypothesis Be : all_before H addr l m.
Hypothesis Bm : (Z.of_nat m <= 2 ^ 64)%Z.
Definition used_by (i : nat) : bool := match ask (addr i) with Err ExplorerNoContent => false | _ => true end.
Lemma used_iff i : used_by i = true <-> touched H addr l i.
Proof using Te.
  unfold used_by. destruct (Te i) as [(E & N)|(Tc & N & _)].
  - rewrite E. split; [discriminate|intro X; destruct (N X)].
  - split; [intros _; exact Tc|intros _]. destruct (ask (addr i)) as [j|e]; [reflexivity|]. destruct e; try reflexivity. congruence.
Qed.
Lemma probe_chain : chain addr used_by (probe_of H ip_parse now ask).
Proof using HH L Se F Te Be Bm.
  intro i. unfold probe_of. destruct (Te i) as [(E & N)|(Tc & N & ms & Sh)].
  - replace (used_by i) with false by (unfold used_by; rewrite E; reflexivity). rewrite E. reflexivity.
  - rewrite (proj2 (used_iff i) Tc). assert (B : (Z.of_nat i < 2 ^ 64)%Z) by (pose proof (Be i Tc); lia).
    destruct (shown H ip_parse ip_str now HH L (fun _ => ask) l ms 0 (addr i) F (text_at i B) Sh) as [(_ & No)|(r & Er & _)].
    + destruct Tc as (e & Ie & Ce). destruct (No e Ie Ce).
    + unfold lookup in Er. apply bind_ok in Er as (j & -> & Er). cbn [bind]. rewrite Er. reflexivity.
Qed.
Lemma none_used : none_from used_by m.
Proof using Te Be. intros i B. destruct (used_by i) eqn:E; [|reflexivity]. apply used_iff in E. apply Be in E. lia. Qed.
(** a scan adds used keys, and only these *)
Lemma scan_adds fuel count k k' r : kinv k -> key_scan addr (probe_of H ip_parse now ask) fuel count k = Some (k', r) ->
  kinv k' /\ is_ok r = true /\ (forall i, loaded k i -> loaded k' i) /\ (forall i, loaded k' i -> loaded k i \/ touched H addr l i).
Proof using HH L Se F Te Be Bm.
  intros V E. pose proof (se_apart _ _ _ _ Se) as NC. unfold key_scan in E. destruct (_ || _) eqn:G; [injection E as <- <-; split; [exact V|]; split; [reflexivity|]; auto|].
  apply orb_false_iff in G as (_ & G). apply Nat.eqb_neq in G. destruct (scan_loop addr (probe_of H ip_parse now ask) fuel count k) as [[k1 r1]|] eqn:Sl; [|discriminate E]. injection E as <- <-.
  pose proof (scan_loop_kinv addr NC _ _ _ _ _ _ V Sl) as (V1 & _).
  apply (scan_loop_static addr NC _ used_by probe_chain) in Sl as (-> & _ & P & _); [|lia|exact V]. split; [exact V1|]. split; [reflexivity|].
  split; [intros i I; apply P; auto|]. intros i I. apply P in I as [I|(_ & I)]; [auto|right; apply used_iff; exact I].
Qed.
Lemma open_loads fuel n start scan k a : (0 < scan_count scan)%nat -> wallet_keys addr (probe_of H ip_parse now ask) fuel n start scan = Some (k, a) ->
  without_gaps H addr l (Z.to_nat (Z.max 1 n)) \/ all_before H addr l (Z.to_nat (Z.max 1 n) + scan_count scan) ->
  kinv k /\ a = Ok (addr 0) /\ (forall i, (i < Z.to_nat (Z.max 1 n))%nat -> loaded k i) /\ (forall i, touched H addr l i -> loaded k i) /\ (forall i, loaded k i -> (i < Z.to_nat (Z.max 1 n))%nat \/ touched H addr l i).
Proof using HH L Se F Te Be Bm.
  intros C0 E G. pose proof (se_apart _ _ _ _ Se) as NC. destruct (C38_open addr NC (probe_of H ip_parse now ask) used_by probe_chain fuel n start scan k a C0 E) as (Ea & Lo & Lw).
  apply (open_ok addr NC) in E as (V & (new & EN) & SC & _). set (n0 := Z.to_nat (Z.max 1 n)) in *.
  assert (V0 : kinv (mkkw n0 (seq 0 n0) [])). { split; cbn [k_pairs k_unused k_count]; rewrite app_nil_r; [apply seq_NoDup|]. intros i I. apply in_seq in I. lia. }
  pose proof (key_scan_loop addr _ _ _ (mkkw n0 (seq 0 n0) []) _ _ C0 eq_refl SC) as (r' & Sl & _).
  apply (scan_loop_static addr NC _ used_by probe_chain) in Sl as (_ & B & P & _ & (c & S1 & S2 & S3) & Z); [|exact C0|exact V0]. cbn [k_count k_pairs] in *.
  split; [exact V|]. split; [exact Ea|]. split; [exact Lo|]. split.
  - intros i Ti. destruct G as [G|G]; [|apply Lw; [exact (G i Ti)|apply used_iff; exact Ti]].
    destruct (Nat.lt_ge_cases i n0) as [I|I]; [exact (Lo i I)|]. apply P. right. split; [|apply used_iff; exact Ti].
    destruct (Nat.lt_ge_cases i (k_count k)) as [I'|I']; [lia|]. exfalso.
    assert (X : touched H addr l (k_count k)). { destruct (Nat.eq_dec i (k_count k)) as [Q|Q]; [rewrite <- Q; exact Ti|]. apply (G (k_count k) i); [lia|exact Ti]. }
    apply used_iff in X. rewrite S3 in X by lia. discriminate X.
  - intros i I. apply P in I as [I|(_ & I)]; [left; apply in_seq in I; lia|right; apply used_iff; exact I].
Qed.
End Seed.
