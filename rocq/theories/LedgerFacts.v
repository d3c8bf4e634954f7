(** Lemmas about ledgers and the balances made of them (C90). *)
From Coq Require Import Permutation Sorting.Sorted.
From Verif Require Import Base BaseFacts Encoders Currency Primitive Types Conditions Fulfillments ThreeBotTypes Txn TxnJson Wallet Explorer WalletLoad
  Spec_Types Spec_Txn Spec_Json Spec_ThreeBot Spec_Wallet Spec_Explorer Spec_Load Spec_Session Spec_Lookup TypesFacts WalletFacts WalletFacts2 ExplorerFacts ExplorerFacts2 ExplorerFacts3 LookupFacts LoadFacts SessionFacts Spec_Ops
  Prop_Wallet Prop_Explorer Prop_Lookup Prop_Load Spec_Ledger.
From Coq Require Import ZifyBool ZifyNat ZifyN.
Ltac Zify.zify_post_hook ::= Z.div_mod_to_equations.

(** *** Entries as read *)
Lemma read_parents t : map i_parent (inputs_of (read_back t)) = map i_parent (inputs_of t).
Proof.
  destruct t as [a|m|c|g|r|b|u|n]; unfold inputs_of; cbn; try reflexivity; try (rewrite map_map; reflexivity).
  - destruct (r_cin r); cbn; rewrite ?map_map; reflexivity.
  - destruct (n_cin n); cbn; rewrite ?map_map; reflexivity.
Qed.
Lemma given_outputs l : forall l' ps, map i_parent l = map i_parent l' ->
  map (fun i => match i_out i with Some o => o | None => mkout 0 CNil [] end) (give_parents l ps) =
  map (fun x => mkout (o_value (snd x)) (o_cond (snd x)) (i_parent (fst x))) (combine l' ps).
Proof.
  unfold give_parents. induction l as [|i l IH]; intros [|i' l'] ps E; cbn [map] in E; try discriminate E; [reflexivity|]. injection E as E1 E2.
  destruct ps as [|p ps]; [reflexivity|]. cbn [combine map fst snd i_out i_parent]. rewrite E1. f_equal. exact (IH l' ps E2).
Qed.
(** [x] is the entry, as far as balances go *)
Record reads (x : etx) (e : entry) : Prop := {
  rd_makes : coin_outputs (e_txn x) = makes e;
  rd_spends : spent_by (e_txn x) = Spec_Ledger.spends e;
  rd_pending : e_unconfirmed x = pending e;
  rd_height : (e_height x < MAXSIZE)%Z;
  rd_definition : no_definition (en_txn e) -> no_definition (e_txn x) }.
Section Read.
Variables (H : bytes -> bytes) (ip_parse : pystr -> res bytes) (ip_str : bytes -> pystr) (now : Z).
Hypothesis HH : hash_ok H.
Hypothesis L : ip_library ip_parse ip_str.
Lemma entry_read j e : entry_ok ip_parse e -> tells H ip_str j e -> exists x, explorer_txn H ip_parse now j = Ok x /\ reads x e.
Proof.
  intros (S & G & M) T. destruct (C46_accepts H ip_parse ip_str now HH L j _ _ _ _ _ _ _ T S) as (x & E & A). exists x. split; [exact E|].
  destruct A as [At Ai Ain Aout _ _ Ah]. split.
  - rewrite (Aout G). reflexivity.
  - unfold spent_by. rewrite Ain. apply given_outputs. apply read_parents.
  - unfold pending. destruct (en_height e); [destruct Ah as [Ah _]|]; exact Ah.
  - pose proof (explorer_txn_state H ip_parse now j x E) as St. destruct (en_height e) as [h|] eqn:Eh.
    + destruct Ah as [_ ->]. exact (M h eq_refl).
    + unfold stated in St. rewrite Ah in St. destruct St as [[_ ->]|(St & _)]; [reflexivity|discriminate St].
  - clear - At. intro D. destruct (e_txn x) as [a|m|c|g|r|b|u|n]; try exact Logic.I. destruct (en_txn e) as [a'|m'|c'|g'|r'|b'|u'|n']; try discriminate At.
    cbn [no_definition] in *. apply (f_equal (fun t => match t with TMint m => m_new m | _ => MCoins [] end)) in At. cbn [read_back m_new] in At.
    destruct (m_new m), (m_new m'); try discriminate At; [destruct D|exact Logic.I].
Qed.
Lemma entries_read js es : Forall (entry_ok ip_parse) es -> Forall2 (tells H ip_str) js es ->
  exists xs, Forall2 (fun j x => explorer_txn H ip_parse now j = Ok x) js xs /\ Forall2 reads xs es.
Proof.
  intros F T. induction T as [|j e js es T1 T IH]; [exists []; split; constructor|]. inversion F as [|? ? F1 F2]; subst.
  destruct (entry_read j e F1 T1) as (x & E & R). destruct (IH F2) as (xs & E2 & R2). exists (x :: xs). split; constructor; assumption.
Qed.
(** what is looked up of an address, for honest explorers *)
Definition found (l : ledger) (a : pystr) (r : uhresult) : Prop :=
  exists es others, Permutation (es ++ others) l /\ (forall e, In e others -> ~ concerns H a e) /\ Forall2 reads (h_txns r) es.
Lemma shown_as k net l ms n a : Forall (entry_ok ip_parse) l -> text_of H k a -> shows H ip_str l ms a (net n a) ->
  (net n a = Err ExplorerNoContent /\ lookup H ip_parse now net n a = Err ExplorerNoContent) /\ (forall e, In e l -> ~ concerns H a e) \/
  exists r, lookup H ip_parse now net n a = Ok r /\ found l a r /\ h_multisigs r = ms.
Proof.
  intros F (u & Au & _ & Es) [(E & N)|(resp & es & others & erc20 & E & T & Ok & P & N)]; unfold lookup; rewrite E; cbn [bind]; [left; auto|].
  right. destruct T as [Th (js & Fj & Tj) Tm Te].
  assert (Fe : Forall (entry_ok ip_parse) es).
  { apply Forall_forall. intros e I. rewrite Forall_forall in F. apply F. apply (Permutation_in _ P). apply in_or_app. now left. }
  destruct (entries_read js es Fe Tj) as (xs & Ex & Rx).
  destruct (C48_read H ip_parse now resp u a xs ms erc20 HH Au Es) as (r & Er & _ & Px & _ & Em & _).
  - split; [exact Th|exists js; auto|exact Tm|exact Te].
  - exact Ok.
  - intros x I. destruct (Forall2_in_l _ _ _ Rx x I) as (e & _ & [_ _ _ R]). exact R.
  - exists r. split; [exact Er|]. split; [|exact Em]. destruct (Permutation_Forall2 Px Rx) as (es' & Pe & Re). exists es', others. split; [|split; [exact N|exact Re]].
    eapply perm_trans; [|exact P]. apply Permutation_app_tail. apply Permutation_sym. exact Pe.
Qed.
Lemma shown net l ms n a : Forall (entry_ok ip_parse) l -> text_of H 1 a -> shows H ip_str l ms a (net n a) ->
  lookup H ip_parse now net n a = Err ExplorerNoContent /\ (forall e, In e l -> ~ concerns H a e) \/
  exists r, lookup H ip_parse now net n a = Ok r /\ found l a r /\ h_multisigs r = ms.
Proof using HH L. intros F T S. destruct (shown_as 1 net l ms n a F T S) as [((_ & E) & N)|X]; [left; auto|right; exact X]. Qed.
(** all lookups together *)
Lemma all_shown net l addrs : Forall (entry_ok ip_parse) l -> Forall (text_of H 1) addrs -> honest H ip_str l net addrs ->
  forall n, exists own, answers (lookup H ip_parse now net) n addrs own /\ (forall a r, In (a, r) own -> found l a r) /\
    (forall a e, In a addrs -> In e l -> concerns H a e -> exists r, In (a, r) own).
Proof.
  intros F T Ho. induction T as [|a addrs Ta T IH]; intro n; [exists []; split; [constructor|split; [intros a r []|intros a e []]]|].
  destruct (IH (fun n b I => Ho n b (or_intror I)) (S n)) as (own & A & Fo & Co). destruct (Ho n a (or_introl eq_refl)) as (ms & Sh).
  destruct (shown net l ms n a F Ta Sh) as [(E & N)|(r & E & Fr & _)].
  - exists own. split; [apply A_unused; assumption|]. split; [exact Fo|]. intros b e [<-|I] Ie C; [destruct (N e Ie C)|exact (Co b e I Ie C)].
  - exists ((a, r) :: own). split; [apply A_found; assumption|]. split; [intros b s [Q|I]; [injection Q as <- <-; exact Fr|exact (Fo b s I)]|].
    intros b e [<-|I] Ie C; [exists r; now left|]. destruct (Co b e I Ie C) as (s & Is). exists s. now right.
Qed.
Lemma found_heights l own : (forall a r, In (a, r) own -> found l a r) -> real_heights own.
Proof. intros Fo a r x I Ix. destruct (Fo a r I) as (es & others & _ & _ & R). destruct (Forall2_in_l _ _ _ R x Ix) as (e & _ & [_ _ _ Q]). exact Q. Qed.

(** *** A wallet's own outputs are told by its histories *)
Lemma own_seen net info addrs w own : Forall (text_of H 1) addrs ->
  wallet_balance H ip_parse now net info addrs = Ok w -> answers (lookup H ip_parse now net) 0 addrs own -> real_heights own -> seen_in H (wb_own w) own.
Proof.
  intros T E An0 RH.
  apply (wallet_balance_inv H ip_parse now net) in E as (own' & multi' & bs & ps & ars & An & An2 & F & Pp & (o & M & Eo) & Fe & I1 & I2 & _ & Fo & Fm); [|exact HH|exact T].
  rewrite (answers_fun H ip_parse now net _ _ _ An own An0) in *. clear An0. rewrite Forall_forall in Fo, Fm.
  assert (B : forall b, In b bs -> exists ar, In ar own' /\ seen_in H b [ar]).
  { intros b Ib. destruct (Forall2_in_r _ _ _ F b Ib) as ([a r] & Ia & Pl). exists (a, r). split; [exact Ia|]. destruct (Fo _ Ia) as (Ty & Str). cbn [fst snd] in *.
    destruct (answers_look H ip_parse now net _ _ _ An a r Ia) as (n & Lk & _). pose proof (look_sorted H ip_parse now net n a r Lk (fun x Ix => RH a r x Ia Ix)) as So.
    exact (bal_seen H ip_parse r (Some info) None b a Str So ltac:(right; lia) Pl). }
  assert (Ne : forall b, In b ps -> w_outs b = [] /\ w_unc b = []).
  { intros b I. destruct (Pp b I) as (ar & Ia & P). destruct (Fm _ Ia) as (Ty & _). destruct (multi_plain_empty H info (snd ar) b Ty P) as (Z1 & Z2 & _). auto. }
  assert (N : NoDup (map fst (w_outs o)) /\ NoDup (map fst (w_unc o))) by (apply (merged_nodup _ _ _ M); constructor).
  assert (W : w_outs (wb_own w) = w_outs o /\ w_unc (wb_own w) = w_unc o) by (rewrite Eo; destruct info as [[h t] k]; split; reflexivity).
  destruct W as (W1 & W2). split; [|split; [|rewrite W1, W2; exact N]]; intros id x I; [rewrite W1 in I|rewrite W2 in I].
  + apply (merged_in w_outs _ _ _ _ (or_introl eq_refl) M) in I as [[]|(b & Ib & I)]. apply in_app_or in Ib as [Ib|Ib]; [|rewrite (proj1 (Ne b Ib)) in I; destruct I].
    destruct (B b Ib) as (ar & Ia & (S1 & _)). destruct (S1 id x I) as (Eid & a & r & [->|[]] & Q). split; [exact Eid|]. exists a, r. auto.
  + apply (merged_in w_unc _ _ _ _ (or_intror eq_refl) M) in I as [[]|(b & Ib & I)]. apply in_app_or in Ib as [Ib|Ib]; [|rewrite (proj2 (Ne b Ib)) in I; destruct I].
    destruct (B b Ib) as (ar & Ia & (_ & S2 & _)). destruct (S2 id x I) as (Eid & a & r & [->|[]] & Q). split; [exact Eid|]. exists a, r. auto.
Qed.

(** *** Outputs of a ledger *)
Lemma flat_ids {A} (g : A -> list output) l x y a b : NoDup (ids (flat_map g l)) -> In x l -> In y l -> In a (g x) -> In b (g y) -> o_id a = o_id b -> x = y /\ a = b.
Proof using.
  unfold ids. induction l as [|z l IH]; intros N Ix Iy Ia Ib E; [destruct Ix|]. cbn [flat_map] in N. rewrite map_app in N. apply NoDup_app_iff in N as (N1 & N2 & N3).
  assert (K : forall u v, In u (g z) -> In v l -> forall c, In c (g v) -> o_id u = o_id c -> False).
  { intros u v Iu Iv c Ic Ec. apply (N3 (o_id u)); [apply in_map; exact Iu|]. rewrite Ec. apply in_map. apply in_flat_map. exists v. auto. }
  destruct Ix as [->|Ix], Iy as [->|Iy].
  - split; [reflexivity|]. clear - N1 Ia Ib E. induction (g y) as [|c m IH]; [destruct Ia|]. cbn [map] in N1. inversion N1 as [|? ? M1 M2]; subst.
    destruct Ia as [->|Ia], Ib as [->|Ib]; [reflexivity| | |exact (IH M2 Ia Ib)]; exfalso; apply M1; [rewrite E|rewrite <- E]; apply in_map; assumption.
  - destruct (K a y Ia Iy b Ib E).
  - destruct (K b x Ib Ix a Ia (eq_sym E)).
  - exact (IH N2 Ix Iy Ia Ib E).
Qed.
Lemma made_one l o p : NoDup (ids (all_made l)) -> In o (all_made l) -> In p (all_made l) -> o_id o = o_id p -> o = p.
Proof using. intros N I J E. apply in_flat_map in I as (x & Ix & I). apply in_flat_map in J as (y & Iy & J). exact (proj2 (flat_ids makes l x y o p N Ix Iy I J E)). Qed.
Lemma made_sub (f : entry -> bool) l o : In o (all_made (filter f l)) -> In o (all_made l).
Proof using. intro I. apply in_flat_map in I as (e & Ie & I). apply filter_In in Ie as (Ie & _). apply in_flat_map. exists e. auto. Qed.
Lemma made_nodup (f : entry -> bool) l : NoDup (ids (all_made l)) -> NoDup (ids (all_made (filter f l))).
Proof using.
  unfold ids, all_made. induction l as [|e l IH]; [auto|]. cbn [flat_map filter]. rewrite map_app. intro N. apply NoDup_app_iff in N as (N1 & N2 & N3).
  destruct (f e); [|exact (IH N2)]. cbn [flat_map]. rewrite map_app. apply NoDup_app_iff. split; [exact N1|]. split; [exact (IH N2)|]. intros i I J. apply (N3 i I).
  apply in_map_iff in J as (o & <- & J). apply in_map. exact (made_sub f l o J).
Qed.
Lemma not_spent l os o : In o (left_over l os) <-> In o os /\ forall p, In p (all_spent l) -> o_id p <> o_id o.
Proof using.
  unfold left_over. rewrite filter_In. apply and_iff_compat_l. rewrite negb_true_iff. split.
  - intros E p I Q. assert (K : existsb (listN_eqb (o_id o)) (ids (all_spent l)) = true); [|congruence]. apply existsb_exists. exists (o_id p). split; [apply in_map; exact I|].
    rewrite Q. apply listN_eqb_refl.
  - intro N. destruct (existsb _ _) eqn:E; [|reflexivity]. apply existsb_exists in E as (i & I & E). apply in_map_iff in I as (p & <- & I). apply listN_eqb_eq in E. destruct (N p I). now symmetry.
Qed.
Lemma for_any_in addrs o : for_any H addrs o = true <-> exists a, In a addrs /\ pays H a o = true.
Proof using. unfold for_any. apply existsb_exists. Qed.

(** *** Histories of a ledger *)
Section Found.
Variables (l : ledger) (a : pystr) (r : uhresult).
Hypothesis Fd : found l a r.
Lemma found_in x : In x (h_txns r) -> exists e, In e l /\ reads x e.
Proof using Fd.
  destruct Fd as (es & others & P & N & R). intro I. destruct (Forall2_in_l _ _ _ R x I) as (e & Ie & Q). exists e. split; [|exact Q].
  apply (Permutation_in _ P). apply in_or_app. now left.
Qed.
Lemma found_back e : In e l -> concerns H a e -> exists x, In x (h_txns r) /\ reads x e.
Proof using Fd.
  destruct Fd as (es & others & P & N & R). intros I C. apply (Permutation_in _ (Permutation_sym P)) in I. apply in_app_or in I as [I|I]; [|destruct (N e I C)].
  destruct (Forall2_in_r _ _ _ R e I) as (x & Ix & Q). exists x. auto.
Qed.
Lemma created_iff b id : created H a (h_txns r) b id <-> exists e o, In e l /\ pending e = b /\ In o (makes e) /\ pays H a o = true /\ o_id o = id.
Proof using Fd.
  split.
  - intros (x & Ix & U & o & Io & P & E). destruct (found_in x Ix) as (e & Ie & [R1 R2 R3 _]). exists e, o. rewrite <- R1, <- R3. auto.
  - intros (e & o & Ie & U & Io & P & E). destruct (found_back e Ie) as (x & Ix & [R1 R2 R3 _]); [exists o; split; [apply in_or_app; now left|exact P]|].
    exists x. split; [exact Ix|]. split; [congruence|]. exists o. rewrite R1. auto.
Qed.
Lemma spent_iff b id : spent H a (h_txns r) b id <-> exists e o, In e l /\ pending e = b /\ In o (Spec_Ledger.spends e) /\ pays H a o = true /\ o_id o = id.
Proof using Fd.
  split.
  - intros (x & Ix & U & o & Io & P & E). destruct (found_in x Ix) as (e & Ie & [R1 R2 R3 _]). exists e, o. rewrite <- R2, <- R3. auto.
  - intros (e & o & Ie & U & Io & P & E). destruct (found_back e Ie) as (x & Ix & [R1 R2 R3 _]); [exists o; split; [apply in_or_app; now right|exact P]|].
    exists x. split; [exact Ix|]. split; [congruence|]. exists o. rewrite R2. auto.
Qed.
Lemma told_in o : told H a (h_txns r) o -> pays H a o = true /\ (In o (all_made l) \/ In o (all_spent l)).
Proof using Fd.
  intros (P & x & Ix & K). split; [exact P|]. destruct (found_in x Ix) as (e & Ie & [R1 R2 R3 _]). rewrite R1, R2 in K. destruct K as [K|K]; [right|left]; apply in_flat_map; exists e; auto.
Qed.
(** nothing spends the output *)
Hypothesis C : consistent_ledger l.
Lemma unspent_iff o : In o (all_made l) -> pays H a o = true ->
  (~ spent H a (h_txns r) false (o_id o) /\ ~ spent H a (h_txns r) true (o_id o) <-> forall p, In p (all_spent l) -> o_id p <> o_id o).
Proof using Fd C.
  intros I P. split.
  - intros (N1 & N2) p Ip Q. pose proof (lc_same l C o p I Ip (eq_sym Q)) as E. subst p. apply in_flat_map in Ip as (e & Ie & Ip).
    destruct (pending e) eqn:U; [apply N2|apply N1]; apply spent_iff; exists e, o; auto.
  - intro N. split; intro K; apply spent_iff in K as (e & p & Ie & _ & Ip & _ & Q); apply (N p); auto; apply in_flat_map; exists e; auto.
Qed.
Lemma told_unspent o : told H a (h_txns r) o -> ~ spent H a (h_txns r) false (o_id o) /\ ~ spent H a (h_txns r) true (o_id o) -> In o (all_made l).
Proof using Fd.
  intros T (N1 & N2). destruct (told_in o T) as (P & [K|K]); [exact K|]. exfalso. apply in_flat_map in K as (e & Ie & K).
  destruct (pending e) eqn:U; [apply N2|apply N1]; apply spent_iff; exists e, o; auto.
Qed.
End Found.
Lemma made_pending l b o : consistent_ledger l -> In o (all_made l) -> (exists e p, In e l /\ pending e = b /\ In p (makes e) /\ o_id p = o_id o) ->
  In o (all_made (filter (fun e => eqb (pending e) b) l)).
Proof using.
  intros C I (e & p & Ie & U & Ip & E). apply in_flat_map in I as (e' & Ie' & I). destruct (flat_ids makes l e e' p o (lc_made l C) Ie Ie' Ip I E) as (<- & <-).
  apply in_flat_map. exists e. split; [|exact Ip]. apply filter_In. split; [exact Ie|]. rewrite U. apply eqb_reflx.
Qed.
Lemma filter_same {A} (f g : A -> bool) l : (forall x, f x = g x) -> filter f l = filter g l.
Proof using. intro E. apply filter_ext. exact E. Qed.
Lemma values_in (d : odict) o : In o (values d) <-> exists id, In (id, o) d.
Proof using. split; [apply in_values|]. intros (id & I). unfold values. apply in_map_iff. exists (id, o). auto. Qed.
(** *** The balance *)
Lemma balance_lists net info addrs w l : Forall (entry_ok ip_parse) l -> consistent_ledger l -> Forall (text_of H 1) addrs -> honest H ip_str l net addrs ->
  wallet_balance H ip_parse now net info addrs = Ok w ->
  Permutation (values (w_outs (wb_own w))) (filter (for_any H addrs) (unspent_confirmed l)) /\
  Permutation (values (w_unc (wb_own w))) (filter (for_any H addrs) (unspent_pending l)).
Proof using HH L.
  intros F C T Ho E. destruct (all_shown net l addrs F T Ho 0%nat) as (own & A & Fo & Co). pose proof (found_heights l own Fo) as RH.
  pose proof (own_seen net info addrs w own T E A RH) as (S1 & S2 & N1 & N2).
  assert (Sub : forall b r, In (b, r) own -> In b addrs).
  { intros b r I. apply (answers_sub _ _ _ _ A). apply in_map_iff. exists (b, r). auto. }
  assert (G1 : forall o, In o (values (w_outs (wb_own w))) -> In o (filter (for_any H addrs) (unspent_confirmed l))).
  { intros o I. apply values_in in I as (id & I). destruct (S1 id o I) as (<- & a & r & Ia & To & (Cr & Ns)). pose proof (Fo a r Ia) as Fd.
    pose proof (told_unspent l a r Fd o To Ns) as Im. pose proof (proj1 (told_in l a r Fd o To)) as P.
    apply filter_In. split; [|apply for_any_in; exists a; eauto]. apply not_spent. split; [|exact (proj1 (unspent_iff l a r Fd C o Im P) Ns)].
    apply (created_iff l a r Fd) in Cr as (e & p & Ie & U & Ip & _ & Q).
    rewrite (filter_same (fun e => negb (pending e)) (fun e => eqb (pending e) false)); [|intro x; destruct (pending x); reflexivity]. apply made_pending; eauto 6. }
  assert (G2 : forall o, In o (values (w_unc (wb_own w))) -> In o (filter (for_any H addrs) (unspent_pending l))).
  { intros o I. apply values_in in I as (id & I). destruct (S2 id o I) as (<- & a & r & Ia & To & (Cr & _ & Ns)). pose proof (Fo a r Ia) as Fd.
    pose proof (told_unspent l a r Fd o To Ns) as Im. pose proof (proj1 (told_in l a r Fd o To)) as P.
    apply filter_In. split; [|apply for_any_in; exists a; eauto]. apply not_spent. split; [|exact (proj1 (unspent_iff l a r Fd C o Im P) Ns)].
    apply (created_iff l a r Fd) in Cr as (e & p & Ie & U & Ip & _ & Q).
    rewrite (filter_same pending (fun e => eqb (pending e) true)); [|intro x; destruct (pending x); reflexivity]. apply made_pending; eauto 6. }
  assert (Fnd : forall o e, In e l -> In o (makes e) -> for_any H addrs o = true -> exists a r, In (a, r) own /\ pays H a o = true).
  { intros o e Ie Io K. apply for_any_in in K as (a & Ia & P). destruct (Co a e Ia Ie) as (r & Ir); [exists o; split; [apply in_or_app; now left|exact P]|]. exists a, r. auto. }
  pose proof (lc_made l C) as NM.
  split; apply perm_by_ids.
  - rewrite (keys_ids _ (fun id o I => proj1 (S1 id o I))). exact N1.
  - apply ids_filter. apply ids_filter. apply made_nodup. exact NM.
  - intro o. split; [apply G1|]. intro I. apply filter_In in I as (I & K). apply not_spent in I as (Im & Ns). pose proof (made_sub _ _ _ Im) as Im'.
    apply in_flat_map in Im as (e & Ie & Io). apply filter_In in Ie as (Ie & U). destruct (Fnd o e Ie Io K) as (a & r & Ir & P). pose proof (Fo a r Ir) as Fd.
    destruct (C62_own H ip_parse now net info addrs w own (o_id o) HH T E A RH) as (R & _).
    assert (Hs : has (w_outs (wb_own w)) (o_id o)).
    { apply R. exists a, r. split; [exact Ir|]. split; [|exact (proj2 (unspent_iff l a r Fd C o Im' P) Ns)]. apply (created_iff l a r Fd). exists e, o. apply negb_true_iff in U. auto 6. }
    unfold has in Hs. apply in_map_iff in Hs as ([id o'] & Eid & I'). cbn [fst] in Eid. subst id. assert (Iv : In o' (values (w_outs (wb_own w)))) by (apply values_in; eauto).
    pose proof (proj1 (S1 _ _ I')) as Q. apply G1 in Iv as Iv'. apply filter_In in Iv' as (Iv' & _). apply not_spent in Iv' as (Iv' & _). apply made_sub in Iv'.
    rewrite (made_one l o o' NM Im' Iv' (eq_sym Q)). exact Iv.
  - rewrite (keys_ids _ (fun id o I => proj1 (S2 id o I))). exact N2.
  - apply ids_filter. apply ids_filter. apply made_nodup. exact NM.
  - intro o. split; [apply G2|]. intro I. apply filter_In in I as (I & K). apply not_spent in I as (Im & Ns). pose proof (made_sub _ _ _ Im) as Im'.
    apply in_flat_map in Im as (e & Ie & Io). apply filter_In in Ie as (Ie & U). destruct (Fnd o e Ie Io K) as (a & r & Ir & P). pose proof (Fo a r Ir) as Fd.
    destruct (C62_own H ip_parse now net info addrs w own (o_id o) HH T E A RH) as (_ & R & _).
    assert (Hs : has (w_unc (wb_own w)) (o_id o)).
    { apply R. exists a, r. split; [exact Ir|]. split; [|split; [|exact (proj2 (unspent_iff l a r Fd C o Im' P) Ns)]].
      - apply (created_iff l a r Fd). exists e, o. auto 6.
      - intro K2. apply (created_iff l a r Fd) in K2 as (e2 & p & Ie2 & U2 & Ip & _ & Q). destruct (flat_ids makes l e e2 o p NM Ie Ie2 Io Ip (eq_sym Q)) as (<- & _). congruence. }
    unfold has in Hs. apply in_map_iff in Hs as ([id o'] & Eid & I'). cbn [fst] in Eid. subst id. assert (Iv : In o' (values (w_unc (wb_own w)))) by (apply values_in; eauto).
    pose proof (proj1 (S2 _ _ I')) as Q. apply G2 in Iv as Iv'. apply filter_In in Iv' as (Iv' & _). apply not_spent in Iv' as (Iv' & _). apply made_sub in Iv'.
    rewrite (made_one l o o' NM Im' Iv' (eq_sym Q)). exact Iv.
Qed.
End Read.

(** *** A further entry *)
Lemma filter_perm {A} (f : A -> bool) l m : Permutation l m -> Permutation (filter f l) (filter f m).
Proof.
  induction 1 as [|x l m P IH|x y l|l m k P1 IH1 P2 IH2]; cbn [filter]; [constructor| | |exact (perm_trans IH1 IH2)].
  - destruct (f x); [constructor|]; exact IH.
  - destruct (f x), (f y); try constructor; apply Permutation_refl.
Qed.
Lemma made_split (f : entry -> bool) l : Permutation (all_made (filter (fun e => negb (f e)) l) ++ all_made (filter f l)) (all_made l).
Proof.
  induction l as [|e l IH]; [constructor|]. unfold all_made in *. cbn [filter flat_map]. destruct (f e); cbn [negb flat_map].
  - eapply perm_trans; [apply Permutation_app_swap_app|]. apply Permutation_app_head. exact IH.
  - rewrite <- app_assoc. apply Permutation_app_head. exact IH.
Qed.
Lemma unspent_split l : Permutation (unspent_confirmed l ++ unspent_pending l) (unspent l).
Proof. unfold unspent_confirmed, unspent_pending, unspent, left_over. rewrite <- filter_app. apply filter_perm. apply made_split. Qed.
Lemma unspent_nodup l : consistent_ledger l -> NoDup (ids (unspent l)).
Proof. intro C. apply ids_filter. exact (lc_made l C). Qed.
Record extends (e : entry) (l : ledger) : Prop := {
  ex_ids : NoDup (ids (makes e));
  ex_new : forall i, In i (ids (makes e)) -> ~ In i (ids (all_made l)) /\ ~ In i (ids (all_spent l));
  ex_left : forall o, In o (Spec_Ledger.spends e) -> In o (unspent l);
  ex_once : NoDup (ids (Spec_Ledger.spends e)) }.
Lemma extend_ok e l : consistent_ledger l -> extends e l -> consistent_ledger (e :: l).
Proof.
  intros C X. assert (M : forall o, In o (Spec_Ledger.spends e) -> In o (all_made l)) by (intros o I; apply (ex_left _ _ X) in I; apply not_spent in I; tauto).
  split; cbn [all_made all_spent flat_map].
  - unfold ids. rewrite map_app. apply NoDup_app_iff. split; [exact (ex_ids _ _ X)|]. split; [exact (lc_made l C)|]. intros i I J. exact (proj1 (ex_new _ _ X i I) J).
  - intros o p I J E. apply in_app_or in I as [I|I], J as [J'|J'].
    + exfalso. apply (proj1 (ex_new _ _ X (o_id o) (in_map _ _ _ I))). rewrite E. apply in_map. exact (M p J').
    + exfalso. apply (proj2 (ex_new _ _ X (o_id o) (in_map _ _ _ I))). rewrite E. apply in_map. exact J'.
    + exact (made_one l o p (lc_made l C) I (M p J') E).
    + exact (lc_same l C o p I J' E).
  - unfold ids. rewrite map_app. apply NoDup_app_iff. split; [exact (ex_once _ _ X)|]. split; [exact (lc_once l C)|]. intros i I J.
    apply in_map_iff in I as (o & <- & I). apply (ex_left _ _ X) in I. apply not_spent in I as (_ & N). apply in_map_iff in J as (p & Q & J). exact (N p J Q).
Qed.
Lemma extend_unspent e l : consistent_ledger l -> extends e l -> Permutation (Spec_Ledger.spends e ++ unspent (e :: l)) (makes e ++ unspent l).
Proof.
  intros C X. pose proof (extend_ok e l C X) as C'. assert (M : forall o, In o (Spec_Ledger.spends e) -> In o (all_made l)) by (intros o I; apply (ex_left _ _ X) in I; apply not_spent in I; tauto).
  assert (D : forall o, In o (unspent (e :: l)) <-> (In o (makes e) \/ In o (unspent l)) /\ forall p, In p (Spec_Ledger.spends e) -> o_id p <> o_id o).
  { intro o. unfold unspent. rewrite !not_spent. cbn [all_made all_spent flat_map]. rewrite in_app_iff. split.
    - intros (I & N). assert (N1 : forall p, In p (Spec_Ledger.spends e) -> o_id p <> o_id o) by (intros p J; apply N; apply in_or_app; now left).
      split; [|exact N1]. destruct I as [I|I]; [now left|right]. split; [exact I|]. intros p J. apply N. apply in_or_app. now right.
    - intros (I & N1). split; [destruct I as [I|(I & _)]; auto|]. intros p J. apply in_app_or in J as [J|J]; [exact (N1 p J)|].
      destruct I as [I|(_ & N)]; [|exact (N p J)]. intro Q. apply (proj2 (ex_new _ _ X (o_id o) (in_map _ _ _ I))). rewrite <- Q. apply in_map. exact J. }
  apply perm_by_ids.
  - unfold ids. rewrite map_app. apply NoDup_app_iff. split; [exact (ex_once _ _ X)|]. split; [exact (unspent_nodup _ C')|]. intros i I J.
    apply in_map_iff in I as (p & <- & I). apply in_map_iff in J as (o & Q & J). apply D in J as (_ & N). exact (N p I (eq_sym Q)).
  - unfold ids. rewrite map_app. apply NoDup_app_iff. split; [exact (ex_ids _ _ X)|]. split; [exact (unspent_nodup _ C)|]. intros i I J.
    apply (proj1 (ex_new _ _ X i I)). apply in_map_iff in J as (o & <- & J). apply in_map. apply not_spent in J. tauto.
  - intro o. rewrite !in_app_iff. split.
    + intros [I|I]; [right; exact (ex_left _ _ X o I)|]. apply D in I. tauto.
    + intro I. destruct (existsb (fun p => listN_eqb (o_id p) (o_id o)) (Spec_Ledger.spends e)) eqn:K.
      * left. apply existsb_exists in K as (p & Ip & K). apply listN_eqb_eq in K. destruct I as [I|I].
        -- exfalso. apply (proj1 (ex_new _ _ X (o_id o) (in_map _ _ _ I))). rewrite <- K. apply in_map. exact (M p Ip).
        -- apply not_spent in I as (I & _). rewrite <- (made_one l p o (lc_made l C) (M p Ip) I K). exact Ip.
      * right. apply D. split; [exact I|]. intros p Ip Q. assert (K' : existsb (fun p => listN_eqb (o_id p) (o_id o)) (Spec_Ledger.spends e) = true); [|congruence].
        apply existsb_exists. exists p. split; [exact Ip|]. rewrite Q. apply listN_eqb_refl.
Qed.
Lemma extend_fortune H addrs e l : consistent_ledger l -> extends e l ->
  fortune H addrs (e :: l) + worth (filter (for_any H addrs) (Spec_Ledger.spends e)) = fortune H addrs l + worth (filter (for_any H addrs) (makes e)).
Proof.
  intros C X. pose proof (worth_perm _ _ (filter_perm (for_any H addrs) _ _ (extend_unspent e l C X))) as E. rewrite !filter_app, !worth_app in E. unfold fortune. lia.
Qed.
(** *** The entry of a transaction made from a balance *)
Lemma give_length l i : length i = length l -> ids (give_ids l i) = i.
Proof.
  unfold ids, give_ids. revert i. induction l as [|o l IH]; intros [|j i] E; cbn [length] in E; try discriminate E; [reflexivity|]. cbn [combine map fst snd o_id]. f_equal. apply IH. lia.
Qed.
Lemma give_filter H addrs l i : length i = length l -> worth (filter (for_any H addrs) (give_ids l i)) = worth (filter (for_any H addrs) l).
Proof.
  unfold give_ids. revert i. induction l as [|o l IH]; intros [|j i] E; cbn [length] in E; try discriminate E; [reflexivity|]. cbn [combine map fst snd filter].
  change (for_any H addrs (mkout (o_value o) (o_cond o) j)) with (for_any H addrs o). assert (E' : length i = length l) by lia. specialize (IH i E').
  destruct (for_any H addrs o); [|exact IH]. change (o_value o + worth (filter (for_any H addrs) (map (fun x => mkout (o_value (fst x)) (o_cond (fst x)) (snd x)) (combine l i))) = o_value o + worth (filter (for_any H addrs) l)).
  rewrite IH. reflexivity.
Qed.
Lemma taken ins used : Forall2 takes ins used ->
  map (fun x => mkout (o_value (snd x)) (o_cond (snd x)) (i_parent (fst x)))
    (combine ins (map (fun i => match i_out i with Some o => o | None => mkout 0 CNil [] end) ins)) = used.
Proof.
  induction 1 as [|i o l m (E1 & E2) F IH]; [reflexivity|]. cbn [map combine fst snd]. rewrite E2, E1, IH. destruct o as [v c k]. reflexivity.
Qed.
Lemma recorded_spends t l e ins used : recorded t l e -> coin_inputs t = Ok ins -> Forall2 takes ins used -> Spec_Ledger.spends e = used.
Proof. intros (E1 & E2 & _) C F. unfold Spec_Ledger.spends. rewrite E1, E2. unfold spent_by, inputs_of. rewrite C. apply taken. exact F. Qed.
Lemma recorded_extends t l e ins used : recorded t l e -> coin_inputs t = Ok ins -> Forall2 takes ins used -> (exists rest, Permutation (used ++ rest) (unspent l)) -> consistent_ledger l -> extends e l.
Proof.
  intros R Ci F (rest & P) C. pose proof (recorded_spends t l e ins used R Ci F) as S. destruct R as (E1 & E2 & E3 & E4 & E5).
  assert (I : ids (makes e) = en_ids e) by (unfold makes; apply give_length; rewrite E1; exact E3).
  assert (N : NoDup (ids (used ++ rest))) by (apply (Permutation_NoDup (Permutation_map o_id (Permutation_sym P))); exact (unspent_nodup l C)).
  split.
  - rewrite I. exact E4.
  - rewrite I. exact E5.
  - rewrite S. intros o Io. apply (Permutation_in _ P). apply in_or_app. now left.
  - rewrite S. unfold ids in *. rewrite map_app in N. apply NoDup_app_iff in N. tauto.
Qed.
(** what may be used is a part of what the balance lists *)
Lemma sel_trans a b c : selection a b -> selection b c -> selection a c.
Proof.
  intros (r1 & P1) (r2 & P2). exists (r1 ++ r2). rewrite app_assoc. eapply perm_trans; [|exact P2]. apply Permutation_app_tail. exact P1.
Qed.
Lemma sel_filter f l : selection (filter f l) l.
Proof. exists (filter (fun x => negb (f x)) l). induction l as [|x l IH]; [constructor|]. cbn [filter]. destruct (f x); cbn [negb app]; [constructor; exact IH|]. eapply perm_trans; [apply Permutation_sym, Permutation_middle|]. constructor. exact IH. Qed.
Lemma sel_refl l : selection l l.
Proof. exists []. rewrite app_nil_r. apply Permutation_refl. Qed.
Lemma sel_app a b c d : selection a b -> selection c d -> selection (a ++ c) (b ++ d).
Proof.
  intros (r1 & P1) (r2 & P2). exists (r1 ++ r2). eapply perm_trans; [|apply Permutation_app; [exact P1|exact P2]].
  rewrite <- !app_assoc. apply Permutation_app_head. rewrite !app_assoc. apply Permutation_app_tail. apply Permutation_app_comm.
Qed.
Lemma sel_unlocked b l : selection (unlocked b l) l.
Proof. unfold unlocked. destruct (known_chain b); [apply sel_filter|apply sel_refl]. Qed.
Lemma sel_spendable b : selection (spendable b) (values (w_outs b) ++ values (w_unc b)).
Proof. apply sel_app; apply sel_unlocked. Qed.
(** transactions that were read have coin inputs *)
Lemma read_inputs H ip now e x : explorer_txn H ip now e = Ok x -> exists ins, coin_inputs (e_txn x) = Ok ins.
Proof.
  intro E. apply explorer_txn_inv in E as (raw & id & t & ido & ins & cps & cpos & cids & chs & bps & bpos & bids & bhs & _ & _ & _ & _ & _ & _ & _ & _ & _ & _ & _ & _ & _ & _ & _ & _ & -> & _).
  destruct t as [a|m|c|g|r|b|u|n]; cbn; eauto.
Qed.
