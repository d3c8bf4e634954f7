(** Theorems about what wallets make of the chain (C90): balances of a ledger, and what an operation moves. *)
From Coq Require Import Permutation Sorting.Sorted.
From Verif Require Import Base BaseFacts Encoders Currency Primitive Types Conditions Fulfillments ThreeBotTypes Txn TxnJson TxnSign Wallet Explorer AtomicSwap Ops WalletLoad Submit Session Front
  Spec_Types Spec_Txn Spec_Json Spec_ThreeBot ThreeBotFacts ThreeBotFacts2 Spec_Currency Spec_Wallet Spec_Ops Spec_Front Spec_Explorer Spec_Load Spec_Session Spec_Lookup TypesFacts WalletFacts WalletFacts2 ExplorerFacts ExplorerFacts2 ExplorerFacts3 LookupFacts LoadFacts SessionFacts
  TxnFacts3 Prop_Fulfil Prop_Txn Prop_ThreeBot Prop_Json Prop_Wallet Prop_Explorer Prop_Sign Prop_Ops Prop_Lookup Prop_Load Prop_Submit Prop_Front Prop_Session Spec_Ledger LedgerFacts.
From Coq Require Import ZifyBool ZifyNat ZifyN.
Ltac Zify.zify_post_hook ::= Z.div_mod_to_equations.

(** ** C90 *)
(** With explorers which show the ledger, the balance of a wallet lists, each once, exactly the outputs of the ledger that pay to one of the wallet's
    addresses and are not spent, confirmed ones and waiting ones; and all it reports as the wallet's own is what they are worth. *)
Theorem C90_balance : forall H ip_parse ip_str now net info addrs w l, hash_ok H -> ip_library ip_parse ip_str ->
  Forall (entry_ok ip_parse) l -> consistent_ledger l -> Forall (text_of H 1) addrs -> honest H ip_str l net addrs ->
  wallet_balance H ip_parse now net info addrs = Ok w ->
  Permutation (values (w_outs (wb_own w))) (filter (for_any H addrs) (unspent_confirmed l)) /\
  Permutation (values (w_unc (wb_own w))) (filter (for_any H addrs) (unspent_pending l)) /\
  available (wb_own w) + locked (wb_own w) = worth (filter (for_any H addrs) (unspent_confirmed l)) /\
  unconfirmed (wb_own w) + unconfirmed_locked (wb_own w) = worth (filter (for_any H addrs) (unspent_pending l)) /\
  everything w = fortune H addrs l.
Proof.
  intros H ip is now net info addrs w l HH L F C T Ho E. destruct (balance_lists H ip is now HH L net info addrs w l F C T Ho E) as (P1 & P2).
  split; [exact P1|]. split; [exact P2|]. destruct (C31_partition (wb_own w)) as (E1 & E2). rewrite (worth_perm _ _ P1) in E1. rewrite (worth_perm _ _ P2) in E2.
  split; [exact E1|]. split; [exact E2|]. unfold everything, fortune. rewrite <- (worth_perm _ _ (filter_perm _ _ _ (unspent_split l))), filter_app, worth_app. lia.
Qed.
Print Assumptions C90_balance.
(** Such a balance can be had, for every wallet that co-owns no multi-signature wallet, once the chain has a second block: so explorers that show
    the same ledger, whatever their answers look like, lead to the same amounts. *)
Theorem C90_succeeds : forall H ip_parse ip_str now net h t k addrs l, hash_ok H -> ip_library ip_parse ip_str -> (0 < h)%Z -> (0 < t)%Z ->
  Forall (entry_ok ip_parse) l -> (forall o, In o (all_made l ++ all_spent l) -> exists a, Spec_Explorer.pays H a o = true) ->
  Forall (text_of H 1) addrs -> (forall n a, In a addrs -> shows H ip_str l [] a (net n a)) ->
  exists w, wallet_balance H ip_parse now net (h, t, k) addrs = Ok w /\ wb_ms w = [].
Proof.
  intros H ip is now net h t k addrs l HH L Ph Pt F Pa T Ho.
  assert (Q : forall n, exists own, answers (lookup H ip now net) n addrs own /\ forall a r, In (a, r) own -> found H l a r /\ h_multisigs r = []).
  { clear - HH L F T Ho. induction T as [|a addrs Ta T IH]; intro n; [exists []; split; [constructor|intros a r []]|].
    destruct (IH (fun n b I => Ho n b (or_intror I)) (Datatypes.S n)) as (own & A & Fo). 
    destruct (shown H ip is now HH L net l [] n a F Ta (Ho n a (or_introl eq_refl))) as [(E & _)|(r & E & Fr & Em)].
    - exists own. split; [apply A_unused; assumption|exact Fo].
    - exists ((a, r) :: own). split; [apply A_found; assumption|]. intros b s [I|I]; [injection I as <- <-; auto|exact (Fo b s I)]. }
  destruct (Q 0%nat) as (own & A & Fo).
  assert (Em : flat_map (fun ar => multisigs H (snd ar)) own = []).
  { clear - Fo. induction own as [|[a r] own IH]; [reflexivity|]. cbn [flat_map snd]. unfold multisigs at 1. rewrite (proj2 (Fo a r (or_introl eq_refl))). cbn [flat_map app]. apply IH. intros b s I. apply Fo. now right. }
  destruct (C62_succeeds_partial H ip now net h t k addrs own [] HH T Ph Pt A) as (w & E).
  - rewrite Em. constructor.
  - intros a r I. rewrite app_nil_r in I. destruct (answers_look H ip now net _ _ _ A a r I) as (n & Lk & Ia). rewrite Forall_forall in T.
    destruct (lookup_text H ip now net 1 n a r HH (T a Ia) Lk) as (_ & Ty & Str). unfold result_balance. rewrite Ty. change (1 =? 3)%Z with false. cbv iota. unfold address_balance. rewrite Str. cbn [bind].
    assert (G : forall xs b, (forall x, In x xs -> (exists ins, coin_inputs (e_txn x) = Ok ins) /\ forall o, In o (spent_by (e_txn x) ++ coin_outputs (e_txn x)) -> exists a, Spec_Explorer.pays H a o = true) ->
      exists b', add_txns H a b xs = Ok b').
    { assert (M : forall c s os b, (forall o, In o os -> exists a, Spec_Explorer.pays H a o = true) -> exists b', add_matching H a c s b os = Ok b').
      { intros c s os. induction os as [|o os IHo]; intros b Hp; cbn [add_matching]; [eauto|]. destruct (Hp o (or_introl eq_refl)) as (a' & Pp). unfold Spec_Explorer.pays in Pp.
        unfold cond_address, output_add. destruct (cond_unlockhash H (o_cond o)) as [u|]; [|discriminate Pp]. cbn [bind]. destruct (uh_str H u) as [s'|]; [|discriminate Pp]. cbn [bind].
        destruct (listN_eqb s' a); cbn [bind]; apply IHo; intros p Ip; apply Hp; now right. }
      induction xs as [|x xs IHx]; intros b Hp; cbn [add_txns]; [eauto|]. destruct (Hp x (or_introl eq_refl)) as ((ins & Ei) & Po). unfold add_txn. rewrite Ei. cbn [bind].
      assert (Sp : spent_by (e_txn x) = map parent_of ins) by (unfold spent_by, inputs_of; rewrite Ei; reflexivity). rewrite Sp in Po.
      destruct (M (negb (e_unconfirmed x)) true (map parent_of ins) b) as (b1 & ->); [intros o Io; apply Po; apply in_or_app; now left|]. cbn [bind].
      destruct (M (negb (e_unconfirmed x)) false (coin_outputs (e_txn x)) b1) as (b2 & ->); [intros o Io; apply Po; apply in_or_app; now right|]. cbn [bind].
      apply IHx. intros y Iy. apply Hp. now right. }
    destruct (G (h_txns r) bal_new) as (b & ->); [|reflexivity].
    intros x Ix. split.
    + unfold lookup in Lk. apply bind_ok in Lk as (j & _ & Lk).
      apply C48_newest_first in Lk as (es & xs & _ & Fx & Px & _). apply (Permutation_in _ (Permutation_sym Px)) in Ix. destruct (Forall2_in_r _ _ _ Fx x Ix) as (e & _ & Ee).
      exact (read_inputs H ip now e x Ee).
    + destruct (found_in H l a r (proj1 (Fo a r I)) x Ix) as (e & Ie & [R1 R2 _ _]). rewrite R1, R2. intros o Io. apply Pa.
      apply in_app_or in Io as [Io|Io]; apply in_or_app; [right|left]; apply in_flat_map; exists e; auto.
  - intros a r [].
  - rewrite Em. constructor.
  - exists w. split; [exact E|]. apply (wallet_balance_inv H ip now net) in E as (own' & multi & bs & ps & ars & An & An2 & _ & _ & _ & Fe & I1 & _); [|exact HH|exact T].
    rewrite (answers_fun H ip now net _ _ _ An own A) in *. rewrite Em in An2. inversion An2; subst. destruct Fe as [|ar m ? ? ? ?]; [reflexivity|]. destruct (I1 ar (or_introl eq_refl)).
Qed.
Print Assumptions C90_succeeds.

(** *** A lemma: what a funded transaction does to the ledger *)
Lemma funded_step H ip_parse ip_str now net info addrs w l primary source refund fee pays cost t e : hash_ok H -> ip_library ip_parse ip_str ->
  Forall (entry_ok ip_parse) l -> consistent_ledger l -> Forall (text_of H 1) addrs -> honest H ip_str l net addrs ->
  wallet_balance H ip_parse now net info addrs = Ok w ->
  funded H w primary source refund fee pays cost t -> source = None \/ wb_ms w = [] -> recorded t l e ->
  extends e l /\ (forall o, In o (Spec_Ledger.spends e) -> for_any H addrs o = true) /\ worth (Spec_Ledger.spends e) = worth (coin_outputs t) + fee + cost.
Proof.
  intros HH L F C T Ho E (Cs & Mf & ins & used & rem & Ci & Tk & Sel & _ & Co) Src R.
  destruct (balance_lists H ip_parse ip_str now HH L net info addrs w l F C T Ho E) as (P1 & P2).
  assert (S0 : selection used (filter (for_any H addrs) (unspent l))).
  { apply (sel_trans _ _ _ Sel). apply (sel_trans _ (spendable (wb_own w))).
    - unfold pool. destruct source as [s|]; [|apply sel_refl]. destruct Src as [Src|Src]; [discriminate Src|]. rewrite Src. cbn [flat_map]. rewrite app_nil_r. apply sel_filter.
    - apply (sel_trans _ _ _ (sel_spendable (wb_own w))). exists []. rewrite app_nil_r. eapply perm_trans; [apply Permutation_app; [exact P1|exact P2]|]. rewrite <- filter_app. apply filter_perm. apply unspent_split. }
  rewrite (recorded_spends t l e ins used R Ci Tk). split; [|split].
  - apply (recorded_extends t l e ins used R Ci Tk); [|exact C]. destruct (sel_trans _ _ _ S0 (sel_filter _ _)) as (rest & P). exists rest. exact P.
  - intros o I. destruct S0 as (rest & P). assert (J : In o (filter (for_any H addrs) (unspent l))) by (apply (Permutation_in _ P); apply in_or_app; now left). apply filter_In in J. tauto.
  - destruct Cs as (ins' & Ci' & Wi). rewrite Ci in Ci'. apply ok_inj in Ci'. subst ins'. rewrite Mf in Wi. cbn [sum] in Wi.
    assert (worth used = in_worth ins); [|lia]. clear - Tk. induction Tk as [|i o ins used (_ & E2) Tk IH]; [reflexivity|]. unfold worth, in_worth in *. cbn [map sum]. rewrite E2, IH. reflexivity.
Qed.
Lemma perm_concat {A} (l m : list (list A)) : Permutation l m -> Permutation (concat l) (concat m).
Proof.
  induction 1 as [|x l m P IH|x y l|l m k P1 IH1 P2 IH2]; cbn [concat]; [constructor|apply Permutation_app_head; exact IH|apply Permutation_app_swap_app|exact (perm_trans IH1 IH2)].
Qed.
Lemma give_worth os : forall i, length i = length os -> worth (give_ids os i) = worth os.
Proof.
  unfold give_ids. induction os as [|o os IH]; intros [|j i] E; cbn [length] in E; try discriminate E; [reflexivity|]. unfold worth in *. cbn [combine map fst snd sum o_value]. f_equal. apply IH. lia.
Qed.

(** Once a transaction that a wallet funded is recorded, the ledger is still consistent, and so nothing is spent twice; the wallet is left with what it had
    less what it pays to others, the miner fee and the price of the operation, and others have what they had and what it pays to them. *)
Theorem C90_moves : forall H ip_parse ip_str now net info addrs w l primary source refund fee pays cost t e, hash_ok H -> ip_library ip_parse ip_str ->
  Forall (entry_ok ip_parse) l -> consistent_ledger l -> Forall (text_of H 1) addrs -> honest H ip_str l net addrs ->
  wallet_balance H ip_parse now net info addrs = Ok w ->
  funded H w primary source refund fee pays cost t -> source = None \/ wb_ms w = [] -> recorded t l e ->
  for_any H addrs (mkout 0 (refund_to w primary source refund) []) = true ->
  consistent_ledger (e :: l) /\
  fortune H addrs (e :: l) + worth (filter (fun o => negb (for_any H addrs o)) pays) + fee + cost = fortune H addrs l /\
  forall others, (forall a, In a others -> ~ In a addrs) -> fortune H others (e :: l) = fortune H others l + worth (filter (for_any H others) pays).
Proof.
  intros H ip is now net info addrs w l primary source refund fee pays cost t e HH L F C T Ho E Fu Src R Rf. pose proof Fu as (_ & _ & _ & _ & rem & _ & _ & _ & _ & Co).
  destruct (funded_step H ip is now net info addrs w l primary source refund fee pays cost t e HH L F C T Ho E Fu Src R) as (X & Own & Wu).
  assert (Ext : forall f os, (forall o : output, In o os -> f o = true) -> filter f os = os).
  { intros f os. induction os as [|o os IH]; intro A; [reflexivity|]. cbn [filter]. rewrite (A o (or_introl eq_refl)). f_equal. apply IH. intros p I. apply A. now right. }
  assert (Non : forall f os, (forall o : output, In o os -> f o = false) -> filter f os = []).
  { intros f os. induction os as [|o os IH]; intro A; [reflexivity|]. cbn [filter]. rewrite (A o (or_introl eq_refl)). apply IH. intros p I. apply A. now right. }
  assert (Mk : forall as_, worth (filter (for_any H as_) (makes e)) = worth (filter (for_any H as_) (coin_outputs t))).
  { intro as_. destruct R as (R1 & _ & R3 & _). unfold makes. rewrite R1. apply give_filter. exact R3. }
  split; [exact (extend_ok e l C X)|]. split.
  - pose proof (extend_fortune H addrs e l C X) as Q. rewrite (Ext _ _ Own), Mk, Co, filter_app, worth_app in Q. rewrite Co, worth_app in Wu.
    assert (Ch : filter (for_any H addrs) (Spec_Wallet.change rem (refund_to w primary source refund)) = Spec_Wallet.change rem (refund_to w primary source refund)).
    { unfold Spec_Wallet.change. destruct (rem =? 0); [reflexivity|]. cbn [filter]. change (for_any H addrs (mkout rem (refund_to w primary source refund) [])) with (for_any H addrs (mkout 0 (refund_to w primary source refund) [])). rewrite Rf. reflexivity. }
    rewrite Ch in Q. assert (Sp : worth pays = worth (filter (for_any H addrs) pays) + worth (filter (fun o => negb (for_any H addrs o)) pays)).
    { clear. induction pays as [|o os IH]; [reflexivity|]. cbn [filter]. unfold worth in *. destruct (for_any H addrs o); cbn [negb map sum]; lia. }
    lia.
  - intros others D. assert (Ex : forall o, for_any H addrs o = true -> for_any H others o = false).
    { intros o I. destruct (for_any H others o) eqn:K; [|reflexivity]. exfalso. apply for_any_in in I as (a & Ia & Pa). apply for_any_in in K as (b & Ib & Pb). apply (D b Ib). rewrite <- (pays_fun H a b o Pa Pb). exact Ia. }
    pose proof (extend_fortune H others e l C X) as Q. rewrite Mk, Co, filter_app, worth_app in Q.
    rewrite (Non (for_any H others) (Spec_Ledger.spends e)) in Q by (intros o I; apply Ex, Own; exact I). rewrite (Non (for_any H others) (Spec_Wallet.change _ _)) in Q; [change (worth []) with 0 in Q; lia|].
    intros o I. apply Ex. unfold Spec_Wallet.change in I. destruct (rem =? 0); [destruct I|]. destruct I as [<-|[]]. exact Rf.
Qed.
Print Assumptions C90_moves.

(** So through every history of any number of wallets, nothing is ever spent twice, no id is used twice, and no coins come into being or get lost: the unspent
    outputs are worth what they were, less what went to miners or off the chain. *)
Theorem C90_run : forall H ip_parse ip_str l l' c, hash_ok H -> ip_library ip_parse ip_str -> Forall (entry_ok ip_parse) l -> consistent_ledger l -> run H ip_parse ip_str l l' c ->
  Forall (entry_ok ip_parse) l' /\ consistent_ledger l' /\ worth (unspent l') + c = worth (unspent l).
Proof.
  intros H ip is l l' c HH L F C R. induction R as [l|l l' c t p R IH O|l l' c t e p R IH O Rc Ok|l l' l'' m c R IH P Mv F'].
  - split; [exact F|]. split; [exact C|]. lia.
  - exact (IH F C).
  - destruct (IH F C) as (F' & C' & W). destruct O as (now & net & info & addrs & w & primary & source & refund & fee & pays & price & T & Ho & E & Fu & Src & ->).
    destruct (funded_step H ip is now net info addrs w l' primary source refund fee pays price t e HH L F' C' T Ho E Fu Src Rc) as (X & _ & Ws).
    split; [constructor; assumption|]. split; [exact (extend_ok e l' C' X)|]. pose proof (worth_perm _ _ (extend_unspent e l' C' X)) as Q. rewrite !worth_app in Q.
    assert (Wm : worth (makes e) = worth (coin_outputs t)) by (destruct Rc as (R1 & _ & R3 & _); unfold makes; rewrite R1; apply give_worth; exact R3). lia.
  - destruct (IH F C) as (_ & C' & W). split; [exact F'|].
    assert (P1 : map makes m = map makes l'' /\ map Spec_Ledger.spends m = map Spec_Ledger.spends l'').
    { clear - Mv. induction Mv as [|e e' m l'' (h & ->) Mv (IH1 & IH2)]; [auto|]. cbn [map]. rewrite IH1, IH2. auto. }
    assert (Q1 : Permutation (all_made l') (all_made l'')) by (unfold all_made; rewrite !flat_map_concat_map, <- (proj1 P1); apply perm_concat, Permutation_map; exact P).
    assert (Q2 : Permutation (all_spent l') (all_spent l'')) by (unfold all_spent; rewrite !flat_map_concat_map, <- (proj2 P1); apply perm_concat, Permutation_map; exact P).
    split.
    + split; [exact (Permutation_NoDup (Permutation_map _ Q1) (lc_made _ C'))| |exact (Permutation_NoDup (Permutation_map _ Q2) (lc_once _ C'))].
      intros o p I J. apply (lc_same _ C'); [exact (Permutation_in _ (Permutation_sym Q1) I)|exact (Permutation_in _ (Permutation_sym Q2) J)].
    + rewrite <- W. f_equal. apply worth_perm. apply perm_by_ids.
      * apply ids_filter. exact (Permutation_NoDup (Permutation_map _ Q1) (lc_made _ C')).
      * apply ids_filter. exact (lc_made _ C').
      * intro o. unfold unspent. rewrite !not_spent. split; intros (I & N); (split; [|intros p J; apply N]).
        -- exact (Permutation_in _ (Permutation_sym Q1) I).
        -- exact (Permutation_in _ Q2 J).
        -- exact (Permutation_in _ Q1 I).
        -- exact (Permutation_in _ (Permutation_sym Q2) J).
Qed.
Print Assumptions C90_run.

(** So what [coins_send] sends arrives: the balance of the recipient's wallet grows by the amount, the sender's shrinks by it and the miner fee. *)
Theorem C90_send : forall H ip_parse ip_str (sign : pubkey -> bytes -> bytes) l e, hash_ok H -> ip_library ip_parse ip_str -> Forall (entry_ok ip_parse) (e :: l) -> consistent_ledger l ->
  (* the sender's wallet, and what it sends *)
  forall now net info v x p amount lock data t sub home, Forall (text_of H 1) (v_addrs v) -> uh_str H (v_address v) = Ok home -> In home (v_addrs v) ->
  honest H ip_str l net (v_addrs v) -> opened H ip_parse now net info v = Ok x ->
  (forall c, amount = CICur c -> is_currency c) -> (forall a, ~ names_erc20 p a) ->
  coins_send_args H sign now x p amount RNone RNone lock data = Ok (t, sub) -> recorded t l e ->
  (* the recipient's wallet, before *)
  forall addrs, Forall (text_of H 1) addrs -> (forall a, In a addrs -> ~ In a (v_addrs v)) -> (forall i, names_payee H p i -> for_any H addrs (mkout 0 i []) = true) ->
  forall now1 net1 info1 w1, honest H ip_str l net1 addrs -> wallet_balance H ip_parse now1 net1 info1 addrs = Ok w1 ->
  (* both wallets, after *)
  forall now2 net2 info2 w2, honest H ip_str (e :: l) net2 addrs -> wallet_balance H ip_parse now2 net2 info2 addrs = Ok w2 ->
  forall now3 net3 info3 w3, honest H ip_str (e :: l) net3 (v_addrs v) -> wallet_balance H ip_parse now3 net3 info3 (v_addrs v) = Ok w3 ->
  exists n, is_amount amount n /\ 0 < n /\ everything w2 = everything w1 + n /\ everything w3 + n + v_fee v = everything (x_bal x).
Proof.
  intros H ip is sign l e HH L F C now net info v x p amount lock data t sub home T Eh Ih Ho Op Am Ne E R addrs T2 D Pe now1 net1 info1 w1 Ho1 E1 now2 net2 info2 w2 Ho2 E2 now3 net3 info3 w3 Ho3 E3.
  pose proof F as F'. inversion F as [|? ? Fe Fl]; subst. unfold opened in Op. apply bind_ok in Op as (w & Ew & Op). apply ok_inj in Op.
  apply C75_sends in E as (n & s & r & An & Pn & Ns & Nr & _ & K); [|exact Am].
  assert (s = None) as -> by (destruct s as [us|]; [destruct Ns as [(q & Q & _)|(u & _ & [Q|(q & Q & _)])]; discriminate Q|reflexivity]).
  assert (r = None) as -> by (destruct r as [c|]; [destruct Nr as (Q & _); contradiction|reflexivity]).
  destruct K as [(a & _ & Na & _)|(i & c & b & a & _ & Ni & Lk & _ & -> & _ & Fu)]; [destruct (Ne a Na)|].
  rewrite <- Op in *. cbn [x_bal x_address x_fee] in *. exists n. split; [exact An|]. split; [exact Pn|].
  assert (Pc : forall as_, for_any H as_ (mkout n c []) = for_any H as_ (mkout 0 i [])).
  { intro as_. unfold for_any, Spec_Explorer.pays. cbn [o_cond]. destruct lock; cbn [locked_as] in Lk; try (subst c; reflexivity); destruct Lk as (lk & _ & ->); reflexivity. }
  assert (Rf : for_any H (v_addrs v) (mkout 0 (refund_to w (v_address v) None None) []) = true).
  { apply for_any_in. exists home. split; [exact Ih|]. unfold Spec_Explorer.pays. cbn [o_cond refund_to cond_unlockhash]. rewrite Eh. apply listN_eqb_refl. }
  destruct (C90_moves H ip is now net info (v_addrs v) w l (v_address v) None None (v_fee v) _ _ _ e HH L Fl C T Ho Ew Fu (or_introl eq_refl) R Rf) as (C' & Ms & Mo).
  destruct (C90_balance H ip is now net info (v_addrs v) w l HH L Fl C T Ho Ew) as (_ & _ & _ & _ & B0).
  destruct (C90_balance H ip is now1 net1 info1 addrs w1 l HH L Fl C T2 Ho1 E1) as (_ & _ & _ & _ & B1).
  destruct (C90_balance H ip is now2 net2 info2 addrs w2 (e :: l) HH L F' C' T2 Ho2 E2) as (_ & _ & _ & _ & B2).
  destruct (C90_balance H ip is now3 net3 info3 (v_addrs v) w3 (e :: l) HH L F' C' T Ho3 E3) as (_ & _ & _ & _ & B3).
  specialize (Mo addrs D). cbn [filter] in Mo, Ms. rewrite (Pc addrs), (Pe i Ni) in Mo. rewrite (Pc (v_addrs v)) in Ms.
  assert (Nf : for_any H (v_addrs v) (mkout 0 i []) = false).
  { destruct (for_any H (v_addrs v) (mkout 0 i [])) eqn:Q; [|reflexivity]. exfalso. apply for_any_in in Q as (a1 & I1 & Q1). destruct (proj1 (for_any_in H addrs _) (Pe i Ni)) as (a2 & I2 & Q2). apply (D a2 I2).
    rewrite <- (pays_fun H a1 a2 _ Q1 Q2). exact I1. }
  rewrite Nf in Ms. cbn [negb] in Ms. unfold worth in Ms, Mo. cbn [map sum o_value] in Ms, Mo. rewrite B0, B1, B2, B3. lia.
Qed.
Print Assumptions C90_send.

(** Every payment is a step of a history. *)
Theorem C90_operates : forall H ip_parse ip_str (sign : pubkey -> bytes -> bytes) l now net info v x p amount refund lock data t sub,
  Forall (text_of H 1) (v_addrs v) -> honest H ip_str l net (v_addrs v) -> opened H ip_parse now net info v = Ok x ->
  (forall c, amount = CICur c -> is_currency c) -> (forall a, ~ names_erc20 p a) ->
  coins_send_args H sign now x p amount RNone refund lock data = Ok (t, sub) -> operates H ip_parse ip_str l t (v_fee v).
Proof.
  intros H ip is sign l now net info v x p amount refund lock data t sub T Ho Op Am Ne E.
  unfold opened in Op. apply bind_ok in Op as (w & Ew & Op). apply ok_inj in Op.
  apply C75_sends in E as (n & s & r & _ & _ & Ns & _ & _ & K); [|exact Am].
  assert (s = None) as -> by (destruct s as [us|]; [destruct Ns as [(q & Q & _)|(u & _ & [Q|(q & Q & _)])]; discriminate Q|reflexivity]).
  destruct K as [(a & _ & Na & _)|(i & c & b & a & _ & _ & _ & _ & -> & _ & Fu)]; [destruct (Ne a Na)|].
  rewrite <- Op in Fu. cbn [x_bal x_address x_fee] in Fu.
  exists now, net, info, (v_addrs v), w, (v_address v), None, r, (v_fee v), [mkout n c []], 0.
  split; [exact T|]. split; [exact Ho|]. split; [exact Ew|]. split; [exact Fu|]. split; [now left|symmetry; apply N.add_0_r].
Qed.
Print Assumptions C90_operates.

(** *** Cases.  The wallet of the cases of C76 got 1000 and 50 TFT in one transaction; it sends 1020 TFT to a wallet that had nothing. *)
Definition exe_first : entry := mkentry exn_pay (repeat 31 32) [exx_pay 31] [] [repeat 21 32; repeat 22 32] [] (Some 7%Z).
Definition exe_second : entry := mkentry exn_sent (repeat 41 32) [mkout (50 * TFT) (CUnlockHash (ex_key_uh 8)) (repeat 22 32); mkout (1000 * TFT) (CUnlockHash (ex_key_uh 7)) (repeat 21 32)] []
  [repeat 51 32; repeat 52 32] [] None.
Definition exe_json : json := exx_answer exn_sent 41 (en_parents exe_second) [] [51; 52] [] 0 true.
(** the recipient's explorers: they know of the address once something was sent to it *)
Definition exe_net (l : list json) (n : nat) (a : pystr) : res json := match l with [] => Err ExplorerNoContent | _ => Ok (exl_resp l []) end.
(** yes or no: a standard transaction of coins between single owners and multi-signature wallets, with parts of their sizes *)
Definition exe_bytes (n : nat) (b : bytes) : bool := (length b =? n)%nat && forallb (fun x => x <? 256) b.
Definition exe_addrb (u : uh) : bool := ((uh_type u =? 1) || (uh_type u =? 3))%Z && exe_bytes 32 (uh_hash u).
Definition exe_cond (c : cond) : bool := match c with CUnlockHash u => exe_addrb u | CMulti us _ => forallb exe_addrb us
  | CSwap s r (Some h) t => exe_addrb s && (uh_type s <=? 1)%Z && (exe_addrb r && (uh_type r <=? 1)%Z) && exe_bytes 32 h && (500000000 <=? t)%Z | _ => false end.
Definition exe_outb (o : output) : bool := (o_value o <? 10 ^ 28) && exe_cond (o_cond o).
Definition exe_inb (i : input) : bool :=
  exe_bytes 32 (i_parent i) && match i_ff i with FSingle p (Some s) => exe_bytes 32 (pk_hash p) && exe_bytes 64 s
  | FSwap p (Some s) se => exe_bytes 32 (pk_hash p) && exe_bytes 64 s && match se with Some x => exe_bytes 32 x | None => true end | _ => false end.
Definition exe_std (t : txn) : bool :=
  match t with T1 a => forallb exe_inb (s_cin a) && forallb exe_outb (s_cout a) && forallb (fun f => f <? 10 ^ 28) (s_fees a) &&
    match s_bin a, s_bout a, s_data a with [], [], [] => true | _, _, _ => false end | _ => false end.
Lemma exe_bytes_ok n b : exe_bytes n b = true -> length b = n /\ wf_bytes b.
Proof. intro E. apply andb_prop in E as [E1 E2]. apply Nat.eqb_eq in E1. split; [exact E1|]. apply Forall_forall. intros x I. rewrite forallb_forall in E2. apply N.ltb_lt. exact (E2 x I). Qed.
Lemma exe_all {A} (f : A -> bool) (P : A -> Prop) l : (forall x, f x = true -> P x) -> forallb f l = true -> Forall P l.
Proof. intros Q E. apply Forall_forall. intros x I. rewrite forallb_forall in E. exact (Q x (E x I)). Qed.
Lemma exe_addr_ok u : exe_addrb u = true -> address u.
Proof.
  intro E. apply andb_prop in E as [T E]. apply exe_bytes_ok in E. split; [apply orb_prop in T as [T|T]; apply Z.eqb_eq in T; rewrite T; cbn; auto|]. split; [exact E|].
  intro Z0. rewrite Z0 in T. discriminate T.
Qed.
Lemma exe_outb_ok o : exe_outb o = true -> print_out o.
Proof.
  intro E. apply andb_prop in E as [E1 E2]. split; [apply N.ltb_lt; exact E1|]. destruct (o_cond o) as [|u|s r [h|] t| |us n]; try discriminate E2; cbn [network_cond simple_cond exe_cond] in *.
  - exact (exe_addr_ok u E2).
  - apply andb_prop in E2 as [E2 E5]. apply andb_prop in E2 as [E2 E4]. apply andb_prop in E2 as [E2 E3]. apply andb_prop in E2 as [E2 E6]. apply andb_prop in E3 as [E3 E7]. apply exe_bytes_ok in E4.
    split; [exact (exe_addr_ok s E2)|]. split; [lia|]. split; [exact (exe_addr_ok r E3)|]. split; [lia|]. split; [exists h; auto|lia].
  - exact (exe_all _ _ _ exe_addr_ok E2).
Qed.
Lemma exe_std_ok ip t : exe_std t = true -> printable ip t.
Proof.
  destruct t as [a| | | | | | |]; try discriminate. cbn [exe_std printable]. intro E. apply andb_prop in E as [E E4]. apply andb_prop in E as [E E3]. apply andb_prop in E as [E1 E2].
  split; [|split; [exact (exe_all _ _ _ exe_outb_ok E2)|]].
  - refine (exe_all _ _ _ _ E1). intros i Q. apply andb_prop in Q as [Q1 Q2]. split; [exact (exe_bytes_ok _ _ Q1)|]. destruct (i_ff i) as [p [s|]|p [s|] se|]; try discriminate Q2.
    + apply andb_prop in Q2 as [Q2 Q3]. split; [left; exact (exe_bytes_ok _ _ Q2)|left; exact (exe_bytes_ok _ _ Q3)].
    + apply andb_prop in Q2 as [Q2 Q4]. apply andb_prop in Q2 as [Q2 Q3]. split; [left; exact (exe_bytes_ok _ _ Q2)|]. split; [left; exact (exe_bytes_ok _ _ Q3)|]. intros x ->. exact (exe_bytes_ok _ _ Q4).
  - destruct (s_bin a), (s_bout a), (s_data a); try discriminate E4. split; [constructor|]. split; [constructor|]. split; [|constructor]. refine (exe_all _ _ _ _ E3). intros f Q. apply N.ltb_lt. exact Q.
Qed.
Definition exe_entryb (e : entry) : bool :=
  exe_std (en_txn e) && exe_bytes 32 (en_id e) && (forallb exe_outb (en_parents e) && (length (en_parents e) =? length (inputs_of (en_txn e)))%nat) &&
  (forallb (exe_bytes 32) (en_ids e) && (length (en_ids e) =? length (coin_outputs (en_txn e)))%nat) &&
  match en_stake_parents e, en_stake_ids e with [], [] => true | _, _ => false end && match en_height e with None => true | Some h => ((0 <=? h) && (h <? MAXSIZE))%Z end.
Lemma exe_entry_ok ip e : exe_entryb e = true -> entry_ok ip e.
Proof.
  intro E. apply andb_prop in E as [E E6]. apply andb_prop in E as [E E5]. apply andb_prop in E as [E E4]. apply andb_prop in E as [E E3]. apply andb_prop in E as [E1 E2].
  apply andb_prop in E3 as [E3 E3']. apply andb_prop in E4 as [E4 E4']. apply Nat.eqb_eq in E3'. apply Nat.eqb_eq in E4'.
  assert (K : blockstake_inputs (en_txn e) = [] /\ blockstake_outputs (en_txn e) = [] /\ forall g, en_txn e <> T209 g).
  { destruct (en_txn e) as [a| | | | | | |]; try discriminate E1. cbn [exe_std] in E1. apply andb_prop in E1 as [_ E1]. cbn [blockstake_inputs blockstake_outputs]. destruct (s_bin a), (s_bout a); try discriminate E1. repeat split. discriminate. }
  destruct K as (K1 & K2 & K3). destruct (en_stake_parents e) eqn:Sp, (en_stake_ids e) eqn:Si; try discriminate E5.
  split; [|split; [exact K3|intros h Q; rewrite Q in E6; lia]]. rewrite Sp, Si. split.
  - exact (exe_std_ok ip _ E1).
  - exact (exe_bytes_ok _ _ E2).
  - split; [exact (exe_all _ _ _ exe_outb_ok E3)|exact E3'].
  - split; [exact (exe_all _ _ _ (exe_bytes_ok 32) E4)|exact E4'].
  - rewrite K1. split; [constructor|reflexivity].
  - rewrite K2. split; [constructor|reflexivity].
  - intros h Q. rewrite Q in E6. lia.
Qed.
Lemma exe_ok : Forall (entry_ok ex_ip_parse) [exe_second; exe_first].
Proof. repeat apply Forall_cons; try apply Forall_nil; apply exe_entry_ok; vm_compute; reflexivity. Qed.
Lemma exe_told1 : tells ex_H2 ex_ip_str exn_first exe_first.
Proof.
  split.
  - eexists. split; [eexists; split; [reflexivity|]; vm_compute; reflexivity|]. eexists. split; [vm_compute; reflexivity|]. split; [eexists; split; [reflexivity|]; reflexivity|].
    left. eexists. split; [reflexivity|]. reflexivity.
  - eexists. split; reflexivity.
  - eexists. split; [left; eexists; split; [reflexivity|]; vm_compute; reflexivity|]. constructor; [vm_compute; reflexivity|constructor].
  - eexists. split; [left; eexists; split; [reflexivity|]; vm_compute; reflexivity|]. constructor; [vm_compute; reflexivity|]. constructor; [vm_compute; reflexivity|constructor].
  - eexists. split; [left; eexists; split; [reflexivity|]; vm_compute; reflexivity|]. constructor.
  - eexists. split; [left; eexists; split; [reflexivity|]; vm_compute; reflexivity|]. constructor.
  - split; [left; eexists; split; reflexivity|eexists; split; reflexivity].
Qed.
Lemma exe_told2 : tells ex_H2 ex_ip_str exe_json exe_second.
Proof.
  split.
  - eexists. split; [eexists; split; [reflexivity|]; vm_compute; reflexivity|]. eexists. split; [vm_compute; reflexivity|]. split; [eexists; split; [reflexivity|]; vm_compute; reflexivity|].
    left. eexists. split; [reflexivity|]. vm_compute. reflexivity.
  - eexists. split; reflexivity.
  - eexists. split; [left; eexists; split; [reflexivity|]; vm_compute; reflexivity|]. constructor; [vm_compute; reflexivity|]. constructor; [vm_compute; reflexivity|constructor].
  - eexists. split; [left; eexists; split; [reflexivity|]; vm_compute; reflexivity|]. constructor; [vm_compute; reflexivity|]. constructor; [vm_compute; reflexivity|constructor].
  - eexists. split; [left; eexists; split; [reflexivity|]; vm_compute; reflexivity|]. constructor.
  - eexists. split; [left; eexists; split; [reflexivity|]; vm_compute; reflexivity|]. constructor.
  - eexists; split; reflexivity.
Qed.
Lemma exe_history l es : Forall2 (tells ex_H2 ex_ip_str) l es -> Spec_Lookup.told_history ex_H2 (tells ex_H2 ex_ip_str) (exl_resp l []) es [] None.
Proof.
  intro F. split.
  - eexists. split; reflexivity.
  - exists l. split; [eexists; split; reflexivity|exact F].
  - exists []. split; [left; eexists; split; reflexivity|constructor].
  - eexists. split; reflexivity.
Qed.
Lemma exe_shown l es n a : Forall2 (tells ex_H2 ex_ip_str) l es -> In a [ex_addr 7; ex_addr 8] -> shows ex_H2 ex_ip_str es [] a (exn_net l n a).
Proof.
  intros F I. right. exists (exl_resp l []), es, [], None. split.
  { unfold exn_net. replace (existsb (listN_eqb a) [ex_addr 7; ex_addr 8]) with true; [reflexivity|]. symmetry. apply existsb_exists. exists a. split; [exact I|apply listN_eqb_refl]. }
  split; [exact (exe_history l es F)|]. split; [split; constructor|]. rewrite app_nil_r. split; [apply Permutation_refl|intros e []].
Qed.
(** the ledger before: the recipient has nothing; the ledger after *)
Example C90_ex_ledgers : consistent_ledger [exe_first] /\ recorded exn_sent [exe_first] exe_second /\
  map o_value (unspent [exe_first]) = [1000 * TFT; 50 * TFT] /\ map o_value (unspent [exe_second; exe_first]) = [1020 * TFT; 29900000000].
Proof.
  split; [|split; [|split; vm_compute; reflexivity]].
  - split.
    + vm_compute. repeat (constructor; [intros I; repeat destruct I as [I|I]; try contradiction; discriminate I|]). constructor.
    + intros o p I J E. exfalso. vm_compute in I, J. repeat destruct I as [<-|I]; try contradiction; repeat destruct J as [<-|J]; try contradiction; discriminate E.
    + vm_compute. constructor; [intros []|constructor].
  - split; [reflexivity|]. split; [vm_compute; reflexivity|]. split; [vm_compute; reflexivity|]. split.
    + repeat (constructor; [intros I; vm_compute in I; repeat destruct I as [I|I]; try contradiction; discriminate I|]). constructor.
    + intros i I. cbn [en_ids exe_second In] in I. split; intro J; vm_compute in J; repeat destruct J as [<-|J]; try contradiction; vm_compute in I; repeat destruct I as [I|I]; try contradiction; discriminate I.
Qed.
Example C90_ex_honest : (forall n a, In a (v_addrs exn_purse) -> shows ex_H2 ex_ip_str [exe_first] [] a (exn_net [exn_first] n a)) /\
  (forall n a, In a (v_addrs exn_purse) -> shows ex_H2 ex_ip_str [exe_second; exe_first] [] a (exn_net [exe_json; exn_first] n a)) /\
  (forall n a, In a [ex_addr 9] -> shows ex_H2 ex_ip_str [exe_first] [] a (exe_net [] n a)) /\
  (forall n a, In a [ex_addr 9] -> shows ex_H2 ex_ip_str [exe_second; exe_first] [] a (exe_net [exe_json] n a)).
Proof.
  assert (N : ~ concerns ex_H2 (ex_addr 9) exe_first).
  { intros (o & I & P). assert (K : existsb (Spec_Explorer.pays ex_H2 (ex_addr 9)) (makes exe_first ++ Spec_Ledger.spends exe_first) = false) by (vm_compute; reflexivity).
    assert (K' : existsb (Spec_Explorer.pays ex_H2 (ex_addr 9)) (makes exe_first ++ Spec_Ledger.spends exe_first) = true); [apply existsb_exists; exists o; auto|congruence]. }
  split; [intros n a I; apply exe_shown; [constructor; [exact exe_told1|constructor]|exact I]|].
  split; [intros n a I; apply exe_shown; [constructor; [exact exe_told2|constructor; [exact exe_told1|constructor]]|exact I]|]. split.
  - intros n a [<-|[]]. left. split; [reflexivity|]. intros e [<-|[]]. exact N.
  - intros n a [<-|[]]. right. exists (exl_resp [exe_json] []), [exe_second], [exe_first], None. split; [reflexivity|]. split; [apply exe_history; constructor; [exact exe_told2|constructor]|].
    split; [split; constructor|]. split; [apply Permutation_refl|]. intros e [<-|[]]. exact N.
Qed.
Example C90_ex : exists x t w1 w2 w3, opened ex_H2 ex_ip_parse 1600000000 (exn_net [exn_first]) exl_info exn_purse = Ok x /\
  coins_send_args ex_H2 ex_sign 1600000000 x (PVal (RUh (ex_key_uh 9))) (CIInt 1020) RNone RNone LNone DVNone = Ok (t, true) /\ recorded t [exe_first] exe_second /\
  wallet_balance ex_H2 ex_ip_parse 0 (exe_net []) exl_info [ex_addr 9] = Ok w1 /\ wallet_balance ex_H2 ex_ip_parse 0 (exe_net [exe_json]) exl_info [ex_addr 9] = Ok w2 /\
  wallet_balance ex_H2 ex_ip_parse 0 (exn_net [exe_json; exn_first]) exl_info (v_addrs exn_purse) = Ok w3 /\
  everything w1 = 0 /\ everything w2 = 1020 * TFT /\ everything (x_bal x) = 1050 * TFT /\ everything w3 = 29900000000.
Proof.
  destruct (opened ex_H2 ex_ip_parse 1600000000 (exn_net [exn_first]) exl_info exn_purse) as [x|] eqn:E; [|vm_compute in E; discriminate E].
  exists x. vm_compute in E. apply ok_inj in E. subst x. exists exn_sent. do 3 eexists. split; [reflexivity|]. split; [vm_compute; reflexivity|]. split; [exact (proj1 (proj2 C90_ex_ledgers))|].
  split; [vm_compute; reflexivity|]. split; [vm_compute; reflexivity|]. split; [vm_compute; reflexivity|]. vm_compute. auto.
Qed.
Example C90_ex_hypotheses : hash_ok ex_H2 /\ ip_library ex_ip_parse ex_ip_str /\ Forall (entry_ok ex_ip_parse) [exe_second; exe_first] /\
  Forall (text_of ex_H2 1) [ex_addr 7; ex_addr 8; ex_addr 9] /\ (forall i, names_payee ex_H2 (PVal (RUh (ex_key_uh 9))) i -> for_any ex_H2 [ex_addr 9] (mkout 0 i []) = true) /\
  (forall a, ~ names_erc20 (PVal (RUh (ex_key_uh 9))) a) /\ (forall o, In o (all_made [exe_second; exe_first] ++ all_spent [exe_second; exe_first]) -> exists a, Spec_Explorer.pays ex_H2 a o = true).
Proof.
  split; [exact ex_H2_ok|]. split; [exact C43_library|]. split; [exact exe_ok|]. split.
  { pose proof exn_texts as T. inversion T as [|? ? T1 T']; subst. inversion T' as [|? ? T2 _]; subst. constructor; [exact T1|]. constructor; [exact T2|]. constructor; [|constructor].
    exists (mkuh 1 (repeat 9 32)). split; [|split; [reflexivity|vm_compute; reflexivity]]. split; [cbn; auto|]. split; [exact (exe_bytes_ok 32 (repeat 9 32) eq_refl)|discriminate]. }
  split. { intros i (r & Q & P). injection Q as <-. inversion P; subst. vm_compute. reflexivity. }
  split; [intros a (_ & [])|].
  intros o I. assert (K : forallb (fun o => existsb (fun a => Spec_Explorer.pays ex_H2 a o) [ex_addr 7; ex_addr 8; ex_addr 9; exl_text (CUnlockHash exx_uh)]) (all_made [exe_second; exe_first] ++ all_spent [exe_second; exe_first]) = true) by (vm_compute; reflexivity).
  rewrite forallb_forall in K. specialize (K o I). apply existsb_exists in K as (a & _ & P). exists a. exact P.
Qed.
(** a history: the payment of the case above, which then gets into a block *)
Lemma exe_operates : exists t, operates ex_H2 ex_ip_parse ex_ip_str [exe_first] t (v_fee exn_purse) /\ recorded t [exe_first] exe_second.
Proof.
  destruct C90_ex as (x & t & w1 & w2 & w3 & E & Se & Rc & _). exists t. split; [|exact Rc].
  refine (C90_operates ex_H2 ex_ip_parse ex_ip_str ex_sign [exe_first] 1600000000%Z (exn_net [exn_first]) exl_info exn_purse x (PVal (RUh (ex_key_uh 9))) (CIInt 1020) RNone LNone DVNone t true exn_texts _ E _ _ Se).
  - intros k a0 I. exists []. exact (proj1 C90_ex_honest k a0 I).
  - discriminate.
  - intros a (_ & F). exact F.
Qed.
Definition exe_third : entry := mkentry exn_sent (repeat 41 32) [mkout (50 * TFT) (CUnlockHash (ex_key_uh 8)) (repeat 22 32); mkout (1000 * TFT) (CUnlockHash (ex_key_uh 7)) (repeat 21 32)] []
  [repeat 51 32; repeat 52 32] [] (Some 9%Z).
Lemma exe_ok3 : Forall (entry_ok ex_ip_parse) [exe_third; exe_first].
Proof. repeat apply Forall_cons; try apply Forall_nil; apply exe_entry_ok; vm_compute; reflexivity. Qed.
Example C90_ex_run : run ex_H2 ex_ip_parse ex_ip_str [exe_first] [exe_third; exe_first] (v_fee exn_purse).
Proof.
  apply (R_block _ _ _ _ [exe_second; exe_first] _ [exe_second; exe_first]); [|apply Permutation_refl| |exact exe_ok3].
  - destruct exe_operates as (t & O & Rc). exact (R_taken _ _ _ [exe_first] [exe_first] 0 t exe_second (v_fee exn_purse) (R_start _ _ _ _) O Rc (Forall_inv exe_ok)).
  - constructor; [exists (Some 9%Z); unfold exe_second, exe_third; cbn [en_txn en_id en_parents en_stake_parents en_ids en_stake_ids]; reflexivity|].
    constructor; [exists (Some 7%Z); unfold exe_first; cbn [en_txn en_id en_parents en_stake_parents en_ids en_stake_ids]; reflexivity|constructor].
Qed.
