(** The operations of a wallet: they go through when the money is there. *)
From Verif Require Import Base BaseFacts Encoders EncodersFacts Currency CurrencyFacts Primitive Types TypesFacts Conditions ConditionFacts ConditionFacts2 Fulfillments FulfilFacts ThreeBotTypes ThreeBotFacts ThreeBotFacts2 Txn TxnFacts TxnSign Wallet Ops
  Spec_Types Spec_Fulfil Spec_Txn Spec_Sign Spec_Swap Spec_Wallet Spec_Ops Spec_Fits Spec_Afford SignFacts SignFacts2 SignFacts3 SignFacts4 WalletFacts WalletFacts2 FundFacts FundFacts2 FundFacts3 BuildFacts
  OpsFacts OpsFacts2 OpsFacts3 OpsFacts4 SwapFacts SwapFacts2 SigTotal AffordFacts.
From Coq Require Import ZifyBool ZifyNat ZifyN Permutation.
Ltac Zify.zify_post_hook ::= Z.div_mod_to_equations.

Lemma sel_worth s pool : selection s pool -> worth s <= worth pool.
Proof.
  intros (r & P). assert (E : worth pool = worth (s ++ r)); [|rewrite E, worth_app; lia].
  clear -P. unfold worth. induction P as [|x l l' _ IH|x y l|l l' l'' _ IH1 _ IH2]; cbn [map sum]; lia.
Qed.
Lemma filter_worth f l : worth (filter f l) <= worth l.
Proof. unfold worth. induction l as [|x l IH]; cbn [filter map sum]; [lia|]. destruct (f x); cbn [map sum]; lia. Qed.

Section Afford.
Variables (H : bytes -> bytes) (sign : pubkey -> bytes -> bytes).
Hypothesis sign64 : forall k h, length (sign k h) = 64%nat.
Hypothesis HH : hash_ok H.

Lemma mine_usable ks w : Forall (mine H ks) (spendable (wb_own w)) -> usable H w.
Proof.
  intro M. unfold usable. eapply Forall_impl; [|exact M]. intros o O. destruct (mine_cond H _ _ O) as (u & _ & A & B & _). rewrite A, B. auto.
Qed.
Lemma purse_worth w source : worth (purse_of H w source) <= worth (spendable (wb_own w)).
Proof. destruct source; [apply filter_worth|apply N.le_refl]. Qed.
Lemma purse_in ks w source : Forall (mine H ks) (spendable (wb_own w)) -> Forall (mine H ks) (purse_of H w source).
Proof. intro M. destruct source; [|exact M]. cbn. rewrite Forall_forall in *. intros o I. apply filter_In in I. apply M. tauto. Qed.

(** funding *)
Lemma fund_cases ks w source amount : good_purse H ks w source -> 0 < amount ->
  (fund H w amount source = Err InsufficientFunds /\ ~ affordable (purse_of H w source) amount) \/
  (affordable (purse_of H w source) amount /\
   exists ins used rem sug, fund H w amount source = Ok (ins, rem, sug) /\ Forall2 spends ins used /\ Forall (mine H ks) used /\ used <> [] /\ (length used <= 99)%nat /\
     worth used = amount + rem /\ modest (worth used) /\ incl used (spendable (wb_own w))).
Proof.
  intros (P & M & MW) Pos. pose proof (mine_usable _ _ M) as U.
  assert (P' : personal_source source) by (destruct source; cbn; [apply P; reflexivity|exact I]).
  pose proof (fund_complete H w amount source P' U Pos) as FC. change (personal_pool H w source) with (purse_of H w source) in FC.
  assert (U1 : Forall (fun o => is_ok (cond_unlockhash H (o_cond o)) = true) (spendable (wb_own w))) by (eapply Forall_impl; [|exact U]; cbn; tauto).
  destruct (fund H w amount source) as [[[ins rem] sug]|e] eqn:F.
  - right. split; [exact FC|]. exists ins.
    (* the outputs used *)
    assert (X : exists used, Forall2 spends ins used /\ selection used (purse_of H w source) /\ (length used <= 99)%nat /\ worth used = amount + rem).
    { clear FC. assert (Ea : exists addrs refund, fund_addresses H w source = Ok (addrs, [], refund) /\
                 (addrs = [] -> purse_of H w source = []) /\ filter (pays_to H addrs) (spendable (wb_own w)) = purse_of H w source).
      { destruct source as [s|]; cbn in *.
        - destruct (personal_id s P') as [P1 P2]. rewrite <- P2.
          assert (forallb (fun u => (uh_type u =? UH_MULTI_SIG) || (uh_type u =? UH_PUBLIC_KEY))%Z s = true) as ->.
          { clear -P'. induction P' as [|u s E _ IH]; cbn; [reflexivity|]. rewrite E, IH. reflexivity. }
          cbn. eexists _, _. split; [reflexivity|]. unfold personal in P1. change UH_MULTI_SIG with 3%Z. rewrite P1. split; [|reflexivity].
          intro Es. apply filter_none. intros o _. unfold pays_to. destruct (cond_unlockhash H (o_cond o)); [|reflexivity]. now rewrite Es, P2.
        - destruct (mapM_total (fun o => cond_unlockhash H (o_cond o)) _ U1) as [us Eu].
          exists us, None. unfold spendable in Eu. rewrite Eu. split; [reflexivity|]. split; [|now apply mapM_uh_own].
          intros ->. apply mapM_ok_length in Eu. fold (spendable (wb_own w)) in Eu. destruct (spendable (wb_own w)); [reflexivity|easy]. }
      destruct Ea as (addrs & refund & Ea & Ee & Ep). unfold fund, fund_outputs in F. rewrite Ea in F. cbn [bind] in F.
      destruct addrs as [|a addrs]; [discriminate F|].
      set (aa := a :: addrs) in *. assert (length aa =? 0 = false)%nat as L0 by reflexivity. rewrite L0 in F. cbn [andb negb guard bind] in F.
      destruct (individual_total H (wb_own w) amount aa U1) as [[o c] Ei].
      replace (match aa with [] => Ok ([], 0) | _ => fund_individual H (wb_own w) amount aa end) with (fund_individual H (wb_own w) amount aa) in F by reflexivity.
      rewrite Ei in F. cbn [bind] in F. apply individual_ok in Ei as (I1 & I2 & I3 & I4). rewrite Ep in *.
      destruct (amount <=? c) eqn:C; [|cbn in F; discriminate]. cbn [bind] in F. apply bind_ok in F as (i & Fi & F). apply ok_inj in F. injection F as <- <- _.
      exists o. split; [now apply inputs_of_ok|]. repeat split; auto. lia. }
    destruct X as (used & S1 & S2 & S3 & S4). exists used, rem, sug. repeat (split; [first [reflexivity|assumption]|]).
    split. { destruct S2 as (r & S2). pose proof (purse_in ks w source M) as MP. rewrite Forall_forall in *. intros o I. apply MP. eapply Permutation_in; [exact S2|]. apply in_or_app. now left. }
    split. { intros ->. unfold worth in S4. cbn in S4. lia. }
    split; [exact S3|]. split; [exact S4|]. split; [pose proof (sel_worth _ _ S2); pose proof (purse_worth w source); unfold modest in *; lia|].
    intros o I. destruct S2 as (r & S2). assert (J : In o (purse_of H w source)) by (eapply Permutation_in; [exact S2|apply in_or_app; now left]). destruct source; [apply filter_In in J; tauto|exact J].
  - left. destruct FC as (-> & FC). split; [reflexivity|]. intros (s & A & B & C). specialize (FC s A B). lia.
Qed.
Lemma change_fits rem c : modest rem -> fits_cond c -> Forall fits_out (change rem c).
Proof. intros M F. unfold change. destruct (rem =? 0); repeat constructor; assumption. Qed.
Lemma modest_le a b : modest b -> a <= b -> modest a.
Proof. unfold modest. lia. Qed.
Lemma change_len rem c : (length (change rem c) <= 1)%nat.
Proof. unfold change. destruct (rem =? 0); cbn; lia. Qed.
Lemma pays_modest pays b : modest b -> sum (map snd pays) <= b -> Forall (fun p : cond * N => fits_cond (fst p)) pays ->
  Forall fits_out (map (fun p => mkout (snd p) (fst p) []) pays).
Proof.
  intros MB. induction pays as [|p pays IH]; intros S F; [constructor|]. inversion F; subst. cbn [map sum] in *. constructor; [|apply IH; [lia|assumption]].
  split; [apply (modest_le _ b MB); cbn; lia|assumption].
Qed.

Notation ready_to_pay := (ready_to_pay H).
Lemma send_many_total x pays f data : ready_to_pay x f -> Forall (fun p => fits_cond (fst p)) pays -> (N.of_nat (length pays) < 1000000) -> (length data <= 83)%nat ->
  0 < sum (map snd pays) + x_fee x ->
  let need := sum (map snd pays) + x_fee x in let pool := purse_of H (x_bal x) (f_source f) in
  match wallet_send_many H sign x pays f data with
  | Ok (_, b) => b = true /\ affordable pool need
  | Err e => e = InsufficientFunds /\ ~ affordable pool need
  end.
Proof.
  intros (WO & GP & FR) FP LP LD Pos need pool. unfold wallet_send_many, send_build. rewrite fold_sum. fold need.
  destruct (fund_cases _ _ _ need GP Pos) as [(-> & N)|(A & ins & used & rem & sug & F & S & M & NE & L & W & MW & _)]; [cbn; auto|].
  rewrite F. cbn [bind]. unfold data_new. assert ((length data <=? 83)%nat = true) as -> by lia. cbn [guard bind]. rewrite change_eq, (fund_refund H _ _ _ _ _ _ (f_refund f) (x_address x) F).
  match goal with |- context [finish _ _ _ ?t] => destruct (finish_total H sign sign64 HH x t ins used WO) as (t' & ins' & -> & _); try reflexivity; auto end.
  - cbn [fits s_legacy s_cin s_bin s_cout s_bout s_fees s_data]. assert (LI : length ins = length used) by (eapply Forall2_length; exact S). unfold need in *. repeat split; try (apply few_small; cbn [length]; lia); try constructor.
    + unfold few. rewrite app_length, map_length. pose proof (change_len rem (refund_to (x_bal x) (x_address x) (f_source f) (f_refund f))). lia.
    + apply Forall_app. split; [apply (pays_modest _ (worth used)); auto; lia|apply change_fits; [apply (modest_le _ _ MW); lia|exact FR]].
    + apply (modest_le _ _ MW). lia.
    + constructor.
  - split; [constructor|]. discriminate.
Qed.
Lemma send_total x recipient amount f data : ready_to_pay x f -> fits_cond recipient -> 0 < amount -> (length data <= 83)%nat ->
  let need := amount + x_fee x in let pool := purse_of H (x_bal x) (f_source f) in
  match wallet_send H sign x recipient amount f data with
  | Ok (_, b) => b = true /\ affordable pool need
  | Err e => e = InsufficientFunds /\ ~ affordable pool need
  end.
Proof.
  intros R FC Pos LD need pool. pose proof (send_many_total x [(recipient, amount)] f data R) as T. cbn [map snd fst length sum] in T. cbv zeta in T.
  replace (amount + 0 + x_fee x) with need in T by (unfold need; lia). unfold wallet_send, coins_send. assert ((0 <? amount) = true) as -> by lia. cbn [guard bind]. apply T; auto; [lia|unfold need; lia].
Qed.
(** 3Bot and ERC20 transactions *)
Lemma special_total x f t cost : ready_to_pay x f -> 0 < x_fee x + cost ->
  (special_build H (x_bal x) (x_fee x) cost (x_address x) t (f_source f) (f_refund f) = Err InsufficientFunds /\ ~ affordable (purse_of H (x_bal x) (f_source f)) (x_fee x + cost)) \/
  (affordable (purse_of H (x_bal x) (f_source f)) (x_fee x + cost) /\ exists ins used refund, special_build H (x_bal x) (x_fee x) cost (x_address x) t (f_source f) (f_refund f) = set_funding t (ins, refund, x_fee x) /\
     Forall2 spends ins used /\ Forall (mine H (x_keys x)) used /\ used <> [] /\ (length used <= 99)%nat /\ fits_refund refund /\ modest (x_fee x) /\ modest cost).
Proof.
  intros (WO & GP & FR) Pos. unfold special_build, fund_txn.
  destruct (fund_cases _ _ _ _ GP Pos) as [(-> & N)|(A & ins & used & rem & sug & F & S & M & NE & L & W & MW & _)]; [left; cbn; auto|right]. split; [exact A|].
  rewrite F. cbn [bind]. rewrite (fund_refund H _ _ _ _ _ _ (f_refund f) (x_address x) F). eexists ins, used, _. split; [reflexivity|].
  repeat (split; [assumption|]). split; [|split; apply (modest_le _ _ MW); lia]. intros o O. destruct (0 <? rem); [|discriminate]. injection O as <-. split; [apply (modest_le _ _ MW); cbn; lia|exact FR].
Qed.
Lemma few_ins (ins : list input) (used : list output) : Forall2 spends ins used -> (length used <= 99)%nat -> few ins.
Proof. intros S L. apply Forall2_length in S. apply few_small. lia. Qed.
Lemma erc20_send_total x address a amount f : ready_to_pay x f -> eaddr_new address = Ok a -> 0 < amount ->
  let need := x_fee x + amount in let pool := purse_of H (x_bal x) (f_source f) in
  match erc20_send H sign x address amount f with
  | Ok (_, b) => b = true /\ affordable pool need
  | Err e => e = InsufficientFunds /\ ~ affordable pool need
  end.
Proof.
  intros R EA Pos need pool. unfold erc20_send. assert ((0 <? amount) = true) as -> by lia. cbn [guard bind]. rewrite EA. cbn [bind]. pose proof R as (WO & _ & _).
  destruct (special_total x f (T208 (mkconv a amount None [] None)) amount R ltac:(lia)) as [(-> & N)|(A & ins & used & refund & -> & S & M & NE & L & FR & MF & MC)]; [cbn; auto|].
  cbn [set_funding bind c_addr c_value].
  match goal with |- context [finish _ _ _ ?t] => destruct (finish_total H sign sign64 HH x t ins used WO) as (t' & ins' & -> & _); try reflexivity; auto end.
  - split; [exact MC|]. split; [eapply few_ins; eassumption|]. split; [exact MF|exact FR].
  - split; [constructor|discriminate].
Qed.
Lemma own_one w k u ks : pk_unlockhash H k = Ok u -> has_key H ks u ->
  Forall (fun s : bytes * option pubkey * bsig => snd s = None /\ exists p u, snd (fst s) = Some p /\ pk_unlockhash H p = Ok u /\ has_key H ks u) [(w, Some k, None)].
Proof. intros U K. constructor; [|constructor]. split; [reflexivity|]. exists k, u. auto. Qed.
Lemma erc20_register_total x k u f : ready_to_pay x f -> pk_unlockhash H k = Ok u -> has_key H (x_keys x) u -> small_key k ->
  let need := x_fee x + 10 * TFT in let pool := purse_of H (x_bal x) (f_source f) in
  match erc20_register H sign x (Ok k) f with
  | Ok (_, b) => b = true /\ affordable pool need
  | Err e => e = InsufficientFunds /\ ~ affordable pool need
  end.
Proof.
  intros R U K SK need pool. unfold erc20_register. cbn [bind]. pose proof R as (WO & _ & _). change (10 * TFT) with REG_FEE in *.
  destruct (special_total x f (T210 (mkreg (Some k) None None None None)) REG_FEE R) as [(-> & N)|(A & ins & used & refund & -> & S & M & NE & L & FR & MF & MC)]; [change REG_FEE with 10000000000; lia|cbn; auto|].
  cbn [set_funding bind r_pk r_sig].
  match goal with |- context [finish _ _ _ ?t] => destruct (finish_total H sign sign64 HH x t ins used WO) as (t' & ins' & -> & _); try reflexivity; auto end.
  - split; [exact SK|]. split; [exists ins; split; [reflexivity|eapply few_ins; eassumption]|]. split; [exact MF|exact FR].
  - split; [|discriminate]. cbn [own_slots r_pk r_sig]. apply (own_one _ _ u); auto.
Qed.

(** 3Bot *)
Lemma add_all_total {X A} max (mk : X -> res A) vs : forall l l', mapM mk vs = Ok l' -> (length l + length l' <= max)%nat -> add_all max mk vs l = (l ++ l', Ok tt).
Proof.
  induction vs as [|v vs IH]; intros l l' E L; cbn [mapM] in E; [apply ok_inj in E; subst l'; rewrite app_nil_r; reflexivity|].
  apply bind_ok in E as (a & Ea & E). apply bind_ok in E as (r & Er & E). apply ok_inj in E. subst l'. cbn [length add_all] in *.
  assert ((length l =? max)%nat = false) as -> by lia. rewrite Ea, (IH (l ++ [a]) r Er); [rewrite <- app_assoc; reflexivity|]. rewrite app_length. cbn [length]. lia.
Qed.
Lemma texts_ok vs l : mapM bn_new vs = Ok l -> Forall text_ok l.
Proof.
  revert l. induction vs as [|v vs IH]; intros l E; cbn [mapM] in E; [apply ok_inj in E; subst; constructor|].
  apply bind_ok in E as (a & Ea & E). apply bind_ok in E as (r & Er & E). apply ok_inj in E. subst l. constructor; [eapply bn_new_ok; exact Ea|auto].
Qed.
Lemma addrs_ok ip vs l : ip_ok ip -> mapM (na_new ip) vs = Ok l -> Forall address_ok l.
Proof.
  intro I. revert l. induction vs as [|v vs IH]; intros l E; cbn [mapM] in E; [apply ok_inj in E; subst; constructor|].
  apply bind_ok in E as (a & Ea & E). apply bind_ok in E as (r & Er & E). apply ok_inj in E. subst l. constructor; [eapply na_new_ok; eauto|auto].
Qed.
Lemma record_new_total ip x months names addrs ns las k u f : ip_ok ip -> ready_to_pay x f -> (1 <= months <= 24)%Z -> (names <> None \/ addrs <> None) ->
  mapM bn_new (given_all names) = Ok ns -> (length ns <= 5)%nat -> mapM (na_new ip) (given_all addrs) = Ok las -> (length las <= 10)%nat ->
  pk_unlockhash H k = Ok u -> has_key H (x_keys x) u -> small_key k ->
  let need := x_fee x + (90 * TFT + month_price (Z.to_N months) + 50 * (count ns - 1) * TFT) in let pool := purse_of H (x_bal x) (f_source f) in
  match record_new H sign ip x months names addrs (Ok k) f with
  | Ok (_, b) => b = true /\ affordable pool need
  | Err e => e = InsufficientFunds /\ ~ affordable pool need
  end.
Proof.
  intros IP R Mo Gi En Ln Ea La U K SK need pool. unfold record_new. pose proof R as (WO & _ & _).
  unfold edits at 1, registration_new, edit_txn, edit_bot. assert (((months <? 1) || (24 <? months))%Z = false) as -> by lia. cbn [bind].
  assert (is_some names || is_some addrs = true) as -> by (destruct Gi as [G|G]; [destruct names|destruct addrs]; try contradiction; cbn; rewrite ?orb_true_r; reflexivity). cbn [guard bind].
  unfold edits, edit_txn, edit_bot. rewrite (add_all_total MAX_NAMES bn_new _ [] ns En) by (cbn; unfold MAX_NAMES; lia). cbn [b_addrs b_names b_months b_fee b_cin b_refund b_pk b_sig].
  rewrite (add_all_total MAX_ADDRESSES (na_new ip) _ [] las Ea) by (cbn; unfold MAX_ADDRESSES; lia). cbn [b_addrs b_names b_months b_fee b_cin b_refund b_pk b_sig app bind].
  set (b0 := T144 (mkbot las ns months None [] None None None)).
  assert (LI : limits b0) by (cbn; repeat split; lia). destruct (fees_ok _ (limits_moderate _ LI)) as (c & -> & V & UC). cbn [bind].
  assert (in_units c = price b0) as -> by exact UC. change (price b0) with (90 * TFT + month_price (Z.to_N months) + 50 * (count ns - 1) * TFT).
  destruct (special_total x f b0 (90 * TFT + month_price (Z.to_N months) + 50 * (count ns - 1) * TFT) R) as [(-> & N)|(A & ins & used & refund & -> & S & M & NE & L & FR & MF & MC)]; [unfold TFT; lia|cbn; auto|].
  unfold b0. cbn [set_funding bind b_addrs b_names b_months b_fee b_cin b_refund b_pk b_sig].
  match goal with |- context [finish _ _ _ ?t] => destruct (finish_total H sign sign64 HH x t ins used WO) as (t' & ins' & -> & _); try reflexivity; auto end.
  - cbn [fits b_addrs b_names b_months b_fee b_cin b_refund b_pk b_sig opk fee].
    split; [exact LI|]. split; [split; [eapply texts_ok; exact En|eapply addrs_ok; eauto]|]. split; [eapply few_ins; eassumption|]. split; [exact MF|]. split; [exact FR|exact SK].
  - split; [|discriminate]. cbn [own_slots b_pk b_sig]. apply (own_one _ _ u); auto.
Qed.
Lemma record_update_total ip now rec x id months na nd aa ad lna lnd laa lad r u f : ip_ok ip -> ready_to_pay x f -> (1 <= id < 2 ^ 32)%Z -> (0 <= months <= 24)%Z ->
  (months <> 0%Z \/ na <> None \/ nd <> None \/ aa <> None \/ ad <> None) ->
  mapM bn_new (given_all na) = Ok lna -> (length lna <= 5)%nat -> mapM bn_new (given_all nd) = Ok lnd -> (length lnd <= 5)%nat ->
  mapM (na_new ip) (given_all aa) = Ok laa -> (length laa <= 10)%nat -> mapM (na_new ip) (given_all ad) = Ok lad -> (length lad <= 10)%nat ->
  rec id = Ok r -> (now < br_expiration r \/ months <> 0)%Z -> pk_unlockhash H (br_key r) = Ok u -> has_key H (x_keys x) u -> 0 < x_fee x ->
  let need := x_fee x + (month_price (Z.to_N months) + (if count laa + count lad =? 0 then 0 else 20 * TFT) + 50 * count lna * TFT) in let pool := purse_of H (x_bal x) (f_source f) in
  match record_update H sign ip now rec x id months na nd aa ad f with
  | Ok (_, b) => b = true /\ affordable pool need
  | Err e => e = InsufficientFunds /\ ~ affordable pool need
  end.
Proof.
  intros IP R Bi Mo Gi E1 L1 E2 L2 E3 L3 E4 L4 ER Ac U K FP need pool. unfold record_update. pose proof R as (WO & _ & _).
  assert (((1 <=? months)%Z || is_some na || is_some nd || is_some aa || is_some ad) = true) as ->.
  { destruct Gi as [G|[G|[G|[G|G]]]]; [replace (1 <=? months)%Z with true by lia; reflexivity|destruct na|destruct nd|destruct aa|destruct ad]; try contradiction; cbn; rewrite ?orb_true_r; reflexivity. }
  cbn [guard bind]. unfold edits, update_new, edit_txn, edit_upd, bot_id. assert ((1 <=? id)%Z = true) as -> by lia. cbn [guard bind].
  cbn [u_id u_addr_add u_addr_del u_name_add u_name_del u_months u_fee u_cin u_refund u_sig u_parent].
  assert (((months <? 0) || (24 <? months))%Z = false) as -> by lia. cbn [u_id u_addr_add u_addr_del u_name_add u_name_del u_months u_fee u_cin u_refund u_sig u_parent].
  rewrite (add_all_total MAX_NAMES bn_new _ [] lna E1) by (cbn; unfold MAX_NAMES; lia). cbn [u_id u_addr_add u_addr_del u_name_add u_name_del u_months u_fee u_cin u_refund u_sig u_parent].
  rewrite (add_all_total MAX_NAMES bn_new _ [] lnd E2) by (cbn; unfold MAX_NAMES; lia). cbn [u_id u_addr_add u_addr_del u_name_add u_name_del u_months u_fee u_cin u_refund u_sig u_parent].
  rewrite (add_all_total MAX_ADDRESSES (na_new ip) _ [] laa E3) by (cbn; unfold MAX_ADDRESSES; lia). cbn [u_id u_addr_add u_addr_del u_name_add u_name_del u_months u_fee u_cin u_refund u_sig u_parent].
  rewrite (add_all_total MAX_ADDRESSES (na_new ip) _ [] lad E4) by (cbn; unfold MAX_ADDRESSES; lia). cbn [u_id u_addr_add u_addr_del u_name_add u_name_del u_months u_fee u_cin u_refund u_sig u_parent app bind].
  rewrite ER. cbn [bind]. assert (negb ((br_expiration r <=? now) && (months =? 0))%Z = true) as -> by lia. cbn [guard bind].
  set (b0 := T145 (mkupd id laa lad lna lnd months None [] None None (Some (br_key r)))).
  assert (LI : limits b0) by (cbn; repeat split; lia). destruct (fees_ok _ (limits_moderate _ LI)) as (c & -> & V & UC). cbn [bind].
  assert (in_units c = price b0) as -> by exact UC. change (price b0) with (month_price (Z.to_N months) + (if count laa + count lad =? 0 then 0 else 20 * TFT) + 50 * count lna * TFT).
  destruct (special_total x f b0 (month_price (Z.to_N months) + (if count laa + count lad =? 0 then 0 else 20 * TFT) + 50 * count lna * TFT) R) as [(-> & N)|(A & ins & used & refund & -> & S & M & NE & L & FR & MF & MC)]; [lia|cbn; auto|].
  unfold b0. cbn [set_funding bind u_id u_addr_add u_addr_del u_name_add u_name_del u_months u_fee u_cin u_refund u_sig u_parent].
  match goal with |- context [finish _ _ _ ?t] => destruct (finish_total H sign sign64 HH x t ins used WO) as (t' & ins' & -> & _); try reflexivity; auto end.
  - cbn [fits u_id u_addr_add u_addr_del u_name_add u_name_del u_months u_fee u_cin u_refund u_sig u_parent opk fee].
    split; [exact LI|]. split; [split; [|split; [|split]]; [eapply texts_ok; exact E1|eapply texts_ok; exact E2|eapply addrs_ok; eauto|eapply addrs_ok; eauto]|].
    split; [unfold u32; lia|]. split; [eapply few_ins; eassumption|]. split; [exact MF|exact FR].
  - split; [|discriminate]. cbn [own_slots u_parent u_sig]. apply (own_one _ _ u); auto.
Qed.
Lemma name_transfer_total ip now rec x sender receiver names ns rs rr us ur f : ready_to_pay x f -> (1 <= sender < 2 ^ 32)%Z -> (1 <= receiver < 2 ^ 32)%Z ->
  mapM bn_new (given_all names) = Ok ns -> (0 < length ns <= 5)%nat -> rec sender = Ok rs -> rec receiver = Ok rr -> (now < br_expiration rs)%Z -> (now < br_expiration rr)%Z ->
  pk_unlockhash H (br_key rs) = Ok us -> pk_unlockhash H (br_key rr) = Ok ur -> us <> ur -> has_key H (x_keys x) us -> has_key H (x_keys x) ur ->
  let need := x_fee x + 50 * count ns * TFT in let pool := purse_of H (x_bal x) (f_source f) in
  match name_transfer H sign ip now rec x sender receiver names f with
  | Ok (_, b) => b = true /\ affordable pool need
  | Err e => e = InsufficientFunds /\ ~ affordable pool need
  end.
Proof.
  intros R B1 B2 En Ln Rs Rr A1 A2 Us Ur NE' Ks Kr need pool. unfold name_transfer. pose proof R as (WO & _ & _).
  unfold edits, transfer_new, edit_txn, edit_name, bot_id. assert ((1 <=? sender)%Z = true) as -> by lia. assert ((1 <=? receiver)%Z = true) as -> by lia. cbn [guard bind].
  cbn [n_sender n_receiver n_names n_fee n_cin n_refund n_ssig n_rsig n_spk n_rpk].
  rewrite (add_all_total MAX_NAMES bn_new _ [] ns En) by (cbn; unfold MAX_NAMES; lia). cbn [n_sender n_receiver n_names n_fee n_cin n_refund n_ssig n_rsig n_spk n_rpk app bind].
  assert (negb (length ns =? 0)%nat = true) as -> by lia. cbn [guard bind]. rewrite Rs. cbn [bind]. assert (negb (br_expiration rs <=? now)%Z = true) as -> by lia. cbn [guard bind].
  rewrite Rr. cbn [bind]. assert (negb (br_expiration rr <=? now)%Z = true) as -> by lia. cbn [guard bind].
  set (b0 := T146 (mkname sender receiver ns None None None None None (Some (br_key rs)) (Some (br_key rr)))).
  assert (LI : limits b0) by (cbn; repeat split; lia). destruct (fees_ok _ (limits_moderate _ LI)) as (c & -> & V & UC). cbn [bind].
  assert (in_units c = price b0) as -> by exact UC. change (price b0) with (50 * count ns * TFT).
  destruct (special_total x f b0 (50 * count ns * TFT) R) as [(-> & N)|(A & ins & used & refund & -> & S & M & NE & L & FR & MF & MC)]; [unfold count, TFT; lia|cbn; auto|].
  unfold b0. cbn [set_funding bind n_sender n_receiver n_names n_fee n_cin n_refund n_ssig n_rsig n_spk n_rpk].
  match goal with |- context [finish _ _ _ ?t] => destruct (finish_total H sign sign64 HH x t ins used WO) as (t' & ins' & -> & _); try reflexivity; auto end.
  - cbn [fits n_sender n_receiver n_names n_fee n_cin n_refund n_ssig n_rsig n_spk n_rpk opk fee].
    split; [exact LI|]. split; [eapply texts_ok; exact En|]. split; [unfold u32; lia|]. split; [unfold u32; lia|]. split; [exists ins; split; [reflexivity|eapply few_ins; eassumption]|]. split; [exact MF|exact FR].
  - split; [cbn [own_slots n_spk n_rpk n_ssig n_rsig]; constructor; [split; [reflexivity|]; exists (br_key rs), us; auto|apply (own_one _ _ ur); auto]|].
    intros b E. injection E as <-. cbn [n_spk n_rpk opk]. rewrite Us, Ur. congruence.
Qed.
(** contracts *)
Lemma short_parent (i : input) k g : (length (i_parent i) <= 32)%nat -> small_key k -> i_ff i = FSingle k (Some g) -> length g = 64%nat -> short 1000 (in_sia i).
Proof.
  intros P SK E L. unfold in_sia. rewrite E. apply (short_le (32 + (1 + (8 + (600 + 72))))); [|lia]. apply short_app; [eexists; split; [reflexivity|unfold lenN; lia]|].
  unfold ff_sia. apply short_app; [eexists; split; [reflexivity|cbn; lia]|]. apply short_bind_sia; [|lia]. cbn [ff_sia_data odef]. apply short_app.
  - unfold pk_sia. apply (short_le (16 + (8 + 32))); [|lia]. apply short_app; [eexists; split; [reflexivity|]|apply (short_sia_slice 32); [unfold lenN, small_key in *; lia|lia]]. destruct (pk_spec k); vm_compute; discriminate.
  - apply (short_sia_slice 64); [unfold lenN; lia|lia].
Qed.
Lemma std_outputid ins outs fees d i : Forall (fun x => short 1000 (in_sia x)) ins -> few ins -> few outs -> Forall fits_out outs -> few fees -> Forall modest fees -> few d -> (i < length outs)%nat ->
  exists id, coin_outputid H (T1 (mkstd false ins outs [] [] fees d)) (Z.of_nat i) = Ok id.
Proof.
  intros F1 F2 F3 F4 F5 F6 F7 Li. unfold coin_outputid. cbn [coin_outputs s_cout]. replace ((0 <=? Z.of_nat i) && (Z.of_nat i <? Z.of_nat (length outs)))%Z with true by lia. cbn [guard bind].
  assert (X : there (outputid_input H (coin_spec (T1 (mkstd false ins outs [] [] fees d))) (T1 (mkstd false ins outs [] [] fees d)) (Z.of_nat i))).
  { unfold outputid_input, id_input, binary_encode. cbn [s_legacy]. apply there_app; [reflexivity|]. apply there_app.
    - apply there_app; [reflexivity|]. cbn [data_bytes s_legacy s_cin s_cout s_bin s_bout s_fees s_data].
      eapply there_short, (short_bind_sia (8 + 1000000 * 1000 + (8 + 1000000 * 50000000 + (8 + (8 + (8 + 1000000 * 508 + (8 + 1000000))))))); [|lia].
      apply short_app; [apply short_sia_list; assumption|]. apply short_app; [apply short_sia_list; [assumption|]; eapply Forall_impl; [|exact F4]; intros; apply short_out_sia; assumption|].
      apply short_app; [eexists; split; [reflexivity|vm_compute; discriminate]|]. apply short_app; [eexists; split; [reflexivity|vm_compute; discriminate]|].
      apply short_app; [apply short_sia_list; [assumption|]; eapply Forall_impl; [|exact F6]; intros; apply short_amt_sia; assumption|]. apply short_sia_slice; [exact F7|lia].
    - apply (there_short 8), short_sia_int. unfold u64, few in *. lia. }
  unfold there in X. destruct (outputid_input H _ _ _); [|discriminate]. cbn [bind]. eauto.
Qed.
Lemma with_ids_total t l i : (forall j, (j < i + length l)%nat -> is_ok (coin_outputid H t (Z.of_nat j)) = true) -> exists os, with_ids H t i l = Ok os.
Proof.
  revert i. induction l as [|o l IH]; intros i X; cbn [with_ids]; [eauto|]. specialize (X i) as Xi. cbn [length] in *. destruct (coin_outputid H t (Z.of_nat i)); [|discriminate Xi; lia]. cbn [bind].
  destruct (IH (Datatypes.S i)) as (os & ->); [intros j J; apply X; lia|]. cbn [bind]. eauto.
Qed.
Lemma contract_total now x receiver amount sh lock f data submit : ready_to_pay x f -> x_fee x < amount -> Forall (fun o => (length (o_id o) <= 32)%nat) (spendable (wb_own (x_bal x))) ->
  Forall (fun k => small_key (snd k)) (x_keys x) -> (length sh <= 32)%nat -> (500000000 <= lock < 2 ^ 64)%Z -> (length data <= 83)%nat ->
  (uh_type receiver = 0 \/ uh_type receiver = 1)%Z -> (length (uh_hash receiver) <= 32)%nat ->
  let sender := match refund_to (x_bal x) (x_address x) (f_source f) (f_refund f) with CUnlockHash u => u | _ => x_address x end in
  (uh_type sender = 0 \/ uh_type sender = 1)%Z -> (length (uh_hash sender) <= 32)%nat ->
  let need := amount + x_fee x in let pool := purse_of H (x_bal x) (f_source f) in
  match wallet_contract H sign now x receiver amount sh lock f data submit with
  | Ok (_, b) => b = submit /\ affordable pool need
  | Err e => e = InsufficientFunds /\ ~ affordable pool need
  end.
Proof.
  intros R Am Ids Keys Lsh Lk Ld Tr Lr sender Ts Ls need pool. pose proof R as (WO & GP & FR). unfold wallet_contract, create_contract. fold need.
  assert ((0 <? amount) = true) as -> by lia. assert ((x_fee x <? amount) = true) as -> by lia. cbn [guard bind].
  destruct (fund_cases _ _ _ need GP) as [(-> & N)|(A & ins & used & rem & sug & F & S & M & NE & L & W & MW & IN)]; [unfold need; lia|cbn; auto|].
  rewrite F. cbn [bind]. unfold data_new. assert ((length data <=? 83)%nat = true) as -> by lia. cbn [guard bind]. rewrite change_eq, (fund_refund H _ _ _ _ _ _ (f_refund f) (x_address x) F).
  unfold swap_party at 1. fold sender. assert (((uh_type sender =? 1) || (uh_type sender =? 0))%Z = true) as -> by lia. cbn [guard bind].
  unfold swap_party. assert (((uh_type receiver =? 1) || (uh_type receiver =? 0))%Z = true) as -> by lia. cbn [guard bind].
  unfold swap_lock, lock_new. assert ((lock <? 0)%Z = false) as -> by lia. cbn [bind]. unfold lock_is_timestamp. replace (500 * 1000 * 1000 <=? lock)%Z with true by lia. cbn [guard bind].
  set (rf := refund_to (x_bal x) (x_address x) (f_source f) (f_refund f)) in *. assert (LI : length ins = length used) by (eapply Forall2_length; exact S).
  assert (FO : Forall fits_out (mkout amount (CSwap sender receiver (Some sh) lock) [] :: change rem rf)).
  { constructor; [|apply change_fits; [apply (modest_le _ _ MW); lia|exact FR]]. split; [apply (modest_le _ _ MW); cbn; unfold need in *; lia|].
    cbn [o_cond fits_cond]. unfold small_uh, u64. repeat split; try lia. intros y Y. injection Y as <-. exact Lsh. }
  assert (FF : modest (x_fee x)) by (apply (modest_le _ _ MW); unfold need in *; lia).
  assert (FC : few (mkout amount (CSwap sender receiver (Some sh) lock) [] :: change rem rf)) by (apply few_small; cbn [length]; pose proof (change_len rem rf); lia).
  match goal with |- context [finish _ _ _ ?t] => destruct (finish_total H sign sign64 HH x t ins used WO) as (t' & ins' & E & UN & CI' & SG); try reflexivity; auto end.
  - cbn [fits s_legacy s_cin s_bin s_cout s_bout s_fees s_data]. repeat split; try assumption; try (apply few_small; cbn [length]; lia); repeat constructor; assumption.
  - split; [constructor|discriminate].
  - rewrite E. cbn [bind]. pose proof UN as UN'. destruct (t1_signed _ _ UN eq_refl) as (ins2 & BL & ->). cbn [coin_inputs s_cin] in CI'. apply ok_inj in CI'. subst ins2.
    cbn [s_cout s_bout s_fees s_data s_legacy coin_outputs s_cin] in *.
    match goal with |- context [with_ids H ?t 0 ?l] => destruct (with_ids_total t l 0) as (os & ->) end; [|cbn [bind]; rewrite andb_true_r; auto].
    intros j J. match goal with |- is_ok ?c = true => assert (X : exists id, c = Ok id) end; [|destruct X as (id & ->); reflexivity].
    apply std_outputid; try assumption; try (apply few_small; cbn [length]; lia); try (repeat constructor; assumption).
    + assert (PA : map i_parent ins' = map i_parent ins). { apply (f_equal (map i_parent)) in BL. rewrite !map_map in BL. exact BL. }
      apply Forall_forall. intros y I. rewrite Forall_forall in SG, Keys, Ids. destruct (SG _ I) as (a & k & g & IK & FG & LG). apply (short_parent y k g); auto; [|exact (Keys _ IK)].
      apply (in_map i_parent) in I. rewrite PA in I. clear -I S IN Ids. induction S as [|i o l l' (P & _) S IH]; [destruct I|]. destruct I as [<-|I]; [rewrite P; apply Ids, IN; now left|].
      apply IH; auto. intros z Z. apply IN. now right.
    + unfold few. apply (f_equal (@length input)) in BL. rewrite !map_length in BL. lia.
Qed.
End Afford.
