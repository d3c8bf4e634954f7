(** C08 (printing) and C88: what a balance prints is what it holds. *)
From Verif Require Import Base BaseFacts Primitive Types TypesFacts Conditions ConditionFacts Currency CurrencyFacts CurrencyFacts2 Dates Txn Wallet Show Spec_Types Spec_Texts Spec_Wire Spec_Wallet Spec_Show Spec_Balance
  WalletFacts WalletFacts2 Prop_Texts Prop_Wire ShowFacts Prop_Contract.
From Verif Require Spec_Currency Prop_Wallet.
From Coq Require Import Permutation ZifyBool ZifyNat ZifyN.
Ltac Zify.zify_post_hook ::= Z.div_mod_to_equations.

(** ** The text of an amount *)
Theorem C08_printed c m s : Spec_Currency.is_currency c -> Spec_Currency.amount c m ->
  (cstr c false = s <-> amount_shown s m) /\ (cstr c true = s <-> tft_shown s m).
Proof.
  intros I A. apply is_currency_valid in I. apply amount_units in A; [|exact I]. subst m. split; [now apply cstr_iff|]. rewrite <- tft_iff by exact I. split; congruence.
Qed.
Print Assumptions C08_printed.

(** ** The figures *)
Lemma divided_iff b l a k : divided (w_height b) (w_time b) l a k <-> a = worth (unlocked b l) /\ k = locked_of b l.
Proof.
  unfold divided. split.
  - intros (fr & kp & P & -> & -> & K & U). destruct (known_chain b) eqn:E.
    + apply known_chain_ok in E. destruct K as (F & G); [tauto|]. unfold unlocked, locked_of. replace (known_chain b) with true by (symmetry; now apply known_chain_ok). rewrite (total_worth (filter (is_locked b) l)).
      assert (X : filter (fun o => negb (is_locked b o)) (fr ++ kp) = fr /\ filter (is_locked b) (fr ++ kp) = kp).
      { clear P U. assert (A : forall o, open_at (w_height b) (w_time b) o -> is_locked b o = false) by (intros o; apply is_locked_open).
        assert (B : forall o, ~ open_at (w_height b) (w_time b) o -> is_locked b o = true) by (intros o Q; destruct (is_locked b o) eqn:L; [reflexivity|]; apply is_locked_open in L; tauto).
        rewrite !filter_app. split.
        - assert (X : filter (fun o => negb (is_locked b o)) fr = fr) by (induction F as [|x f O F IH]; [reflexivity|]; cbn [filter]; rewrite (A x O); cbn [negb]; now rewrite IH).
          assert (Y : filter (fun o => negb (is_locked b o)) kp = []) by (induction G as [|x f O G IH]; [reflexivity|]; cbn [filter]; rewrite (B x O); cbn [negb]; now rewrite IH). now rewrite X, Y, app_nil_r.
        - assert (X : filter (is_locked b) fr = []) by (induction F as [|x f O F IH]; [reflexivity|]; cbn [filter]; rewrite (A x O); now rewrite IH).
          assert (Y : filter (is_locked b) kp = kp) by (induction G as [|x f O G IH]; [reflexivity|]; cbn [filter]; rewrite (B x O); now rewrite IH). now rewrite X, Y. }
      assert (FP : forall (g : output -> bool) x y, Permutation x y -> Permutation (filter g x) (filter g y)).
      { clear. intros g x y P. induction P as [|z x y P IH|z z' x|x y z P IH Q IH']; cbn [filter]; [constructor|destruct (g z); auto|destruct (g z), (g z'); auto; constructor|eapply perm_trans; eassumption]. }
      pose proof (worth_perm _ _ (FP (fun o => negb (is_locked b o)) _ _ P)) as W1. pose proof (worth_perm _ _ (FP (is_locked b) _ _ P)) as W2. destruct X as (X1 & X2). rewrite X1 in W1. rewrite X2 in W2. auto.
    + assert (NK : ~ (0 < w_time b /\ 0 < w_height b)%Z) by (intros Q; apply known_chain_ok in Q; congruence). destruct (unlocked_unknown b l NK) as (-> & ->).
      rewrite (U ltac:(tauto)) in *. rewrite app_nil_r in P. split; [now apply worth_perm|reflexivity].
  - intros (-> & ->). destruct (known_chain b) eqn:E.
    + exists (filter (fun o => negb (is_locked b o)) l), (filter (is_locked b) l). split; [apply filter_split|]. unfold unlocked, locked_of. rewrite E, (total_worth (filter (is_locked b) l)). split; [reflexivity|]. split; [reflexivity|]. split.
      * intros _. split; apply Forall_forall; intros o I; apply filter_In in I as (_ & I); [apply is_locked_open; now apply negb_true_iff|]. intros O. apply is_locked_open in O. congruence.
      * intros NK. apply known_chain_ok in E. tauto.
    + assert (NK : ~ (0 < w_time b /\ 0 < w_height b)%Z) by (intros Q; apply known_chain_ok in Q; congruence). destruct (unlocked_unknown b l NK) as (-> & ->).
      exists l, []. rewrite app_nil_r. repeat (split; [reflexivity|]). split; [tauto|reflexivity].
Qed.
Definition figures_of (b : bal) : figures := mkfig (available b) (locked b) (unconfirmed b) (unconfirmed_locked b) (total (values (w_uncspent b))).
Lemma holds_iff b f : holds (w_height b) (w_time b) b f <-> f = figures_of b.
Proof.
  unfold holds. rewrite !divided_iff. unfold figures_of, available, locked, unconfirmed, unconfirmed_locked, outputs_available, outputs_unconfirmed_available. change total with worth.
  destruct f as [a l u v d]. cbn [f_available f_locked f_unconfirmed f_unconfirmed_locked f_deduction]. split; [intros ((-> & ->) & (-> & ->) & ->); reflexivity|]. intros E. injection E as -> -> -> -> ->. auto.
Qed.
Lemma figures_iff f s : figures_shown f s <-> s = tft_str (f_available f) ++ s2b " available and " ++ tft_str (f_locked f) ++ s2b " locked" ++
  (if (0 <? f_unconfirmed f) || (0 <? f_unconfirmed_locked f) then 10 :: s2b "Unconfirmed: " ++ tft_str (f_unconfirmed f) ++ s2b " available " ++ tft_str (f_unconfirmed_locked f) ++ s2b " locked" else []) ++
  (if 0 <? f_deduction f then 10 :: s2b "Unconfirmed Balance Deduction: -" ++ tft_str (f_deduction f) else []).
Proof.
  unfold figures_shown. split.
  - intros (a & l & u & d & -> & A & L & U & D). apply tft_shown_iff in A, L. subst a l. change (cstr (Some (mkdec false ?n (-9))) true) with (tft_str n).
    do 4 f_equal. f_equal.
    + destruct U as [(-> & -> & ->)|(P & a' & l' & A' & L' & ->)]; [reflexivity|]. apply tft_shown_iff in A', L'. subst. replace ((0 <? f_unconfirmed f) || (0 <? f_unconfirmed_locked f)) with true by lia. reflexivity.
    + destruct D as [(-> & ->)|(P & a' & A' & ->)]; [reflexivity|]. apply tft_shown_iff in A'. subst. replace (0 <? f_deduction f) with true by lia. reflexivity.
  - intros ->. do 4 eexists. split; [reflexivity|]. split; [now apply tft_shown_iff|]. split; [now apply tft_shown_iff|]. split.
    + destruct (N.ltb_spec 0 (f_unconfirmed f)), (N.ltb_spec 0 (f_unconfirmed_locked f)); cbn [orb]; [right; split; [auto|]; do 2 eexists; split; [now apply tft_shown_iff|]; split; [now apply tft_shown_iff|reflexivity]..|]. left. repeat split; lia.
    + destruct (N.ltb_spec 0 (f_deduction f)); [right; split; [assumption|]; eexists; split; [now apply tft_shown_iff|reflexivity]|]. left. split; [lia|reflexivity].
Qed.
Lemma balance_text_iff b s : s = balance_text b <-> exists f, holds (w_height b) (w_time b) b f /\ figures_shown f s.
Proof.
  split.
  - intros ->. exists (figures_of b). split; [now apply holds_iff|]. apply figures_iff. reflexivity.
  - intros (f & F & S0). apply holds_iff in F. subst f. apply figures_iff in S0. exact S0.
Qed.
Lemma z_str_iff s z : int_shown s z <-> s = z_str z.
Proof.
  unfold int_shown, z_str. destruct (Z.ltb_spec z 0) as [L|L].
  - split; [intros [(? & _)|(_ & t & W & ->)]; [lia|]; apply whole_shown_iff in W; now subst|]. intros ->. right. split; [exact L|]. eexists. split; [apply dec_str_shown|reflexivity].
  - split; [intros [(_ & W)|(? & _)]; [|lia]; now apply whole_shown_iff in W|]. intros ->. left. split; [exact L|apply dec_str_shown].
Qed.
(** The text of a balance is the one specified. *)
Theorem C88_balance local b s : showable (local (w_time b)) -> balance_repr local b = s <-> balance_shown local b s.
Proof.
  intros SH. unfold balance_repr, balance_shown, header, context_shown. split.
  - intros <-. destruct ((0 <? w_height b) && (0 <? w_time b))%Z eqn:K.
    + do 2 eexists. exists (figures_of b). split; [left; split; [lia|]; do 2 eexists; split; [apply dec_str_shown|]; split; [now apply date_iff|reflexivity]|].
      split; [now apply holds_iff|]. split; [apply figures_iff; reflexivity|]. unfold z_str. replace (w_height b <? 0)%Z with false by lia. rewrite <- !app_assoc. reflexivity.
    + do 2 eexists. exists (figures_of b). split; [right; split; [lia|reflexivity]|]. split; [now apply holds_iff|]. split; [apply figures_iff; reflexivity|]. rewrite <- !app_assoc. reflexivity.
  - intros (c & x & f & C & F & X & ->). assert (XB : x = balance_text b) by (apply balance_text_iff; eauto). subst x. destruct C as [(K & n & d & W & D & ->)|(K & ->)].
    + replace ((0 <? w_height b) && (0 <? w_time b))%Z with true by lia. apply whole_shown_iff in W. apply date_iff in D; [|exact SH]. subst. unfold z_str. replace (w_height b <? 0)%Z with false by lia. rewrite <- !app_assoc. reflexivity.
    + replace ((0 <? w_height b) && (0 <? w_time b))%Z with false by lia. rewrite <- !app_assoc. reflexivity.
Qed.
Print Assumptions C88_balance.

(** ** C65: what the state of the chain prints is what it says *)
Theorem C65_printed local (b : Lookups.block) s : showable (local (Lookups.k_btime b)) -> wf_bytes (Lookups.k_bid b) ->
  info_repr local b = s <-> exists i n d, id_shown i (Lookups.k_bid b) /\ int_shown n (Lookups.k_bheight b) /\ date_shown d (local (Lookups.k_btime b)) /\
    s = s2b "Block " ++ i ++ s2b " at height " ++ n ++ s2b ", published on " ++ d ++ s2b ", is the last known block.".
Proof.
  intros SH W. unfold info_repr, info_blockid. split.
  - intros <-. do 3 eexists. split; [now apply id_shown_iff|]. split; [now apply z_str_iff|]. split; [now apply date_iff|reflexivity].
  - intros (i & n & d & I & N & D & ->). apply id_shown_iff in I; [|exact W]. apply z_str_iff in N. apply date_iff in D; [|exact SH]. now subst.
Qed.
Print Assumptions C65_printed.
(** Two states of the chain which print the same are of the same block, if the ids of both are known. *)
Theorem C65_tells local (a b : Lookups.block) : hash32 (Lookups.k_bid a) -> hash32 (Lookups.k_bid b) -> info_repr local a = info_repr local b -> Lookups.k_bid a = Lookups.k_bid b.
Proof.
  intros (La & Wa) (Lb & Wb) E. unfold info_repr, info_blockid in E. apply app_inv_head in E.
  assert (K : forall h, length h = 32%nat -> hash_str h = hex h /\ length (hex h) = 64%nat).
  { intros h K. pose proof (hex_length h) as L. rewrite K in L. split; [|exact L]. unfold hash_str. destruct (hex h); [discriminate L|reflexivity]. }
  destruct (K _ La) as (Ea & Na), (K _ Lb) as (Eb & Nb). rewrite Ea, Eb in E. apply (f_equal (firstn 64)) in E. rewrite !firstn_app, Na, Nb in E. rewrite Nat.sub_diag, !firstn_O, !app_nil_r in E. rewrite (firstn_all2 (hex (Lookups.k_bid a))) in E by lia. rewrite (firstn_all2 (hex (Lookups.k_bid b))) in E by lia.
  exact (hex_inj Wa Wb E).
Qed.
Print Assumptions C65_tells.
Example C65_printed_ex : let b := Lookups.mkblock (repeat 171 32) [] 12 0 [] [] in
  showable ((fun _ => (1970, 1, 1, 0, 0, 0)%Z) (Lookups.k_btime b)) /\
  info_repr (fun _ => (1970, 1, 1, 0, 0, 0)%Z) b = s2b "Block abababababababababababababababababababababababababababababababab at height 12, published on 1970/01/01 00:00:00, is the last known block.".
Proof. split; [cbv; intuition discriminate|vm_compute; reflexivity]. Qed.

(** ** Multi-signature wallets *)
Lemma join_iff sep l s : joined sep l s <-> s = join sep l.
Proof.
  split.
  - intros J. induction J as [|s|s t l r J IH]; [reflexivity..|]. cbn [join]. rewrite IH. reflexivity.
  - intros ->. destruct l as [|a l]; [constructor|]. revert a. induction l as [|b l IH]; intros a; [constructor|]. cbn [join]. constructor. apply IH.
Qed.
Lemma multi_hash H us n u : hash_ok H -> cond_unlockhash H (CMulti us n) = Ok u -> wf_bytes (uh_hash u).
Proof.
  intros HO E. apply C84_condition_address in E. inversion E as [| | | |? ? ? ? r _ _ M]. cbn [uh_hash]. inversion M; apply HO.
Qed.
Lemma ms_text_iff H m s : hash_ok H -> Forall (fun u => wf_bytes (uh_hash u)) (ms_owners m) -> ms_text H m = Ok s <-> ms_shown H m s.
Proof.
  intros HO W. unfold ms_text, ms_shown, ms_address. split.
  - intros E. apply bind_ok in E as (u & Eu & E). apply bind_ok in E as (a & Ea & E). apply bind_ok in E as (os & Eos & E). apply ok_inj in E. subst s.
    exists (z_str (ms_count m)), (dec_str (lenN (ms_owners m))), u, a, os, (join (s2b ", ") os), (figures_of (ms_bal m)), (balance_text (ms_bal m)).
    split; [now apply z_str_iff|]. split; [apply dec_str_shown|]. split; [now apply C84_condition_address|]. split; [apply C84_printed; [exact HO|exact (multi_hash _ _ _ _ HO Eu)|exact Ea]|].
    split. { apply (mapM_Forall2_iff (uh_str H)) in Eos. clear -HO W Eos. induction Eos; inversion W; constructor; auto. now apply C84_printed. }
    split; [now apply join_iff|]. split; [now apply holds_iff|]. split; [apply figures_iff; reflexivity|]. reflexivity.
  - intros (n & k & u & a & ts & os & f & x & N & K & U & A & T & J & F & X & ->). apply C84_condition_address in U. rewrite U. cbn [bind]. apply C84_printed in A; [|exact HO|exact (multi_hash _ _ _ _ HO U)]. rewrite A. cbn [bind].
    assert (M : mapM (uh_str H) (ms_owners m) = Ok ts). { apply (mapM_Forall2_iff (uh_str H)). clear -HO W T. induction T; inversion W; constructor; auto. now apply C84_printed. }
    rewrite M. cbn [bind]. apply join_iff in J. apply z_str_iff in N. apply whole_shown_iff in K. assert (XB : x = balance_text (ms_bal m)) by (apply balance_text_iff; eauto). subst. reflexivity.
Qed.
Lemma active_iff m : active (ms_bal m) = true <-> in_use m.
Proof. unfold active, in_use. destruct (w_outs (ms_bal m)), (w_unc (ms_bal m)); cbn [length]; cbn; intuition congruence. Qed.
Lemma ms_texts_iff H l s : hash_ok H -> Forall (fun m => Forall (fun u => wf_bytes (uh_hash u)) (ms_owners m)) l ->
  ms_texts H l = Ok s <-> exists ms ts, used l ms /\ Forall2 (ms_shown H) ms ts /\ s = concat (map (fun t => [10; 10] ++ t) ts).
Proof.
  intros HO W. revert s. induction W as [|m l Wm W IH]; intros s.
  - split; [intros E; apply ok_inj in E; subst s; exists [], []; repeat constructor|]. intros (ms & ts & U & F & ->). inversion U. subst. inversion F. reflexivity.
  - cbn [ms_texts]. destruct (active (ms_bal m)) eqn:A.
    + split.
      * intros E. apply bind_ok in E as (t & Et & E). apply bind_ok in E as (r & Er & E). apply ok_inj in E. subst s. apply IH in Er as (ms & ts & U & F & ->). apply active_iff in A.
        exists (m :: ms), (t :: ts). split; [now constructor|]. split; [constructor; [now apply ms_text_iff|exact F]|]. cbn [map concat app]. reflexivity.
      * intros (ms & ts & U & F & ->). apply active_iff in A. inversion U as [|? ? r A' U' E1 E2|? ? r A' U' E1 E2]; [|tauto]. subst. inversion F as [|? t ? ts' Ft F' E1 E2]. subst. apply ms_text_iff in Ft; [|assumption..]. rewrite Ft. cbn [bind].
        rewrite (proj2 (IH _) (ex_intro _ r (ex_intro _ ts' (conj U' (conj F' eq_refl))))). cbn [bind]. reflexivity.
    + assert (NA : ~ in_use m) by (rewrite <- active_iff; congruence). rewrite IH. split; intros (ms & ts & U & F & ->); exists ms, ts; (split; [|auto]); [now constructor|]. inversion U; [tauto|assumption].
Qed.
(** The text of all balances of a wallet is the one specified. *)
Theorem C88_wallets H local w s : hash_ok H -> showable (local (w_time (wb_own w))) -> Forall (fun m => Forall (fun u => wf_bytes (uh_hash u)) (ms_owners m)) (wb_ms w) ->
  wallets_repr H local w = Ok s <-> wallets_shown H local w s.
Proof.
  intros HO SH W. unfold wallets_repr, wallets_shown. split.
  - intros E. apply bind_ok in E as (t & Et & E). apply ok_inj in E. subst s. apply ms_texts_iff in Et as (ms & ts & U & F & ->); [|assumption..]. do 3 eexists. split; [now apply C88_balance|]. split; [exact U|]. split; [exact F|reflexivity].
  - intros (x & ms & ts & B & U & F & ->). rewrite (proj2 (ms_texts_iff H (wb_ms w) _ HO W) (ex_intro _ ms (ex_intro _ ts (conj U (conj F eq_refl))))). cbn [bind]. apply C88_balance in B; [|exact SH]. now rewrite B.
Qed.
Print Assumptions C88_wallets.

(** ** What the text tells *)
Lemma span_split (P : N -> Prop) a b c d x y : Forall P a -> Forall P b -> ~ P c -> ~ P d -> a ++ c :: x = b ++ d :: y -> a = b /\ c = d /\ x = y.
Proof.
  intros A. revert b. induction A as [|k a K A IH]; intros b B C D E.
  - destruct B as [|j b J B]; [injection E as -> ->; auto|]. injection E as -> _. contradiction.
  - destruct B as [|j b J B]; [injection E as <- _; contradiction|]. injection E as <- E. destruct (IH b B C D E) as (-> & -> & ->). auto.
Qed.
Lemma tft_split a a' m m' x y : tft_shown a m -> tft_shown a' m' -> a ++ x = a' ++ y -> m = m' /\ x = y.
Proof.
  intros (p & P & ->) (q & Q & ->) E. rewrite <- !app_assoc in E. apply (span_split (fun c => 46 <= c <= 57)) in E as (-> & _ & E); [|eapply amount_chars; eassumption..|vm_compute; intuition congruence|vm_compute; intuition congruence].
  split; [exact (amount_shown_inj _ _ _ P Q)|]. injection E as ->. reflexivity.
Qed.
Lemma figures_inj f f' s : figures_shown f s -> figures_shown f' s -> f = f'.
Proof.
  intros (a & l & u & d & -> & A & L & U & D) (a' & l' & u' & d' & E & A' & L' & U' & D').
  apply (tft_split _ _ _ _ _ _ A A') in E as (EA & E). apply app_inv_head in E. apply (tft_split _ _ _ _ _ _ L L') in E as (EL & E). apply app_inv_head in E.
  assert (R : f_unconfirmed f = f_unconfirmed f' /\ f_unconfirmed_locked f = f_unconfirmed_locked f' /\ d = d').
  { destruct U as [(U1 & U2 & ->)|(_ & x & y & X & Y & ->)], U' as [(U1' & U2' & ->)|(_ & x' & y' & X' & Y' & ->)].
    - split; [congruence|]. split; [congruence|exact E].
    - exfalso. destruct D as [(_ & ->)|(_ & z & _ & ->)]; [discriminate E|discriminate E].
    - exfalso. destruct D' as [(_ & ->)|(_ & z & _ & ->)]; [discriminate E|discriminate E].
    - rewrite <- !app_assoc in E. do 2 apply app_inv_head in E. apply (tft_split _ _ _ _ _ _ X X') in E as (EX & E). apply app_inv_head in E. apply (tft_split _ _ _ _ _ _ Y Y') in E as (EY & E). apply app_inv_head in E. auto. }
  destruct R as (E1 & E2 & ->).
  assert (E3 : f_deduction f = f_deduction f').
  { destruct D as [(Z & ->)|(P & z & Z & ->)], D' as [(Z' & Q)|(P' & z' & Z' & Q)]; try discriminate Q; [congruence|]. do 2 apply app_inv_head in Q. subst z'. exact (tft_shown_inj _ _ _ Z Z'). }
  destruct f as [a1 a2 a3 a4 a5], f' as [b1 b2 b3 b4 b5]. cbn [f_available f_locked f_unconfirmed f_unconfirmed_locked f_deduction] in *. congruence.
Qed.
(** no empty line *)
Fixpoint tightb (p : bool) (s : pystr) : bool := match s with [] => true | c :: s => if c =? 10 then negb p && tightb true s else tightb false s end.
Definition tight (s : pystr) : Prop := tightb false (s ++ [10]) = true.
Lemma tightb_line p l s : Forall (fun c => 32 <= c) l -> l <> [] -> tightb p (l ++ 10 :: s) = tightb true s.
Proof.
  intros F N. assert (X : forall l, Forall (fun c => 32 <= c) l -> tightb false (l ++ 10 :: s) = tightb true s).
  { clear. intros l F. induction F as [|c l C F IH]; [reflexivity|]. cbn [app tightb]. replace (c =? 10) with false by lia. exact IH. }
  destruct F as [|c l C F]; [congruence|]. cbn [app tightb]. replace (c =? 10) with false by lia. now apply X.
Qed.
Lemma tightb_empty p a b : tightb p (a ++ 10 :: 10 :: b) = false.
Proof.
  revert p. induction a as [|c a IH]; intros p; [cbn [app tightb]; change (10 =? 10) with true; cbn [negb andb]; apply andb_false_r|]. cbn [app tightb]. rewrite !IH. destruct (c =? 10); [apply andb_false_r|reflexivity].
Qed.
Lemma tight_split x x' R R' : tight x -> tight x' -> (R = [] \/ exists q, R = 10 :: 10 :: q) -> (R' = [] \/ exists q, R' = 10 :: 10 :: q) -> x ++ R = x' ++ R' -> x = x' /\ R = R'.
Proof.
  assert (X : forall x y R R', tight (x ++ y) -> (R = [] \/ exists q, R = 10 :: 10 :: q) -> R = y ++ R' -> y = []).
  { clear. intros x y R R' T [->|(q & ->)] E; [destruct y; [reflexivity|discriminate]|]. destruct y as [|a y]; [reflexivity|]. injection E as <- E. unfold tight in T.
    destruct y as [|b y]; [rewrite <- app_assoc in T; cbn [app] in T; now rewrite tightb_empty in T|]. injection E as <- E. rewrite <- app_assoc in T. cbn [app] in T. now rewrite tightb_empty in T. }
  intros T T' Q Q' E. destruct (app_eq_app _ _ _ _ E) as (l & [(-> & E')|(-> & E')]).
  - assert (l = []) by (exact (X _ _ _ _ T Q' E')). subst l. rewrite app_nil_r. auto.
  - assert (l = []) by (exact (X _ _ _ _ T' Q E')). subst l. rewrite app_nil_r. auto.
Qed.
Lemma not_nil_app (a b : pystr) : b <> [] -> a ++ b <> [].
Proof. destruct a; [auto|discriminate]. Qed.
Lemma figures_tight f x p : figures_shown f x -> tightb p (x ++ [10]) = true.
Proof.
  intros (a & l & u & d & -> & A & L & U & D). apply tft_chars in A, L.
  assert (X : exists r, u ++ d ++ [10] = 10 :: r /\ tightb true r = true).
  { assert (Y : exists r, d ++ [10] = 10 :: r /\ tightb true r = true).
    { destruct D as [(_ & ->)|(_ & z & Z & ->)]; [exists []; auto|]. apply tft_chars in Z. exists ((s2b "Unconfirmed Balance Deduction: -" ++ z) ++ [10]). split; [reflexivity|]. rewrite tightb_line; [reflexivity| |discriminate]. apply Forall_app. split; [chars|exact Z]. }
    destruct Y as (r & Er & Tr). rewrite Er. destruct U as [(_ & _ & ->)|(_ & z & y & Z & Y & ->)]; [exists r; auto|]. apply tft_chars in Z, Y. exists ((s2b "Unconfirmed: " ++ z ++ s2b " available " ++ y ++ s2b " locked") ++ 10 :: r). split; [reflexivity|].
    rewrite tightb_line; [exact Tr| |discriminate]. repeat (apply Forall_app; split); try assumption; chars. }
  destruct X as (r & Er & Tr). replace ((a ++ s2b " available and " ++ l ++ s2b " locked" ++ u ++ d) ++ [10]) with ((a ++ s2b " available and " ++ l ++ s2b " locked") ++ u ++ d ++ [10]) by (rewrite <- !app_assoc; reflexivity).
  rewrite Er, tightb_line; [exact Tr| |apply not_nil_app; discriminate]. repeat (apply Forall_app; split); try assumption; chars.
Qed.
Lemma context_chars local h t c : context_shown local h t c -> Forall (fun c => 32 <= c) c /\ c <> [].
Proof.
  intros [(_ & n & d & (W & _) & D & ->)|(_ & ->)].
  - split; [|discriminate]. apply decimal_chars in W. apply date_chars in D. repeat (apply Forall_app; split); try assumption; try chars. eapply Forall_impl; [|exact W]. intros; cbv beta in *; lia.
  - split; [chars|discriminate].
Qed.
Lemma balance_tight local b s : balance_shown local b s -> tight s.
Proof. intros (c & x & f & C & _ & X & ->). destruct (context_chars _ _ _ _ C) as (F & N). unfold tight. rewrite <- !app_assoc. cbn [app]. rewrite tightb_line by assumption. exact (figures_tight f x true X). Qed.
Definition chain_known (b : bal) : Prop := (0 < w_height b /\ 0 < w_time b)%Z.
(** Two balances with the same text hold the same amounts, at the same height, if known. *)
Theorem C88_tells local b b' s : balance_shown local b s -> balance_shown local b' s ->
  (exists f, holds (w_height b) (w_time b) b f /\ holds (w_height b') (w_time b') b' f) /\ (chain_known b /\ chain_known b' /\ w_height b = w_height b' \/ ~ chain_known b /\ ~ chain_known b').
Proof.
  intros (c & x & f & C & F & X & ->) (c' & x' & f' & C' & F' & X' & E). cbn [app] in E. destruct (context_chars _ _ _ _ C) as (Q & _), (context_chars _ _ _ _ C') as (Q' & _).
  apply line_split in E as (-> & ->); [|assumption..]. rewrite (figures_inj _ _ _ X X') in F. split; [eauto|]. unfold chain_known. destruct C as [(K & n & d & W & D & ->)|(K & ->)], C' as [(K' & n' & d' & W' & D' & E)|(K' & E)]; try discriminate E; [|auto].
  left. split; [exact K|]. split; [exact K'|]. apply app_inv_head in E. destruct W as (W & Z), W' as (W' & Z'). pose proof (decimal_chars _ _ W) as G. pose proof (decimal_chars _ _ W') as G'.
  apply (span_split (fun c => 48 <= c <= 57)) in E as (-> & _ & _); [|assumption..|vm_compute; intuition congruence|vm_compute; intuition congruence]. apply AmountFacts.decimal_iff in W, W'. rewrite W in W'. injection W' as W'. lia.
Qed.
Print Assumptions C88_tells.
Lemma joined_tells H us us' ts ts' s : length us = length us' -> Forall2 (printed H) us ts -> Forall2 (printed H) us' ts' -> joined (s2b ", ") ts s -> joined (s2b ", ") ts' s -> ts = ts'.
Proof.
  intros L F. revert us' ts' s L. induction F as [|u t us ts P F IH]; intros us' ts' s L F' J J'.
  - destruct F'; [reflexivity|discriminate].
  - destruct F' as [|u' t' us' ts' P' F']; [discriminate|]. cbn [length] in L.
    assert (C : forall u t, printed H u t -> Forall (fun c => 48 <= c) t). { clear. intros u t (n & a & b & c & _ & -> & (_ & A) & (_ & B) & (_ & C)). repeat (apply Forall_app; split); (eapply Forall_impl; [|eassumption]); unfold lower_digit; intros; lia. }
    apply C in P, P'. destruct ts as [|t2 ts], ts' as [|t2' ts'].
    + inversion J. inversion J'. congruence.
    + exfalso. inversion F. subst. inversion F'. subst. cbn [length] in L. lia.
    + exfalso. inversion F. subst. inversion F'. subst. cbn [length] in L. lia.
    + inversion J as [| |? ? ? r Jr]. inversion J' as [| |? ? ? r' Jr' E1 E2]. subst. apply (span_split (fun c => 48 <= c)) in E2 as (<- & _ & E2); [|assumption..|vm_compute; intuition congruence|vm_compute; intuition congruence]. apply app_inv_head with (l := [32]) in E2. subst r'. f_equal. eapply IH; [|exact F'|exact Jr|exact Jr']. lia.
Qed.
(** What the text of a multi-signature wallet says: the number of signatures, the owners and the figures *)
Definition same_wallet (m m' : msbal) : Prop :=
  ms_count m = ms_count m' /\ ms_owners m = ms_owners m' /\ exists f, holds (w_height (ms_bal m)) (w_time (ms_bal m)) (ms_bal m) f /\ holds (w_height (ms_bal m')) (w_time (ms_bal m')) (ms_bal m') f.
Lemma int_chars s z : int_shown s z -> Forall (fun c => 45 <= c <= 57) s.
Proof.
  assert (X : forall t n, whole_shown t n -> Forall (fun c => 45 <= c <= 57) t) by (intros t n (D & _); apply decimal_chars in D; eapply Forall_impl; [|exact D]; intros; cbv beta in *; lia).
  intros [(_ & W)|(_ & t & W & ->)]; [eauto|]. apply Forall_app. split; [apply Forall_forall; intros x I; vm_compute in I; intuition lia|eauto].
Qed.
Lemma joined_chars H us ts os : Forall2 (printed H) us ts -> joined (s2b ", ") ts os -> Forall (fun c => 32 <= c) os.
Proof.
  intros T J. assert (TT : Forall (fun t => Forall (fun c => 32 <= c) t) ts). { clear J. induction T as [|u t us ts P T IH]; constructor; [exact (printed_chars _ _ _ P)|exact IH]. }
  clear T. induction J as [|s|s t l r J IH]; [constructor|now inversion TT|]. inversion TT. repeat (apply Forall_app; split); [assumption|chars|auto].
Qed.
Lemma ms_tight H m s p : ms_shown H m s -> tightb p (s ++ [10]) = true.
Proof.
  intros (n & k & u & a & ts & os & f & x & N & K & U & A & T & J & F & X & ->). apply int_chars in N. destruct K as (K & _). apply decimal_chars in K. apply printed_chars in A.
  assert (O : Forall (fun c => 32 <= c) os).
  { exact (joined_chars _ _ _ _ T J). }
  replace ((s2b "MultiSignature (" ++ n ++ s2b "-of-" ++ k ++ s2b ") Wallet " ++ a ++ s2b ":" ++ [10] ++ s2b "Owners: " ++ os ++ [10] ++ x) ++ [10])
    with ((s2b "MultiSignature (" ++ n ++ s2b "-of-" ++ k ++ s2b ") Wallet " ++ a ++ s2b ":") ++ 10 :: (s2b "Owners: " ++ os) ++ 10 :: x ++ [10]) by (rewrite <- !app_assoc; reflexivity).
  rewrite tightb_line, tightb_line; [exact (figures_tight f x true X)| |discriminate| |discriminate].
  - apply Forall_app. split; [chars|exact O].
  - repeat (apply Forall_app; split); try assumption; try chars; (eapply Forall_impl; [|eassumption]); intros; cbv beta in *; lia.
Qed.
Theorem C88_wallet_tells H m m' s : hash_ok H -> Forall full_uh (ms_owners m) -> Forall full_uh (ms_owners m') -> ms_shown H m s -> ms_shown H m' s -> same_wallet m m'.
Proof.
  intros HO W W' (n & k & u & a & ts & os & f & x & N & K & U & A & T & J & F & X & ->) (n' & k' & u' & a' & ts' & os' & f' & x' & N' & K' & U' & A' & T' & J' & F' & X' & E). apply app_inv_head in E.
  assert (CK : forall k v, whole_shown k v -> Forall (fun c => 48 <= c <= 57) k) by (intros q v (D & _); now apply decimal_chars in D).
  assert (ET : n ++ s2b "-of-" = n' ++ s2b "-of-" /\ k ++ s2b ") Wallet " ++ a ++ s2b ":" ++ [10] ++ s2b "Owners: " ++ os ++ [10] ++ x = k' ++ s2b ") Wallet " ++ a' ++ s2b ":" ++ [10] ++ s2b "Owners: " ++ os' ++ [10] ++ x').
  { pose proof (int_chars _ _ N) as CN. pose proof (int_chars _ _ N') as CN'.
    assert (E' : (n ++ [45]) ++ 111 :: s2b "f-" ++ k ++ s2b ") Wallet " ++ a ++ s2b ":" ++ [10] ++ s2b "Owners: " ++ os ++ [10] ++ x = (n' ++ [45]) ++ 111 :: s2b "f-" ++ k' ++ s2b ") Wallet " ++ a' ++ s2b ":" ++ [10] ++ s2b "Owners: " ++ os' ++ [10] ++ x').
    { rewrite <- !app_assoc. exact E. }
    apply (span_split (fun c => 45 <= c <= 57)) in E' as (E1 & _ & E2); [|apply Forall_app; split; [assumption|constructor; [lia|constructor]]..|vm_compute; intuition congruence|vm_compute; intuition congruence].
    apply app_inv_tail in E1. subst n'. split; [reflexivity|]. apply app_inv_head in E2. exact E2. }
  destruct ET as (EN & E1). apply app_inv_tail in EN. subst n'. clear E.
  apply (span_split (fun c => 48 <= c <= 57)) in E1 as (<- & _ & E1); [|eauto|eauto|vm_compute; intuition congruence|vm_compute; intuition congruence]. apply app_inv_head with (l := s2b " Wallet ") in E1.
  assert (EA : (a ++ s2b ":") ++ 10 :: s2b "Owners: " ++ os ++ [10] ++ x = (a' ++ s2b ":") ++ 10 :: s2b "Owners: " ++ os' ++ [10] ++ x') by (rewrite <- !app_assoc; exact E1). clear E1.
  assert (CA : forall u a, printed H u a -> Forall (fun c => 32 <= c) (a ++ s2b ":")) by (intros ? ? Q; apply Forall_app; split; [exact (printed_chars _ _ _ Q)|chars]).
  apply line_split in EA as (EA & E); [|eauto|eauto]. apply app_inv_tail in EA. subst a'. apply app_inv_head in E.
  assert (CO : forall us ts os, Forall2 (printed H) us ts -> joined (s2b ", ") ts os -> Forall (fun c => 32 <= c) os).
  { intros ? ? ? T0 J0. exact (joined_chars _ _ _ _ T0 J0). }
  cbn [app] in E. apply line_split in E as (-> & ->); [|eauto|eauto].
  assert (EK : length (ms_owners m) = length (ms_owners m')). { destruct K as (D & _), K' as (D' & _). apply AmountFacts.decimal_iff in D, D'. rewrite D in D'. injection D' as D'. lia. }
  assert (EC : ms_count m = ms_count m').
  { destruct N as [(P & Q & _)|(P & t & (Q & _) & ->)], N' as [(P' & Q' & _)|(P' & t' & (Q' & _) & E')].
    - apply AmountFacts.decimal_iff in Q, Q'. rewrite Q in Q'. injection Q' as Q'. lia.
    - subst. apply decimal_chars in Q. inversion Q. lia.
    - subst. apply decimal_chars in Q'. inversion Q'. lia.
    - injection E' as <-. apply AmountFacts.decimal_iff in Q, Q'. rewrite Q in Q'. injection Q' as Q'. lia. }
  split; [exact EC|]. rewrite (figures_inj _ _ _ X X') in F. split; [|eauto]. pose proof (joined_tells _ _ _ _ _ _ EK T T' J J') as <-.
  clear -HO W W' T T'. revert T' W'. generalize (ms_owners m'). induction T as [|u t us ts P T IH]; intros us' T' W'; [now inversion T'|]. inversion T' as [|u' ? us2 ? P' T2]. subst. inversion W as [|? ? Wu Ws]. inversion W' as [|? ? Wu' Ws']. subst. f_equal; [|auto].
  apply C84_printed in P; [|exact HO|apply Wu]. apply C84_printed in P'; [|exact HO|apply Wu']. exact (uh_str_inj H _ _ _ HO Wu Wu' P P').
Qed.
Print Assumptions C88_wallet_tells.
(** Two wallets with the same text: the same figures of their own, and the same multi-signature wallets in use, with the same figures. *)
Theorem C88_all_tell H local w w' s : hash_ok H -> Forall (fun m => Forall full_uh (ms_owners m)) (wb_ms w) -> Forall (fun m => Forall full_uh (ms_owners m)) (wb_ms w') ->
  wallets_shown H local w s -> wallets_shown H local w' s ->
  (exists f, holds (w_height (wb_own w)) (w_time (wb_own w)) (wb_own w) f /\ holds (w_height (wb_own w')) (w_time (wb_own w')) (wb_own w') f) /\
  exists ms ms', used (wb_ms w) ms /\ used (wb_ms w') ms' /\ Forall2 same_wallet ms ms'.
Proof.
  intros HO W W' (x & ms & ts & B & U & F & ->) (x' & ms' & ts' & B' & U' & F' & E).
  assert (R : forall ts : list pystr, concat (map (fun t => [10; 10] ++ t) ts) = [] \/ exists q, concat (map (fun t => [10; 10] ++ t) ts) = 10 :: 10 :: q) by (intros [|t l]; [left; reflexivity|right; eexists; reflexivity]).
  apply tight_split in E as (-> & E); [|eapply balance_tight; eassumption..|apply R|apply R]. split; [exact (proj1 (C88_tells _ _ _ _ B B'))|]. exists ms, ms'. split; [exact U|]. split; [exact U'|].
  assert (K : forall l r, used l r -> Forall (fun m => Forall full_uh (ms_owners m)) l -> Forall (fun m => Forall full_uh (ms_owners m)) r) by (clear; intros l r U; induction U; intros F; inversion F; auto).
  pose proof (K _ _ U W) as V. pose proof (K _ _ U' W') as V'. clear U U' W W' K B B'.
  revert ms' ts' F' V' E. induction F as [|m t ms ts P F IH]; intros ms' ts' F' V' E.
  - destruct F'; [constructor|discriminate E].
  - destruct F' as [|m' t' ms' ts' P' F']; [discriminate E|]. cbn [map concat] in E. rewrite <- !app_assoc in E. apply app_inv_head in E. inversion V as [|? ? V1 V2]. inversion V' as [|? ? V1' V2']. subst.
    apply tight_split in E as (-> & E); [|exact (ms_tight _ _ _ false P)|exact (ms_tight _ _ _ false P')|apply R|apply R]. constructor; [exact (C88_wallet_tells _ _ _ _ HO V1 V1' P P')|]. eapply IH; eassumption.
Qed.
Print Assumptions C88_all_tell.

(** ** The address shown is the one the outputs pay to *)
Section Addressed.
Variable H : bytes -> bytes.
Definition all_outputs (b : bal) : list output := values (w_outs b) ++ values (w_spent b) ++ values (w_unc b) ++ values (w_uncspent b).
(** Every output of a multi-signature wallet pays to the address made of its owners and number of signatures. *)
Definition addressed_wallet (m : msbal) : Prop := ms_address H (ms_owners m) (ms_count m) (ms_addr m) /\ Forall (fun o => paid_to H (fun v s => uh_str H v = Ok s) (o_cond o) (ms_addr m)) (all_outputs (ms_bal m)).
Lemma dset_in {A} (d : dict A) k (x y : A) : In y (values (dset d k x)) -> y = x \/ In y (values d).
Proof. unfold values. induction d as [|(j, z) d IH]; cbn [dset map snd In]; [intuition|]. destruct (listN_eqb k j); cbn [map snd In]; intuition. Qed.
Lemma dpop_in {A} (d : dict A) k (y : A) : In y (values (dpop d k)) -> In y (values d).
Proof. unfold values. induction d as [|(j, z) d IH]; cbn [dpop map snd In]; [intuition|]. destruct (listN_eqb k j); cbn [map snd In]; intuition. Qed.
Lemma all_add b o c s b' : output_add H b o c s = Ok b' -> forall x, In x (all_outputs b') -> x = o \/ In x (all_outputs b).
Proof.
  unfold output_add. intros E. apply bind_ok in E as (u & _ & E). apply bind_ok in E as (t & _ & E). apply ok_inj in E. subst b'. unfold all_outputs. intros x I.
  unfold dicts_add in I. rewrite !in_app_iff in *. cbn [w_outs w_spent w_unc w_uncspent] in I.
  destruct c, s; repeat match type of I with context [if ?g then _ else _] => destruct g end; cbn [w_outs w_spent w_unc w_uncspent] in I;
    repeat match type of I with _ \/ _ => destruct I as [I|I] end; try (apply dset_in in I as [I|I]); try apply dpop_in in I; auto.
Qed.
Lemma paid_fun k u v : paid_to H (fun v s => uh_str H v = Ok s) k u -> paid_to H (fun v s => uh_str H v = Ok s) k v -> u = v.
Proof. intros A B. apply C84_condition_address in A, B. congruence. Qed.
Lemma ms_update_addressed l u o c s r : paid_to H (fun v s => uh_str H v = Ok s) (o_cond o) u -> Forall addressed_wallet l -> ms_update l u (fun b => output_add H b o c s) = Some (Ok r) -> Forall addressed_wallet r.
Proof.
  intros P F. revert r. induction F as [|m l M F IH]; intros r E; [discriminate|]. cbn [ms_update] in E. destruct (uh_eqb (ms_addr m) u) eqn:Q.
  - injection E as E. apply bind_ok in E as (b & Eb & E). apply ok_inj in E. subst r. constructor; [|exact F]. destruct M as (A & B). split; [exact A|]. cbn [ms_owners ms_count ms_addr ms_bal] in *. apply Forall_forall. intros x I.
    rewrite Forall_forall in B. apply (all_add _ _ _ _ _ Eb) in I as [->|I]; [|auto]. apply uh_eqb_eq in Q. now rewrite Q.
  - destruct (ms_update l u _) as [[l'|?]|]; [| |discriminate]; cbn [bind] in E; [|discriminate E]. injection E as <-. constructor; [exact M|]. now apply IH.
Qed.
Theorem C88_addressed_add w o c s w' : Forall addressed_wallet (wb_ms w) -> wb_output_add H w o c s = Ok w' -> Forall addressed_wallet (wb_ms w').
Proof.
  intros F E. unfold wb_output_add in E. apply bind_ok in E as (u & U & E). destruct (uh_type u =? UH_MULTI_SIG)%Z.
  - apply C84_condition_address in U. unfold multisig_output_add in E. destruct (cond_unwrap (o_cond o)); try discriminate. destruct (ms_update _ _ _) as [r|] eqn:M.
    + apply bind_ok in E as (l & -> & E). apply ok_inj in E. subst w'. exact (ms_update_addressed _ _ _ _ _ _ U F M).
    + destruct (o_cond o) as [|?|? ? ? ?|? ?|us n] eqn:C; try discriminate. apply bind_ok in E as (? & _ & E). apply bind_ok in E as (? & _ & E). apply bind_ok in E as (b & Eb & E). apply ok_inj in E. subst w'. cbn [wb_ms]. apply Forall_app. split; [exact F|].
      constructor; [|constructor]. split; [exact U|]. cbn [ms_bal ms_addr]. apply Forall_forall. intros y I. apply (all_add _ _ _ _ _ Eb) in I as [->|I]; [now rewrite C|destruct I].
  - apply bind_ok in E as (b & _ & E). apply ok_inj in E. subst w'. exact F.
Qed.
Theorem C88_addressed_merge a b w : Forall addressed_wallet (wb_ms a) -> Forall addressed_wallet (wb_ms b) -> wb_balance_add a b = Ok w -> Forall addressed_wallet (wb_ms w).
Proof.
  intros Fa Fb E. unfold wb_balance_add in E. apply bind_ok in E as (o & _ & E). apply bind_ok in E as (l & El & E). apply ok_inj in E. subst w. cbn [wb_ms]. revert Fa El. generalize (wb_ms a).
  induction Fb as [|m r M Fb IH]; intros k Fa El; cbn [ms_merge] in El; [injection El as <-; exact Fa|]. destruct (existsb _ k); [discriminate|]. apply (IH _ (proj2 (Forall_app _ _ _) (conj Fa (Forall_cons _ M (Forall_nil _)))) El).
Qed.
(** Balances made of observations, starting with nothing *)
Inductive grown : wbal -> Prop :=
| grown_new b : grown (mkwb b [])
| grown_add w o c s w' : grown w -> wb_output_add H w o c s = Ok w' -> grown w'
| grown_merge a b w : grown a -> grown b -> wb_balance_add a b = Ok w -> grown w.
Theorem C88_addressed w : grown w -> Forall addressed_wallet (wb_ms w).
Proof. intros G. induction G as [b|w o c s w1 G IH E|a b w A IHa B IHb E]; [apply Forall_nil|exact (C88_addressed_add _ _ _ _ _ IH E)|exact (C88_addressed_merge _ _ _ IHa IHb E)]. Qed.
End Addressed.
Print Assumptions C88_addressed.
(** so the address in the text is that of the outputs *)
Theorem C88_address_shown H m s : hash_ok H -> addressed_wallet H m -> ms_shown H m s ->
  exists a before after, s = before ++ a ++ after /\ printed H (ms_addr m) a /\ Forall (fun o => paid_to H (fun v s => uh_str H v = Ok s) (o_cond o) (ms_addr m)) (values (w_outs (ms_bal m)) ++ values (w_unc (ms_bal m))).
Proof.
  intros HO (A & B) (n & k & u & a & ts & os & f & x & N & K & U & P & T & J & F & X & ->). rewrite (paid_fun H _ _ _ U A) in P.
  exists a, (s2b "MultiSignature (" ++ n ++ s2b "-of-" ++ k ++ s2b ") Wallet "), (s2b ":" ++ [10] ++ s2b "Owners: " ++ os ++ [10] ++ x). split; [rewrite <- !app_assoc; reflexivity|]. split; [exact P|].
  rewrite Forall_forall in *. intros o I. apply B. unfold all_outputs. rewrite !in_app_iff in *. tauto.
Qed.
Print Assumptions C88_address_shown.

(** ** Concrete cases *)
Definition exm_owners : list uh := [mkuh 1 (repeat 7 32); mkuh 1 (repeat 8 32)].
Definition exm_out (v : N) (l : Z) (id : N) : output := mkout v (if (l =? 0)%Z then CMulti exm_owners 2 else CLock l (CMulti exm_owners 2)) (repeat id 32).
Definition exm_base : bal := mkbal [(repeat 1 32, Prop_Wallet.exw_o1); (repeat 2 32, Prop_Wallet.exw_o2)] [] [] [(repeat 3 32, Prop_Wallet.exw_o3)] 1600000000 50 [] [].
Definition exm_local : Z -> tm := fun z => (2020, 9, 13, 12, 26, z mod 60)%Z.
Definition exm_run : res wbal :=
  do w <- wb_output_add Prop_Wallet.exw_H (mkwb exm_base []) (exm_out 2000000000 0 4) false false; wb_output_add Prop_Wallet.exw_H w (exm_out 1000000000 100 5) false false.
(** A balance at height 50 with an output locked until height 100, and a multi-signature wallet *)
Example C88_ex : exists w, exm_run = Ok w /\ grown Prop_Wallet.exw_H w /\ balance_repr exm_local (wb_own w) =
  s2b "wallet balance on height 50 at 2020/09/13 12:26:40" ++ [10] ++ s2b "0.00000001 TFT available and 0.000000007 TFT locked" ++ [10] ++ s2b "Unconfirmed Balance Deduction: -0.000000005 TFT" /\
  exists m, wb_ms w = [m] /\ balance_text (ms_bal m) = s2b "0 TFT available and 0 TFT locked" ++ [10] ++ s2b "Unconfirmed: 3 TFT available 0 TFT locked".
Proof.
  assert (X : forall w, exm_run = Ok w -> grown Prop_Wallet.exw_H w).
  { intros w E. unfold exm_run in E. apply bind_ok in E as (w1 & E1 & E). eapply grown_add; [eapply grown_add; [apply grown_new|exact E1]|exact E]. }
  destruct exm_run as [w|] eqn:E; [|vm_compute in E; discriminate]. exists w. split; [reflexivity|]. split; [auto|]. vm_compute in E. apply ok_inj in E. subst w. split; [vm_compute; reflexivity|]. eexists. split; [reflexivity|]. vm_compute. reflexivity.
Qed.
(** That all amounts are those at the height and time in the first line is false: a multi-signature wallet that was first seen in a transaction of the
    wallet itself has no height and time, so its locked outputs are said to be available. *)
Theorem C88_context_refuted : exists H b o1 o2 w1 w2 m o f,
  chain_known b /\ wb_output_add H (mkwb b []) o1 false false = Ok w1 /\ wb_output_add H w1 o2 false false = Ok w2 /\ wb_own w2 = b /\ wb_ms w2 = [m] /\ in_use m /\
  In o (values (w_unc (ms_bal m))) /\ ~ open_at (w_height b) (w_time b) o /\ 0 < o_value o /\
  holds (w_height (ms_bal m)) (w_time (ms_bal m)) (ms_bal m) f /\ f_unconfirmed_locked f = 0 /\ f_unconfirmed f = worth (values (w_unc (ms_bal m))).
Proof.
  exists Prop_Wallet.exw_H, exm_base, (exm_out 2000000000 0 4), (exm_out 1000000000 100 5). do 5 eexists. split; [split; reflexivity|]. split; [vm_compute; reflexivity|]. split; [vm_compute; reflexivity|]. split; [reflexivity|]. split; [reflexivity|].
  split; [right; discriminate|]. split; [right; left; reflexivity|]. split; [vm_compute; intuition congruence|]. split; [reflexivity|]. split; [apply holds_iff; reflexivity|]. split; vm_compute; reflexivity.
Qed.
Print Assumptions C88_context_refuted.
