(** Theorems about the balance (C62) and the transactions (C63) of a whole wallet. *)
From Coq Require Import Sorting.Sorted.
From Verif Require Import Base BaseFacts Encoders Currency Primitive Types Conditions Fulfillments ThreeBotTypes Txn TxnJson Wallet Explorer WalletLoad
  Spec_Types Spec_Wallet Spec_Explorer Spec_Load TypesFacts WalletFacts WalletFacts2 ExplorerFacts ExplorerFacts2 ExplorerFacts3 LoadFacts
  Prop_Fulfil Prop_Txn Prop_ThreeBot Prop_Json Prop_Wallet Prop_Explorer Prop_Sign.
From Coq Require Import ZifyBool ZifyNat ZifyN.
Ltac Zify.zify_post_hook ::= Z.div_mod_to_equations.

(** ** C62 *)
(** A balance comes from one lookup for each of the wallet's addresses, and one for each multi-signature address reported with them,
    and it has the context of the last block. *)
Theorem C62_lookups : forall H ip_parse now net h t k addrs w, hash_ok H -> Forall (text_of H 1) addrs ->
  wallet_balance H ip_parse now net (h, t, k) addrs = Ok w ->
  w_height (wb_own w) = h /\ w_time (wb_own w) = t /\ w_block (wb_own w) = k /\
  exists own multi, answers (lookup H ip_parse now net) 0 addrs own /\
    answers (lookup H ip_parse now net) (length addrs) (flat_map (fun ar => multisigs H (snd ar)) own) multi /\
    (forall m, In m (wb_ms w) -> w_height (ms_bal m) = h /\ w_time (ms_bal m) = t /\ w_block (ms_bal m) = k).
Proof.
  intros H ip now net h t k addrs w HH T E.
  apply (wallet_balance_inv H ip now net) in E as (own & multi & bs & ps & ars & An & An2 & F & Pp & (o & M & Eo) & Fe & I1 & I2 & ND & Fo & Fm); [|exact HH|exact T].
  rewrite Eo. cbn [with_chain w_height w_time w_block]. repeat split. exists own, multi. split; [exact An|]. split; [exact An2|].
  intros m Im. destruct (Forall2_in_r _ _ _ Fe m Im) as (ar & _ & Er & _). exact (C49_context H (snd ar) h t k _ _ Er).
Qed.
Print Assumptions C62_lookups.
(** The wallet's own part: an output is reported as available, unconfirmed or spent exactly when the history of one of the wallet's
    addresses says so. *)
Theorem C62_own : forall H ip_parse now net info addrs w own id, hash_ok H -> Forall (text_of H 1) addrs ->
  wallet_balance H ip_parse now net info addrs = Ok w -> answers (lookup H ip_parse now net) 0 addrs own -> real_heights own ->
  reports (wb_own w) id
    (exists a r, In (a, r) own /\ is_available H a (h_txns r) id)
    (exists a r, In (a, r) own /\ is_unconfirmed H a (h_txns r) id)
    (exists a r, In (a, r) own /\ is_spent H a (h_txns r) id)
    (exists a r, In (a, r) own /\ is_spent_unconfirmed H a (h_txns r) id).
Proof.
  intros H ip now net info addrs w own id HH T E An0 RH.
  apply (wallet_balance_inv H ip now net) in E as (own' & multi & bs & ps & ars & An & An2 & F & Pp & (o & M & Eo) & Fe & I1 & I2 & ND & Fo & Fm); [|exact HH|exact T].
  rewrite (answers_fun H ip now net _ _ _ An own An0) in *. clear An0.
  assert (B : forall ar b, In ar own' -> plain H info (snd ar) b ->
    reports b id (is_available H (fst ar) (h_txns (snd ar)) id) (is_unconfirmed H (fst ar) (h_txns (snd ar)) id)
      (is_spent H (fst ar) (h_txns (snd ar)) id) (is_spent_unconfirmed H (fst ar) (h_txns (snd ar)) id)).
  { intros [a r] b I P. cbn [fst snd] in *. rewrite Forall_forall in Fo. destruct (Fo _ I) as (Ty & Str). cbn [fst snd] in *.
    destruct (answers_look H ip now net _ _ _ An a r I) as (n & L & _).
    apply (balance_reports H r (Some info) None b a id Str); [|right; lia|exact P]. apply (look_sorted H ip now net n a r L). intros x Ix. exact (RH a r x I Ix). }
  assert (Ne : forall b, In b ps -> w_outs b = [] /\ w_unc b = [] /\ w_spent b = [] /\ w_uncspent b = []).
  { intros b I. destruct (Pp b I) as (ar & Ia & P). rewrite Forall_forall in Fm. destruct (Fm _ Ia) as (Ty & _). exact (multi_plain_empty H info (snd ar) b Ty P). }
  destruct (merged_has H ip _ (bs ++ ps) o id M) as (M1 & M2 & M3 & M4).
  assert (G : forall (f : bal -> odict) (P : pystr -> list etx -> Prop),
    f bal_new = [] -> (forall ar b, In ar own' -> plain H info (snd ar) b -> (has (f b) id <-> P (fst ar) (h_txns (snd ar)))) ->
    (forall b, In b ps -> f b = []) ->
    (has (f bal_new) id \/ (exists b, In b (bs ++ ps) /\ has (f b) id) <-> exists a r, In (a, r) own' /\ P a (h_txns r))).
  { intros f P F0 FB FP. rewrite F0. split.
    - intros [[]|(b & I & Q)]. apply in_app_or in I as [I|I].
      + destruct (Forall2_in_r _ _ _ F b I) as ([a r] & Ia & Pl). exists a, r. split; [exact Ia|]. exact (proj1 (FB (a, r) b Ia Pl) Q).
      + rewrite (FP b I) in Q. destruct Q.
    - intros (a & r & I & Q). right. destruct (Forall2_in_l _ _ _ F (a, r) I) as (b & Ib & Pl). exists b. split; [apply in_or_app; now left|].
      exact (proj2 (FB (a, r) b I Pl) Q). }
  rewrite Eo. unfold reports. destruct info as [[h t] k]. cbn [with_chain w_outs w_unc w_spent w_uncspent]. rewrite M1, M2, M3, M4. clear M1 M2 M3 M4.
  split; [apply (G w_outs (fun a l => is_available H a l id))|split; [apply (G w_unc (fun a l => is_unconfirmed H a l id))|
    split; [apply (G w_spent (fun a l => is_spent H a l id))|apply (G w_uncspent (fun a l => is_spent_unconfirmed H a l id))]]];
    try reflexivity; try (intros ar b I P; destruct (B ar b I P) as (B1 & B2 & B3 & B4); assumption); intros b I; apply (Ne b I).
Qed.
Print Assumptions C62_own.
(** The multi-signature part: exactly one balance for each multi-signature wallet something happened to, with the owners and the number
    of signatures its address stands for, and with what its history says.  As long as these histories have no mint definition. *)
Theorem C62_multisig_partial : forall H ip_parse now net info addrs w own multi, hash_ok H -> Forall (text_of H 1) addrs ->
  wallet_balance H ip_parse now net info addrs = Ok w -> answers (lookup H ip_parse now net) 0 addrs own ->
  answers (lookup H ip_parse now net) (length addrs) (flat_map (fun ar => multisigs H (snd ar)) own) multi -> real_heights multi ->
  (forall a r, In (a, r) multi -> Forall (fun x => no_definition (e_txn x)) (h_txns r)) ->
  NoDup (map ms_addr (wb_ms w)) /\
  (forall m, In m (wb_ms w) -> cond_unlockhash H (CMulti (ms_owners m) (ms_count m)) = Ok (ms_addr m) /\
     exists a r, In (a, r) multi /\ uh_str H (ms_addr m) = Ok a /\
     forall id, reports (ms_bal m) id (is_available H a (h_txns r) id) (is_unconfirmed H a (h_txns r) id) (is_spent H a (h_txns r) id) (is_spent_unconfirmed H a (h_txns r) id)) /\
  (forall a r, In (a, r) multi -> concerned H a (h_txns r) -> exists m, In m (wb_ms w) /\ uh_str H (ms_addr m) = Ok a).
Proof.
  intros H ip now net info addrs w own multi HH T E An0 Am0 RH D.
  apply (wallet_balance_inv H ip now net) in E as (own' & multi' & bs & ps & ars & An & An2 & F & Pp & (o & M & Eo) & Fe & I1 & I2 & ND & Fo & Fm); [|exact HH|exact T].
  rewrite (answers_fun H ip now net _ _ _ An own An0) in *. rewrite (answers_fun H ip now net _ _ _ An2 multi Am0) in *. clear An0 Am0.
  rewrite Forall_forall in Fm.
  assert (K : forall a r m, In (a, r) multi' -> entry H info (a, r) m -> uh_str H (ms_addr m) = Ok a).
  { intros a r m Ia (Er & Eu). cbn [snd] in Er. destruct (Fm _ Ia) as (Ty & Str). cbn [fst snd] in *.
    unfold result_balance in Er. rewrite Ty in Er. change (3 =? 3)%Z with true in Er. cbv iota in Er. unfold multisig_balance in Er. rewrite Str in Er. cbn [bind] in Er.
    apply bind_ok in Er as (y & Ey & Er). apply ok_inj in Er. destruct y as [[[us n] x]|]; [|discriminate Er]. injection Er as Eus En _.
    destruct (multi_new_address H a (h_txns r) None _ Ey (D a r Ia) ltac:(discriminate) us n x eq_refl) as (u & Cu & Su).
    rewrite Eus, En in Cu. rewrite Eu in Cu. apply ok_inj in Cu. rewrite Cu. exact Su. }
  split; [exact ND|]. split.
  - intros m Im. destruct (Forall2_in_r _ _ _ Fe m Im) as ([a r] & Ia & En). split; [exact (proj2 En)|]. exists a, r.
    split; [exact (I1 _ Ia)|]. split; [exact (K a r m (I1 _ Ia) En)|]. intro id. destruct (Fm _ (I1 _ Ia)) as (Ty & Str). cbn [fst snd] in *.
    destruct (answers_look H ip now net _ _ _ An2 a r (I1 _ Ia)) as (n & L & _).
    apply (balance_reports H r (Some info) (Some (ms_owners m, ms_count m)) (ms_bal m) a id Str); [|left; exact (D a r (I1 _ Ia))|exact (proj1 En)].
    apply (look_sorted H ip now net n a r L). intros x Ix. exact (RH a r x (I1 _ Ia) Ix).
  - intros a r Ia C. destruct (I2 _ Ia) as [(b & P)|Ir].
    + destruct (Fm _ Ia) as (Ty & Str). cbn [fst snd] in *. destruct (multi_plain H ip info r b a Ty Str (D a r Ia) P) as (_ & _ & _ & _ & NC). contradiction.
    + destruct (Forall2_in_l _ _ _ Fe _ Ir) as (m & Im & En). exists m. split; [exact Im|]. exact (K a r m Ia En).
Qed.
Print Assumptions C62_multisig_partial.

(** So, on a chain on which ids tell outputs apart, the confirmed outputs of the wallet are those of its addresses that were created and not
    spent, each once, and the amounts add up. *)
Theorem C62_amounts : forall H ip_parse now net info addrs w own, hash_ok H -> Forall (text_of H 1) addrs -> NoDup addrs ->
  wallet_balance H ip_parse now net info addrs = Ok w -> answers (lookup H ip_parse now net) 0 addrs own -> real_heights own ->
  consistent (flat_map (fun ar => history H (fst ar) (h_txns (snd ar))) own) ->
  (forall a r, In (a, r) own -> NoDup (ids (created_outputs H a (h_txns r)))) ->
  Permutation (values (w_outs (wb_own w))) (flat_map (fun ar => unspent_outputs H (fst ar) (h_txns (snd ar))) own) /\
  available (wb_own w) + locked (wb_own w) = sum (map (fun ar => worth (unspent_outputs H (fst ar) (h_txns (snd ar)))) own).
Proof.
  intros H ip now net info addrs w own HH T NA E An0 RH CO NC.
  apply (wallet_balance_inv H ip now net) in E as (own' & multi & bs & ps & ars & An & An2 & F & Pp & (o & M & Eo) & Fe & I1 & I2 & ND & Fo & Fm); [|exact HH|exact T].
  rewrite (answers_fun H ip now net _ _ _ An own An0) in *. clear An0. rewrite Forall_forall in Fo, Fm.
  assert (Ne : forall b, In b ps -> w_outs b = [] /\ w_unc b = [] /\ w_spent b = [] /\ w_uncspent b = []).
  { intros b I. destruct (Pp b I) as (ar & Ia & P). destruct (Fm _ Ia) as (Ty & _). exact (multi_plain_empty H info (snd ar) b Ty P). }
  assert (V : forall ar b, In ar own' -> plain H info (snd ar) b -> inv (history H (fst ar) (h_txns (snd ar))) b).
  { intros [a r] b I P. cbn [fst snd] in *. destruct (Fo _ I) as (Ty & Str). cbn [fst snd] in *. apply inv_core.
    rewrite (result_balance_core H r (Some info) None b a Str ltac:(right; lia) P). apply inv_observe. }
  assert (PW : ForallOrdPairs apart (bal_new :: bs ++ ps)).
  { constructor; [apply Forall_forall; intros b _; apply empty_apart_l; reflexivity|].
    assert (N : NoDup (map fst own')) by exact (answers_nodup _ _ _ _ An NA).
    clear M Fe An An2 Eo RH NC Pp. induction F as [|ar b l bs Pb F IH].
    - cbn [app]. clear - Ne. induction ps as [|b ps IH]; [constructor|]. constructor; [|apply IH; intros x I; apply Ne; now right].
      apply Forall_forall. intros x _. destruct (Ne b (or_introl eq_refl)) as (Z1 & Z2 & Z3 & Z4). apply empty_apart_l; assumption.
    - cbn [app]. inversion N as [|? ? N1 N2]; subst. constructor.
      + apply Forall_forall. intros y Iy. apply in_app_or in Iy as [Iy|Iy].
        * destruct (Forall2_in_r _ _ _ F y Iy) as (ar' & Ia' & Py). intros id (Q1 & Q2).
          apply (has_observed _ _ id (V ar b (or_introl eq_refl) Pb)) in Q1 as (x1 & J1 & K1).
          apply (has_observed _ _ id (V ar' y (or_intror Ia') Py)) in Q2 as (x2 & J2 & K2).
          assert (Eo : ob_out x1 = ob_out x2).
          { apply CO; [| |congruence]; apply in_flat_map; [exists ar | exists ar']; (split; [|assumption]); [now left | now right]. }
          apply in_history in J1 as (t1 & _ & J1). apply in_observations in J1 as (_ & P1 & _).
          apply in_history in J2 as (t2 & _ & J2). apply in_observations in J2 as (_ & P2 & _). rewrite Eo in P1.
          apply N1. rewrite (pays_fun H _ _ _ P1 P2). apply in_map. exact Ia'.
        * destruct (Ne y Iy) as (Z1 & Z2 & Z3 & Z4). apply empty_apart_r; assumption.
      + apply IH; [intros x I; apply Fo; now right | | intros x y I; apply V; now right | exact N2].
        intros x y Ix Iy. apply CO; cbn [flat_map]; apply in_or_app; now right. }
  assert (KD : Forall keyed (bs ++ ps)).
  { apply Forall_forall. intros b Ib. apply in_app_or in Ib as [Ib|Ib].
    - destruct (Forall2_in_r _ _ _ F b Ib) as (ar & Ia & Pb). exact (inv_keyed _ _ (V ar b Ia Pb)).
    - destruct (Ne b Ib) as (Z1 & Z2 & Z3 & Z4). unfold keyed. rewrite Z1, Z2, Z3, Z4. repeat split; constructor. }
  assert (W : w_outs (wb_own w) = flat_map w_outs (bs ++ ps)).
  { rewrite Eo. destruct info as [[h t] k]. cbn [with_chain w_outs]. rewrite (merged_concat bal_new (bs ++ ps) o M KD PW). reflexivity. }
  assert (P : Permutation (values (w_outs (wb_own w))) (flat_map (fun ar => unspent_outputs H (fst ar) (h_txns (snd ar))) own')).
  { rewrite W, flat_map_app. assert (Zp : flat_map w_outs ps = []).
    { clear - Ne. induction ps as [|b ps IH]; [reflexivity|]. cbn [flat_map]. rewrite (proj1 (Ne b (or_introl eq_refl))). apply IH. intros x I. apply Ne. now right. }
    rewrite Zp, app_nil_r. clear - F Fo An RH CO NC.
    assert (G : forall ar b, In ar own' -> plain H info (snd ar) b -> Permutation (values (w_outs b)) (unspent_outputs H (fst ar) (h_txns (snd ar)))).
    { intros [a r] b I Pb. cbn [fst snd] in *. destruct (Fo _ I) as (Ty & Str). cbn [fst snd] in *. destruct (answers_look H ip now net _ _ _ An a r I) as (n & L & _).
      apply (C49_outputs_partial H r (Some info) a None b Str); [| right; lia | exact Pb | | exact (NC a r I)].
      - apply (look_sorted H ip now net n a r L). intros x Ix. exact (RH a r x I Ix).
      - intros x y Ix Iy. apply CO; apply in_flat_map; exists (a, r); split; assumption. }
    clear - F G. induction F as [|ar b l bs Pb F IH]; [constructor|]. cbn [flat_map]. unfold values in *. rewrite map_app. apply Permutation_app; [apply G; [now left | exact Pb]|].
    apply IH. intros x y I. apply G. now right. }
  split; [exact P|]. rewrite (proj1 (C31_partition (wb_own w))), (worth_perm _ _ P). clear. induction own' as [|ar l IH]; [reflexivity|]. cbn [flat_map map sum]. rewrite worth_app, IH. reflexivity.
Qed.
Print Assumptions C62_amounts.

(** It succeeds whenever the balance of every single address found can be made, and no multi-signature address is reported twice. *)
Theorem C62_succeeds_partial : forall H ip_parse now net h t k addrs own multi, hash_ok H -> Forall (text_of H 1) addrs -> (0 < h)%Z -> (0 < t)%Z ->
  answers (lookup H ip_parse now net) 0 addrs own ->
  answers (lookup H ip_parse now net) (length addrs) (flat_map (fun ar => multisigs H (snd ar)) own) multi ->
  (forall a r, In (a, r) (own ++ multi) -> is_ok (result_balance H r (Some (h, t, k))) = true) ->
  (forall a r, In (a, r) multi -> Forall (fun x => no_definition (e_txn x)) (h_txns r)) ->
  NoDup (flat_map (fun ar => multisigs H (snd ar)) own) ->
  exists w, wallet_balance H ip_parse now net (h, t, k) addrs = Ok w.
Proof.
  intros H ip now net h t k addrs own multi HH T Ph Pt An Am R D ND. unfold wallet_balance.
  destruct (load_own_total H ip now net h t k 0 addrs own HH Ph Pt T An) with (w := wb_new) (ms := @nil pystr) as (w1 & E1 & F1 & M1).
  { apply Forall_forall. intros [a r] I. apply (R a r). apply in_or_app. now left. }
  { left. auto. }
  rewrite E1. cbn [bind fst snd app].
  destruct (load_multi_total H ip now net h t k (length addrs) _ multi Ph Pt Am ND) with (w := w1) (done := @nil pystr) as (w2 & E2).
  - apply Forall_forall. intros [a r] I. cbn [fst snd].
    destruct (answers_look H ip now net _ _ _ Am a r I) as (n & L & Ia).
    destruct (multi_look H ip now net own a n r HH) as (_ & R1 & R2); auto.
    { intros b s Ib. destruct (answers_look H ip now net _ _ _ An b s Ib) as (k' & L' & _). eauto. }
    split; [exact R1|]. split; [exact R2|]. split; [exact (D a r I)|]. apply (R a r). apply in_or_app. now right.
  - exact F1.
  - rewrite M1. intros m [].
  - intros s [].
  - rewrite E2. cbn [bind]. eauto.
Qed.
Print Assumptions C62_succeeds_partial.
(** *** Examples.  A wallet with three addresses, of which the last is unused; the first co-owns a multi-signature wallet. *)
Definition exl_text (c : cond) : pystr := match cond_address ex_H2 c with Ok s => s | Err _ => [] end.
Definition exl_own : list pystr := [exl_text (CUnlockHash exx_uh); exl_text (CUnlockHash (mkuh 1 (repeat 3 32))); exl_text (CUnlockHash (mkuh 1 (repeat 4 32)))].
Definition exl_resp (l : list json) (ms : list cond) : json :=
  JObj [("hashtype"%string, JStr (s2b "unlockhash")); ("transactions"%string, JArr l); ("multisigaddresses"%string, JArr (map (fun c => JStr (exl_text c)) ms))].
(** [twice]: the explorer also reports the multi-signature wallet for its second owner *)
Definition exl_net (twice : bool) (n : nat) (a : pystr) : res json :=
  if listN_eqb a (exl_text (CUnlockHash exx_uh)) then Ok (exl_resp [exx_mpay; exx_a2] [exx_multi])
  else if listN_eqb a (exl_text (CUnlockHash (mkuh 1 (repeat 3 32)))) then Ok (exl_resp [exx_a2] (if twice then [exx_multi] else []))
  else if listN_eqb a (exl_text exx_multi) then Ok (exl_resp [exx_mpay] [])
  else Err ExplorerNoContent.
Definition exl_look (twice : bool) := lookup ex_H2 ex_ip_parse 0 (exl_net twice).
Definition exl_info : Z * Z * bytes := (100, 1600000000, [])%Z.
Lemma exl_texts : Forall (text_of ex_H2 1) exl_own.
Proof.
  assert (A : forall n, n < 256 -> address (mkuh 1 (repeat n 32))).
  { intros n L. split; [cbn; auto|]. split; [split; [apply repeat_length|]|discriminate]. unfold wf_bytes. apply Forall_forall. intros x I. apply repeat_spec in I. subst. exact L. }
  assert (B : forall n, n < 256 -> text_of ex_H2 1 (exl_text (CUnlockHash (mkuh 1 (repeat n 32))))).
  { intros n L. exists (mkuh 1 (repeat n 32)). split; [exact (A n L)|]. split; [reflexivity|]. unfold exl_text, cond_address. cbn [cond_unlockhash bind].
    destruct (uh_str_ok ex_H2 (mkuh 1 (repeat n 32)) ex_H2_ok ltac:(cbn; lia)) as (c & _ & E). rewrite E. reflexivity. }
  apply Forall_cons; [apply (B 2); reflexivity|]. apply Forall_cons; [apply (B 3); reflexivity|]. apply Forall_cons; [apply (B 4); reflexivity|]. apply Forall_nil.
Qed.
Example C62_ex : hash_ok ex_H2 /\ Forall (text_of ex_H2 1) exl_own /\ NoDup exl_own /\
  exists w own multi, wallet_balance ex_H2 ex_ip_parse 0 (exl_net false) exl_info exl_own = Ok w /\
    answers (exl_look false) 0 exl_own own /\ answers (exl_look false) 3 (flat_map (fun ar => multisigs ex_H2 (snd ar)) own) multi /\
    length own = 2%nat /\ length multi = 1%nat /\
    available (wb_own w) = 29 /\ map fst (w_outs (wb_own w)) = [repeat 22 32; repeat 23 32] /\ map (fun m => (ms_count m, available (ms_bal m))) (wb_ms w) = [(1%Z, 10)].
Proof.
  split; [exact ex_H2_ok|]. split; [exact exl_texts|]. split.
  { unfold exl_own. repeat (constructor; [vm_compute; intuition discriminate|]). constructor. }
  do 3 eexists. split; [vm_compute; reflexivity|]. split.
  { unfold exl_own. apply A_found; [vm_compute; reflexivity|]. apply A_found; [vm_compute; reflexivity|]. apply A_unused; [vm_compute; reflexivity|]. apply A_none. }
  split. { match goal with |- answers _ _ ?l _ => let l' := eval vm_compute in l in change l with l' end. apply A_found; [vm_compute; reflexivity|]. apply A_none. }
  repeat split; vm_compute; reflexivity.
Qed.
(** Refuted: a wallet which owns two of the keys of a multi-signature wallet has no balance at all. *)
Theorem C62_both_owners_refuted : wallet_balance ex_H2 ex_ip_parse 0 (exl_net true) exl_info exl_own = Err AttributeError /\
  (forall a r, In a (exl_text exx_multi :: exl_own) -> exl_look true 0 a = Ok r -> is_ok (result_balance ex_H2 r (Some exl_info)) = true).
Proof.
  split; [vm_compute; reflexivity|]. intros a r I E. unfold exl_own in I.
  destruct I as [<-|[<-|[<-|[<-|[]]]]]; revert E; intro E; vm_compute in E;
    try discriminate E; apply ok_inj in E; subst r; vm_compute; reflexivity.
Qed.
Print Assumptions C62_both_owners_refuted.
(** Refuted: while the last block is the genesis block (height 0), a wallet with any activity has no balance. *)
Theorem C62_genesis_refuted : forall H ip_parse now net t k a addrs r, hash_ok H -> text_of H 1 a -> (0 < t)%Z ->
  lookup H ip_parse now net 0 a = Ok r -> is_ok (result_balance H r (Some (0, t, k)%Z)) = true ->
  wallet_balance H ip_parse now net (0, t, k)%Z (a :: addrs) = Err ValueError.
Proof.
  intros H ip now net t k a addrs r HH Ta Pt L R. unfold wallet_balance. cbn [load_own]. rewrite L.
  destruct (result_balance H r (Some (0, t, k)%Z)) as [[m b]|] eqn:E; [|discriminate R]. cbn [bind].
  destruct (lookup_text H ip now net 1 0 a r HH Ta L) as (_ & Ty & _). pose proof (plain_type H (0, t, k)%Z r _ ltac:(lia) E) as Pm. cbn [fst] in Pm. subst m.
  destruct (C49_context H r 0 t k None b E) as (Bh & Bt & _). unfold wb_add. cbn [fst snd]. unfold balance_add. cbn [wb_own wb_new bal_new w_height w_time]. rewrite Bh, Bt.
  change (0 <=? 0)%Z with true. cbv iota. assert (negb (0 <? t)%Z = false) as -> by lia. reflexivity.
Qed.
Print Assumptions C62_genesis_refuted.
Example C62_ex_genesis : exists r, exl_look false 0 (exl_text (CUnlockHash exx_uh)) = Ok r /\ is_ok (result_balance ex_H2 r (Some (0, 1600000000, [])%Z)) = true.
Proof. eexists. split; [vm_compute; reflexivity|]. vm_compute. reflexivity. Qed.

(** ** C63 *)
(** When every address has been used: every transaction of every address is listed, no id twice, newest first. *)
Theorem C63_transactions_partial : forall H ip_parse now net shuffle addrs l, (forall m, Permutation m (shuffle m)) ->
  wallet_transactions H ip_parse now net shuffle addrs = Ok l ->
  exists own, answers (lookup H ip_parse now net) 0 addrs own /\ map fst own = addrs /\
    NoDup (map e_id l) /\ (forall x, In x l -> exists a r, In (a, r) own /\ In x (h_txns r)) /\
    (forall a r x, In (a, r) own -> In x (h_txns r) -> exists y, In y l /\ e_id y = e_id x) /\
    (real_heights own -> StronglySorted newer l).
Proof.
  intros H ip now net sh addrs l P E. unfold wallet_transactions in E. apply bind_ok in E as (m & Em & E). apply ok_inj in E. subst l.
  apply collect_inv in Em as (own & A & M & N & I1 & _ & I3); [|constructor]. exists own. split; [exact A|]. split; [exact M|].
  assert (Q : Permutation m (sort_desc (sh m))) by (eapply perm_trans; [apply P | apply sort_perm]).
  assert (I1' : forall x, In x m -> exists a r, In (a, r) own /\ In x (h_txns r)) by (intros x I; destruct (I1 x I) as [[]|?]; assumption).
  split; [exact (Permutation_NoDup (Permutation_map _ Q) N)|].
  split; [intros x I; exact (I1' x (Permutation_in _ (Permutation_sym Q) I))|].
  split; [intros a r x Ia Ix; destruct (I3 a r x Ia Ix) as (y & Iy & Ey); exists y; split; [exact (Permutation_in _ Q Iy) | exact Ey]|].
  intro RH. apply sort_newer; intros x I; apply (Permutation_in _ (Permutation_sym (P m))) in I; destruct (I1' x I) as (a & r & Ia & Ix).
  - destruct (answers_look H ip now net _ _ _ A a r Ia) as (n & L & _). exact (look_stated H ip now net n a r x L Ix).
  - exact (RH a r x Ia Ix).
Qed.
Print Assumptions C63_transactions_partial.
(** If nothing changes while the addresses are looked up (an id stands for one transaction), it is exactly the set of their transactions. *)
Theorem C63_exact_partial : forall H ip_parse now net shuffle addrs l own, (forall m, Permutation m (shuffle m)) ->
  wallet_transactions H ip_parse now net shuffle addrs = Ok l -> answers (lookup H ip_parse now net) 0 addrs own ->
  (forall a r x b s y, In (a, r) own -> In x (h_txns r) -> In (b, s) own -> In y (h_txns s) -> e_id x = e_id y -> x = y) ->
  NoDup l /\ forall x, In x l <-> exists a r, In (a, r) own /\ In x (h_txns r).
Proof.
  intros H ip now net sh addrs l own P E A U. apply C63_transactions_partial in E as (own' & A' & _ & N & I1 & I2 & _); [|exact P].
  rewrite (answers_fun H ip now net _ _ _ A own' A') in *. split; [exact (NoDup_map_inv _ _ N)|]. intro x. split; [apply I1|]. intros (a & r & Ia & Ix).
  destruct (I2 a r x Ia Ix) as (y & Iy & Ey). destruct (I1 y Iy) as (b & s & Ib & Iy'). rewrite (U a r x b s y Ia Ix Ib Iy' (eq_sym Ey)). exact Iy.
Qed.
Print Assumptions C63_exact_partial.
(** Refuted: a wallet with an address that was not used yet has no list of transactions; nor has a new wallet, nor any wallet after a new
    address was made. *)
Theorem C63_unused_refuted : forall H ip_parse now net shuffle addrs a unused own, answers (lookup H ip_parse now net) 0 addrs own -> map fst own = addrs ->
  lookup H ip_parse now net (length addrs) a = Err ExplorerNoContent ->
  wallet_transactions H ip_parse now net shuffle (addrs ++ a :: unused) = Err ExplorerNoContent.
Proof.
  intros H ip now net sh addrs a un own A M L. unfold wallet_transactions.
  assert (G : forall n l, answers (lookup H ip now net) n addrs own -> lookup H ip now net (n + length addrs) a = Err ExplorerNoContent ->
    collect H ip now net n (addrs ++ a :: un) l = Err ExplorerNoContent); [|rewrite (G 0%nat [] A L); reflexivity].
  clear A L. revert own M. induction addrs as [|b addrs IH]; intros own M n l A L; cbn [app collect].
  - cbn [length] in L. rewrite Nat.add_0_r in L. rewrite L. reflexivity.
  - inversion A as [|n' a' l' r' E A'|n' a' x l' r' E A']; subst; cbn [map] in M.
    + exfalso. pose proof (answers_length _ _ _ _ A') as Q. apply (f_equal (@length pystr)) in M. rewrite map_length in M. cbn [length] in M. lia.
    + rewrite E. cbn [bind]. injection M as M. apply (IH r' M); [exact A'|]. cbn [length] in L. rewrite Nat.add_succ_comm. exact L.
Qed.
Print Assumptions C63_unused_refuted.
Theorem C63_new_wallet_refuted : forall H ip_parse now net shuffle a, lookup H ip_parse now net 0 a = Err ExplorerNoContent ->
  wallet_transactions H ip_parse now net shuffle [a] = Err ExplorerNoContent.
Proof. intros H ip now net sh a L. exact (C63_unused_refuted H ip now net sh [] a [] [] (A_none _ _) eq_refl L). Qed.
Print Assumptions C63_new_wallet_refuted.
Example C63_ex : exists l, wallet_transactions ex_H2 ex_ip_parse 0 (exl_net false) (@rev etx) (firstn 2 exl_own) = Ok l /\
  (forall m : list etx, Permutation m (rev m)) /\ map e_id l = [repeat 32 32; repeat 31 32] /\ map e_height l = [9; 7]%Z /\
  wallet_transactions ex_H2 ex_ip_parse 0 (exl_net false) (@rev etx) exl_own = Err ExplorerNoContent.
Proof.
  eexists. split; [vm_compute; reflexivity|]. split; [intro m; apply Permutation_rev|]. repeat split; vm_compute; reflexivity.
Qed.
