(** Funding from a single multi-signature wallet. *)
From Verif Require Import Base BaseFacts Encoders Primitive Types Conditions Fulfillments ThreeBotTypes Txn Wallet Spec_Wallet WalletFacts FundFacts FundFacts2 FundFacts3.
From Coq Require Import ZifyBool ZifyNat ZifyN Permutation.
Ltac Zify.zify_post_hook ::= Z.div_mod_to_equations.

Section Hash.
Variable H : bytes -> bytes.
Lemma uh_eqb_true u v : uh_eqb u v = true -> u = v.
Proof. intro E. unfold uh_eqb in E. apply andb_prop in E as [P1 P2]. apply Z.eqb_eq in P1. apply listN_eqb_eq in P2. destruct u, v; cbn [Types.uh_type Types.uh_hash] in *; congruence. Qed.
Lemma multisig_skip l amount u z coll : ~ In u (map ms_addr l) -> fund_multisig l amount [u] z coll = (z, coll) /\ ms_pool [u] l = [].
Proof.
  induction l as [|m l IH]; cbn [fund_multisig map]; intro N; [auto|]. assert (X : existsb (uh_eqb (ms_addr m)) [u] = false).
  { destruct (existsb _ _) eqn:X; [|reflexivity]. apply existsb_exists in X as (v & [<-|[]] & X). apply uh_eqb_true in X. exfalso. apply N. left. exact X. }
  rewrite X. cbn [negb]. destruct IH as (IH1 & IH2); [intro I; apply N; now right|]. split; [exact IH1|]. unfold ms_pool in *. cbn [flat_map]. rewrite X. exact IH2.
Qed.
Lemma multisig_one l amount u outs coll : NoDup (map ms_addr l) -> 0 < amount -> fund_multisig l amount [u] [] 0 = (outs, coll) ->
  coll < amount -> forall s, selection s (ms_pool [u] l) -> (length s <= 99)%nat -> worth s < amount.
Proof.
  intros ND Pos. revert outs coll. induction l as [|m l IH]; intros outs coll E Lt s Ss Ls.
  { destruct Ss as [r Ss]. cbn in Ss. apply Permutation_sym, Permutation_nil, app_eq_nil in Ss as [-> _]. unfold worth. cbn. exact Pos. }
  cbn [map] in ND. inversion ND as [|? ? N1 N2]; subst. cbn [fund_multisig] in E. unfold ms_pool in Ss. cbn [flat_map] in Ss. fold (ms_pool [u] l) in Ss.
  destruct (existsb (uh_eqb (ms_addr m)) [u]) eqn:X; cbn [negb] in E; [|exact (IH N2 _ _ E Lt s Ss Ls)].
  assert (Eu : ms_addr m = u) by (apply existsb_exists in X as (v & [<-|[]] & X); exact (uh_eqb_true _ _ X)). rewrite Eu in N1.
  set (c := outputs_available (ms_bal m)) in *. set (v := outputs_unconfirmed_available (ms_bal m)) in *.
  pose proof (pick_spec amount (sort_asc c) []) as P1. cbn [app] in P1. change (lastn 99 []) with (@nil output) in P1. change (worth []) with 0 in P1.
  destruct P1 as [(i & Li & s1 & Es & A & Sel)|[Es W1]]; rewrite Es in E; [injection E as <- <-; lia|].
  destruct (amount <=? worth (lastn 99 (sort_asc c))) eqn:E1; [injection E as <- <-; lia|].
  pose proof (pick_spec amount (sort_desc v) (sort_asc c)) as P2.
  destruct P2 as [(i & Li & s1 & Es2 & A & Sel)|[Es2 W2]]; rewrite Es2 in E; [injection E as <- <-; lia|].
  destruct (multisig_skip l amount u (lastn 99 (sort_asc c ++ sort_desc v)) (worth (lastn 99 (sort_asc c ++ sort_desc v))) N1) as (_ & Pn).
  rewrite Pn, app_nil_r in Ss. apply (best amount c v s); [|exact Ss|exact Ls].
  intros [|i] Li; [cbn [firstn]; rewrite app_nil_r; lia|]. apply W2. unfold sort_desc. rewrite (Permutation_length (sort_by_perm _ v)). lia.
Qed.
Lemma fund_shared w amount u : uh_type u = 3%Z -> NoDup (map ms_addr (wb_ms w)) -> Forall (fun o => is_ok (from_condition (o_cond o)) = true) (pool H w (Some [u])) -> 0 < amount ->
  match fund H w amount (Some [u]) with
  | Ok _ => exists s, selection s (pool H w (Some [u])) /\ (length s <= 99)%nat /\ amount <= worth s
  | Err e => e = InsufficientFunds /\ forall s, selection s (pool H w (Some [u])) -> (length s <= 99)%nat -> worth s < amount
  end.
Proof.
  intros Ty ND U Pos. destruct (fund H w amount (Some [u])) as [[[ins rem] rf]|e] eqn:E.
  { apply fund_ok in E as (outs & _ & Ss & Ls & W). exists outs. split; [exact Ss|]. split; [exact Ls|]. lia. }
  assert (Ep : pool H w (Some [u]) = ms_pool [u] (wb_ms w)).
  { unfold pool, personal. cbn [filter]. rewrite Ty. change (3 =? 3)%Z with true. cbn [negb]. rewrite filter_none; [reflexivity|]. intros o _. unfold pays_to. destruct (cond_unlockhash H (o_cond o)); reflexivity. }
  rewrite Ep in *. unfold fund, fund_outputs, fund_addresses in E. cbn [forallb filter] in E. rewrite Ty in E. change (3 =? UH_MULTI_SIG)%Z with true in E. cbn [orb andb guard bind negb length Nat.eqb] in E.
  destruct (amount <=? 0) eqn:Z0; [lia|]. cbn [guard bind] in E.
  destruct (fund_multisig (wb_ms w) amount [u] [] 0) as [outs coll] eqn:F.
  pose proof (multisig_ok (wb_ms w) amount [u] [] outs coll F) as (Q1 & Q2 & Q3). cbn [app] in Q3.
  destruct (amount <=? coll) eqn:G; cbn [guard bind] in E.
  - destruct (inputs_total outs) as (ins & Ei); [|rewrite Ei in E; discriminate E]. rewrite Forall_forall in *. intros o I. apply U. exact (sel_incl _ _ Q3 o I).
  - injection E as <-. split; [reflexivity|]. apply (multisig_one _ _ _ _ _ ND Pos F). lia.
Qed.
End Hash.
