(** Facts about the transactions a wallet builds (C36) and the transaction builder (C51). *)
From Verif Require Import Base BaseFacts Encoders Primitive Types Conditions Fulfillments ThreeBotTypes Txn Wallet Spec_Wallet WalletFacts WalletFacts2 FundFacts FundFacts2 FundFacts3.
From Coq Require Import ZifyBool ZifyNat ZifyN.
Ltac Zify.zify_post_hook ::= Z.div_mod_to_equations.

Section Hash.
Variable H : bytes -> bytes.

Lemma fund_refund w amount source ins rem refund given primary : fund H w amount source = Ok (ins, rem, refund) ->
  refund_cond primary given refund = refund_to w primary source given.
Proof.
  unfold fund, fund_outputs. intro E. apply bind_ok in E as ([[outs coll] rf] & E1 & E). apply bind_ok in E as (i & Ei & E). apply ok_inj in E. injection E as _ _ ->.
  apply bind_ok in E1 as ([[addrs ms] rf] & Ea & E1).
  assert (refund = rf) as ->.
  { apply bind_ok in E1 as (? & _ & E1). apply bind_ok in E1 as ([o1 c1] & _ & E1). destruct (amount <=? c1).
    - apply ok_inj in E1. now injection E1.
    - apply bind_ok in E1 as (? & _ & E1). destruct (fund_multisig (wb_ms w) amount ms o1 c1). apply bind_ok in E1 as (? & _ & E1). apply ok_inj in E1. now injection E1. }
  clear E1. unfold refund_cond, refund_to. destruct given; [reflexivity|]. destruct source as [s|]; cbn in Ea.
  - apply bind_ok in Ea as (? & _ & Ea). apply ok_inj in Ea. injection Ea as _ _ <-. destruct s as [|u [|v s]]; try reflexivity.
    change UH_PUBLIC_KEY with 1%Z. destruct (uh_type u =? 1)%Z; [reflexivity|]. now destruct (find _ _).
  - apply bind_ok in Ea as (? & _ & Ea). apply ok_inj in Ea. now injection Ea as _ _ <-.
Qed.
Lemma worth_cons o l : worth (o :: l) = o_value o + worth l.
Proof. reflexivity. Qed.
Lemma worth_nil : worth [] = 0.
Proof. reflexivity. Qed.
Lemma pays_worth l : worth (map (fun p : cond * N => mkout (snd p) (fst p) []) l) = sum (map snd l).
Proof. unfold worth. induction l as [|p l IH]; cbn; [reflexivity|]. now rewrite IH. Qed.
Lemma fold_sum l : fold_right N.add 0 l = sum l.
Proof. induction l as [|x l IH]; cbn; [reflexivity|]. now rewrite IH. Qed.
Lemma change_eq r c : (if 0 <? r then [mkout r c []] else []) = change r c.
Proof. unfold change. destruct (0 <? r) eqn:E; destruct (r =? 0) eqn:E2; try lia; reflexivity. Qed.
Lemma change_worth r c : worth (change r c) = r.
Proof. unfold change. destruct (r =? 0) eqn:E; unfold worth; cbn; lia. Qed.

Lemma send_ok w fee primary pays source given data t : send_build H w fee primary pays source given data = Ok t ->
  conserves t 0 /\
  exists ins used rem, t = T1 (mkstd false ins (map (fun p => mkout (snd p) (fst p) []) pays ++ change rem (refund_to w primary source given)) [] [] [fee] data) /\
    Forall2 spends ins used /\ selection used (pool H w source) /\ (length used <= 99)%nat /\ (length data <= 83)%nat.
Proof.
  unfold send_build. rewrite fold_sum. intro E. apply bind_ok in E as ([[ins rem] sug] & Ef & E). apply bind_ok in E as (d & Ed & E).
  unfold data_new in Ed. apply bind_ok in Ed as (? & G & Ed). apply guard_ok in G. apply ok_inj in Ed. subst d.
  rewrite change_eq in E. rewrite (fund_refund _ _ _ _ _ _ given primary Ef) in E. apply ok_inj in E. subst t.
  apply fund_ok in Ef as (used & S & P & L & W).
  split.
  - exists ins. split; [reflexivity|]. cbn [coin_outputs miner_fees s_cout s_fees]. rewrite worth_app, pays_worth, change_worth. rewrite (spends_worth _ _ S), W. cbn [sum]. lia.
  - exists ins, used, rem. repeat split; auto. lia.
Qed.
Lemma contract_ok now w fee primary receiver amount sh lock source given data t :
  create_contract H now w fee primary receiver amount sh lock source given data = Ok t ->
  conserves t 0 /\ fee < amount /\
  exists ins used rem sender, t = T1 (mkstd false ins (mkout amount (CSwap sender receiver (Some sh) lock) [] :: change rem (refund_to w primary source given)) [] [] [fee] data) /\
    sender = (match refund_to w primary source given with CUnlockHash u => u | _ => primary end) /\
    (500000000 <= lock)%Z /\ (uh_type receiver = 0 \/ uh_type receiver = 1)%Z /\ (uh_type sender = 0 \/ uh_type sender = 1)%Z /\
    Forall2 spends ins used /\ selection used (pool H w source) /\ (length used <= 99)%nat /\ (length data <= 83)%nat.
Proof.
  unfold create_contract. intro E. apply bind_ok in E as (? & _ & E). apply bind_ok in E as (? & G & E). apply guard_ok in G.
  apply bind_ok in E as ([[ins rem] sug] & Ef & E).
  rewrite change_eq in E. rewrite (fund_refund _ _ _ _ _ _ given primary Ef) in E.
  apply bind_ok in E as (d & Ed & E). unfold data_new in Ed. apply bind_ok in Ed as (? & G2 & Ed). apply guard_ok in G2. apply ok_inj in Ed. subst d.
  apply bind_ok in E as (se & Es & E). apply bind_ok in E as (re & Er & E). apply bind_ok in E as (l & El & E). apply ok_inj in E. subst t.
  unfold swap_party in Es, Er. apply bind_ok in Es as (? & G3 & Es). apply guard_ok in G3. apply ok_inj in Es.
  apply bind_ok in Er as (? & G4 & Er). apply guard_ok in G4. apply ok_inj in Er. subst re.
  unfold swap_lock in El. apply bind_ok in El as (l' & El' & El). apply bind_ok in El as (? & G5 & El). apply guard_ok in G5. apply ok_inj in El. subst l'.
  cbn in El'. destruct (lock <? 0)%Z eqn:Lk; [easy|]. apply ok_inj in El'. subst l.
  apply fund_ok in Ef as (used & S & P & L & W).
  split; [|split; [lia|]].
  - exists ins. split; [reflexivity|]. cbn [coin_outputs miner_fees s_cout s_fees]. rewrite worth_cons, change_worth. cbn [o_value]. rewrite (spends_worth _ _ S), W. cbn [sum]. lia.
  - exists ins, used, rem, se. rewrite <- Es in *. unfold lock_is_timestamp in G5. change (500 * 1000 * 1000)%Z with 500000000%Z in G5. repeat split; auto; lia.
Qed.
Lemma refunds_change r c : refunds (if 0 <? r then Some (mkout r c []) else None) = change r c.
Proof. unfold change. destruct (0 <? r) eqn:E; destruct (r =? 0) eqn:E2; try lia; reflexivity. Qed.
Lemma special_ok w fee cost primary t source given t' : special_build H w fee cost primary t source given = Ok t' ->
  conserves t' cost /\ version t' = version t /\ miner_fees t' = [fee] /\
  exists ins used rem, coin_inputs t' = Ok ins /\ coin_outputs t' = change rem (refund_to w primary source given) /\
    Forall2 spends ins used /\ selection used (pool H w source) /\ (length used <= 99)%nat.
Proof.
  unfold special_build, fund_txn. intro E. apply bind_ok in E as (f & Ef & E). apply bind_ok in Ef as ([[ins rem] sug] & Eff & Ef).
  rewrite (fund_refund _ _ _ _ _ _ given primary Eff) in Ef. apply ok_inj in Ef. subst f. apply fund_ok in Eff as (used & S & P & L & W).
  set (R := refund_to w primary source given) in *. clearbody R.
  assert (Key : coin_inputs t' = Ok ins /\ coin_outputs t' = change rem R /\ miner_fees t' = [fee] /\ version t' = version t).
  { unfold set_funding in E. destruct t; try discriminate; apply ok_inj in E; subst t'; rewrite <- (refunds_change rem R); repeat split. }
  destruct Key as (K1 & K2 & K3 & K4). split; [|repeat split; auto].
  - exists ins. split; [exact K1|]. rewrite K2, K3, change_worth, (spends_worth _ _ S), W. cbn [sum]. lia.
  - exists ins, used, rem. repeat split; auto.
Qed.

(** ** The builder: any sequence of calls *)
Inductive bcall := BAdd (recipient : cond) (amount : N) | BSend (w : wbal) (fee : N) (primary : uh) (source : option (list uh)) (given : option cond) (data : bytes).
Inductive bres := RAdd (r : res unit) | RSend (r : res txn).
Definition bstep (b : builder) (c : bcall) : builder * bres :=
  match c with
  | BAdd r a => let '(b, x) := builder_add b r a in (b, RAdd x)
  | BSend w f p s g d => let '(b, x) := builder_send H b w f p s g d in (b, RSend x)
  end.
Fixpoint brun (b : builder) (cs : list bcall) : list bres :=
  match cs with [] => [] | c :: cs => let '(b, r) := bstep b c in r :: brun b cs end.
(** the accepted outputs of a list of additions *)
Fixpoint added (cs : list bcall) : list (cond * N) :=
  match cs with
  | [] => []
  | BAdd r a :: cs => if 0 <? a then (r, a) :: added cs else added cs
  | BSend _ _ _ _ _ _ :: cs => added cs
  end.
Definition is_send (c : bcall) : bool := match c with BSend _ _ _ _ _ _ => true | _ => false end.
Definition refused (r : bres) : Prop := match r with RAdd x => x = Err RuntimeError | RSend x => x = Err AttributeError end.
Lemma brun_consumed cs : Forall refused (brun None cs).
Proof. induction cs as [|c cs IH]; [constructor|]. destruct c; cbn; constructor; auto; reflexivity. Qed.
Lemma brun_adds cs : forall l rest, forallb (fun c => negb (is_send c)) cs = true ->
  brun (Some l) (cs ++ rest) = map (fun c => match c with BAdd _ a => RAdd (if 0 <? a then Ok tt else Err ValueError) | _ => RAdd (Ok tt) end) cs ++ brun (Some (l ++ added cs)) rest.
Proof.
  induction cs as [|c cs IH]; intros l rest F; cbn [added app map]; [now rewrite app_nil_r|].
  cbn in F. destruct c as [r a|]; [|easy]. cbn [brun bstep builder_add]. destruct (0 <? a); cbn; f_equal; rewrite IH by exact F; [rewrite <- app_assoc|]; reflexivity.
Qed.
Lemma builder_once adds w f p s g d rest : forallb (fun c => negb (is_send c)) adds = true ->
  exists ra, length ra = length adds /\
  exists rr, brun builder_new (adds ++ BSend w f p s g d :: rest) = ra ++ RSend (send_build H w f p (added adds) s g d) :: rr /\ Forall refused rr.
Proof.
  intro F. unfold builder_new. rewrite (brun_adds adds [] _ F). eexists. split; [apply map_length|]. eexists. cbn. split; [reflexivity|]. apply brun_consumed.
Qed.
End Hash.
