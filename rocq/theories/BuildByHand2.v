(** Facts about building transactions by hand (C85): refused steps, and what can be reached. *)
From Verif Require Import Base BaseFacts Encoders Primitive Types Conditions Fulfillments Currency ThreeBotTypes Txn TxnBuild Spec_Types Spec_Currency Spec_Amounts Spec_ERC20 Spec_Texts Spec_ThreeBot Spec_Build
  BuildByHand.
From Coq Require Import ZifyBool ZifyNat ZifyN.
Ltac Zify.zify_post_hook ::= Z.div_mod_to_equations.

(** ** Refused steps *)
Lemma put_err {A} (old : A) new x e : put old new = (x, Err e) -> x = old.
Proof. destruct new; cbn [put]; [discriminate|]. now intros [= <- _]. Qed.
Lemma add_err {A} (l : list A) new l' e : add l new = (l', Err e) -> l' = l.
Proof. destruct new; cbn [add]; [discriminate|]. now intros [= <- _]. Qed.
Lemma add_most_err {A} n (l : list A) new l' e : add_most n l new = (l', Err e) -> l' = l.
Proof. unfold add_most. destruct (_ =? _)%nat; [now intros [= <- _]|]. apply add_err. Qed.
Lemma add_opt_err l new l' e : add_opt l new = (l', Err e) -> l' = l.
Proof. unfold add_opt. destruct new; [|now intros [= <- _]]. destruct l; [discriminate|now intros [= <- _]]. Qed.
Lemma add_all_err {A B} (one : list B -> A -> list B * res unit) : (forall l v l' e, one l v = (l', Err e) -> l' = l) ->
  forall vs l l' e, add_all one l vs = (l', Err e) -> exists ok x rest, vs = ok ++ x :: rest /\ add_all one l ok = (l', Ok tt).
Proof.
  intros O vs. induction vs as [|v vs IH]; intros l l' e E; cbn [add_all] in E; [discriminate|].
  destruct (one l v) as (l1 & [[]|e1]) eqn:F.
  - destruct (IH _ _ _ E) as (ok & x & rest & -> & G). exists (v :: ok), x, rest. split; [reflexivity|]. cbn [add_all]. now rewrite F.
  - injection E as <- <-. apply O in F. subst l1. exists [], v, vs. auto.
Qed.
Lemma assign_err {A B} (one : list B -> A -> list B * res unit) : (forall l v l' e, one l v = (l', Err e) -> l' = l) ->
  forall start v l' e, assign one start v = (l', Err e) -> exists v', cut_short v v' /\ assign one start v' = (l', Ok tt).
Proof.
  intros O start v l' e E. destruct v as [|vs|]; cbn [assign] in E; [discriminate| |].
  - destruct (add_all_err one O _ _ _ _ E) as (ok & x & rest & -> & G). exists (SGList ok). split; [left; eauto|exact G].
  - injection E as <- _. exists SGNone. split; [right; auto|reflexivity].
Qed.
Lemma outs_err v l' e : assign one_output [] (outs_arg v) = (l', Err e) -> exists v', outputs_cut_short v v' /\ assign one_output [] (outs_arg v') = (l', Ok tt).
Proof.
  intro E. destruct v as [|vs|o|]; cbn [outs_arg assign] in E; [discriminate| | |].
  - destruct (add_all_err one_output (fun l v l' e => add_err l _ l' e) _ _ _ _ E) as (ok & x & rest & -> & G). exists (OLList ok). split; [left; eauto|exact G].
  - injection E as <- _. exists OLNone. split; [right; eauto|reflexivity].
  - injection E as <- _. exists OLNone. split; [right; eauto|reflexivity].
Qed.
Lemma part_err {A} (f : A -> txn) r t' e : part f r = (t', Err e) -> exists a, r = (a, Err e) /\ t' = f a.
Proof. unfold part. destruct r as (a & u). cbn [fst snd]. intros [= <- ->]. eauto. Qed.
Lemma part_ok {A} (f : A -> txn) a : part f (a, Ok tt) = (f a, Ok tt).
Proof. reflexivity. Qed.

Ltac refused E :=
  match type of E with
  | part _ (put _ _) = _ => apply part_err in E as (? & E & ->); apply put_err in E; subst
  | part _ (add _ _) = _ => apply part_err in E as (? & E & ->); apply add_err in E; subst
  | part _ (add_opt _ _) = _ => apply part_err in E as (? & E & ->); apply add_opt_err in E; subst
  | part _ (one_addr _ _ _) = _ => apply part_err in E as (? & E & ->); apply add_most_err in E; subst
  | part _ (one_name _ _) = _ => apply part_err in E as (? & E & ->); apply add_most_err in E; subst
  end.
Ltac open_step E := cbn [step] in E; unfold step_std, step_mint, step_conv, step_gen, step_reg, step_bot, step_upd, step_name in E; cbv zeta in E.
Lemma refused_unchanged H parse t o t' e : step H parse t o = (t', Err e) -> ~ list_assigned o -> t' = t.
Proof.
  intros E NL. destruct t as [t|t|t|t|t|t|t|t]; open_step E;
  destruct o; try (exfalso; apply NL; exact I); try (destruct (m_new t) eqn:M);
  first [congruence | refused E; destruct t; cbn in *; subst; reflexivity].
Qed.
Lemma refused_stopped H parse t o t' e : step H parse t o = (t', Err e) -> t' = t \/ exists o', shorter o o' /\ step H parse t o' = (t', Ok tt).
Proof.
  intro E. assert (D : list_assigned o \/ ~ list_assigned o) by (destruct o; cbn; tauto). destruct D as [L|NL]; [|left; eapply refused_unchanged; eauto].
  destruct t as [t|t|t|t|t|t|t|t]; open_step E;
  destruct o; try contradiction; try (destruct (m_new t) eqn:M);
  try (left; congruence);
  try (left; refused E; destruct t; cbn in *; subst; reflexivity);
  right; apply part_err in E as (? & E & ->);
  first [apply outs_err in E as (v' & C & E)
        |apply (assign_err one_input (fun l v l' e => add_err l _ l' e)) in E as (v' & C & E)
        |apply (assign_err one_output (fun l v l' e => add_err l _ l' e)) in E as (v' & C & E)
        |apply (assign_err (one_addr parse) (fun l v l' e => add_most_err _ l _ l' e)) in E as (v' & C & E)
        |apply (assign_err one_name (fun l v l' e => add_most_err _ l _ l' e)) in E as (v' & C & E)];
  match goal with |- exists o', shorter (?f _) o' /\ _ => exists (f v') end; (split; [exact C|]);
  cbn [step]; unfold step_std, step_mint, step_conv, step_gen, step_reg, step_bot, step_upd, step_name; cbv zeta; try rewrite M; rewrite E; reflexivity.
Qed.

(** ** What can be reached *)
Section Reach.
Variable parse : pystr -> res bytes.
Lemma given_size text n v b : bytes_given text n v b -> of_size n b.
Proof. destruct v; cbn [bytes_given]; [intros ->; now left|tauto|tauto|tauto|contradiction]. Qed.
Lemma listed_made {A B} (R : A -> B -> Prop) (G : A -> Prop) (P : B -> Prop) v l : (forall a b, R a b -> G a -> P b) -> listed R v l -> each_of G v -> Forall P l.
Proof.
  intros I [(-> & ->)|(vs & -> & F)] E; [constructor|]. cbn [each_of] in E. induction F as [|a b vs l X F IH]; [constructor|]. inversion E; subst. constructor; eauto.
Qed.
Lemma copied_made v i : copied_input v i -> genuine_in v -> made_input i /\ i_out i <> None.
Proof.
  intros (x & -> & P & _ & O & N) (G & Q). split; [|exact N]. split; [now rewrite P|]. destruct O as [O|(O & O')].
  - now rewrite O.
  - rewrite O'. now left.
Qed.
Lemma inputs_made v l : listed copied_input v l -> each_of genuine_in v -> Forall made_input l.
Proof. apply listed_made. intros a b R G. now apply (copied_made a). Qed.
Lemma stake_inputs_made v l : listed copied_input v l -> each_of genuine_in v -> Forall (fun i => made_input i /\ i_out i <> None) l.
Proof. apply listed_made. exact copied_made. Qed.
Lemma stake_outputs_made v l : listed copied_output v l -> each_of genuine_out v -> Forall made_output l.
Proof. apply listed_made. intros a b -> G. exact G. Qed.
Lemma outputs_made v l : outputs_listed v l -> genuine parse (CoinOutputs v) -> Forall made_output l.
Proof. intros [(-> & ->)| ->] G; [constructor|]. cbn [genuine] in G. induction l as [|x l IH]; [constructor|]. inversion G; subst. constructor; auto. Qed.
Lemma refund_made v r : refund_given v r -> genuine parse (CoinOutputs v) -> made_refund r.
Proof. destruct r as [x|]; cbn [refund_given made_refund]; [|auto]. intros [-> | ->] G; [exact G|]. cbn [genuine] in G. now inversion G. Qed.
Lemma output_made v c i o : output_given v c i o -> made_output o.
Proof. intros (_ & _ & G). eapply given_size. exact G. Qed.
Lemma stake_output_made v c i o : stake_output_given v c i o -> made_output o.
Proof. intros (_ & _ & G). eapply given_size. exact G. Qed.
Lemma input_made p f x i : input_given p f x i -> genuine_out x -> made_input i.
Proof. intros (G & _ & [(-> & E)|(y & -> & E)]) Q; (split; [eapply given_size; exact G|rewrite E; auto]). Qed.
Lemma stake_input_made p f x i : stake_input_given p f x i -> genuine_out x -> made_input i /\ i_out i <> None.
Proof. intros (G & _ & [(-> & E)|(y & -> & E)]) Q; (split; [split; [eapply given_size; exact G|rewrite E; auto]|rewrite E; discriminate]). now left. Qed.
Lemma attached_made v b : attached v b -> (length b <= 83)%nat.
Proof. intros [(_ & ->)|(L & _)]; [cbn [length]; lia|exact L]. Qed.
Lemma signature_made v s : signature_given v s -> made_signature s.
Proof. intros [(_ & ->)|(_ & (a & b) & -> & A & G)]; [exact I|]. split; [exact A|]. eapply given_size. exact G. Qed.
Lemma name_made v s : name_given v s -> made_name s.
Proof. intros [(_ & ->)|(_ & G)]; [now left|now right]. Qed.
Lemma address_made v a : address_given parse v a -> genuine_address parse v -> made_address parse a.
Proof.
  intros G Q. destruct v as [[t|z|b]|].
  - exists (AGVal (NVText t)). split; [discriminate|exact G].
  - exists (AGVal (NVInt z)). split; [discriminate|exact G].
  - destruct G as [([=] & _)|[(s & [=] & _)|[(z & p & [=] & _)|(E & _)]]]. injection E as ->. exact Q.
  - exists AGOther. split; [discriminate|exact G].
Qed.
Lemma addresses_made v l : listed (address_given parse) v l -> room 10 l -> each_of (genuine_address parse) v -> made_addresses parse l.
Proof. intros L R E. split; [exact R|]. revert L E. apply listed_made. exact address_made. Qed.
Lemma names_made v l : listed name_given v l -> Forall made_name l.
Proof. intros L. assert (E : each_of (fun _ : namearg => True) v) by (destruct v; cbn; auto; now apply Forall_forall). revert L E. apply listed_made. intros a b R _. now apply name_made with a. Qed.
Lemma more_made {A} (P : A -> Prop) l l' x : one_more l l' x -> Forall P l -> P x -> Forall P l'.
Proof. intros -> F X. apply Forall_app. auto. Qed.
Lemma address_more v l l' a : one_more l l' a -> length l <> 10%nat -> address_given parse v a -> genuine_address parse v -> made_addresses parse l -> made_addresses parse l'.
Proof. intros O N G Q (R & F). split; [unfold room in *; rewrite O, app_length; cbn [length]; lia|]. eapply more_made; eauto. eapply address_made; eauto. Qed.
Lemma name_more v l l' a : one_more l l' a -> length l <> 5%nat -> name_given v a -> made_names l -> made_names l'.
Proof. intros O N G (R & F). split; [unfold room in *; rewrite O, app_length; cbn [length]; lia|]. eapply more_made; eauto. eapply name_made; eauto. Qed.
Lemma bot_made v z : bot_given v z -> (0 <= z)%Z.
Proof. intros [(_ & ->)|(_ & L)]; lia. Qed.
Lemma months_made k v z : (0 <= k)%Z -> months_given k v z -> (0 <= z <= 24)%Z.
Proof. intros K (_ & L). lia. Qed.

Ltac value :=
  match goal with
  | D : listed copied_input _ ?l |- Forall made_input ?l => exact (inputs_made _ _ D ltac:(assumption))
  | D : listed copied_input _ ?l |- Forall (fun _ => _ /\ _) ?l => exact (stake_inputs_made _ _ D ltac:(assumption))
  | D : listed copied_output _ ?l |- Forall made_output ?l => exact (stake_outputs_made _ _ D ltac:(assumption))
  | D : outputs_listed _ ?l |- Forall made_output ?l => exact (outputs_made _ _ D ltac:(assumption))
  | D : refund_given _ ?r |- made_refund ?r => exact (refund_made _ _ D ltac:(assumption))
  | D : output_given _ _ _ ?o |- made_refund (Some ?o) => exact (output_made _ _ _ _ D)
  | D : attached _ ?b |- (length ?b <= 83)%nat => exact (attached_made _ _ D)
  | D : signature_given _ ?s |- made_signature ?s => exact (signature_made _ _ D)
  | D : bytes_given _ ?n _ ?b |- of_size ?n ?b => exact (given_size _ _ _ _ D)
  | D : listed (address_given _) _ ?l |- made_addresses _ ?l => exact (addresses_made _ _ D ltac:(assumption) ltac:(assumption))
  | D : listed name_given _ ?l |- made_names ?l => exact (conj (ltac:(assumption) : room 5 l) (names_made _ _ D))
  | D : one_more _ ?l _ |- made_addresses _ ?l => eapply address_more; eassumption
  | D : one_more _ ?l _ |- made_names ?l => eapply name_more; eassumption
  | D : input_given _ _ _ ?i, O : one_more _ ?l ?i |- Forall _ ?l => eapply more_made; [exact O|assumption|eapply input_made; eassumption]
  | D : stake_input_given _ _ _ ?i, O : one_more _ ?l ?i |- Forall _ ?l => eapply more_made; [exact O|assumption|eapply stake_input_made; eassumption]
  | D : output_given _ _ _ ?i, O : one_more _ ?l ?i |- Forall _ ?l => eapply more_made; [exact O|assumption|eapply output_made; eassumption]
  | D : stake_output_given _ _ _ ?i, O : one_more _ ?l ?i |- Forall _ ?l => eapply more_made; [exact O|assumption|eapply stake_output_made; eassumption]
  | D : bot_given _ ?z |- (0 <= ?z)%Z => exact (bot_made _ _ D)
  | D : months_given 1 _ ?z |- (0 <= ?z <= 24)%Z => exact (months_made 1 _ _ ltac:(lia) D)
  | D : months_given 0 _ ?z |- (0 <= ?z <= 24)%Z => exact (months_made 0 _ _ ltac:(lia) D)
  end.
Ltac conj_all := repeat match goal with |- _ /\ _ => split end.
Ltac parts := repeat match goal with X : exists _, _ |- _ => destruct X as (? & X) | X : _ /\ _ |- _ => destruct X end.
Lemma inputs_more l i p f x : Forall made_input l -> input_given p f x i -> genuine_out x -> Forall made_input (l ++ [i]).
Proof. intros F D G. apply Forall_app. split; [exact F|]. constructor; [|constructor]. eapply input_made; eauto. Qed.
Lemma done_made H nonce t o t' : done H parse t o t' -> genuine parse o -> made parse nonce t -> made parse nonce t' /\ version t' = version t.
Proof.
  intros [(_ & ->)|D] G M; [auto|].
  destruct t as [[]|[]|[]|[]|[]|[]|[]|[]]; destruct t' as [[]|[]|[]|[]|[]|[]|[]|[]]; try contradiction; cbn [made] in M |- *;
    (destruct o; try contradiction; cbn in D; cbn [genuine] in G; parts; subst; (split; [|reflexivity]); conj_all; try assumption; try reflexivity; try value).
  all: cbn [made_inputs] in *; try value; try (eapply inputs_more; eassumption).
  all: try match goal with X : months_given _ _ _ |- _ => destruct X; lia end.
  match goal with X : made_names _ |- _ => destruct X as (RM & FM) end. split.
  - unfold room in *. match goal with X : _ \/ _ |- _ => destruct X as [->|X]; [now rewrite app_nil_r|auto] end.
  - apply Forall_app. split; [exact FM|]. eapply names_made; eassumption.
Qed.
Lemma shorter_genuine o o' : shorter o o' -> genuine parse o -> genuine parse o'.
Proof.
  assert (X : forall A (P : A -> Prop) v v', cut_short v v' -> each_of P v -> each_of P v').
  { intros A P v v' [(vs & x & rest & -> & ->)|(-> & ->)] E; [|exact I]. cbn [each_of] in *. now apply Forall_app in E as (E & _). }
  destruct o, o'; cbn [shorter]; try contradiction; try (intros S0; cbn [genuine]; now apply X); try (intros _; exact (fun _ => I)).
  intros [(vs & x & rest & -> & ->)|(_ & ->)] E; [|exact I]. cbn [genuine] in *. now apply Forall_app in E as (E & _).
Qed.
Lemma step_made H nonce t o : hash_ok H -> genuine parse o -> made parse nonce t -> made parse nonce (fst (step H parse t o)) /\ version (fst (step H parse t o)) = version t.
Proof.
  intros HO G M. destruct (step H parse t o) as (t' & [[]|e]) eqn:E; cbn [fst].
  - apply (step_iff H parse t o t' HO) in E. eapply done_made; eauto.
  - apply refused_stopped in E as [->|(o' & S0 & E)]; [auto|]. apply (step_iff H parse t o' t' HO) in E. eapply done_made; eauto. eapply shorter_genuine; eauto.
Qed.
Lemma history_made H nonce os : hash_ok H -> forall t, Forall (genuine parse) os -> made parse nonce t -> made parse nonce (history H parse t os) /\ version (history H parse t os) = version t.
Proof.
  intros HO. induction os as [|o os IH]; intros t F M; cbn [history]; [auto|]. inversion F as [|? ? G F']. subst.
  destruct (step_made H nonce t o HO G M) as (M1 & V1). destruct (IH _ F' M1) as (M2 & V2). split; [exact M2|congruence].
Qed.
Lemma blank_made nonce v t0 : blank_txn nonce v = Some t0 -> made parse nonce t0 /\ version t0 = v.
Proof.
  assert (SG : forall n, of_size n []) by (intro; now left).
  unfold blank_txn. intro E.
  repeat match type of E with (if (?a =? ?b)%Z then _ else _) = _ => destruct (Z.eqb_spec a b) as [->|]; [injection E as <-; (split; [|reflexivity]); cbn -[room Z.le] ; repeat match goal with |- _ /\ _ => split end; auto; try lia; try (split; [unfold room; cbn [length]; lia|constructor]); cbn [length]; lia|] end.
  discriminate.
Qed.
End Reach.

(** ** Everything within the limits is reached *)
Section Way.
Variable parse : pystr -> res bytes.
Variable H : bytes -> bytes.
Hypothesis HO : hash_ok H.
Definition way (t t' : txn) : Prop := exists os, Forall (genuine parse) os /\ history H parse t os = t'.
Lemma history_app t os os' : history H parse t (os ++ os') = history H parse (history H parse t os) os'.
Proof. revert t. induction os as [|o os IH]; intro t; cbn [app history]; [reflexivity|apply IH]. Qed.
Lemma way_refl t : way t t. Proof. exists []. split; [constructor|reflexivity]. Qed.
Lemma way_trans t1 t2 t3 : way t1 t2 -> way t2 t3 -> way t1 t3.
Proof. intros (a & A & <-) (b & B & <-). exists (a ++ b). split; [now apply Forall_app|apply history_app]. Qed.
Lemma way_step t o t' : genuine parse o -> done H parse t o t' -> way t t'.
Proof. intros G D. exists [o]. split; [auto|]. cbn [history]. apply (step_iff H parse t o t' HO) in D. now rewrite D. Qed.
Lemma way_list {A} (P : A -> Prop) (F : list A -> txn) l : (forall l i, P i -> way (F l) (F (l ++ [i]))) -> Forall P l -> way (F []) (F l).
Proof.
  intros W. induction l as [|i l IH] using rev_ind; intro FA; [apply way_refl|]. apply Forall_app in FA as (FA & Pi). inversion Pi; subst.
  eapply way_trans; [now apply IH|]. now apply W.
Qed.

(** an argument for every value *)
Definition for_amount (n : N) : cinput := CIDec (DFin (mkdec false n (-9))).
Lemma amount_ok n : amount_given (for_amount n) n.
Proof. cbn [for_amount amount_given dneg dexp dcoef]. split; [reflexivity|]. split; [lia|]. change (Z.to_N (-9 + 9)) with 0. rewrite N.pow_0_r. lia. Qed.
Definition for_fee (o : option N) : cinput := match o with None => CINone | Some n => for_amount n end.
Lemma fee_ok o : fee_given (for_fee o) o.
Proof. destruct o as [n|]; [right|left; auto]. split; [discriminate|]. exists n. split; [reflexivity|apply amount_ok]. Qed.
Lemma bytes_ok text n b : of_size n b -> bytes_given text n (BVBytes b) b.
Proof. intro S0. split; [reflexivity|exact S0]. Qed.
Definition for_signature (s : bsig) : bval := match s with None => BVNone | Some (_, b) => BVBytes b end.
Lemma signature_ok s : made_signature s -> signature_given (for_signature s) s.
Proof. destruct s as [(a & b)|]; [|left; auto]. intros (-> & S0). right. split; [discriminate|]. exists (true, b). split; [reflexivity|]. split; [reflexivity|now apply bytes_ok]. Qed.
Definition for_key (o : option pubkey) : keyarg := match o with None => KGNone | Some k => KGKey k end.
Lemma key_ok o : key_given (for_key o) o.
Proof. destruct o as [k|]; [right; exists k; auto|left; auto]. Qed.
Definition for_bot (z : Z) : botarg := if (z =? 0)%Z then BGNone else BGInt z.
Lemma bot_ok z : (0 <= z)%Z -> bot_given (for_bot z) z.
Proof. intro P. unfold for_bot. destruct (Z.eqb_spec z 0) as [E|E]; [left; auto|right; split; [reflexivity|lia]]. Qed.
Definition for_parent (o : option output) : outarg := match o with None => OGNone | Some o => OGOut o end.
Lemma input_ok i : made_input i -> input_given (BVBytes (i_parent i)) (FGFf (i_ff i)) (for_parent (i_out i)) i /\ genuine_out (for_parent (i_out i)).
Proof.
  intros (S0 & O). destruct i as [p f o]. cbn [i_parent i_ff i_out] in *. split; [|destruct o; auto].
  split; [now apply bytes_ok|]. split; [now left|]. destruct o as [o|]; [right; exists o; auto|left; auto].
Qed.
Lemma stake_input_ok i : made_input i /\ i_out i <> None -> stake_input_given (BVBytes (i_parent i)) (FGFf (i_ff i)) (for_parent (i_out i)) i /\ genuine_out (for_parent (i_out i)).
Proof.
  intros ((S0 & O) & NN). destruct i as [p f o]. cbn [i_parent i_ff i_out] in *. destruct o as [o|]; [|contradiction]. split; [|exact O].
  split; [now apply bytes_ok|]. split; [now left|]. right; exists o; auto.
Qed.
Definition for_refund (o : option output) : outsarg := match o with None => OLNone | Some o => OLOne o end.
Lemma refund_ok o : made_refund o -> refund_given (for_refund o) o /\ genuine parse (CoinOutputs (for_refund o)).
Proof. destruct o as [o|]; cbn; auto. Qed.
Lemma outputs_ok l : Forall made_output l -> outputs_listed (OLList (map OGOut l)) l /\ genuine parse (CoinOutputs (OLList (map OGOut l))).
Proof. intro F. split; [now right|]. cbn [genuine]. induction F; constructor; auto. Qed.
Lemma stake_outputs_ok l : Forall made_output l -> listed copied_output (SGList (map OGOut l)) l /\ genuine parse (StakeOutputs (SGList (map OGOut l))).
Proof. intro F. split; [right; eexists; split; [reflexivity|]|cbn [genuine each_of]]; induction F; constructor; auto. reflexivity. Qed.
Lemma attached_ok b : (length b <= 83)%nat -> attached (BVBytes b) b.
Proof. intro L. right. auto. Qed.
Definition for_name (s : pystr) : namearg := match s with [] => NGText None | _ => NGText (Some s) end.
Lemma name_ok s : made_name s -> name_given (for_name s) s.
Proof. destruct s as [|c s]; [left; auto|]. intros [[=]|N]. right. auto. Qed.
Lemma names_ok l : made_names l -> listed name_given (SGList (map for_name l)) l /\ room 5 l.
Proof. intros (R & F). split; [|exact R]. right. eexists. split; [reflexivity|]. clear R. induction F as [|x l P F IH]; constructor; auto. now apply name_ok. Qed.
Lemma addresses_ok l : made_addresses parse l -> exists v, listed (address_given parse) v l /\ room 10 l /\ each_of (genuine_address parse) v.
Proof.
  intros (R & F). assert (E : exists vs, Forall2 (address_given parse) vs l /\ Forall (genuine_address parse) vs).
  { clear R. induction F as [|a l (v & NV & G) F (vs & F2 & E)]; [exists []; auto|]. exists (v :: vs). split; constructor; auto.
    destruct v as [[| |b]|]; cbn [genuine_address]; auto. exfalso. exact (NV b eq_refl). }
  destruct E as (vs & F2 & E). exists (SGList vs). split; [right; eauto|auto].
Qed.

Ltac fill := right; cbn [done_std done_mint done_conv done_gen done_reg done_bot done_upd done_name]; repeat match goal with |- _ /\ _ => split end; first [reflexivity|eassumption|idtac].
Tactic Notation "hop" uconstr(o) uconstr(t) := eapply way_trans; [apply (way_step _ o t); [first [exact I | assumption]|fill]|].
Tactic Notation "last_hop" uconstr(o) := apply (way_step _ o); [first [exact I | assumption]|fill].
Definition add_in (i : input) : op := CoinInputAdd (BVBytes (i_parent i)) (FGFf (i_ff i)) (for_parent (i_out i)).
Definition add_stake_in (i : input) : op := StakeInputAdd (BVBytes (i_parent i)) (FGFf (i_ff i)) (for_parent (i_out i)).
Lemma way_add_in t i t' : made_input i -> (input_given (BVBytes (i_parent i)) (FGFf (i_ff i)) (for_parent (i_out i)) i -> done H parse t (add_in i) t') -> way t t'.
Proof. intros P D. destruct (input_ok i P) as (A & G). apply (way_step _ (add_in i)); [exact G|auto]. Qed.
Lemma way_inputs (F : list input -> txn) ci : (forall l i, input_given (BVBytes (i_parent i)) (FGFf (i_ff i)) (for_parent (i_out i)) i -> done H parse (F l) (add_in i) (F (l ++ [i]))) -> Forall made_input ci -> way (F []) (F ci).
Proof. intros D FA. apply (way_list made_input F ci); [|exact FA]. intros l i P. apply (way_add_in _ i _ P). apply D. Qed.
Ltac take F ci := eapply way_trans; [apply (way_inputs F ci); [let l := fresh in let i := fresh "i" in intros l i ?; unfold add_in; fill; try (exists i; split; [assumption|reflexivity]); try (exists l, i; split; [reflexivity|split; [assumption|reflexivity]])|assumption]|].
Lemma reach_std nonce g ci co bi bo fs d : made parse nonce (T1 (mkstd g ci co bi bo fs d)) -> way (T1 (mkstd false [] [] [] [] [] [])) (T1 (mkstd g ci co bi bo fs d)).
Proof.
  cbn [made]. intros (-> & I1 & O1 & I2 & O2 & L).
  destruct (outputs_ok co O1) as (D1 & G1). destruct (stake_outputs_ok bo O2) as (D2 & G2).
  take (fun l => T1 (mkstd false l [] [] [] [] [])) ci.
  hop (CoinOutputs (OLList (map OGOut co))) (T1 (mkstd false ci co [] [] [] [])).
  eapply way_trans; [apply (way_list (fun i => made_input i /\ i_out i <> None) (fun l => T1 (mkstd false ci co l [] [] [])) bi); [|exact I2]|].
  { intros l i P. destruct (stake_input_ok i P) as (D & G). apply (way_step _ (add_stake_in i)); [exact G|unfold add_stake_in; fill]. exists i. split; [exact D|reflexivity]. }
  hop (StakeOutputs (SGList (map OGOut bo))) (T1 (mkstd false ci co bi bo [] [])).
  eapply way_trans; [apply (way_list (fun _ => True) (fun l => T1 (mkstd false ci co bi bo l [])) fs); [|now apply Forall_forall]|].
  { intros l n _. last_hop (MinerFeeAdd (for_amount n)). exists n. split; [apply amount_ok|reflexivity]. }
  last_hop (Data (BVBytes d)). now apply attached_ok.
Qed.
Definition for_ff (o : option ff) : ffarg := match o with None => FGNone | Some f => FGFf f end.
Lemma ff_ok o : maybe FGNone fulfilment_given (for_ff o) o.
Proof. destruct o as [f|]; [right; split; [discriminate|]; exists f; split; [reflexivity|now left]|left; auto]. Qed.
Definition for_cond (o : option cond) : condarg := match o with None => CGNone | Some f => CGCond f end.
Lemma cond_ok o : maybe CGNone condition_given (for_cond o) o.
Proof. destruct o as [f|]; [right; split; [discriminate|]; exists f; split; [reflexivity|now left]|left; auto]. Qed.
Lemma reach_mint nonce f n fs d x p : made parse nonce (TMint (mkmint f n fs d x p)) ->
  way (TMint (mkmint None (match n with MCond _ => MCond CNil | MCoins _ => MCoins [] end) [] [] nonce None)) (TMint (mkmint f n fs d x p)).
Proof.
  cbn [made]. intros (O & L & ->). apply (way_trans _ (TMint (mkmint None n [] [] nonce None))).
  { destruct n as [c|l].
    - last_hop (MintCondition (CGCond c)). exists CNil, c. split; [reflexivity|]. split; [reflexivity|now left].
    - destruct (outputs_ok l O) as (D1 & G1). last_hop (CoinOutputs (OLList (map OGOut l))). exists [], l. split; [reflexivity|]. split; [reflexivity|exact D1]. }
  hop (MintFulfilment (for_ff f)) (TMint (mkmint f n [] [] nonce None)). { apply ff_ok. }
  hop (ParentMintCondition (for_cond p)) (TMint (mkmint f n [] [] nonce p)). { apply cond_ok. }
  eapply way_trans; [apply (way_list (fun _ => True) (fun l => TMint (mkmint f n l [] nonce p)) fs); [|now apply Forall_forall]|].
  { intros l a _. last_hop (MinerFeeAdd (for_amount a)). exists a. split; [apply amount_ok|reflexivity]. }
  last_hop (Data (BVBytes d)). now apply attached_ok.
Qed.
Lemma reach_conv nonce a n f ci r : made parse nonce (T208 (mkconv a n f ci r)) -> way (T208 (mkconv [] 0 None [] None)) (T208 (mkconv a n f ci r)).
Proof.
  cbn [made]. intros (A & I1 & R). destruct (refund_ok r R) as (D & G).
  hop (Address (UGVal (BVBytes a))) (T208 (mkconv a 0 None [] None)). { eexists. split; [reflexivity|now apply bytes_ok]. }
  hop (Value (for_amount n)) (T208 (mkconv a n None [] None)). { apply amount_ok. }
  hop (TransactionFee (for_fee f)) (T208 (mkconv a n f [] None)). { apply fee_ok. }
  take (fun l => T208 (mkconv a n f l None)) ci.
  last_hop (CoinOutputs (for_refund r)).
Qed.
Lemma reach_gen nonce a n f b x : made parse nonce (T209 (mkgen a n f b x)) -> way (T209 (mkgen uh_default 0 None [] [])) (T209 (mkgen a n f b x)).
Proof.
  cbn [made]. intros (A & B).
  hop (Address (UGUh a)) (T209 (mkgen a 0 None [] [])). { now left. }
  hop (Value (for_amount n)) (T209 (mkgen a n None [] [])). { apply amount_ok. }
  hop (TransactionFee (for_fee f)) (T209 (mkgen a n f [] [])). { apply fee_ok. }
  hop (BlockId (BVBytes b)) (T209 (mkgen a n f b [])). { now apply bytes_ok. }
  last_hop (TransactionId (BVBytes x)). now apply bytes_ok.
Qed.
Lemma listed_none {A B} (R : A -> B -> Prop) : listed R SGNone [].
Proof. left. auto. Qed.
Lemma reach_reg nonce k s f ci r : made parse nonce (T210 (mkreg k s f ci r)) -> way (T210 (mkreg None None None None None)) (T210 (mkreg k s f ci r)).
Proof.
  cbn [made]. intros (A & I1 & R). destruct (refund_ok r R) as (D & G).
  hop (PublicKey (for_key k)) (T210 (mkreg k None None None None)). { apply key_ok. }
  hop (Signature (for_signature s)) (T210 (mkreg k s None None None)). { now apply signature_ok. }
  hop (TransactionFee (for_fee f)) (T210 (mkreg k s f None None)). { apply fee_ok. }
  apply (way_trans _ (T210 (mkreg k s f ci None))).
  { destruct ci as [ci|]; [|apply way_refl]. cbn [made_inputs] in I1.
    hop (CoinInputs SGNone) (T210 (mkreg k s f (Some []) None)). { exists []. split; [apply listed_none|reflexivity]. }
    take (fun l => T210 (mkreg k s f (Some l) None)) ci. apply way_refl. }
  last_hop (CoinOutputs (for_refund r)).
Qed.
Lemma reach_bot nonce la ln m f ci r k s : made parse nonce (T144 (mkbot la ln m f ci r k s)) -> way (T144 (mkbot [] [] 0 None [] None None None)) (T144 (mkbot la ln m f ci r k s)).
Proof.
  cbn [made]. intros (LA & LN & M & I1 & R & A). destruct (refund_ok r R) as (D & G). destruct (addresses_ok la LA) as (v & V & RA & GV). destruct (names_ok ln LN) as (W & RN).
  hop (Addresses v) (T144 (mkbot la [] 0 None [] None None None)).
  hop (Names (SGList (map for_name ln))) (T144 (mkbot la ln 0 None [] None None None)).
  apply (way_trans _ (T144 (mkbot la ln m None [] None None None))).
  { destruct (Z.eqb_spec m 0) as [E|E]; [rewrite E; apply way_refl|]. last_hop (Months (MGInt m)). split; [reflexivity|lia]. }
  hop (TransactionFee (for_fee f)) (T144 (mkbot la ln m f [] None None None)). { apply fee_ok. }
  take (fun l => T144 (mkbot la ln m f l None None None)) ci.
  hop (CoinOutputs (for_refund r)) (T144 (mkbot la ln m f ci r None None)).
  hop (PublicKey (for_key k)) (T144 (mkbot la ln m f ci r k None)). { apply key_ok. }
  last_hop (Signature (for_signature s)). now apply signature_ok.
Qed.
Lemma reach_upd nonce b aa ad na nd m f ci r s k : made parse nonce (T145 (mkupd b aa ad na nd m f ci r s k)) -> way (T145 (mkupd 0 [] [] [] [] 0 None [] None None None)) (T145 (mkupd b aa ad na nd m f ci r s k)).
Proof.
  cbn [made]. intros (B & A1 & A2 & N1 & N2 & M & I1 & R & A). destruct (refund_ok r R) as (D & G).
  destruct (addresses_ok aa A1) as (v1 & V1 & RA1 & GV1). destruct (addresses_ok ad A2) as (v2 & V2 & RA2 & GV2). destruct (names_ok na N1) as (W1 & RN1). destruct (names_ok nd N2) as (W2 & RN2).
  hop (BotId (for_bot b)) (T145 (mkupd b [] [] [] [] 0 None [] None None None)). { now apply bot_ok. }
  hop (AddressesToAdd v1) (T145 (mkupd b aa [] [] [] 0 None [] None None None)).
  hop (AddressesToRemove v2) (T145 (mkupd b aa ad [] [] 0 None [] None None None)).
  hop (NamesToAdd (SGList (map for_name na))) (T145 (mkupd b aa ad na [] 0 None [] None None None)).
  hop (NamesToRemove (SGList (map for_name nd))) (T145 (mkupd b aa ad na nd 0 None [] None None None)).
  hop (Months (MGInt m)) (T145 (mkupd b aa ad na nd m None [] None None None)). { split; [reflexivity|lia]. }
  hop (TransactionFee (for_fee f)) (T145 (mkupd b aa ad na nd m f [] None None None)). { apply fee_ok. }
  take (fun l => T145 (mkupd b aa ad na nd m f l None None None)) ci.
  hop (CoinOutputs (for_refund r)) (T145 (mkupd b aa ad na nd m f ci r None None)).
  hop (Signature (for_signature s)) (T145 (mkupd b aa ad na nd m f ci r s None)). { now apply signature_ok. }
  last_hop (ParentPublicKey (for_key k)). apply key_ok.
Qed.
Lemma reach_name nonce a b ln f ci r s q k x : made parse nonce (T146 (mkname a b ln f ci r s q k x)) -> way (T146 (mkname 0 0 [] None None None None None None None)) (T146 (mkname a b ln f ci r s q k x)).
Proof.
  cbn [made]. intros (A & B & LN & I1 & R & A1 & A2). destruct (refund_ok r R) as (D & G). destruct (names_ok ln LN) as (W & RN).
  hop (SenderBotId (for_bot a)) (T146 (mkname a 0 [] None None None None None None None)). { now apply bot_ok. }
  hop (ReceiverBotId (for_bot b)) (T146 (mkname a b [] None None None None None None None)). { now apply bot_ok. }
  hop (Names (SGList (map for_name ln))) (T146 (mkname a b ln None None None None None None None)). { exists ln. split; [exact W|]. split; [reflexivity|]. right. auto. }
  hop (TransactionFee (for_fee f)) (T146 (mkname a b ln f None None None None None None)). { apply fee_ok. }
  apply (way_trans _ (T146 (mkname a b ln f ci None None None None None))).
  { destruct ci as [ci|]; [|apply way_refl]. cbn [made_inputs] in I1.
    hop (CoinInputs SGNone) (T146 (mkname a b ln f (Some []) None None None None None)). { exists []. split; [apply listed_none|reflexivity]. }
    take (fun l => T146 (mkname a b ln f (Some l) None None None None None)) ci. apply way_refl. }
  hop (CoinOutputs (for_refund r)) (T146 (mkname a b ln f ci r None None None None)).
  hop (SenderSignature (for_signature s)) (T146 (mkname a b ln f ci r s None None None)). { now apply signature_ok. }
  hop (ReceiverSignature (for_signature q)) (T146 (mkname a b ln f ci r s q None None)). { now apply signature_ok. }
  hop (SenderKey (for_key k)) (T146 (mkname a b ln f ci r s q k None)). { apply key_ok. }
  last_hop (ReceiverKey (for_key x)). apply key_ok.
Qed.
Lemma reach nonce t0 t : blank_txn nonce (version t) = Some t0 -> made parse nonce t -> way t0 t.
Proof.
  intros E M. destruct t as [[]|[? n ? ? ? ?]|[]|[]|[]|[]|[]|[]]; cbn in E.
  - injection E as <-. now apply (reach_std nonce).
  - pose proof (reach_mint _ _ _ _ _ _ _ M) as X. destruct n; cbn in E; injection E as <-; exact X.
  - injection E as <-. now apply (reach_conv nonce).
  - injection E as <-. now apply (reach_gen nonce).
  - injection E as <-. now apply (reach_reg nonce).
  - injection E as <-. now apply (reach_bot nonce).
  - injection E as <-. now apply (reach_upd nonce).
  - injection E as <-. now apply (reach_name nonce).
Qed.
End Way.
