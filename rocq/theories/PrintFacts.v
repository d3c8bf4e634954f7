(** Lemmas for C89. *)
From Verif Require Import Base BaseFacts Encoders Currency Primitive Types Conditions Fulfillments ThreeBotTypes Txn TypesFacts TypesFacts2 JsonFacts2 Spec_Types Spec_Texts Base64Facts Prop_Texts Spec_Show ShowFacts Spec_Wire WireFacts Prop_Wire Spec_Print TxnJson.
From Coq Require Import ZifyBool ZifyNat ZifyN.
Ltac Zify.zify_post_hook ::= Z.div_mod_to_equations.

(** [r] computes the only document of the form [P] *)
Definition is (P : form) (r : res json) : Prop := forall j, r = Ok j <-> P j.
Lemma is_ext P r r' : is P r' -> (forall j, r = Ok j <-> r' = Ok j) -> is P r.
Proof. intros I E j. rewrite E. apply I. Qed.
Lemma is_text (P : pystr -> Prop) t : (forall s, P s <-> s = t) -> is (a_text P) (Ok (JStr t)).
Proof.
  intros E j. unfold a_text. split.
  - intros [= <-]. exists t. split; [reflexivity|]. apply E. reflexivity.
  - intros (s & -> & A). apply E in A. subst s. reflexivity.
Qed.
Lemma is_number z : is (a_number z) (Ok (JNum z)).
Proof. intro j. unfold a_number. split; [now intros [= <-]|now intros ->]. Qed.
Lemma F2_iff_in {A B} (P Q : A -> B -> Prop) l m : (forall a b, In a l -> (P a b <-> Q a b)) -> (Forall2 P l m <-> Forall2 Q l m).
Proof.
  revert m. induction l as [|a l IH]; intros m E.
  - split; intro F; inversion F; constructor.
  - split; intro F; inversion F as [|a' b l' m' X Y]; subst; constructor.
    1,3: apply (E a b (or_introl eq_refl)); exact X.
    1,2: apply IH; [|exact Y]; intros; apply E; right; assumption.
Qed.
Lemma is_list {A} (P : A -> form) f l : (forall a, In a l -> is (P a) (f a)) -> is (a_list P l) (do x <- mapM f l; Ok (JArr x)).
Proof.
  intros E j. unfold a_list. split.
  - intro M. apply bind_ok in M as (x & M & X). apply ok_inj in X. subst j. exists x. split; [reflexivity|].
    apply mapM_Forall2_iff in M. revert M. apply F2_iff_in. intros a b I. symmetry. apply E. exact I.
  - intros (js & -> & F). assert (mapM f l = Ok js) as ->; [|reflexivity]. apply mapM_Forall2_iff. revert F. apply F2_iff_in. intros a b I. apply E. exact I.
Qed.
Lemma mapM_pure {A B} (f : A -> B) l : mapM (fun a => Ok (f a)) l = Ok (map f l).
Proof. induction l as [|a l IH]; cbn [mapM map bind]; [reflexivity|]. rewrite IH. reflexivity. Qed.
Lemma is_map {A} (P : A -> form) f l : (forall a, In a l -> is (P a) (Ok (f a))) -> is (a_list P l) (Ok (JArr (map f l))).
Proof. intros E. pose proof (is_list P (fun a => Ok (f a)) l E) as X. rewrite mapM_pure in X. exact X. Qed.

Fixpoint seq (l : list (string * res json)) : res (list (string * json)) :=
  match l with [] => Ok [] | (n, r) :: l => do j <- r; do k <- seq l; Ok ((n, j) :: k) end.
Definition same (f : string * form) (e : string * res json) : Prop := fst f = fst e /\ is (snd f) (snd e).
Lemma is_object fs l : Forall2 same fs l -> is (an_object fs) (do x <- seq l; Ok (JObj x)).
Proof.
  intros F.
  assert (X : forall x, seq l = Ok x <-> Forall2 (fun (f : string * form) (e : string * json) => fst f = fst e /\ snd f (snd e)) fs x).
  { induction F as [|[n P] [m r] fs l (N & I) F IH]; intro x; cbn [seq].
    - split; [intros [= <-]; constructor|intro Y; inversion Y; reflexivity].
    - cbn [fst snd] in N, I. subst m. split.
      + intro E. apply bind_ok in E as (j & Ej & E). apply bind_ok in E as (k & Ek & E). apply ok_inj in E. subst x.
        constructor; [split; [reflexivity|apply I; exact Ej]|]. apply IH. exact Ek.
      + intro Y. inversion Y as [|a [b j] a' k (N & V) R]; subst. cbn [fst snd] in *. subst b. apply I in V. rewrite V. cbn [bind]. apply IH in R. rewrite R. reflexivity. }
  intro j. unfold an_object. split.
  - intro E. apply bind_ok in E as (x & Ex & E). apply ok_inj in E. exists x. split; [symmetry; exact E|]. apply X. exact Ex.
  - intros (x & -> & Y). apply X in Y. rewrite Y. reflexivity.
Qed.
Lemma same_cons n P r fs l : is P r -> Forall2 same fs l -> Forall2 same ((n, P) :: fs) ((n, r) :: l).
Proof. intros. constructor; [split; [reflexivity|assumption]|assumption]. Qed.
Lemma same_nil : Forall2 same [] [].
Proof. constructor. Qed.
Lemma seq_app a b : seq (a ++ b) = do x <- seq a; do y <- seq b; Ok (x ++ y).
Proof.
  induction a as [|[n r] a IH]; cbn [seq app bind]; [destruct (seq b); reflexivity|].
  rewrite IH. destruct r; [|reflexivity]. cbn [bind]. destruct (seq a); [|reflexivity]. cbn [bind]. destruct (seq b); reflexivity.
Qed.

(** ** Texts *)
Lemma letter_of d c : d < 64 -> letter c d <-> c = b64c d.
Proof.
  intros D. rewrite letter_iff. destruct (b64c_spec d D) as (E & _). split; [|intros ->; exact E].
  intro F. unfold unb64c in F. unfold b64c.
  destruct ((65 <=? c) && (c <=? 90)) eqn:A; [injection F as F; destruct (N.ltb_spec d 26); lia|].
  destruct ((97 <=? c) && (c <=? 122)) eqn:B; [injection F as F; destruct (N.ltb_spec d 26); [lia|]; destruct (N.ltb_spec d 52); lia|].
  destruct ((48 <=? c) && (c <=? 57)) eqn:C; [injection F as F; destruct (N.ltb_spec d 26); [lia|]; destruct (N.ltb_spec d 52); [lia|]; destruct (N.ltb_spec d 62); lia|].
  destruct (N.eqb_spec c 43) as [G|G]; [injection F as <-; exact G|]. destruct (N.eqb_spec c 47) as [K|K]; [injection F as <-; exact K|discriminate].
Qed.
Lemma base64_ind3 (P : bytes -> Prop) : P [] -> (forall x, P [x]) -> (forall x y, P [x; y]) -> (forall x y z r, P r -> P (x :: y :: z :: r)) -> forall b, P b.
Proof.
  intros A B C D b. enough (P b /\ (forall x, P (x :: b)) /\ (forall x y, P (x :: y :: b))) as (X & _) by exact X.
  induction b as [|z b (I & J & K)]; [auto|]. split; [apply J|]. split; [intro x; apply K|]. intros x y. apply D. exact I.
Qed.
Lemma in_base64_iff b : wf_bytes b -> forall s, in_base64 b s <-> s = b64enc b.
Proof.
  revert b. refine (base64_ind3 _ _ _ _ _).
  - intros _ s. split; [intro X; inversion X; reflexivity|intros ->; constructor].
  - intros x W s. inversion W as [|? ? A _]; subst. cbn [b64enc]. split.
    + intro X. inversion X as [|? a b L1 L2| |]; subst. apply letter_of in L1, L2; [|lia..]. rewrite L1, L2, (N.mul_comm 16). reflexivity.
    + intros ->. rewrite (N.mul_comm 16). constructor; apply letter_of; lia.
  - intros x y W s. inversion W as [|? ? A W']; subst. inversion W' as [|? ? B _]; subst. cbn [b64enc]. rewrite (N.mul_comm 16), (N.mul_comm 4). split.
    + intro X. inversion X as [| |? ? a b c L1 L2 L3|]; subst. apply letter_of in L1, L2, L3; [|lia..]. rewrite L1, L2, L3. reflexivity.
    + intros ->. constructor; apply letter_of; lia.
  - intros x y z r IH W s. inversion W as [|? ? A W']; subst. inversion W' as [|? ? B W'']; subst. inversion W'' as [|? ? C W3]; subst. cbn [b64enc]. rewrite (N.mul_comm 16), (N.mul_comm 4). split.
    + intro X. inversion X as [| | |? ? ? a b c d ? t L1 L2 L3 L4 R]; subst. apply letter_of in L1, L2, L3, L4; [|lia..]. apply IH in R; [|exact W3]. rewrite L1, L2, L3, L4, R. reflexivity.
    + intros ->. constructor; [apply letter_of; lia..|]. apply IH; [exact W3|reflexivity].
Qed.
Lemma is_base64 b : wf_bytes b -> is (base64 b) (Ok (b64_json b)).
Proof. intro W. apply is_text. apply in_base64_iff. exact W. Qed.
Lemma is_units n : is (Spec_Print.units n) (Ok (amt_json n)).
Proof. apply is_text. intro s. apply whole_shown_iff. Qed.
Lemma is_hex b : wf_bytes b -> is (hexadecimal b) (Ok (JStr (hex b))).
Proof. intro W. apply is_text. apply lower_hex. exact W. Qed.
Lemma is_hex0x b : wf_bytes b -> is (hexadecimal0x b) (Ok (prefixed_json b)).
Proof.
  intro W. apply is_text. intro s. cbn [to_str]. split.
  - intros (t & -> & L). apply lower_hex in L; [|exact W]. subst t. reflexivity.
  - intros ->. exists (hex b). split; [reflexivity|]. apply lower_hex; [exact W|reflexivity].
Qed.
Lemma is_id b : wf_bytes b -> is (id_form b) (Ok (JStr (hash_str b))).
Proof. intro W. apply is_text. intro s. apply id_shown_iff. exact W. Qed.
Lemma is_key p : wf_bytes (pk_hash p) -> is (key_form p) (Ok (JStr (pk_str p))).
Proof.
  intro W. apply is_text. intro s. unfold pk_str. split.
  - intros (k & i & -> & K & I). apply id_shown_iff in I; [|exact W]. subst i. change (s2b ":") with [58]. cbn [app]. f_equal. destruct K as [(-> & ->)|(-> & ->)]; reflexivity.
  - intros ->. exists (pkspec_str (pk_spec p)), (hash_str (pk_hash p)). split; [reflexivity|]. split; [|apply id_shown_iff; [exact W|reflexivity]].
    unfold kind_name. destruct (pk_spec p); [left|right]; split; reflexivity.
Qed.
Lemma is_name s : is (name_form s) (Ok (bn_json s)).
Proof. apply is_text. reflexivity. Qed.

(** ** Parts of transactions *)
Section Print.
Variable H : bytes -> bytes.
Variable ip_str : bytes -> pystr.
Hypothesis HH : hash_ok H.

Lemma is_address u : wf_bytes (uh_hash u) -> is (address_form H u) (do s <- uh_str H u; Ok (JStr s)).
Proof.
  intros W j. unfold address_form, a_text. split.
  - intro E. apply bind_ok in E as (s & Es & E). apply ok_inj in E. exists s. split; [symmetry; exact E|]. apply C84_printed; assumption.
  - intros (s & -> & P). apply C84_printed in P; [|assumption..]. rewrite P. reflexivity.
Qed.
Lemma is_network a : is (network_form ip_str a) (Ok (na_json ip_str a)).
Proof. apply is_text. reflexivity. Qed.
Lemma is_same (P Q : form) r : (forall j, P j <-> Q j) -> is Q r -> is P r.
Proof. intros E I j. rewrite E. apply I. Qed.
Lemma is_erc20 u : is (erc20_form H u) (do e <- eaddr_from_uh H u; Ok (prefixed_json e)).
Proof using HH.
  intro j. unfold erc20_form, eaddr_from_uh. destruct (uh_sia u) as [d|] eqn:E.
  - cbn [bind]. destruct (HH d) as (L & Wd).
    assert (N : eaddr_new (BVBytes (skipn 12 (H d))) = Ok (skipn 12 (H d))).
    { apply eaddr_new_bytes. rewrite skipn_length, L. reflexivity. }
    rewrite N. cbn [bind]. assert (W : wf_bytes (skipn 12 (H d))).
    { apply Forall_forall. intros x I. unfold wf_bytes in Wd. rewrite Forall_forall in Wd. apply Wd. rewrite <- (firstn_skipn 12 (H d)). apply in_or_app. right. exact I. }
    rewrite (is_hex0x _ W j). split; [intro X; exists d; split; [apply enc_uh_sia; exact E|exact X]|].
    intros (d' & A & X). apply enc_uh_sia in A. rewrite E in A. apply ok_inj in A. subst d'. exact X.
  - cbn [bind]. split; [discriminate|]. intros (d & A & _). apply enc_uh_sia in A. congruence.
Qed.
Definition good (l : list bytes) : Prop := Forall wf_bytes l.
Ltac steps := repeat (apply same_cons; [|]); try apply same_nil.
Lemma is_condition k : good (bytes_of_cond k) -> is (condition_form H k) (cond_json H k).
Proof.
  induction k as [|u|se re h l|l k IH|us n]; intros W; cbn [condition_form cond_json].
  - exact (is_object _ _ (same_cons _ _ _ _ _ (is_number 0) same_nil)).
  - inversion W as [|x y W1 _]; subst.
    eapply is_ext; [apply is_object; steps; [apply is_number|apply is_object; steps; apply (is_address u W1)]|].
    intro j. cbn [seq bind]. destruct (uh_str H u); cbn [bind]; split; intro E; try discriminate E; exact E.
  - inversion W as [|x y W1 W']; subst. inversion W' as [|x y W2 W'']; subst. inversion W'' as [|x y W3 _]; subst.
    eapply is_ext; [apply is_object; steps; [apply is_number|apply is_object; steps; [apply (is_address se W1)|apply (is_address re W2)|apply is_hex; exact W3|apply is_number]]|].
    intro j. cbn [seq bind]. destruct (uh_str H se); cbn [bind]; [|split; intro E; discriminate E]. destruct (uh_str H re); cbn [bind]; [|split; intro E; discriminate E].
    destruct h; reflexivity.
  - eapply is_ext; [apply is_object; steps; [apply is_number|apply is_object; steps; [apply is_number|apply IH; exact W]]|].
    intro j. cbn [seq bind]. destruct (cond_json H k); cbn [bind]; split; intro E; try discriminate E; exact E.
  - assert (L : is (a_list (address_form H) us) (do x <- mapM (fun u => do s <- uh_str H u; Ok (JStr s)) us; Ok (JArr x))).
    { apply is_list. intros a I. apply is_address. unfold good in W. rewrite Forall_forall in W. apply W. cbn. apply in_map. exact I. }
    eapply is_ext; [apply is_object; steps; [apply is_number|apply is_object; steps; [apply is_number|exact L]]|].
    assert (M : mapM (fun u => do s <- uh_str H u; Ok (JStr s)) us = do ss <- mapM (uh_str H) us; Ok (map JStr ss)).
    { clear. induction us as [|u us IH]; cbn [mapM bind map]; [reflexivity|]. rewrite IH. destruct (uh_str H u); cbn [bind]; [|reflexivity]. destruct (mapM (uh_str H) us); reflexivity. }
    intro j. cbn [seq bind]. rewrite M. destruct (mapM (uh_str H) us); cbn [bind]; split; intro E; try discriminate E; exact E.
Qed.
Lemma same_pair p s : wf_bytes (pk_hash p) -> wf_bytes s ->
  Forall2 same (pair_fields p s) [("publickey"%string, Ok (JStr (pk_str p))); ("signature"%string, Ok (JStr (hex s)))].
Proof. intros. unfold pair_fields. steps; [apply is_key|apply is_hex]; assumption. Qed.
Lemma is_fulfilment f : good (bytes_of_ff f) -> is (fulfilment_form f) (Ok (ff_json f)).
Proof.
  intros W. destruct f as [p s|p s se|ps]; cbn [fulfilment_form bytes_of_ff] in *.
  - inversion W as [|x y W1 W']; subst. inversion W' as [|x y W2 _]; subst.
    eapply is_ext; [apply is_object; steps; [apply is_number|apply is_object, (same_pair p _ W1 W2)]|]. intro j. destruct s; reflexivity.
  - inversion W as [|x y W1 W']; subst. inversion W' as [|x y W2 W'']; subst. inversion W'' as [|x y W3 _]; subst.
    destruct se as [se|]; cbn [if_some].
    + eapply is_ext; [apply is_object; steps; [apply is_number|apply is_object; apply Forall2_app; [exact (same_pair p _ W1 W2)|steps; apply is_hex; exact W3]]|]. intro j. destruct s; reflexivity.
    + eapply is_ext; [apply is_object; steps; [apply is_number|apply is_object; apply Forall2_app; [exact (same_pair p _ W1 W2)|constructor]]|]. intro j. destruct s; reflexivity.
  - eapply is_ext.
    + apply is_object; steps; [apply is_number|apply is_object; steps].
      apply (is_map _ (fun p => JObj (jpair p))). intros [p s] I.
      assert (G : wf_bytes (pk_hash p) /\ wf_bytes s).
      { unfold good in W. rewrite Forall_forall in W. split; apply W, in_flat_map; exists (p, s); (split; [exact I|]); cbn; auto. }
      exact (is_object _ _ (same_pair p s (proj1 G) (proj2 G))).
    + intro j. reflexivity.
Qed.
Lemma is_input i : good (i_parent i :: bytes_of_ff (i_ff i)) -> is (input_form i) (Ok (in_json i)).
Proof.
  intros W. inversion W as [|x y W1 W2]; subst.
  eapply is_ext; [apply is_object; steps; [apply is_id; exact W1|apply is_fulfilment; exact W2]|]. reflexivity.
Qed.
Lemma is_inputs l : good (bytes_of_inputs l) -> is (a_list input_form l) (Ok (JArr (map in_json l))).
Proof.
  intros W. apply is_map. intros i I. apply is_input. unfold good in *. rewrite Forall_forall in *. intros b B. apply W, in_flat_map. exists i. auto.
Qed.
Lemma is_output o : good (bytes_of_cond (o_cond o)) -> is (output_form H o) (out_json H o).
Proof.
  intros W. unfold output_form, out_json.
  eapply is_ext; [apply is_object; steps; [apply is_units|apply is_condition; exact W]|]. intro j. cbn [seq bind]. destruct (cond_json H (o_cond o)); reflexivity.
Qed.
Lemma is_outputs l : good (bytes_of_outputs l) -> is (a_list (output_form H) l) (outs_json H l).
Proof.
  intros W. apply is_list. intros o I. apply is_output. unfold good in *. rewrite Forall_forall in *. intros b B. apply W, in_flat_map. exists o. auto.
Qed.
Lemma is_fees l : is (a_list Spec_Print.units l) (Ok (JArr (map amt_json l))).
Proof. apply is_map. intros. apply is_units. Qed.
Lemma is_names l : is (a_list name_form l) (Ok (JArr (map bn_json l))).
Proof. apply is_map. intros. apply is_name. Qed.
Lemma is_networks l : is (a_list (network_form ip_str) l) (Ok (JArr (map (na_json ip_str) l))).
Proof. apply is_map. intros. apply is_network. Qed.
(** optional fields as lists *)
Definition opt_fields {A} (l : list A) (n : string) (r : res json) : list (string * res json) := match l with [] => [] | _ => [(n, r)] end.
Lemma same_opt {A} (l : list A) n P r : (l <> [] -> is P r) -> Forall2 same (unless_empty l (n, P)) (opt_fields l n r).
Proof. intros. unfold unless_empty, opt_fields. destruct l; [constructor|]. steps. apply H0. discriminate. Qed.
Definition refund_fields (o : option output) : list (string * res json) := match o with None => [] | Some x => [("refundcoinoutput"%string, out_json H x)] end.
Lemma same_refund o : good (bytes_of_option (fun o => bytes_of_outputs [o]) o) -> Forall2 same (refund_field H o) (refund_fields o).
Proof. intros W. destruct o as [o|]; [|constructor]. cbn [refund_field if_some refund_fields]. unfold refund_field, if_some. steps. apply is_output. cbn in W. rewrite app_nil_r in W. exact W. Qed.
Lemma seq_refund o : seq (refund_fields o) = refund_json H o.
Proof. destruct o as [o|]; [|reflexivity]. cbn [refund_fields seq refund_json]. destruct (out_json H o); reflexivity. Qed.
Definition changes_json {A} (n : string) (f : A -> json) (a d : list A) : list (string * res json) :=
  opt_fields (a ++ d) n (do x <- seq (opt_fields a "add" (Ok (JArr (map f a))) ++ opt_fields d "remove" (Ok (JArr (map f d)))); Ok (JObj x)).
Lemma same_changes {A} n (P : A -> form) f a d : (forall l, is (a_list P l) (Ok (JArr (map f l)))) -> Forall2 same (changes_fields n P a d) (changes_json n f a d).
Proof. intros I. apply same_opt. intros _. apply is_object. apply Forall2_app; apply same_opt; intros _; apply I. Qed.
Lemma seq_changes {A} n (f : A -> json) a d : seq (changes_json n f a d) = Ok (opt_dict n (opt_list "add" (map f a) ++ opt_list "remove" (map f d))).
Proof. unfold changes_json. destruct a, d; reflexivity. Qed.
Lemma seq_opt {A} n (f : A -> json) l : seq (opt_fields l n (Ok (JArr (map f l)))) = Ok (opt_list n (map f l)).
Proof. destruct l; reflexivity. Qed.

Lemma good_app a b : good (a ++ b) -> good a /\ good b.
Proof. unfold good. apply Forall_app. Qed.
Lemma good_cons a b : good (a :: b) -> wf_bytes a /\ good b.
Proof. intro F. inversion F; split; assumption. Qed.
Ltac goods := unfold bytes_of_sig in *; repeat match goal with
  | X : good (_ ++ _) |- _ => apply good_app in X as (? & ?)
  | X : good (_ :: _) |- _ => apply good_cons in X as (? & ?)
  end.
Ltac part := first [apply is_number | apply is_units | apply is_fees | apply is_names | apply is_networks
  | apply is_base64; assumption | apply is_hex; assumption | apply is_hex0x; assumption | apply is_key; assumption
  | apply is_inputs; assumption | apply is_outputs; assumption | apply is_condition; assumption | apply is_address; assumption | apply is_fulfilment; assumption].
Ltac stepped := repeat (apply same_cons; [try part|]); try apply same_nil.

Lemma b64enc_nil b : b64enc b = [] -> b = [].
Proof. destruct b as [|x [|y [|z b]]]; cbn [b64enc]; congruence. Qed.
Definition std_json (t : tx_std) : list (string * res json) :=
  opt_fields (s_cin t) "coininputs" (Ok (JArr (map in_json (s_cin t)))) ++ opt_fields (s_cout t) "coinoutputs" (outs_json H (s_cout t)) ++
  opt_fields (s_bin t) "blockstakeinputs" (Ok (JArr (map in_json (s_bin t)))) ++ opt_fields (s_bout t) "blockstakeoutputs" (outs_json H (s_bout t)) ++
  opt_fields (s_fees t) "minerfees" (Ok (JArr (map amt_json (s_fees t)))) ++ opt_fields (s_data t) "arbitrarydata" (Ok (b64_json (s_data t))).
Lemma drop_cons n v l : drop_empty ((n, v) :: l) = (if jtruthy v then [(n, v)] else []) ++ drop_empty l.
Proof. unfold drop_empty. cbn [filter snd]. destruct (jtruthy v); reflexivity. Qed.
Lemma seq_pure {A} (f : A -> json) n l : seq (opt_fields l n (Ok (JArr (map f l)))) = Ok (if jtruthy (JArr (map f l)) then [(n, JArr (map f l))] else []).
Proof. destruct l; reflexivity. Qed.
Lemma seq_b64 n b : seq (opt_fields b n (Ok (b64_json b))) = Ok (if jtruthy (b64_json b) then [(n, b64_json b)] else []).
Proof.
  destruct b as [|x b]; [reflexivity|]. unfold opt_fields, b64_json. cbn [seq bind jtruthy].
  destruct (b64enc (x :: b)) eqn:E; [apply b64enc_nil in E; discriminate|reflexivity].
Qed.
Lemma seq_outs n l : seq (opt_fields l n (outs_json H l)) = do j <- outs_json H l; Ok (if jtruthy j then [(n, j)] else []).
Proof.
  destruct l as [|o l]; [reflexivity|]. unfold opt_fields, outs_json. cbn [seq]. cbn [mapM]. destruct (out_json H o); cbn [bind]; [|reflexivity].
  destruct (mapM (out_json H) l); reflexivity.
Qed.
Lemma is_data t : good (bytes_of t) -> is (data_form H ip_str t) (data_json H ip_str t).
Proof.
  intros W. destruct t as [t|t|t|t|t|t|t|t]; cbn [bytes_of data_form] in *; goods.
  - eapply is_ext.
    + apply is_object. apply Forall2_app; [|apply Forall2_app; [|apply Forall2_app; [|apply Forall2_app; [|apply Forall2_app]]]]; apply same_opt; intros _; part.
    + intro j. cbn [data_json]. rewrite !seq_app. rewrite !seq_pure, !seq_outs, seq_b64. destruct (outs_json H (s_cout t)) as [co|]; [|cbn [bind]; split; intro E; discriminate E]. cbn [bind].
      destruct (outs_json H (s_bout t)) as [bo|]; [|cbn [bind]; split; intro E; discriminate E]. cbn [bind]. rewrite !drop_cons. change (drop_empty []) with (@nil (string * json)). rewrite !app_nil_r. reflexivity.
  - unfold mint_form.
    assert (F : is (fulfilment_form (match m_ff t with Some f => f | None => FSingle (mkpk PKNil []) None end)) (Ok (ff_json (match m_ff t with Some f => f | None => FSingle pk_default None end)))).
    { apply is_fulfilment. destruct (m_ff t); [assumption|]. repeat constructor. }
    cbn [data_json]. destruct (m_new t) as [k|os].
    + eapply is_ext; [apply is_object; stepped; exact F|].
      intro j. cbn [seq bind]. destruct (cond_json H k); reflexivity.
    + eapply is_ext; [apply is_object; stepped; exact F|].
      intro j. cbn [seq bind]. destruct (outs_json H os); reflexivity.
  - eapply is_ext; [apply is_object; apply Forall2_app; [stepped|apply same_refund; assumption]|].
    intro j. cbn [data_json]. rewrite seq_app, seq_refund. cbn [seq bind]. destruct (refund_json H (c_refund t)); reflexivity.
  - eapply is_ext; [apply is_object; stepped|].
    intro j. cbn [data_json seq bind]. destruct (uh_str H (g_addr t)); reflexivity.
  - cbn [data_json]. change (opk (r_pk t)) with (key_of (r_pk t)). destruct (pk_unlockhash H (key_of (r_pk t))) as [u|e] eqn:Eu.
    2:{ intro j. cbn [bind]. split; [discriminate|]. intros (u & cin & K & _). apply C84_key_address in K. congruence. }
    destruct (r_cin t) as [cin|] eqn:C.
    2:{ intro j. cbn [bind got]. split; [|intros (? & ? & _ & X & _); discriminate X]. destruct (eaddr_from_uh H u); [|discriminate]. destruct (uh_str H u); discriminate. }
    cbn [bytes_of_option] in *. assert (Wu : wf_bytes (uh_hash u)).
    { apply C84_key_address in Eu. destruct Eu as (d & _ & ->). apply HH. }
    eapply is_same.
    + intro j. split; [intros (v & c & K & X & Y)|intro Y; exists u, cin; split; [apply C84_key_address; exact Eu|split; [reflexivity|exact Y]]].
    apply C84_key_address in K. rewrite Eu in K. apply ok_inj in K. injection X as <-. subst v. exact Y.
    + eapply is_ext; [apply is_object; apply Forall2_app; [stepped; exact (is_erc20 u)|apply same_refund; assumption]|].
        intro j. rewrite seq_app, seq_refund. cbn [seq bind]. destruct (eaddr_from_uh H u); cbn [bind]; [|destruct (uh_str H u); split; discriminate].
        destruct (uh_str H u); cbn [bind got]; [|split; discriminate]. destruct (refund_json H (r_refund t)); reflexivity.
  - cbn [data_json]. destruct (b_pk t) as [p|]; [|intro j; split; [discriminate|intros (? & ? & X & _); discriminate X]].
    destruct (b_sig t) as [[f s]|]; [|intro j; split; [discriminate|intros (? & ? & _ & X & _); discriminate X]].
    cbn [key_of signature_bytes] in *. eapply is_same.
    + intro j. split; [intros (v & c & X & Z & Y)|intro Y; exists p, (f, s); split; [reflexivity|split; [reflexivity|exact Y]]].
    injection X as <-. injection Z as <-. exact Y.
    + eapply is_ext; [apply is_object; apply Forall2_app; [stepped; apply is_object, same_pair; eassumption|apply Forall2_app; [apply same_opt; intros _; part|apply Forall2_app; [apply same_opt; intros _; part|apply same_refund; assumption]]]|].
        intro j. rewrite !seq_app, seq_refund, !seq_opt. cbn [seq bind]. destruct (refund_json H (b_refund t)); reflexivity.
  - eapply is_ext; [apply is_object; apply Forall2_app; [stepped|apply Forall2_app; [apply same_changes; intro; apply is_networks|apply Forall2_app; [apply same_changes; intro; apply is_names|apply same_refund; assumption]]]|].
    intro j. cbn [data_json]. rewrite !seq_app, seq_refund, !seq_changes. cbn [seq bind]. destruct (refund_json H (u_refund t)); reflexivity.
  - cbn [data_json]. destruct (n_cin t) as [cin|]; [|intro j; split; [discriminate|intros (? & X & _); discriminate X]]. cbn [bytes_of_option] in *.
    eapply is_same.
    + intro j. split; [intros (c & X & Y)|intro Y; exists cin; split; [reflexivity|exact Y]]. injection X as <-. exact Y.
    + eapply is_ext; [apply is_object; apply Forall2_app; [stepped; apply is_object; stepped|apply same_refund; assumption]|].
        intro j. rewrite seq_app, seq_refund. cbn [seq bind got]. destruct (refund_json H (n_refund t)); reflexivity.
Qed.
End Print.
