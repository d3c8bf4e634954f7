(** C85: building a transaction by hand. *)
From Verif Require Import Base BaseFacts Encoders Primitive Types Conditions Fulfillments Currency ThreeBotTypes Txn TxnSign TxnBuild Spec_Types Spec_Currency Spec_Amounts Spec_ERC20 Spec_Texts Spec_ThreeBot Spec_Ops Spec_Build
  ConditionFacts2 BuildByHand BuildByHand2.
From Coq Require Import ZifyBool ZifyNat ZifyN.
Ltac Zify.zify_post_hook ::= Z.div_mod_to_equations.

(** Whatever is assigned or called: it succeeds if and only if the value given is one of those its part takes (Spec_Build.done), and then that part, and
    nothing else, is what was given. *)
Theorem C85_done H parse t o t' : hash_ok H -> step H parse t o = (t', Ok tt) <-> done H parse t o t'.
Proof. apply step_iff. Qed.
Print Assumptions C85_done.
(** What is refused leaves the transaction as it was, unless it is the assignment of a list. *)
Theorem C85_unchanged H parse t o t' e : step H parse t o = (t', Err e) -> ~ list_assigned o -> t' = t.
Proof. apply refused_unchanged. Qed.
Print Assumptions C85_unchanged.
(** A refused assignment of a list leaves the transaction as it was, or as the elements before the refused one would. *)
Theorem C85_stopped H parse t o t' e : step H parse t o = (t', Err e) -> t' = t \/ exists o', shorter o o' /\ step H parse t o' = (t', Ok tt).
Proof. apply refused_stopped. Qed.
Print Assumptions C85_stopped.
(** "A refused assignment changes nothing" is false of lists: the outputs there were are gone. *)
Theorem C85_unchanged_refuted : exists H parse t o t' e, hash_ok H /\ step H parse t o = (t', Err e) /\ coin_outputs t <> [] /\ coin_outputs t' = [].
Proof.
  exists ex_H, (fun _ => Err ValueError), (T1 (mkstd false [] [mkout 5 CNil []] [] [] [] [])), (CoinOutputs OLOther). eexists. eexists.
  split; [exact ex_H_ok|]. split; [reflexivity|]. split; [discriminate|reflexivity].
Qed.
Print Assumptions C85_unchanged_refuted.

(** From a new transaction, whatever is assigned and called, in whatever order, refused or not: what is reached are exactly the transactions of that version
    within the limits (Spec_Build.made), as long as the inputs, outputs and addresses given are within them. *)
Theorem C85_reachable H parse nonce v t0 t : hash_ok H -> blank_txn nonce v = Some t0 ->
  (exists os, Forall (genuine parse) os /\ history H parse t0 os = t) <-> version t = v /\ made parse nonce t.
Proof.
  intros HO B. destruct (blank_made parse nonce v t0 B) as (M0 & V0). split.
  - intros (os & G & <-). destruct (history_made parse H nonce os HO t0 G M0) as (M & V). split; [congruence|exact M].
  - intros (V & M). apply (reach parse H HO nonce t0 t); [now rewrite V|exact M].
Qed.
Print Assumptions C85_reachable.
(** The limits of 3Bot records among them *)
Theorem C85_limits H parse nonce v t0 os : hash_ok H -> blank_txn nonce v = Some t0 -> In v [144; 145; 146]%Z -> Forall (genuine parse) os -> limits (history H parse t0 os).
Proof.
  intros HO B I G. destruct (proj1 (C85_reachable H parse nonce v t0 (history H parse t0 os) HO B)) as (V & M); [exists os; split; [exact G|reflexivity]|].
  destruct (history H parse t0 os) as [[]|[? n ? ? ? ?]|[]|[]|[]|[]|[]|[]]; cbn [version m_new] in V; try (destruct n); subst v; cbn [In] in I; try (exfalso; intuition discriminate);
  cbn [made] in M; cbn; unfold made_addresses, made_names, room in M; intuition.
Qed.
Print Assumptions C85_limits.

(** ** Where the code does not do what its name says *)
(** The names of a name transfer are not replaced: they come after those there are. *)
Theorem C85_names_refuted : exists H parse t t' l, hash_ok H /\ step H parse (T146 t) (Names (SGList (map for_name l))) = (T146 t', Ok tt) /\ l <> [] /\ n_names t' <> l.
Proof.
  exists ex_H, (fun _ => Err ValueError), (mkname 1 2 [s2b "aaaaa.older"] None None None None None None None). eexists. exists [s2b "aaaaa.bbbbb"].
  split; [exact ex_H_ok|]. split; [vm_compute; reflexivity|]. split; discriminate.
Qed.
Print Assumptions C85_names_refuted.
(** No input can be added to a new address registration or name transfer: its list has to be assigned first. *)
Theorem C85_input_refuted H parse nonce v t0 p f x : blank_txn nonce v = Some t0 -> v = 210%Z \/ v = 146%Z -> exists e, step H parse t0 (CoinInputAdd p f x) = (t0, Err e).
Proof.
  intros B [-> | ->]; injection B as <-; cbn [step step_reg step_name]; unfold add_opt; cbn [r_cin n_cin]; destruct (input_new p f x) as [i|e]; cbn [part fst snd]; eexists; reflexivity.
Qed.
Print Assumptions C85_input_refuted.

(** ** Inputs taken over from elsewhere *)
Definition copy (i : input) : input := mkin (i_parent i) (i_ff i) (Some (match i_out i with Some o => o | None => out_default end)).
Lemma copies l : Forall2 copied_input (map IGIn l) (map copy l).
Proof. induction l as [|[p f o] l IH]; constructor; [|exact IH]. apply input_copy_iff. reflexivity. Qed.
Lemma sia_copies f l : (forall i, f (copy i) = f i) -> sia_list f (map copy l) = sia_list f l.
Proof. intro E. unfold sia_list. rewrite map_length, map_map. now rewrite (map_ext _ f) by exact E. Qed.
Lemma riv_copies f l : (forall i, f (copy i) = f i) -> riv_list f (map copy l) = riv_list f l.
Proof. intro E. unfold riv_list, lenN. rewrite map_length, map_map. now rewrite (map_ext _ f) by exact E. Qed.
Lemma cat_copies (f : input -> res bytes) l : (forall i, f (copy i) = f i) -> rconcat (map f (map copy l)) = rconcat (map f l).
Proof. intro E. rewrite map_map. now rewrite (map_ext _ f) by exact E. Qed.
Lemma parents_copies l : map i_parent (map copy l) = map i_parent l.
Proof. rewrite map_map. now apply map_ext. Qed.
(** what the transaction is when its inputs are assigned to it again *)
Lemma reassigned H parse t l t' : coin_inputs t = Ok l -> step H parse t (CoinInputs (SGList (map IGIn l))) = (t', Ok tt) ->
  (forall xs, sig_input H t' xs = sig_input H t xs) /\ data_bytes H t' = data_bytes H t /\ (forall s, t = T1 s -> exists s', t' = T1 s' /\ s_legacy s' = s_legacy s) /\ version t' = version t /\ specifier t' = specifier t.
Proof.
  intros C S0.
  assert (A : forall l, assign one_input [] (SGList (map IGIn l)) = (map copy l, Ok tt)).
  { intro k. apply (assign_iff input_copy copied_input _ _ input_copy_iff). right. eexists. split; [reflexivity|apply copies]. }
  assert (X1 : forall k, ids_sia (map copy k) = ids_sia k) by (intro; unfold ids_sia; now rewrite parents_copies).
  assert (X2 : forall k, ids_riv (map copy k) = ids_riv k) by (intro; unfold ids_riv; now rewrite parents_copies, map_length).
  destruct t as [t|t|t|t|t|t|t|t]; cbn [coin_inputs] in C; cbn [step] in S0; unfold step_std, step_mint, step_conv, step_gen, step_reg, step_bot, step_upd, step_name in S0; cbv zeta in S0;
  try (rewrite A in S0); unfold part in S0; cbn [fst snd missing] in S0.
  - apply ok_inj in C. subst l. injection S0 as <-. destruct t as [g ci co bi bo fs d]. cbn [s_legacy s_cin s_cout s_bin s_bout s_fees s_data].
    split; [|split; [|split; [intros s [= <-]; eexists; split; [reflexivity|reflexivity]|split; reflexivity]]].
    + intro xs. cbn [sig_input s_legacy s_cin s_cout s_bin s_bout s_fees s_data]. rewrite X1, (cat_copies (legacy_in_sig H)) by reflexivity. reflexivity.
    + cbn [data_bytes s_legacy s_cin s_cout s_bin s_bout s_fees s_data]. rewrite (sia_copies legacy_in), (sia_copies in_sia) by reflexivity. reflexivity.
  - destruct (m_new t); discriminate.
  - apply ok_inj in C. subst l. injection S0 as <-. split; [|split; [|split; [discriminate|split; reflexivity]]].
    + intro xs. cbn [sig_input specifier c_addr c_value c_fee c_cin c_refund]. now rewrite X2.
    + cbn [data_bytes c_addr c_value c_fee c_cin c_refund]. now rewrite (riv_copies in_riv) by reflexivity.
  - discriminate.
  - destruct t as [k s f [ci|] r]; cbn [r_cin got] in C; [|discriminate]. apply ok_inj in C. subst l. injection S0 as <-. split; [|split; [|split; [discriminate|split; reflexivity]]].
    + intro xs. cbn [sig_input specifier got bind r_pk r_sig r_fee r_cin r_refund]. now rewrite X2.
    + cbn [data_bytes r_pk r_sig r_fee r_cin r_refund ins_riv]. now rewrite (riv_copies in_riv) by reflexivity.
  - apply ok_inj in C. subst l. injection S0 as <-. split; [|split; [|split; [discriminate|split; reflexivity]]].
    + intro xs. cbn [sig_input specifier b_addrs b_names b_months b_fee b_cin b_refund b_pk b_sig]. now rewrite X2.
    + cbn [data_bytes b_addrs b_names b_months b_fee b_cin b_refund b_pk b_sig]. now rewrite (riv_copies in_riv) by reflexivity.
  - apply ok_inj in C. subst l. injection S0 as <-. split; [|split; [|split; [discriminate|split; reflexivity]]].
    + intro xs. cbn [sig_input specifier u_id u_addr_add u_addr_del u_name_add u_name_del u_months u_fee u_cin u_refund u_sig u_parent]. now rewrite X2.
    + cbn [data_bytes u_id u_addr_add u_addr_del u_name_add u_name_del u_months u_fee u_cin u_refund u_sig u_parent]. now rewrite (riv_copies in_riv) by reflexivity.
  - destruct t as [a b ln f [ci|] r s q k x]; cbn [n_cin got] in C; [|discriminate]. apply ok_inj in C. subst l. injection S0 as <-. split; [|split; [|split; [discriminate|split; reflexivity]]].
    + intro xs. cbn [sig_input specifier got bind n_sender n_receiver n_names n_fee n_cin n_refund n_ssig n_rsig n_spk n_rpk]. now rewrite X2.
    + cbn [data_bytes n_sender n_receiver n_names n_fee n_cin n_refund n_ssig n_rsig n_spk n_rpk ins_riv]. now rewrite (riv_copies in_riv) by reflexivity.
Qed.
(** Assigning a transaction the inputs it has changes neither its bytes, nor what is identified, nor what is signed. *)
Theorem C85_copy H parse t l t' : coin_inputs t = Ok l -> step H parse t (CoinInputs (SGList (map IGIn l))) = (t', Ok tt) ->
  binary_encode H t' = binary_encode H t /\ id_input H t' = id_input H t /\ forall xs, sig_input H t' xs = sig_input H t xs.
Proof.
  intros C S0. destruct (reassigned H parse t l t' C S0) as (A & B & L & V & P).
  assert (E : binary_encode H t' = binary_encode H t).
  { unfold binary_encode. destruct t as [s|t|t|t|t|t|t|t]; [destruct (L s eq_refl) as (s' & -> & G); rewrite B, G; reflexivity|..]; destruct t' as [u|u|u|u|u|u|u|u]; try discriminate V; try (cbn [version] in V; destruct (m_new u); discriminate V); try (cbn [version] in V; destruct (m_new t); discriminate V); rewrite B; try rewrite V; reflexivity. }
  split; [exact E|]. split; [|exact A].
  unfold id_input. destruct t as [s|t|t|t|t|t|t|t]; [destruct (L s eq_refl) as (s' & -> & G); exact E|..]; destruct t' as [u|u|u|u|u|u|u|u]; try discriminate V; try (cbn [version] in V; destruct (m_new u); discriminate V); try (cbn [version] in V; destruct (m_new t); discriminate V); rewrite B; try rewrite P; reflexivity.
Qed.
Print Assumptions C85_copy.
(** But it may change whether the transaction counts as signed: an input whose parent output is not known becomes one of nothing to anyone. *)
Theorem C85_copy_refuted : exists H parse t l t', hash_ok H /\ coin_inputs t = Ok l /\ step H parse t (CoinInputs (SGList (map IGIn l))) = (t', Ok tt) /\
  t_is_fulfilled t = Ok false /\ t_is_fulfilled t' = Ok true.
Proof.
  exists ex_H, (fun _ => Err ValueError), (T1 (mkstd false [mkin (repeat 7 32) (FSingle (mkpk PKEd25519 (repeat 3 32)) (Some (repeat 9 64))) None] [] [] [] [] [])). eexists. eexists.
  split; [exact ex_H_ok|]. split; [reflexivity|]. split; [reflexivity|]. split; vm_compute; reflexivity.
Qed.
Print Assumptions C85_copy_refuted.

(** ** Cases *)
(** a 3Bot registration made by hand, with mistakes on the way *)
Definition exh_parse (s : pystr) : res bytes := if listN_eqb s (s2b "10.0.0.1") then Ok [10; 0; 0; 1] else Err ValueError.
Definition exh_ops : list op :=
  [Names (SGList [NGText (Some (s2b "aaaaa.first")); NGOther; NGText (Some (s2b "aaaaa.second"))]); Months (MGInt 25); Months (MGInt 12); Months MGOther;
   AddressAdd (AGVal (NVText (Some (s2b "10.0.0.1")))); AddressAdd (AGVal (NVText (Some (s2b "not an address")))); NameAdd (NGText (Some (s2b "aaaaa.second")));
   TransactionFee (CIStr (s2b "0.1")); CoinInputAdd (BVBytes (repeat 7 32)) FGNone OGNone; CoinInputAdd (BVBytes (repeat 7 31)) FGNone OGNone;
   RefundSet (CIInt 3) CGNone BVNone; Data (BVStr (s2b "hello")); MintCondition CGNone; Signature (BVBytes (repeat 1 63))].
Example C85_ex : history ex_H exh_parse (T144 (mkbot [] [] 0 None [] None None None)) exh_ops =
  T144 (mkbot [mkna 1 [10; 0; 0; 1]] [s2b "aaaaa.first"; s2b "aaaaa.second"] 12 (Some 100000000) [mkin (repeat 7 32) (FSingle pk_default None) None] (Some (mkout 3000000000 CNil [])) None None) /\
  Forall (genuine exh_parse) exh_ops /\ blank_txn [] 144 = Some (T144 (mkbot [] [] 0 None [] None None None)).
Proof.
  split; [vm_compute; reflexivity|]. split; [|reflexivity]. unfold exh_ops. repeat (apply Forall_cons; [exact I|]). apply Forall_nil.
Qed.
(** a refused list: what came before the bad element stays *)
Example C85_ex_stopped : exists t', step ex_H exh_parse (T144 (mkbot [] [s2b "aaaaa.older"] 1 None [] None None None)) (Names (SGList [NGText (Some (s2b "aaaaa.first")); NGOther])) = (T144 t', Err TypeError) /\ b_names t' = [s2b "aaaaa.first"].
Proof. eexists. split; vm_compute; reflexivity. Qed.
(** every part of a transaction within the limits *)
Example C85_ex_made : made exh_parse (repeat 5 8) (TMint (mkmint None (MCoins [mkout 5 CNil (repeat 7 32)]) [100000000] (s2b "hello") (repeat 5 8) (Some CNil))) /\
  made exh_parse [] (T145 (mkupd 3 [mkna 1 [10; 0; 0; 1]] [] [s2b "aaaaa.first"] [] 24 (Some 1) [] None (Some (true, repeat 1 64)) None)).
Proof.
  split; cbn [made].
  - split; [repeat constructor; now right|]. split; [vm_compute; lia|reflexivity].
  - split; [lia|]. assert (N0 : made_name (s2b "aaaaa.first")) by (apply (name_made (NGText (Some (s2b "aaaaa.first")))); apply name_iff; vm_compute; reflexivity).
    assert (A0 : made_address exh_parse (mkna 1 [10; 0; 0; 1])).
    { exists (AGVal (NVText (Some (s2b "10.0.0.1")))). split; [discriminate|]. apply address_iff. vm_compute. reflexivity. }
    split; [split; [unfold room; cbn [length]; lia|auto]|]. split; [split; [unfold room; cbn [length]; lia|constructor]|]. split; [split; [unfold room; cbn [length]; lia|auto]|].
    split; [split; [unfold room; cbn [length]; lia|constructor]|]. split; [lia|]. split; [constructor|]. split; [exact I|]. split; [reflexivity|now right].
Qed.
