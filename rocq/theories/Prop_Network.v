(** C86: a client works on the network it was asked for. *)
From Verif Require Import Base BaseFacts Currency CurrencyFacts Explorer Network Spec_Explorer Spec_Network Prop_Explorer.
From Coq Require Import ZifyBool ZifyNat ZifyN.

Lemma lower_word s w : forallb (fun l => (97 <=? l) && (l <=? 122)) w = true -> lower s = w <-> Forall2 (fun c l => c = l \/ 97 <= l <= 122 /\ c + 32 = l) s w.
Proof.
  revert w. induction s as [|c s IH]; intros [|l w] L; cbn [lower map]; split; intros E; try discriminate; try (now inversion E); try constructor.
  - injection E as E1 E2. cbn [forallb] in L. apply andb_prop in L as (L1 & L2). unfold lower_c in E1. destruct ((65 <=? c) && (c <=? 90)) eqn:B; lia.
  - injection E as E1 E2. cbn [forallb] in L. apply andb_prop in L as (L1 & L2). now apply IH.
  - inversion E as [|c' l' s' w' A B]; subst. cbn [forallb] in L. apply andb_prop in L as (L1 & L2). f_equal; [|now apply IH].
    unfold lower_c. destruct ((65 <=? c) && (c <=? 90)) eqn:X; lia.
Qed.
Lemma word_iff s w : forallb (fun l => (97 <=? l) && (l <=? 122)) (s2b w) = true -> listN_eqb (lower s) (s2b w) = true <-> any_case s w.
Proof. intros L. rewrite listN_eqb_eq. now apply lower_word. Qed.
Lemma called_lower s n : called s n <-> match n with
  | Standard => lower s = s2b "standard" \/ lower s = s2b "std" | Testnet => lower s = s2b "testnet" | Devnet => lower s = s2b "devnet" end.
Proof. destruct n; cbn [called]; unfold any_case; rewrite <- ?lower_word by (vm_compute; reflexivity); reflexivity. Qed.
Definition type_of (n : network) : nettype := NTValue (number_of_network n).
Lemma from_str_iff s n : from_str s = Some (type_of n) <-> called s n.
Proof.
  rewrite called_lower. unfold from_str. set (l := lower s).
  destruct (listN_eqb l (s2b "standard")) eqn:E1; [apply listN_eqb_eq in E1; rewrite E1|].
  { destruct n; split; intros X; try (now left); try (vm_compute in X; discriminate X); vm_compute; reflexivity. }
  destruct (listN_eqb l (s2b "std")) eqn:E2; [apply listN_eqb_eq in E2; rewrite E2|].
  { destruct n; split; intros X; try (now right); try (vm_compute in X; discriminate X); vm_compute; reflexivity. }
  destruct (listN_eqb l (s2b "testnet")) eqn:E3; [apply listN_eqb_eq in E3; rewrite E3|].
  { destruct n; split; intros X; try reflexivity; try (vm_compute in X; destruct X as [X|X]; discriminate X); vm_compute in X; discriminate X. }
  destruct (listN_eqb l (s2b "devnet")) eqn:E4; [apply listN_eqb_eq in E4; rewrite E4|].
  { destruct n; split; intros X; try reflexivity; try (vm_compute in X; destruct X as [X|X]; discriminate X); vm_compute in X; discriminate X. }
  apply listN_eqb_neq in E1, E2, E3, E4. cbn [orb]. destruct n; split; intros X; try discriminate X; exfalso; tauto.
Qed.
Lemma from_str_known s t : from_str s = Some t -> exists n, t = type_of n.
Proof.
  unfold from_str. repeat match goal with |- (if ?b then _ else _) = _ -> _ => destruct b end; intros E; try discriminate E; injection E as <-;
  [now exists Standard|now exists Testnet|now exists Devnet].
Qed.
Lemma from_str_none s : from_str s = None <-> nameless s.
Proof.
  split.
  - intros E n C. apply from_str_iff in C. congruence.
  - intros Nm. destruct (from_str s) as [t|] eqn:E; [|reflexivity]. destruct (from_str_known s t E) as (n & ->). apply from_str_iff in E. now apply Nm in E.
Qed.
Lemma explorers_of n : nt_explorers (type_of n) = map (fun s => Some (s2b s)) (public_explorers n).
Proof. destruct n; reflexivity. Qed.
Lemma fee_of n : exists c, nt_fee (type_of n) = Ok c /\ units c = least_fee n.
Proof. destruct n; eexists; (split; [vm_compute; reflexivity|vm_compute; reflexivity]). Qed.
Lemma tells_iff j s : (exists info, jget_d "chaininfo" (JObj []) j = Ok info /\ jget_d "NetworkName" (JStr (s2b "standard")) info = Ok (JStr s)) <-> tells_name j s.
Proof.
  split.
  - intros (info & E1 & E2). destruct j as [| | | | |l|]; try discriminate E1. cbn [jget_d] in E1. destruct (jfind "chaininfo" l) as [v|] eqn:F.
    + apply ok_inj in E1. subst v. destruct info as [| | | | |l'|]; try discriminate E2. cbn [jget_d] in E2. destruct (jfind "NetworkName" l') as [v|] eqn:F'; apply ok_inj in E2.
      * subst v. now apply (tells_it l l').
      * injection E2 as <-. now apply (tells_info l l').
    + apply ok_inj in E1. subst info. cbn [jget_d jfind] in E2. apply ok_inj in E2. injection E2 as <-. now constructor.
  - intros T. destruct T as [l l' s F F'|l l' F F'|l F]; cbn [jget_d]; rewrite F; eexists; (split; [reflexivity|]); cbn [jget_d jfind]; rewrite ?F'; reflexivity.
Qed.

(** A client of network [n]: [network] is that network (equal to the constant of that name), its least fee is that of the network. *)
Definition works_on (c : client) (n : network) : Prop :=
  tf_network c = Some (NTValue (number_of_network n)) /\ exists f, tf_fee c = Ok f /\ units f = least_fee n.
Lemma works c n : tf_network c = Some (type_of n) -> works_on c n.
Proof. intros E. split; [exact E|]. unfold tf_fee. unfold tf_network in E. rewrite E. apply fee_of. Qed.

(** No name is that of two networks. *)
Theorem C86_one s n n' : called s n -> called s n' -> n = n'.
Proof. intros A B. apply from_str_iff in A, B. rewrite A in B. injection B as B. destruct n, n'; try reflexivity; discriminate B. Qed.
Print Assumptions C86_one.
(** A client asked for a network by name, in letters of any case, is made, works on that network and talks to its public explorers, or else to the given ones;
    no explorer is asked which network it is. *)
Theorem C86_named answer s n : called s n ->
  (exists c, tfclient_new answer XNone (NStr s) = Ok c /\ works_on c n /\ tf_explorers c = map (fun a => Some (s2b a)) (public_explorers n)) /\
  (forall addrs, exists c, tfclient_new answer (XClient addrs) (NStr s) = Ok c /\ works_on c n /\ tf_explorers c = addrs).
Proof.
  intros C. apply from_str_iff in C. unfold tfclient_new. rewrite C. cbn [bind]. split.
  - rewrite explorers_of. destruct n; cbn [map public_explorers client_new bind]; eexists; (split; [reflexivity|]); (split; [now apply works|reflexivity]).
  - intros addrs. eexists. split; [reflexivity|]. split; [now apply works|reflexivity].
Qed.
Print Assumptions C86_named.
(** So is one given a network type instead of a name. *)
Theorem C86_typed answer n :
  (exists c, tfclient_new answer XNone (NType (NTValue (number_of_network n))) = Ok c /\ works_on c n /\ tf_explorers c = map (fun a => Some (s2b a)) (public_explorers n)) /\
  (forall addrs, exists c, tfclient_new answer (XClient addrs) (NType (NTValue (number_of_network n))) = Ok c /\ works_on c n /\ tf_explorers c = addrs).
Proof.
  fold (type_of n). unfold tfclient_new. cbn [bind]. split.
  - rewrite explorers_of. destruct n; cbn [map public_explorers client_new bind]; eexists; (split; [reflexivity|]); (split; [now apply works|reflexivity]).
  - intros addrs. eexists. split; [reflexivity|]. split; [now apply works|reflexivity].
Qed.
Print Assumptions C86_typed.
(** Without a network and without explorers it is the standard network. *)
Theorem C86_default answer : exists c, tfclient_new answer XNone NNone = Ok c /\ works_on c Standard /\ tf_explorers c = map (fun a => Some (s2b a)) (public_explorers Standard).
Proof. eexists. split; [reflexivity|]. split; [now apply works|reflexivity]. Qed.
Print Assumptions C86_default.
(** Given explorers only, the client is made, on network [n], if and only if the explorers answer and tell a name of [n]. *)
Theorem C86_told answer addrs n : (exists c, tfclient_new answer (XClient addrs) NNone = Ok c /\ works_on c n /\ tf_explorers c = addrs) <-> exists j s, answer = Ok j /\ tells_name j s /\ called s n.
Proof.
  unfold tfclient_new. cbn [bind]. split.
  - intros (c & E & (W & _) & _). apply bind_ok in E as (j & -> & E). apply bind_ok in E as (info & Ei & E). apply bind_ok in E as (name & En & E). apply bind_ok in E as (t & Et & E).
    apply ok_inj in E. subst c. cbn [tf_network n_network] in W. subst t. destruct name as [| | |s| | |]; try discriminate Et. cbn [from_json_str] in Et. apply ok_inj in Et.
    exists j, s. split; [reflexivity|]. split; [apply tells_iff; eauto|now apply from_str_iff].
  - intros (j & s & -> & T & C). apply tells_iff in T as (info & Ei & En). apply from_str_iff in C. cbn [bind]. rewrite Ei. cbn [bind]. rewrite En. cbn [bind from_json_str]. rewrite C. cbn [bind].
    eexists. split; [reflexivity|]. split; [now apply works|reflexivity].
Qed.
Print Assumptions C86_told.
(** What explorers raise is raised. *)
Theorem C86_raised addrs e : tfclient_new (Err e) (XClient addrs) NNone = Err e.
Proof. reflexivity. Qed.
Print Assumptions C86_raised.
(** A [NetworkType] made by hand that is none of the three: the client takes the explorer of the development network, unless given others, and a least fee of 0.1. *)
Theorem C86_other answer t : (forall n, t <> NTValue (number_of_network n)) ->
  (exists c, tfclient_new answer XNone (NType t) = Ok c /\ tf_network c = Some t /\ tf_explorers c = map (fun a => Some (s2b a)) (public_explorers Devnet) /\ exists f, tf_fee c = Ok f /\ units f = least_fee Standard) /\
  (forall addrs, exists c, tfclient_new answer (XClient addrs) (NType t) = Ok c /\ tf_network c = Some t /\ tf_explorers c = addrs).
Proof.
  intro N. assert (Q : forall n, nt_is t (number_of_network n) = false).
  { intro n. destruct t as [z|]; cbn [nt_is]; [|reflexivity]. apply Z.eqb_neq. intros ->. exact (N n eq_refl). }
  assert (X : nt_explorers t = map (fun s => Some (s2b s)) (public_explorers Devnet)).
  { unfold nt_explorers. pose proof (Q Standard) as Q0. pose proof (Q Testnet) as Q1. cbn [number_of_network] in Q0, Q1. rewrite Q0, Q1. reflexivity. }
  assert (F : nt_fee t = nt_fee (type_of Standard)) by (unfold nt_fee; pose proof (Q Devnet) as Q2; cbn [number_of_network] in Q2; rewrite Q2; reflexivity).
  split.
  - unfold tfclient_new. cbn [bind]. rewrite X. cbn [map public_explorers client_new bind]. eexists. split; [reflexivity|]. split; [reflexivity|]. split; [reflexivity|].
    unfold tf_fee. cbn [n_network]. rewrite F. apply (fee_of Standard).
  - intros addrs. eexists. split; [reflexivity|]. split; reflexivity.
Qed.
Print Assumptions C86_other.
(** Arguments of another kind are refused. *)
Theorem C86_kinds answer x n : tfclient_new answer x NOther = Err TypeError /\ tfclient_new answer XOther n = Err TypeError.
Proof. split; destruct n, x; reflexivity. Qed.
Print Assumptions C86_kinds.
(** Every client made has at least one explorer, if the explorers given are a client. *)
Theorem C86_explorers answer x n c : tfclient_new answer x n = Ok c -> (forall addrs, x = XClient addrs -> addrs <> []) -> tf_explorers c <> [].
Proof.
  unfold tfclient_new. intros E X. apply bind_ok in E as (t & _ & E). destruct x as [|addrs|]; [| |discriminate E].
  - apply bind_ok in E as (a & Ea & E). apply ok_inj in E. subst c. cbn [tf_explorers n_explorers]. unfold client_new in Ea. destruct (nt_explorers _); [discriminate Ea|]. apply ok_inj in Ea. now subst a.
  - specialize (X addrs eq_refl). destruct t as [t|]; [apply ok_inj in E; now subst c|].
    apply bind_ok in E as (j & _ & E). apply bind_ok in E as (i & _ & E). apply bind_ok in E as (m & _ & E). apply bind_ok in E as (t & _ & E). apply ok_inj in E. now subst c.
Qed.
Print Assumptions C86_explorers.
(** A client made for a network contacts only public explorers of that network, however the network behaves and in whatever order they are tried. *)
Theorem C86_contacts answer s n c net order i : called s n -> tfclient_new answer XNone (NStr s) = Ok c -> In i (fst (tf_get c net order)) ->
  exists a, nth_error (tf_explorers c) i = Some (Some (s2b a)) /\ In a (public_explorers n).
Proof.
  intros C E I. destruct (proj1 (C86_named answer s n C)) as (c' & E' & _ & X). rewrite E in E'. apply ok_inj in E'. subst c'.
  unfold tf_get, explorer_get in I. fold (tf_explorers c) in I. rewrite X in *. clear X.
  assert (K : exists x, nth_error (map (fun a => Some (s2b a)) (public_explorers n)) i = Some (Some x)).
  { revert I. generalize (map (fun a => Some (s2b a)) (public_explorers n) : list (option pystr)). intros addrs. induction order as [|k order IH]; cbn [try_all fst In]; [intros HI; exfalso; exact HI|].
    destruct (@nth_error (option pystr) addrs k) as [[x|]|] eqn:F; cbn [fst In]; [|intros HI; exfalso; exact HI|intros HI; exfalso; exact HI]. destruct (get_step (net k)) as [r|]; cbn [fst In].
    - intros [<-|HI]; [now exists x|exfalso; exact HI].
    - intros [<-|I]; [now exists x|now apply IH]. }
  destruct K as (x & K). rewrite nth_error_map in K. destruct (nth_error (public_explorers n) i) as [a|] eqn:F; [|discriminate K]. injection K as <-.
  exists a. split; [|now apply nth_error_In in F]. rewrite nth_error_map, F. reflexivity.
Qed.
Print Assumptions C86_contacts.

(** ** Names of no network *)
(** A name of no network is not refused: it is taken as if no network had been asked for. *)
Theorem C86_unknown answer x s : nameless s -> tfclient_new answer x (NStr s) = tfclient_new answer x NNone.
Proof. intros E. apply from_str_none in E. unfold tfclient_new. now rewrite E. Qed.
Print Assumptions C86_unknown.
(** "A client asked for a network that does not exist is refused" is false: it works on the standard network, with real coins. *)
Theorem C86_unknown_refuted : exists s answer c, nameless s /\ tfclient_new answer XNone (NStr s) = Ok c /\ works_on c Standard.
Proof.
  exists (s2b "test"), (Err KeyError). eexists. split; [now apply from_str_none|]. split; [reflexivity|now apply works].
Qed.
Print Assumptions C86_unknown_refuted.
(** An explorer of another network is not refused either: the client is made without a network and has no least fee, so that it can pay nothing. *)
Theorem C86_told_unknown answer addrs j s : answer = Ok j -> tells_name j s -> nameless s ->
  exists c, tfclient_new answer (XClient addrs) NNone = Ok c /\ tf_network c = None /\ tf_fee c = Err AttributeError.
Proof.
  intros -> T C. apply tells_iff in T as (info & Ei & En). apply from_str_none in C. unfold tfclient_new. cbn [bind]. rewrite Ei. cbn [bind]. rewrite En. cbn [bind from_json_str]. rewrite C. cbn [bind].
  eexists. repeat split; reflexivity.
Qed.
Print Assumptions C86_told_unknown.
(** Nor is a network type of another value: the client talks to a local explorer, with the fees of the standard network. *)
Theorem C86_type_refuted : exists t answer c f, (forall n, t <> NTValue (number_of_network n)) /\ tfclient_new answer XNone (NType t) = Ok c /\
  tf_fee c = Ok f /\ units f = least_fee Standard /\ tf_explorers c = map (fun a => Some (s2b a)) (public_explorers Devnet).
Proof.
  exists (NTValue 3), (Err KeyError). eexists. eexists. split; [intros []; discriminate|]. split; [reflexivity|]. split; [vm_compute; reflexivity|]. split; [vm_compute; reflexivity|reflexivity].
Qed.
Print Assumptions C86_type_refuted.
(** So it is with every type that is none of the three: the fee of one network, the explorers of another. *)
Theorem C86_type : forall t answer, (forall n, t <> NTValue (number_of_network n)) -> exists c f, tfclient_new answer XNone (NType t) = Ok c /\
  tf_network c = Some t /\ tf_fee c = Ok f /\ units f = least_fee Standard /\ tf_explorers c = map (fun a => Some (s2b a)) (public_explorers Devnet).
Proof.
  intros t answer N.
  assert (A : nt_is t 0 = false /\ nt_is t 1 = false /\ nt_is t 2 = false).
  { destruct t as [z|]; [|repeat split]. cbn [nt_is]. repeat split; apply Z.eqb_neq; intro E; subst z; [apply (N Standard)|apply (N Testnet)|apply (N Devnet)]; reflexivity. }
  destruct A as (A & B & C). unfold tfclient_new. cbn [bind]. unfold nt_explorers. rewrite A, B. cbn [map client_new bind].
  eexists _, _. split; [reflexivity|]. split; [reflexivity|]. unfold tf_fee, nt_fee. cbn [n_network]. rewrite C. split; [vm_compute; reflexivity|]. split; [vm_compute; reflexivity|reflexivity].
Qed.
Print Assumptions C86_type.

Example C86_ex_called : called (s2b "TestNet") Testnet /\ called (s2b "STD") Standard /\ nameless (s2b "mainnet").
Proof. split; [|split]; [apply from_str_iff; vm_compute; reflexivity|apply from_str_iff; vm_compute; reflexivity|apply from_str_none; vm_compute; reflexivity]. Qed.
Example C86_ex_told : tells_name (JObj [("chaininfo"%string, JObj [("NetworkName"%string, JStr (s2b "devnet"))])]) (s2b "devnet") /\
  exists c, tfclient_new (Ok (JObj [("chaininfo"%string, JObj [("NetworkName"%string, JStr (s2b "devnet"))])])) (XClient [Some (s2b "http://10.0.0.1:23110")]) NNone = Ok c /\ works_on c Devnet.
Proof.
  split; [now eapply tells_it|]. eexists. split; [reflexivity|now apply works].
Qed.
