(** Theorems about [coins_send] as it is called (C75). *)
From Verif Require Import Base BaseFacts Encoders Currency Primitive Types Conditions Fulfillments ThreeBotTypes Txn TxnSign Wallet Ops Front
  Spec_Types Spec_Txn Spec_Sign Spec_Wallet Spec_Ops Spec_ERC20 Spec_Currency Spec_Front OpsFacts4 CurrencyFacts CurrencyFacts2 TypesFacts ConditionFacts CondParseFacts Prop_ERC20 Prop_Types Prop_Currency
  TxnFacts3 Prop_Fulfil Prop_Txn Prop_ThreeBot Prop_Wallet Prop_Sign Prop_Ops.
From Coq Require Import ZifyBool ZifyNat ZifyN.
Ltac Zify.zify_post_hook ::= Z.div_mod_to_equations.

(** *** Lemmas *)
Lemma blank_strip : forall t, unhex t = Ok [] -> lstrip is_pyspace t = [].
Proof.
  assert (G : forall n t, (length t <= n)%nat -> unhex t = Ok [] -> lstrip is_pyspace t = []).
  { induction n as [|n IH]; intros t L E; [destruct t; [reflexivity|cbn in L; lia]|]. destruct t as [|c t]; [reflexivity|]. cbn [unhex length] in *. cbn [lstrip].
    destruct (is_space c) eqn:Sp.
    - replace (is_pyspace c) with true by (unfold is_pyspace; rewrite Sp; reflexivity). apply IH; [lia|exact E].
    - destruct t as [|d t]; [discriminate|]. destruct (unhexdig c); [|discriminate]. destruct (unhexdig d); [|discriminate]. apply bind_ok in E as (r & _ & F). apply ok_inj in F. discriminate. }
  intro t. apply (G (length t)). lia.
Qed.
Lemma prefix_dec s : exists t, after_prefix s t.
Proof.
  destruct s as [|a [|b t]].
  - exists []. right. right. split; [intros (u & [E|E]); discriminate|reflexivity].
  - exists [a]. right. right. split; [intros (u & [E|E]); discriminate|reflexivity].
  - destruct (a =? 48) eqn:A.
    + destruct (b =? 120) eqn:B; [exists t; left; apply N.eqb_eq in A, B; subst; reflexivity|].
      destruct (b =? 88) eqn:C; [exists t; right; left; apply N.eqb_eq in A, C; subst; reflexivity|].
      exists (a :: b :: t). right. right. split; [|reflexivity]. intros (u & [E|E]); injection E as -> -> _; discriminate.
    + exists (a :: b :: t). right. right. split; [|reflexivity]. intros (u & [E|E]); injection E as -> _; discriminate.
Qed.
Lemma after_digits s t : after_prefix s t -> digits_of s t.
Proof. unfold after_prefix, digits_of. tauto. Qed.
Lemma digits_after s t : digits_of s t -> Forall hexchar t -> after_prefix s t.
Proof.
  intros [-> | [-> | ->]] F; [|now left|now right; left]. right. right. split; [|reflexivity]. intros (u & [E|E]); subst t; inversion F as [|? ? _ F2]; subst; inversion F2 as [|? ? X _]; subst; unfold hexchar in X; lia.
Qed.
Lemma erc20_named p a : eaddr_valid (payee_value p) = true -> eaddr_new (payee_value p) = Ok a -> names_erc20 p a.
Proof.
  destruct p as [b|r]; cbn [payee_value].
  - cbn [eaddr_valid bd_val]. intros V E. apply Nat.eqb_eq in V. unfold eaddr_new, bd_new in E. change (strkind_of (Some (s2b "hexprefix"))) with (Ok KHexPrefix) in E. cbn [bind guard] in E.
    change (0 <=? 20)%Z with true in E. cbn [bind guard] in E. unfold bd_set, bd_norm in E. cbn [bind bd_size bd_size_ok bd_val] in E. apply bind_ok in E as (d & E & X). apply ok_inj in X. subst a.
    apply bind_ok in E as (? & _ & E). apply ok_inj in E. subst d. cbn [bd_val]. split; [exact V|reflexivity].
  - destruct r; cbn [payee_value]; try discriminate.
    + intros V E. destruct (prefix_dec s) as [t A]. destruct (drop_0x_spec s t A) as [D _]. cbn [eaddr_valid] in V. rewrite D in V. apply andb_true_iff in V as [V1 V2]. apply Nat.eqb_eq in V1.
      apply (eaddr_new_str s t a A) in E as [E [L|L]].
      * destruct a; [|discriminate]. exfalso. unfold hexint_ok, strip in V2. rewrite (blank_strip t E) in V2. discriminate.
      * split; [exact L|]. exists t. split; [exact (after_digits s t A)|]. split; [apply (proj2 (unhex_len _ t a (le_n _) E)); lia|]. split; [exact V1|exact E].
    + intros V E. pose proof (proj2 (proj1 (C44_bytes _) V)) as X. rewrite X in E. apply ok_inj in E. subst b. split; [|reflexivity]. cbn [eaddr_valid] in V. apply Nat.eqb_eq. exact V.
Qed.
Lemma named_valid p a : names_erc20 p a -> eaddr_valid (payee_value p) = true /\ eaddr_new (payee_value p) = Ok a.
Proof.
  intros [L N]. destruct p as [b|r]; cbn [payee_value] in *.
  - subst b. split; [cbn [eaddr_valid bd_val]; now rewrite L|]. unfold eaddr_new, bd_new. change (strkind_of (Some (s2b "hexprefix"))) with (Ok KHexPrefix). cbn [bind guard].
    change (0 <=? 20)%Z with true. cbn [bind guard]. unfold bd_set, bd_norm. cbn [bind bd_size bd_size_ok bd_val]. unfold lenN. rewrite L. reflexivity.
  - destruct r; try contradiction.
    + destruct N as (t & D & F & Lt & E). pose proof (digits_after s t D F) as A. split.
      * cbn [eaddr_valid]. destruct (drop_0x_spec s t A) as [-> _]. rewrite Lt. change (40 =? 40)%nat with true. cbn [andb]. apply hexint_ok_chars; [exact F|]. intros ->. discriminate.
      * apply (eaddr_new_str s t a A). auto.
    + subst b. assert (V : eaddr_valid (BVBytes a) = true) by (cbn [eaddr_valid]; now rewrite L). split; [exact V|]. exact (proj2 (proj1 (C44_bytes _) V)).
Qed.
(** an address text is no ERC20 address: 78 characters against 40 or 42 *)
Lemma valid_length s : eaddr_valid (BVStr s) = true -> (length s <= 42)%nat.
Proof.
  cbn [eaddr_valid]. intro V. apply andb_true_iff in V as [V _]. apply Nat.eqb_eq in V. unfold drop_0x in V. destruct s as [|a [|b t]]; cbn [length] in *; try lia.
  destruct ((a =? 48) && ((b =? 120) || (b =? 88))); cbn [length] in V; lia.
Qed.
Lemma parse_length H s u : uh_parse H s = Ok u -> length s = 78%nat.
Proof. unfold uh_parse. intro E. apply bind_ok in E as (? & G & _). apply guard_ok in G. apply Nat.eqb_eq. exact G. Qed.
Lemma sources_named H v s : source_arg H v = Ok s <-> names_sources H v s.
Proof.
  assert (O : forall w u, source_one H w = Ok u <-> names_source H w u).
  { intros w u. unfold source_one, names_source. split.
    - destruct w; try discriminate; [eauto|]. intro E. apply ok_inj in E. subst. now left.
    - intros [->|(t & -> & E)]; [reflexivity|exact E]. }
  assert (S1 : forall w, w <> RNone -> (forall l, w <> RList l) -> ((do u <- source_one H w; Ok (Some [u])) = Ok s <-> names_sources H w s)).
  { intros w N NL. split.
    - intro E. apply bind_ok in E as (u & U & E). apply ok_inj in E. subst s. right. exists u. split; [reflexivity|]. apply O. exact U.
    - destruct s as [us|]; [|contradiction]. intros [(l & -> & _)|(u & -> & U)]; [destruct (NL l eq_refl)|]. apply O in U. rewrite U. reflexivity. }
  destruct v; try (apply S1; discriminate).
  - cbn [source_arg]. split; [intro E; apply ok_inj in E; subst s; reflexivity|]. destruct s as [us|]; [|reflexivity]. intros [(l & X & _)|(u & _ & [X|(t & X & _)])]; discriminate.
  - cbn [source_arg]. split.
    + intro E. apply bind_ok in E as (us & M & E). apply ok_inj in E. subst s. left. exists l. split; [reflexivity|]. apply (F2_iff_mapM (names_source H) (source_one H)); [intros a b; symmetry; apply O|exact M].
    + destruct s as [us|]; [|discriminate]. intros [(l' & X & F)|(u & _ & [X|(t & X & _)])]; try discriminate. injection X as <-.
      replace (mapM (source_one H) l) with (Ok us); [reflexivity|]. symmetry. apply (F2_iff_mapM (names_source H) (source_one H)); [intros a b; symmetry; apply O|exact F].
Qed.
Lemma refund_named H now v c : refund_arg H now v = Ok c <-> names_refund H v c.
Proof.
  assert (S1 : forall w, w <> RNone -> ((do c <- from_recipient H now w LNone; Ok (Some c)) = Ok c <-> names_refund H w c)).
  { intros w N. split.
    - intro E. apply bind_ok in E as (d & D & E). apply ok_inj in E. subst c. split; [exact N|]. apply (C18_recipient H now). exact D.
    - destruct c as [d|]; [|contradiction]. intros [_ P]. apply (C18_recipient H now) in P. rewrite P. reflexivity. }
  destruct v; try (apply S1; discriminate).
  cbn [refund_arg]. split; [intro E; apply ok_inj in E; subst c; reflexivity|]. destruct c as [d|]; [|reflexivity]. intros [X _]. destruct (X eq_refl).
Qed.
Lemma data_named d b : data_arg d = Ok b <-> data_is d b.
Proof. destruct d; cbn [data_arg data_is]; split; intro E; try (apply ok_inj in E); subst; auto. Qed.
Lemma amount_named v n : (forall c, v = CICur c -> is_currency c) -> amount_arg v = Ok n -> is_amount v n.
Proof.
  unfold amount_arg, is_amount. intros V E. apply bind_ok in E as (c & C & E). apply ok_inj in E. subst n. exists c. split; [exact C|].
  apply valid_amount. apply (cset_valid v c C). intros d D. apply is_currency_valid. exact (V d D).
Qed.
Lemma recipient_named H now r lock c : from_recipient H now r lock = Ok c -> exists i, pays (fun s u => uh_parse H s = Ok u) r i /\ locked_as now lock i c.
Proof.
  assert (K : lock = LNone \/ lock <> LNone) by (destruct lock; [left; reflexivity|right; discriminate..]). intro E. destruct K as [-> | K].
  - exists c. split; [exact (proj1 (C18_recipient H now r c) E)|reflexivity].
  - apply (proj1 (C18_locked_recipient H now r lock c K)) in E as (l & i & L & P & ->). exists i. split; [exact P|]. destruct lock; try (exists l; split; [exact L|reflexivity]). destruct (K eq_refl).
Qed.

(** ** C75 *)
(** What is sent is what the arguments say: the amount to the ERC20 address named, which takes neither lock nor data; or else to the owners
    named, locked as asked and with the data given.  It is paid from the addresses named as source, with the remainder to the refund recipient. *)
Theorem C75_sends : forall H sign now x p v source refund lock data t sub, (forall c, v = CICur c -> is_currency c) ->
  coins_send_args H sign now x p v source refund lock data = Ok (t, sub) ->
  exists n s r, is_amount v n /\ 0 < n /\ names_sources H source s /\ names_refund H refund r /\ (sub = true <-> complete t) /\
  ((exists a c, names_erc20 p a /\ lock = LNone /\ data = DVNone /\ t = T208 c /\ c_addr c = a /\ c_value c = n /\
      funded H (x_bal x) (x_address x) s r (x_fee x) [] n t) \/
   (exists i c b a, (forall a, ~ names_erc20 p a) /\ names_payee H p i /\ locked_as now lock i c /\ data_is data b /\ t = T1 a /\ s_data a = b /\
      funded H (x_bal x) (x_address x) s r (x_fee x) [mkout n c []] 0 t)).
Proof.
  intros H sg now x p v source refund lock data t sub V. unfold coins_send_args. destruct (eaddr_valid (payee_value p)) eqn:K; intro E.
  - apply bind_ok in E as (? & G1 & E). apply guard_ok in G1. apply bind_ok in E as (? & G2 & E). apply guard_ok in G2. apply bind_ok in E as (n & N & E).
    apply bind_ok in E as (s & Es & E). apply bind_ok in E as (r & Er & E). apply erc20_send_inv in E as (c & -> & A & B & P & F & C). cbn [f_source f_refund] in F.
    exists n, s, r. split; [exact (amount_named v n V N)|]. split; [exact P|]. split; [apply sources_named; exact Es|]. split; [apply (refund_named H now); exact Er|]. split; [exact C|].
    left. exists (c_addr c), c. split; [exact (erc20_named p _ K A)|]. split; [destruct lock; try discriminate; reflexivity|]. split; [destruct data; try discriminate; reflexivity|]. auto.
  - apply bind_ok in E as (n & N & E). apply bind_ok in E as (? & G & E). apply guard_ok in G. apply bind_ok in E as (c & R & E). apply bind_ok in E as (s & Es & E).
    apply bind_ok in E as (r & Er & E). apply bind_ok in E as (b & Eb & E). apply C36_send in E as (_ & F & (a & -> & _ & _ & _ & D & _) & C). cbn [f_source f_refund] in F.
    exists n, s, r. split; [exact (amount_named v n V N)|]. split; [lia|]. split; [apply sources_named; exact Es|]. split; [apply (refund_named H now); exact Er|]. split; [exact C|].
    right. destruct p as [e|q]; [discriminate|]. destruct (recipient_named H now q lock c R) as (i & P & L). exists i, c, b, a.
    split; [intros e Ne; rewrite (proj1 (named_valid _ _ Ne)) in K; discriminate|]. split; [exists q; auto|]. split; [exact L|]. split; [apply data_named; exact Eb|]. auto.
Qed.
Print Assumptions C75_sends.
(** No recipient names both. *)
Theorem C75_apart : forall H p a c, names_erc20 p a -> ~ names_payee H p c.
Proof.
  intros H p a c N (r & -> & P). destruct (named_valid _ _ N) as [V _]. inversion P; subst; cbn [payee_value] in V; try discriminate.
  - apply valid_length in V. match goal with Q : uh_parse _ _ = Ok _ |- _ => apply parse_length in Q; lia end.
  - cbn [eaddr_valid] in V. apply Nat.eqb_eq in V. match goal with Q : uh_parse _ _ = Ok _ |- _ => apply parse_length in Q; rewrite hex_length in Q; lia end.
Qed.
Print Assumptions C75_apart.
(** An address given as text is the address; an ERC20 address is the same in each of its forms. *)
Theorem C75_text : forall H sign now x u s v source refund lock data, hash_ok H -> address u -> uh_str H u = Ok s ->
  coins_send_args H sign now x (PVal (RStr s)) v source refund lock data = coins_send_args H sign now x (PVal (RUh u)) v source refund lock data.
Proof.
  intros H sg now x u s v source refund lock data HH A Es. destruct (C12_address_round_trip_partial H u HH A) as (s' & Es' & L & P). rewrite Es in Es'. apply ok_inj in Es'. subst s'.
  unfold coins_send_args. cbn [payee_value]. replace (eaddr_valid (BVStr s)) with false.
  - cbn [eaddr_valid]. unfold from_recipient. cbn [base_recipient]. rewrite P. reflexivity.
  - symmetry. destruct (eaddr_valid (BVStr s)) eqn:V; [|reflexivity]. apply valid_length in V. lia.
Qed.
Print Assumptions C75_text.
Theorem C75_erc20_forms : forall H sign now x p a v source refund lock data, names_erc20 p a ->
  coins_send_args H sign now x p v source refund lock data = coins_send_args H sign now x (PErc20 a) v source refund lock data.
Proof.
  intros H sg now x p a v source refund lock data N. destruct (named_valid _ _ N) as [V E].
  destruct (named_valid (PErc20 a) a (conj (proj1 N) eq_refl)) as [V' E']. unfold coins_send_args. rewrite V, V'. unfold erc20_send. rewrite E, E'. reflexivity.
Qed.
Print Assumptions C75_erc20_forms.
(** The documentation says that an amount given as int is in the smallest unit (1 is 0.000000001 TFT).  It is in TFT, a billion times more,
    whenever anything is sent. *)
Theorem C75_int_amount_refuted : forall H sign now x p z source refund lock data t sub,
  coins_send_args H sign now x p (CIInt z) source refund lock data = Ok (t, sub) ->
  (0 < z)%Z /\ match t with T208 c => c_value c | _ => worth (firstn 1 (coin_outputs t)) end = Z.to_N z * 10 ^ 9.
Proof.
  intros H sg now x p z source refund lock data t sub E. apply C75_sends in E as (n & s & r & (cc & C & A) & P & _ & _ & _ & K); [|discriminate].
  assert (Z0 : (0 <= z)%Z). { cbn [cset] in C. unfold check_dec in C. destruct (dexp (dec_of_Z z) <? -9)%Z; [discriminate|]. destruct (dneg (dec_of_Z z)) eqn:D; [discriminate|]. unfold dec_of_Z in D. cbn [dneg] in D. lia. }
  pose proof (C09_int_is_tft z cc Z0 C) as A'.
  assert (V : valid cc) by (apply (cset_valid _ _ C); discriminate). rewrite (amount_units _ _ V A) in *. rewrite <- (amount_units _ _ V A') in *.
  split; [lia|]. destruct K as [(a & c & _ & _ & _ & -> & _ & W & _)|(i & c & b & a & _ & _ & _ & _ & -> & _ & (_ & _ & ins & used & rem & _ & _ & _ & _ & O))].
  - exact W.
  - rewrite O. cbn [app firstn]. unfold worth. cbn [map sum o_value]. lia.
Qed.
Print Assumptions C75_int_amount_refuted.

(** *** Cases *)
Definition exf_hex : pystr := s2b "0x00112233445566778899aabbccddeeff00112233".
Definition exf_send p v lock data := coins_send_args ex_H2 ex_sign 1500000000 exo_x p v RNone RNone lock data.
(** what was made: the version, the values paid, whether it can be submitted *)
Definition exf_see (r : res (txn * bool)) : res (Z * list N * bool) := do p <- r; Ok (version (fst p), map o_value (coin_outputs (fst p)), snd p).
Example C75_ex :
  exf_see (exf_send (PVal (RStr (ex_addr 9))) (CIInt 20) LNone (DVStr (s2b "hello"))) = Ok (1%Z, [20 * TFT; 979900000000]%N, true) /\
  exf_see (exf_send (PVal (RStr (ex_addr 9))) (CIStr (s2b " 20.5 tft")) (LInt 5) DVNone) = Ok (1%Z, [20500000000; 979400000000]%N, true) /\
  exf_see (exf_send (PVal (RTuple [RInt 1; RList [RStr (ex_addr 9); RUh (ex_key_uh 8)]])) (CIStr (s2b "1")) LNone (DVBytes [])) = Ok (1%Z, [TFT; 998900000000]%N, true) /\
  exf_see (exf_send (PVal (RStr exf_hex)) (CIInt 20) LNone DVNone) = Ok (208%Z, [979900000000]%N, true) /\
  exf_send (PVal (RStr exf_hex)) (CIInt 20) (LInt 5) DVNone = Err ValueError /\
  exf_send (PVal (RStr (s2b "00112233"))) (CIInt 20) LNone DVNone = Err ValueError /\
  exf_send (PVal (RStr (ex_addr 9))) (CIStr (s2b "0")) LNone DVNone = Err ValueError.
Proof. vm_compute. repeat split. Qed.
Example C75_ex_erc20 : names_erc20 (PVal (RStr exf_hex)) [0; 17; 34; 51; 68; 85; 102; 119; 136; 153; 170; 187; 204; 221; 238; 255; 0; 17; 34; 51].
Proof.
  split; [reflexivity|]. exists (s2b "00112233445566778899aabbccddeeff00112233"). split; [right; left; reflexivity|]. split; [|split; reflexivity].
  refine (proj2 (unhex_len 40 (s2b "00112233445566778899aabbccddeeff00112233") [0; 17; 34; 51; 68; 85; 102; 119; 136; 153; 170; 187; 204; 221; 238; 255; 0; 17; 34; 51] (le_n _) _) _); reflexivity.
Qed.
