(** Reading transactions from JSON: the code against what the value says. *)
From Verif Require Import Base BaseFacts Primitive Encoders Currency Spec_Currency CurrencyFacts CurrencyFacts2 Types Conditions Fulfillments ThreeBotTypes Spec_ThreeBot ThreeBotFacts Prop_ThreeBot Txn TxnJson
  Spec_Types TypesFacts TypesFacts2 FulfilFacts Prop_ERC20 Spec_ERC20 Spec_Parse CondParseFacts Prop_Parse Spec_ParseTxn.
From Coq Require Import ZifyBool ZifyNat ZifyN.

Lemma nothing_iff j : nothing j <-> jtruthy j = false.
Proof.
  unfold nothing. split.
  - intros [->|[->|[->|[->|[->| ->]]]]]; reflexivity.
  - destruct j as [|b|z|s|l|l|z]; cbn [jtruthy]; intro E; auto; try discriminate.
    + subst b. auto.
    + assert (z = 0%Z) as -> by lia. auto.
    + destruct s; [auto 6|discriminate].
    + destruct l; [auto 6|discriminate].
    + destruct l; [auto 7|discriminate].
Qed.
Lemma said_iff k d j v : said k d j v <-> jget_d k d j = Ok v.
Proof. unfold said. symmetry. apply at_get_d. Qed.
Lemma prefix_of_iff a b : prefix_of a b = true <-> exists c, b = a ++ c.
Proof.
  revert b. induction a as [|x a IH]; intro b; cbn [prefix_of app]; [split; eauto|]. destruct b as [|y b]; [split; [discriminate|intros (c & E); discriminate]|].
  rewrite andb_true_iff, IH, N.eqb_eq. split; [intros (-> & c & ->); eauto|intros (c & E); injection E as -> ->; eauto].
Qed.
Lemma substring_iff a b : substring a b = true <-> exists p c, b = p ++ a ++ c.
Proof.
  induction b as [|y b IH]; cbn [substring]; rewrite orb_true_iff, prefix_of_iff.
  - split; [intros [(c & E)|E]; [exists [], c; exact E|discriminate]|]. intros (p & c & E). destruct p; [left; exists c; exact E|discriminate].
  - rewrite IH. split.
    + intros [(c & E)|(p & c & ->)]; [exists [], c; exact E|exists (y :: p), c; reflexivity].
    + intros ([|z p] & c & E); [left; exists c; exact E|right]. injection E as -> ->. eauto.
Qed.
Lemma lacks_iff k j : lacks k j <-> jin k j = Ok false.
Proof.
  destruct j as [|b|z|s|l|l|z]; cbn [lacks jin]; try (split; [easy|discriminate]).
  - split; intro E; [f_equal; apply not_true_iff_false; intro T; apply substring_iff in T; contradiction|apply ok_inj in E; intro T; apply substring_iff in T; congruence].
  - split; intro E.
    + f_equal. apply not_true_iff_false. intro T. apply E. apply existsb_exists in T as (x & I & T). destruct x; try discriminate. apply listN_eqb_eq in T. subst s. exact I.
    + apply ok_inj in E. intro I. assert (T : existsb (fun x => match x with JStr s => listN_eqb s (s2b k) | _ => false end) l = true); [|congruence].
      apply existsb_exists. exists (JStr (s2b k)). split; [exact I|now apply listN_eqb_eq].
  - unfold jhas. destruct (jfind k l); split; congruence.
Qed.
Lemma jin_true k j : jin k j = Ok true -> forall v, jget k j = Ok v -> at_key k j v.
Proof. intros _ v G. now apply at_get. Qed.
Lemma at_in k j v : at_key k j v -> jin k j = Ok true.
Proof. intros (l & -> & F). cbn [jin jhas]. rewrite F. reflexivity. Qed.
Lemma maybe_iff {A} (P : json -> A -> Prop) f k d j a : (forall v x, P v x <-> f v = Ok x) -> maybe k P d j a <-> jopt k f d j = Ok a.
Proof.
  intro I. unfold maybe, jopt. split.
  - intros [(L & ->)|(v & At & Pv)]; [apply lacks_iff in L; rewrite L; reflexivity|]. rewrite (at_in _ _ _ At). cbn [bind]. apply at_get in At. rewrite At. now apply I.
  - intro E. apply bind_ok in E as (b & B & E). destruct b.
    + apply bind_ok in E as (v & G & E). right. exists v. split; [now apply at_get|now apply I].
    + apply ok_inj in E. left. split; [now apply lacks_iff|auto].
Qed.
Lemma some_iff {A} (P : json -> A -> Prop) f : (forall v x, P v x <-> f v = Ok x) -> forall v x, some P v x <-> jsome f v = Ok x.
Proof.
  intros I v x. unfold some, jsome. split; [intros (y & -> & Py); apply I in Py; rewrite Py; reflexivity|]. intro E. apply bind_ok in E as (y & Y & E). apply ok_inj in E. exists y. split; [auto|now apply I].
Qed.
Lemma elements_iff {A} (P : json -> A -> Prop) f v l : (forall v x, P v x <-> f v = Ok x) -> elements P v l <-> (do l <- jelems (jor v (JArr [])); mapM f l) = Ok l.
Proof.
  intro I. unfold elements, jor. pose proof (F2_iff_mapM P f I) as F2. destruct (jtruthy v) eqn:T.
  - split; [intros [(N & _)|(vs & E & F)]; [apply nothing_iff in N; congruence|rewrite E; cbn [bind]; now apply F2]|].
    intro E. apply bind_ok in E as (vs & E & M). right. exists vs. split; [exact E|now apply F2].
  - cbn [jelems bind mapM]. split.
    + intros [(_ & ->)|(vs & E & F)]; [reflexivity|]. assert (vs = []) as ->; [|inversion F; reflexivity]. apply nothing_iff in T. destruct T as [->|[->|[->|[->|[->| ->]]]]]; try discriminate E; apply ok_inj in E; auto.
    + intro E. apply ok_inj in E. left. split; [now apply nothing_iff|auto].
Qed.
Lemma many_iff {A} (P : json -> A -> Prop) f k j l : (forall v x, P v x <-> f v = Ok x) -> many k P j l <-> jlist k f j = Ok l.
Proof.
  intro I. unfold many, jlist. split.
  - intros (v & S & E). apply said_iff in S. rewrite S. cbn [bind]. now apply (elements_iff P f v l I).
  - intro E. apply bind_ok in E as (v & S & E). exists v. split; [now apply said_iff|now apply (elements_iff P f v l I)].
Qed.
Lemma number_iff k j z : says_number k j z <-> jint0 k j = Ok z.
Proof.
  unfold says_number, jint0, jor. split.
  - intros (v & S & [(N & ->)|(N & E)]); apply said_iff in S; rewrite S; cbn [bind].
    + apply nothing_iff in N. rewrite N. reflexivity.
    + destruct (jtruthy v) eqn:T; [exact E|]. elim N. now apply nothing_iff.
  - intro E. apply bind_ok in E as (v & S & E). exists v. split; [now apply said_iff|]. destruct (jtruthy v) eqn:T.
    + right. split; [intro N; apply nothing_iff in N; congruence|exact E].
    + left. split; [now apply nothing_iff|]. apply ok_inj in E. auto.
Qed.
Lemma cfrom_valid j c : cfrom_json j = Ok c -> valid c.
Proof.
  unfold cfrom_json. destruct j as [| | |[|x s]| | |]; try discriminate. intro E. apply bind_ok in E as (d & _ & E). destruct d as [d|]; [|discriminate E]. eapply cset_valid; [exact E|discriminate].
Qed.
Lemma amount_iff j n : says_amount j n <-> amt_from_json j = Ok n.
Proof.
  unfold says_amount, amt_from_json. split.
  - intros (c & E & A). pose proof (cfrom_valid j c E) as V. rewrite E. cbn [bind]. rewrite (cint_units c V). cbn [bind]. rewrite N2Z.id. f_equal. symmetry. now apply amount_units.
  - intro E. apply bind_ok in E as (c & C & E). pose proof (cfrom_valid j c C) as V. rewrite (cint_units c V) in E. cbn [bind] in E. rewrite N2Z.id in E. apply ok_inj in E. subst n. exists c. split; [exact C|now apply valid_amount].
Qed.
Lemma stake_iff j n : says_stake j n <-> bsfrom_json j = Ok n.
Proof.
  unfold says_stake. assert (Q : forall s, (do z <- py_int s; if (z <? 0)%Z then Err TypeError else Ok (Z.to_N z)) = Ok n <-> py_int s = Ok (Z.of_N n)).
  { intro s. split; [intro E; apply bind_ok in E as (z & Z & E); destruct (z <? 0)%Z eqn:L; [discriminate|]; apply ok_inj in E; rewrite Z; f_equal; lia|].
    intro E. rewrite E. cbn [bind]. replace (Z.of_N n <? 0)%Z with false by lia. rewrite N2Z.id. reflexivity. }
  split.
  - intros [([->| ->] & ->)|(s & -> & N & E)]; [reflexivity|reflexivity|]. destruct s as [|x s]; [congruence|]. cbn [bsfrom_json bsset]. now apply Q.
  - destruct j as [| | |[|x s]| | |]; cbn [bsfrom_json bsset]; try discriminate; intro E; [apply ok_inj in E; auto|apply ok_inj in E; auto|]. right. exists (x :: s). split; [reflexivity|]. split; [discriminate|now apply Q].
Qed.

Lemma sig_iff j b : says_hex 64 j b <-> sig_from_json j = Ok b.
Proof.
  unfold says_hex, sig_from_json. split.
  - intros [(-> & ->)|(s & -> & U & L)]; [reflexivity|]. destruct s; apply sig_new_ok; cbn [bd_norm from_str] in *; auto.
  - destruct j as [| | |s| | |]; try discriminate; intro E; apply sig_new_ok in E as (E & L).
    + cbn [bd_norm] in E. apply ok_inj in E. auto.
    + right. exists s. split; [reflexivity|]. split; [|exact L]. destruct s; exact E.
Qed.
Lemma hash_iff j b : says_hash j b <-> hash_from_json j = Ok b.
Proof.
  unfold says_hash, hash_from_json. split.
  - intros [(-> & ->)|(s & -> & U & L)]; [reflexivity|]. destruct s; apply hash_new_ok; cbn [bd_norm from_str] in *; auto.
  - destruct j as [| | |s| | |]; try discriminate; intro E; apply hash_new_ok in E as (E & L).
    + cbn [bd_norm] in E. apply ok_inj in E. auto.
    + right. exists s. split; [reflexivity|]. split; [|exact L]. destruct s; exact E.
Qed.
Lemma without_exists s : exists t, without_0x s t.
Proof.
  unfold without_0x. destruct s as [|a s]; [exists []; right; right; split; [reflexivity|split; discriminate]|].
  destruct (N.eq_dec a 48) as [->|A]; [|exists (a :: s); right; right; split; [reflexivity|split; congruence]].
  destruct s as [|b s]; [exists [48]; right; right; split; [reflexivity|split; discriminate]|].
  destruct (N.eq_dec b 120) as [->|B]; [eauto|]. destruct (N.eq_dec b 88) as [->|C]; [eauto|].
  exists (48 :: b :: s). right. right. split; [reflexivity|split; congruence].
Qed.
Lemma without_after s t : without_0x s t -> from_str KHexPrefix s = unhex t.
Proof.
  intro W. apply (drop_0x_spec s t). unfold after_prefix. destruct W as [->|[->|(-> & N)]]; auto. right. right. split; [|reflexivity].
  intros (r & [X|X]); destruct (N r); contradiction.
Qed.
Lemma prefixed_new v size (z := Z.of_nat (S size)) b : (do d <- bd_new v (Some z) (Some (s2b "hexprefix")); Ok (bd_val d)) = Ok b <-> bd_norm KHexPrefix v = Ok b /\ (b = [] \/ length b = S size).
Proof.
  assert (Q : (do d <- bd_new v (Some z) (Some (s2b "hexprefix")); Ok (bd_val d)) = do b <- bd_norm KHexPrefix v; do _ <- guard (bd_size_ok (Some (Z.to_N z)) b) ValueError; Ok b).
  { unfold bd_new. change (strkind_of (Some (s2b "hexprefix"))) with (Ok KHexPrefix). cbn [bind]. replace (0 <=? z)%Z with true by lia. cbn [guard bind]. unfold z. cbn [Z.of_nat].
    unfold bd_set. cbn [bd_enc bd_size]. change (bd_kind (Some (s2b "hexprefix"))) with KHexPrefix. destruct (bd_norm KHexPrefix v) as [c|e]; [|reflexivity]. cbn [bind].
    destruct (bd_size_ok _ c); reflexivity. }
  rewrite Q. assert (G : forall c, bd_size_ok (Some (Z.to_N z)) c = true <-> c = [] \/ length c = S size).
  { intro c. unfold bd_size_ok, lenN, z. split; [intro G; destruct c; [auto|right; cbn [length] in *; lia]|intros [->|G]; [reflexivity|lia]]. }
  split.
  - intro E. apply bind_ok in E as (c & C & E). apply bind_ok in E as (? & S & E). apply ok_inj in E. subst c. apply guard_ok in S. split; [exact C|now apply G].
  - intros (E & L). rewrite E. cbn [bind]. apply G in L. rewrite L. reflexivity.
Qed.
Lemma prefixed_iff mk size j b : (forall v b, mk v = Ok b <-> bd_norm KHexPrefix v = Ok b /\ (b = [] \/ length b = S size)) ->
  says_prefixed (S size) j b <-> prefixed_from_json mk j = Ok b.
Proof.
  intro M. unfold says_prefixed, prefixed_from_json. split.
  - intros [(-> & ->)|(s & t & -> & W & U & L)]; [apply M; cbn [bd_norm]; auto|]. apply without_after in W. rewrite U in W. apply M. split; [|exact L]. destruct s; [|exact W]. cbn [bd_norm]. exact W.
  - destruct j as [| | |s| | |]; try discriminate; intro E; apply M in E as (E & L).
    + cbn [bd_norm] in E. apply ok_inj in E. auto.
    + right. destruct (without_exists s) as (t & W). exists s, t. split; [reflexivity|]. split; [exact W|]. split; [|exact L]. apply without_after in W. rewrite <- W. destruct s; exact E.
Qed.
Lemma eaddr_iff j b : says_prefixed 20 j b <-> eaddr_from_json j = Ok b.
Proof. apply prefixed_iff. intros v c. exact (prefixed_new v 19 c). Qed.
Lemma ehash_iff j b : says_prefixed 32 j b <-> ehash_from_json j = Ok b.
Proof. apply prefixed_iff. intros v c. exact (prefixed_new v 31 c). Qed.
Lemma b64_from j : b64_from_json j = match j with JNull => Ok [] | JStr [] => Ok [] | JStr s => b64dec s | _ => Err TypeError end.
Proof. unfold b64_from_json, bd_from_json. destruct j as [| | |[|x s]| | |]; try reflexivity. unfold bd_new. change (strkind_of (Some (s2b "base64"))) with (Ok KBase64). cbn [bind guard]. unfold bd_set. cbn [bd_enc bd_size bd_size_ok guard bind]. change (bd_kind (Some (s2b "base64"))) with KBase64. cbn [bd_norm from_str]. destruct (b64dec (x :: s)); reflexivity. Qed.
Lemma base64_iff j b : says_base64 j b <-> b64_from_json j = Ok b.
Proof.
  unfold says_base64. rewrite b64_from. split.
  - intros [([->| ->] & ->)|(s & -> & N & E)]; [reflexivity|reflexivity|]. destruct s; [congruence|exact E].
  - destruct j as [| | |[|x s]| | |]; try discriminate; intro E; [apply ok_inj in E; auto|apply ok_inj in E; auto|]. right. exists (x :: s). split; [reflexivity|]. split; [discriminate|exact E].
Qed.
Lemma data_iff j b : says_data j b <-> arbitrary_from_json j = Ok b.
Proof.
  unfold says_data, arbitrary_from_json, jor. split.
  - intros (v & S & E). apply said_iff in S. rewrite S. cbn [bind]. destruct E as [(N & ->)|(N & E)].
    + apply nothing_iff in N. rewrite N. reflexivity.
    + destruct (jtruthy v) eqn:T; [now apply base64_iff|]. elim N. now apply nothing_iff.
  - intro E. apply bind_ok in E as (v & S & E). exists v. split; [now apply said_iff|]. destruct (jtruthy v) eqn:T.
    + right. split; [intro N; apply nothing_iff in N; congruence|now apply base64_iff].
    + left. split; [now apply nothing_iff|]. rewrite b64_from in E. apply ok_inj in E. auto.
Qed.
Lemma name_iff j s : says_name j s <-> bn_from_json j = Ok s.
Proof.
  unfold says_name, bn_from_json. split.
  - intros [([->| ->] & ->)|(-> & N & L & G)]; [reflexivity|reflexivity|]. destruct s; [congruence|]. now apply C56_accepts.
  - destruct j as [| | |[|x t]| | |]; try discriminate; intro E; [apply ok_inj in E; auto|apply ok_inj in E; auto|]. apply C56_accepts in E as (-> & L & G). right. split; [reflexivity|]. split; [discriminate|auto].
Qed.
Lemma network_iff ip j a : says_network ip j a <-> na_from_json ip j = Ok a.
Proof.
  unfold says_network, na_from_json. split.
  - intros [([->| ->] & ->)|(s & -> & N & G)]; [reflexivity|reflexivity|]. destruct s; [congruence|]. now apply C43_accepts.
  - destruct j as [| | |[|x t]| | |]; try discriminate; intro E; [apply ok_inj in E; auto|apply ok_inj in E; auto|]. apply C43_accepts in E. right. exists (x :: t). split; [reflexivity|]. split; [discriminate|exact E].
Qed.
Lemma key_iff j p : says_key j p <-> pk_from_json j = Ok p.
Proof. reflexivity. Qed.
Lemma input_iff o j i : says_input o j i <-> in_from_json o j = Ok i.
Proof.
  unfold says_input, in_from_json. split.
  - intros (p & f & h & g & P & Hp & F & Hf & ->). apply at_get in P, F. apply hash_iff in Hp. apply C72_reads in Hf. rewrite P. cbn [bind]. rewrite Hp. cbn [bind]. rewrite F. cbn [bind]. rewrite Hf. reflexivity.
  - intro E. apply bind_ok in E as (h & Eh & E). apply bind_ok in Eh as (p & P & Eh). apply bind_ok in E as (g & Eg & E). apply bind_ok in Eg as (f & F & Eg). apply ok_inj in E. subst i.
    exists p, f, h, g. split; [now apply at_get|]. split; [now apply hash_iff|]. split; [now apply at_get|]. split; [now apply C72_reads|reflexivity].
Qed.
Section Hash.
Variable H : bytes -> bytes.
Variable ip : pystr -> res bytes.
Variable now : Z.
Lemma output_iff (P : json -> N -> Prop) f j o : (forall v n, P v n <-> f v = Ok n) -> says_output H P j o <->
  (do v <- (do x <- jget "value" j; f x); do c <- (do x <- jget "condition" j; cond_from_json H now x); Ok (mkout v c [])) = Ok o.
Proof.
  intro I. unfold says_output. split.
  - intros (v & x & n & c & V & Pv & X & Sx & ->). apply at_get in V, X. apply I in Pv. apply (C71_reads H now) in Sx. rewrite V. cbn [bind]. rewrite Pv. cbn [bind]. rewrite X. cbn [bind]. rewrite Sx. reflexivity.
  - intro E. apply bind_ok in E as (n & En & E). apply bind_ok in En as (v & V & En). apply bind_ok in E as (c & Ec & E). apply bind_ok in Ec as (x & X & Ec). apply ok_inj in E. subst o.
    exists v, x, n, c. split; [now apply at_get|]. split; [now apply I|]. split; [now apply at_get|]. split; [now apply (C71_reads H now)|reflexivity].
Qed.
Lemma cin_iff j i : coin_in j i <-> cin_from_json j = Ok i. Proof. apply input_iff. Qed.
Lemma bin_iff j i : stake_in j i <-> bin_from_json j = Ok i. Proof. apply input_iff. Qed.
Lemma cout_iff j o : coin_out H j o <-> cout_from_json H now j = Ok o. Proof. apply output_iff, amount_iff. Qed.
Lemma bout_iff j o : stake_out H j o <-> bout_from_json H now j = Ok o. Proof. apply output_iff, stake_iff. Qed.

Lemma m_cin k j l : many k coin_in j l <-> jlist k cin_from_json j = Ok l. Proof. apply many_iff, cin_iff. Qed.
Lemma m_bin k j l : many k stake_in j l <-> jlist k bin_from_json j = Ok l. Proof. apply many_iff, bin_iff. Qed.
Lemma m_cout k j l : many k (coin_out H) j l <-> jlist k (cout_from_json H now) j = Ok l. Proof. apply many_iff, cout_iff. Qed.
Lemma m_bout k j l : many k (stake_out H) j l <-> jlist k (bout_from_json H now) j = Ok l. Proof. apply many_iff, bout_iff. Qed.
Lemma m_amt k j l : many k says_amount j l <-> jlist k amt_from_json j = Ok l. Proof. apply many_iff, amount_iff. Qed.
Lemma m_names k j l : many k says_name j l <-> jlist k bn_from_json j = Ok l. Proof. apply many_iff, name_iff. Qed.
Lemma m_net k j l : many k (says_network ip) j l <-> jlist k (na_from_json ip) j = Ok l. Proof. apply many_iff, network_iff. Qed.
Lemma o_amt k d j a : maybe k says_amount d j a <-> jopt k amt_from_json d j = Ok a. Proof. apply maybe_iff, amount_iff. Qed.
Lemma o_fee k j a : maybe k (some says_amount) None j a <-> jopt k (jsome amt_from_json) None j = Ok a. Proof. apply maybe_iff, some_iff, amount_iff. Qed.
Lemma o_refund k j a : maybe k (some (coin_out H)) None j a <-> jopt k (jsome (cout_from_json H now)) None j = Ok a. Proof. apply maybe_iff, some_iff, cout_iff. Qed.
Lemma o_eaddr k d j a : maybe k (says_prefixed 20) d j a <-> jopt k eaddr_from_json d j = Ok a. Proof. apply maybe_iff, eaddr_iff. Qed.
Lemma o_ehash k d j a : maybe k (says_prefixed 32) d j a <-> jopt k ehash_from_json d j = Ok a. Proof. apply maybe_iff, ehash_iff. Qed.
Lemma o_addr k d j a : maybe k (says_address H) d j a <-> jopt k (uh_from_json H) d j = Ok a. Proof. apply maybe_iff, address_get. Qed.
Lemma o_key k j a : maybe k (some says_key) None j a <-> jopt k (jsome pk_from_json) None j = Ok a. Proof. apply maybe_iff, some_iff, key_iff. Qed.
Lemma slice_iff j s : says_sig j s <-> slice_sig j = Ok s.
Proof.
  unfold says_sig, slice_sig. destruct s as [b s]. cbn [fst snd]. rewrite sig_iff. split; [intros (-> & E); rewrite E; reflexivity|].
  intro E. apply bind_ok in E as (x & X & E). apply ok_inj in E. injection E as <- <-. auto.
Qed.
Lemma o_sig k j a : maybe k (some says_sig) None j a <-> jopt k (jsome slice_sig) None j = Ok a. Proof. apply maybe_iff, some_iff, slice_iff. Qed.
(** the same, one direction at a time *)
Ltac code := repeat match goal with
  | X : many _ coin_in _ _ |- _ => apply (proj1 (m_cin _ _ _)) in X; rewrite X; clear X; cbn [bind]
  | X : many _ stake_in _ _ |- _ => apply (proj1 (m_bin _ _ _)) in X; rewrite X; clear X; cbn [bind]
  | X : many _ (coin_out _) _ _ |- _ => apply (proj1 (m_cout _ _ _)) in X; rewrite X; clear X; cbn [bind]
  | X : many _ (stake_out _) _ _ |- _ => apply (proj1 (m_bout _ _ _)) in X; rewrite X; clear X; cbn [bind]
  | X : many _ says_amount _ _ |- _ => apply (proj1 (m_amt _ _ _)) in X; rewrite X; clear X; cbn [bind]
  | X : many _ says_name _ _ |- _ => apply (proj1 (m_names _ _ _)) in X; rewrite X; clear X; cbn [bind]
  | X : many _ (says_network _) _ _ |- _ => apply (proj1 (m_net _ _ _)) in X; rewrite X; clear X; cbn [bind]
  | X : maybe _ says_amount _ _ _ |- _ => apply (proj1 (o_amt _ _ _ _)) in X; rewrite X; clear X; cbn [bind]
  | X : maybe _ (some says_amount) _ _ _ |- _ => apply (proj1 (o_fee _ _ _)) in X; rewrite X; clear X; cbn [bind]
  | X : maybe _ (some (coin_out _)) _ _ _ |- _ => apply (proj1 (o_refund _ _ _)) in X; rewrite X; clear X; cbn [bind]
  | X : maybe _ (says_prefixed 20) _ _ _ |- _ => apply (proj1 (o_eaddr _ _ _ _)) in X; rewrite X; clear X; cbn [bind]
  | X : maybe _ (says_prefixed 32) _ _ _ |- _ => apply (proj1 (o_ehash _ _ _ _)) in X; rewrite X; clear X; cbn [bind]
  | X : maybe _ (says_address _) _ _ _ |- _ => apply (proj1 (o_addr _ _ _ _)) in X; rewrite X; clear X; cbn [bind]
  | X : maybe _ (some says_key) _ _ _ |- _ => apply (proj1 (o_key _ _ _)) in X; rewrite X; clear X; cbn [bind]
  | X : maybe _ (some says_sig) _ _ _ |- _ => apply (proj1 (o_sig _ _ _)) in X; rewrite X; clear X; cbn [bind]
  | X : says_data _ _ |- _ => apply (proj1 (data_iff _ _)) in X; rewrite X; clear X; cbn [bind]
  | X : says_number _ _ _ |- _ => apply (proj1 (number_iff _ _ _)) in X; rewrite X; clear X; cbn [bind]
  end.
Ltac words := first [now apply m_cin | now apply m_bin | now apply m_cout | now apply m_bout | now apply m_amt | now apply m_names | now apply m_net | now apply o_amt | now apply o_fee
  | now apply o_refund | now apply o_eaddr | now apply o_ehash | now apply o_addr | now apply o_key | now apply o_sig | now apply data_iff | now apply number_iff].
Ltac steps := repeat match goal with X : bind _ _ = Ok _ |- _ => let a := fresh "x" in let Ea := fresh "Q" in apply bind_ok in X as (a & Ea & X) end;
  match goal with X : Ok _ = Ok _ |- _ => apply ok_inj in X end.

Lemma standard_iff j t : says_standard H j t <-> std_from_json H now j = Ok t.
Proof.
  unfold says_standard, std_from_json. split.
  - intros (L & A & B & C & D & E & F). code. destruct t; cbn in *; subst; reflexivity.
  - intro E. steps. subst t. cbn [s_legacy s_cin s_cout s_bin s_bout s_fees s_data]. split; [reflexivity|]. repeat (split; [words|]). words.
Qed.
Lemma said_base64 k d j b : (exists v, said k d j v /\ says_base64 v b) <-> (do x <- jget_d k d j; b64_from_json x) = Ok b.
Proof.
  split; [intros (v & S & E); apply said_iff in S; rewrite S; now apply base64_iff|].
  intro E. apply bind_ok in E as (v & S & E). exists v. split; [now apply said_iff|now apply base64_iff].
Qed.
Lemma said_ff k d j f : (exists v, said k d j v /\ says_ff v f) <-> (do x <- jget_d k d j; ff_from_json x) = Ok f.
Proof.
  split; [intros (v & S & E); apply said_iff in S; rewrite S; now apply C72_reads|].
  intro E. apply bind_ok in E as (v & S & E). exists v. split; [now apply said_iff|now apply C72_reads].
Qed.
Lemma said_cond k d j c : (exists v, said k d j v /\ says H v c) <-> (do x <- jget_d k d j; cond_from_json H now x) = Ok c.
Proof.
  split; [intros (v & S & E); apply said_iff in S; rewrite S; now apply C71_reads|].
  intro E. apply bind_ok in E as (v & S & E). exists v. split; [now apply said_iff|now apply (C71_reads H now)].
Qed.
Lemma definition_iff j t : says_definition H j t <-> mintdef_from_json H now j = Ok t.
Proof.
  unfold says_definition, says_mint, mintdef_from_json. split.
  - intros ((A & (v & f & B & C & D) & E & F & G) & (w & c & K & L & M)). apply said_base64 in A. rewrite A. cbn [bind].
    pose proof (proj1 (said_cond _ _ _ _) (ex_intro _ w (conj K L))) as X. rewrite X. cbn [bind].
    pose proof (proj1 (said_ff _ _ _ _) (ex_intro _ v (conj B C))) as Y. rewrite Y. cbn [bind]. code. destruct t; cbn in *; subst; reflexivity.
  - intro E. apply bind_ok in E as (n & N & E). apply bind_ok in E as (c & C & E). apply bind_ok in E as (f & F & E).
    apply said_base64 in N. apply said_cond in C as (w & K & L). apply said_ff in F as (v & B & D). steps. subst t. cbn [m_ff m_new m_fees m_data m_nonce m_parent].
    split; [|exists w, c; auto]. split; [exact N|]. split; [exists v, f; auto|]. split; [words|]. split; [words|reflexivity].
Qed.
Lemma creation_iff j t : says_creation H j t <-> mintcoins_from_json H now j = Ok t.
Proof.
  unfold says_creation, says_mint, mintcoins_from_json. split.
  - intros ((A & (v & f & B & C & D) & E & F & G) & (os & K & M)). apply said_base64 in A. rewrite A. cbn [bind].
    pose proof (proj1 (said_ff _ _ _ _) (ex_intro _ v (conj B C))) as Y. rewrite Y. cbn [bind]. code. destruct t; cbn in *; subst; reflexivity.
  - intro E. apply bind_ok in E as (n & N & E). apply bind_ok in E as (f & F & E).
    apply said_base64 in N. apply said_ff in F as (v & B & D). steps. subst t. cbn [m_ff m_new m_fees m_data m_nonce m_parent].
    split; [|eexists; split; [|reflexivity]; words]. split; [exact N|]. split; [exists v, f; auto|]. split; [words|]. split; [words|reflexivity].
Qed.
Lemma conversion_iff j t : says_conversion H j t <-> conv_from_json H now j = Ok t.
Proof.
  unfold says_conversion, says_funding, conv_from_json. split.
  - intros (A & B & C & D & E). code. destruct t; reflexivity.
  - intro E. steps. subst t. cbn [c_addr c_value c_fee c_cin c_refund]. repeat (split; [words|]). words.
Qed.
Lemma erc20_coins_iff j t : says_erc20_coins H j t <-> gen_from_json H j = Ok t.
Proof.
  unfold says_erc20_coins, gen_from_json. change uh_default with (mkuh 0 []). split.
  - intros (A & B & C & D & E). code. destruct t; reflexivity.
  - intro E. steps. subst t. cbn [g_addr g_value g_fee g_block g_txid]. repeat (split; [words|]). words.
Qed.
Lemma regfee_iff j : (lacks "regfee" j \/ exists v, at_key "regfee" j v /\ says_amount v (10 * 10 ^ 9)) <->
  exists u, jopt "regfee" (fun j => do f <- amt_from_json j; guard (f =? REG_FEE) ValueError) tt j = Ok u.
Proof.
  assert (Q : forall v (u : unit), says_amount v (10 * 10 ^ 9) <-> (do f <- amt_from_json v; guard (f =? REG_FEE) ValueError) = Ok u).
  { intros v []. rewrite amount_iff. change (10 * 10 ^ 9) with REG_FEE. split; [intro E; rewrite E; cbn [bind]; rewrite N.eqb_refl; reflexivity|].
    intro E. apply bind_ok in E as (f & F & E). apply guard_ok, N.eqb_eq in E. subst. exact F. }
  split.
  - intros [L|(v & At & A)]; exists tt; apply (maybe_iff (fun v _ => says_amount v (10 * 10 ^ 9)) _ _ _ _ _ Q); [left; auto|right; eauto].
  - intros (u & E). apply (maybe_iff (fun v _ => says_amount v (10 * 10 ^ 9)) _ _ _ _ _ Q) in E as [(L & _)|(v & At & A)]; [auto|eauto].
Qed.
Lemma registration_iff j t : says_registration H j t <-> reg_from_json H now j = Ok t.
Proof.
  unfold says_registration, says_funding, reg_from_json. split.
  - intros (A & B & C & (ins & I & D & E & F)). apply regfee_iff in C as (u & C). apply (proj1 (o_key _ _ _)) in A. rewrite A. cbn [bind]. apply (proj1 (o_sig _ _ _)) in B. rewrite B. cbn [bind]. rewrite C. cbn [bind]. code. destruct t; cbn in *; subst; reflexivity.
  - intro E. apply bind_ok in E as (p & P & E). apply bind_ok in E as (s & Sg & E). apply bind_ok in E as (u & U & E). steps. subst t. cbn [r_pk r_sig r_fee r_cin r_refund].
    split; [words|]. split; [words|]. split; [apply regfee_iff; eauto|]. eexists. split; [reflexivity|]. split; [words|]. split; words.
Qed.
Lemma identity_iff j i : says_identity j i <-> ident_from_json j = Ok i.
Proof.
  unfold says_identity. assert (Q : (exists k x p s, at_key "publickey" j k /\ says_key k p /\ at_key "signature" j x /\ says_hex 64 x s /\ i = (Some p, Some (true, s))) <->
    (do p <- (do x <- jget "publickey" j; pk_from_json x); do s <- (do x <- jget "signature" j; sig_from_json x); Ok (Some p, Some (true, s))) = Ok i).
  { split.
    - intros (k & x & p & s & K & P & X & Sx & ->). apply at_get in K, X. apply sig_iff in Sx. rewrite K. cbn [bind]. rewrite P. cbn [bind]. rewrite X. cbn [bind]. rewrite Sx. reflexivity.
    - intro E. apply bind_ok in E as (p & P & E). apply bind_ok in P as (k & K & P). apply bind_ok in E as (s & Sx & E). apply bind_ok in Sx as (x & X & Sx). apply ok_inj in E. subst i.
      exists k, x, p, s. split; [now apply at_get|]. split; [exact P|]. split; [now apply at_get|]. split; [now apply sig_iff|reflexivity]. }
  rewrite Q. destruct j as [| | | | |[|x l]|]; cbn [ident_from_json jget bind]; split; intro E;
    try (destruct E as [([E'|E'] & E)|E]; [discriminate E' .. |discriminate E]); try (apply ok_inj in E; now auto); try discriminate E; auto;
    try (destruct E as [(_ & ->)|E]; [reflexivity|discriminate E]).
  destruct E as [([E'|E'] & E)|E]; [discriminate E'|discriminate E'|exact E].
Qed.
Lemma bot_iff j t : says_bot H ip j t <-> bot_from_json H ip now j = Ok t.
Proof.
  unfold says_bot, says_funding, bot_from_json. split.
  - intros (A & B & C & (D & E & F) & G). code. apply (maybe_iff _ _ _ _ _ _ identity_iff) in G. rewrite G. destruct t; reflexivity.
  - intro E. steps. subst t. cbn [b_addrs b_names b_months b_fee b_cin b_refund b_pk b_sig].
    split; [words|]. split; [words|]. split; [words|]. split; [split; [words|]; split; words|]. apply (maybe_iff _ _ _ _ _ _ identity_iff). rewrite <- surjective_pairing. assumption.
Qed.
Lemma signature_iff j s : says_signature j s <-> sig_or_none j = Ok s.
Proof.
  unfold says_signature, sig_or_none, jor, jsome, slice_sig. split.
  - intros (v & x & S & -> & E). apply said_iff in S. rewrite S. cbn [bind]. destruct E as [(N & ->)|(N & E)].
    + apply nothing_iff in N. rewrite N. reflexivity.
    + destruct (jtruthy v) eqn:T; [|elim N; now apply nothing_iff]. apply sig_iff in E. rewrite E. reflexivity.
  - intro E. apply bind_ok in E as (v & S & E). apply bind_ok in E as (y & Y & E). apply ok_inj in E. subst s. apply bind_ok in Y as (x & X & Y). apply ok_inj in Y. subst y.
    exists v, x. split; [now apply said_iff|]. split; [reflexivity|]. destruct (jtruthy v) eqn:T.
    + right. split; [intro N; apply nothing_iff in N; congruence|now apply sig_iff].
    + left. split; [now apply nothing_iff|]. apply ok_inj in X. auto.
Qed.
Lemma changes_iff {A} (P : json -> A -> Prop) f k j add del : (forall v x, P v x <-> f v = Ok x) -> says_changes k P j add del <->
  exists w, (do x <- jget_d k (JObj []) j; Ok (jor x (JObj []))) = Ok w /\ jlist "add" f w = Ok add /\ jlist "remove" f w = Ok del.
Proof.
  intro I. unfold says_changes, jor. split.
  - intros (v & w & S & E & X & Y). exists w. apply said_iff in S. rewrite S. cbn [bind]. split; [|split; now apply (many_iff P f _ _ _ I)].
    destruct E as [(N & ->)|(N & ->)]; [apply nothing_iff in N; rewrite N; reflexivity|]. destruct (jtruthy v) eqn:T; [reflexivity|]. elim N. now apply nothing_iff.
  - intros (w & E & X & Y). apply bind_ok in E as (v & S & E). apply ok_inj in E. exists v, w. split; [now apply said_iff|]. split; [|split; now apply (many_iff P f _ _ _ I)].
    destruct (jtruthy v) eqn:T; [right; split; [intro N; apply nothing_iff in N; congruence|auto]|left; split; [now apply nothing_iff|auto]].
Qed.
Lemma update_iff j t : says_update H ip j t <-> upd_from_json H ip now j = Ok t.
Proof.
  unfold says_update, says_funding, upd_from_json. split.
  - intros (A & B & C & D & (E & F & G) & K & L). apply (changes_iff _ _ _ _ _ _ (network_iff ip)) in B as (w & B & B1 & B2). apply (changes_iff _ _ _ _ _ _ name_iff) in C as (w' & C & C1 & C2). apply signature_iff in K.
    apply (proj1 (number_iff _ _ _)) in A. rewrite A. cbn [bind]. rewrite B. cbn [bind]. rewrite B1. cbn [bind]. rewrite B2. cbn [bind]. rewrite C. cbn [bind]. rewrite C1. cbn [bind]. rewrite C2. cbn [bind].
    code. rewrite K. destruct t; cbn in *; subst; reflexivity.
  - intro E. apply bind_ok in E as (i & Ei & E). apply bind_ok in E as (w & B & E). apply bind_ok in E as (aa & B1 & E). apply bind_ok in E as (ar & B2 & E).
    apply bind_ok in E as (w' & C & E). apply bind_ok in E as (na & C1 & E). apply bind_ok in E as (nr & C2 & E).
    pose proof (proj2 (changes_iff _ _ _ _ _ _ (network_iff ip)) (ex_intro _ w (conj B (conj B1 B2)))) as CA. pose proof (proj2 (changes_iff _ _ _ _ _ _ name_iff) (ex_intro _ w' (conj C (conj C1 C2)))) as CN. clear B C. steps. subst t. cbn [u_id u_addr_add u_addr_del u_name_add u_name_del u_months u_fee u_cin u_refund u_sig u_parent].
    split; [words|]. split; [exact CA|]. split; [exact CN|]. split; [words|]. split; [split; [words|]; split; words|]. split; [now apply signature_iff|reflexivity].
Qed.
Lemma party_iff j p : says_party j p <-> party_from_json j = Ok p.
Proof.
  unfold says_party, party_from_json. rewrite number_iff, signature_iff. split; [intros (A & B); rewrite A; cbn [bind]; rewrite B; destruct p; reflexivity|].
  intro E. apply bind_ok in E as (i & I & E). apply bind_ok in E as (s & Sg & E). apply ok_inj in E. subst p. auto.
Qed.
Lemma transfer_iff j t : says_transfer H j t <-> name_from_json H now j = Ok t.
Proof.
  unfold says_transfer, says_funding, name_from_json. split.
  - intros (A & B & C & (ins & I & D & E & F) & G & K). apply (maybe_iff _ _ _ _ _ _ party_iff) in A, B. rewrite A. cbn [bind]. rewrite B. cbn [bind]. code. destruct t; cbn in *; subst; reflexivity.
  - intro E. apply bind_ok in E as (p & P & E). apply bind_ok in E as (q & Q & E). steps. subst t. cbn [n_sender n_receiver n_names n_fee n_cin n_refund n_ssig n_rsig n_spk n_rpk].
    rewrite <- !surjective_pairing. split; [now apply (maybe_iff _ _ _ _ _ _ party_iff)|]. split; [now apply (maybe_iff _ _ _ _ _ _ party_iff)|]. split; [words|]. split; [|auto]. eexists. split; [reflexivity|]. split; [words|]. split; words.
Qed.

Lemma key_obj k v l : jget k (JObj ((k, v) :: l)) = Ok v.
Proof. cbn [jget jfind]. rewrite String.eqb_refl. reflexivity. Qed.
Lemma old_in_iff o j i : old_input o j i <-> legacy_in_from_json o j = Ok i.
Proof.
  assert (Q : forall pid pk sg i, in_from_json o (JObj [("parentid"%string, pid); ("fulfillment"%string, JObj [("type"%string, JNum 1); ("data"%string, JObj [("publickey"%string, pk); ("signature"%string, sg)])])]) = Ok i <->
    exists h k s, hash_from_json pid = Ok h /\ pk_from_json pk = Ok k /\ sig_from_json sg = Ok s /\ i = mkin h (FSingle k (Some s)) o).
  { intros pid pk sg i'. unfold in_from_json. cbn [jget jfind String.eqb Ascii.eqb Bool.eqb bind]. unfold ff_from_json, jpair_from. cbn [jget jget_d jfind String.eqb Ascii.eqb Bool.eqb bind jeq_int Z.eqb Pos.eqb]. split.
    - intro E. apply bind_ok in E as (h & Eh & E). apply bind_ok in E as (f & Ef & E). apply bind_ok in Ef as (p & Ep & Ef). apply bind_ok in Ep as (k & Ek & Ep). apply bind_ok in Ep as (s & Es & Ep).
      apply ok_inj in Ep. subst p. apply ok_inj in Ef. subst f. apply ok_inj in E. subst i'. exists h, k, s. auto.
    - intros (h & k & s & A & B & C & ->). rewrite A. cbn [bind]. rewrite B. cbn [bind]. rewrite C. reflexivity. }
  unfold old_input, legacy_in_from_json. split.
  - intros (u & p & c & k & f & s & h & pk & sg & U & P & C & K & F & X & Hh & Hk & Hs & ->). apply said_iff in U, P, C, K, F, X. apply hash_iff in Hh. apply sig_iff in Hs.
    rewrite U. cbn [bind]. rewrite P. cbn [bind]. rewrite C. cbn [bind]. rewrite K. cbn [bind]. rewrite F. cbn [bind]. rewrite X. cbn [bind]. apply Q. exists h, pk, sg. auto.
  - intro E. apply bind_ok in E as (u & U & E). apply bind_ok in E as (p & P & E). apply bind_ok in E as (k & K & E). apply bind_ok in K as (c & C & K). apply bind_ok in E as (s & X & E). apply bind_ok in X as (f & F & X).
    apply Q in E as (h & pk & sg & Hh & Hk & Hs & ->). exists u, p, c, k, f, s, h, pk, sg.
    split; [now apply said_iff|]. split; [now apply said_iff|]. split; [now apply said_iff|]. split; [now apply said_iff|]. split; [now apply said_iff|]. split; [now apply said_iff|].
    split; [now apply hash_iff|]. split; [exact Hk|]. split; [now apply sig_iff|reflexivity].
Qed.
Lemma said_unlockhash a c : says H (JObj [("type"%string, JNum 1); ("data"%string, JObj [("unlockhash"%string, a)])]) c <-> exists u, says_address H a u /\ c = CUnlockHash u.
Proof.
  split.
  - intro X. apply (C71_reads H 0) in X. unfold cond_from_json in X. destruct (jdepth _) eqn:D; [cbn in D; discriminate D|]. cbn [cond_from_json_f] in X.
    cbn [jget jget_d jfind String.eqb Ascii.eqb Bool.eqb bind jeq_int Z.eqb Pos.eqb] in X. apply bind_ok in X as (u & U & X). apply ok_inj in X. exists u. split; [now apply address_get|auto].
  - intros (u & U & ->). eapply says_unlockhash; [left; exists (JNum 1); split; [eexists; split; reflexivity|reflexivity]|eexists; split; reflexivity|eexists; split; reflexivity|exact U].
Qed.
Lemma old_out_iff (P : json -> N -> Prop) parse j o : (forall j o, says_output H P j o <-> parse j = Ok o) -> old_output H P j o <-> legacy_out_from_json parse j = Ok o.
Proof.
  intro I. unfold old_output, legacy_out_from_json. split.
  - intros (v & a & n & u & V & A & Pv & U & ->). apply said_iff in V, A. rewrite V. cbn [bind]. rewrite A. cbn [bind]. apply I. exists v. eexists _, n, _.
    split; [eexists; split; reflexivity|]. split; [exact Pv|]. split; [eexists; split; reflexivity|]. split; [apply said_unlockhash; exists u; auto|reflexivity].
  - intro E. apply bind_ok in E as (v & V & E). apply bind_ok in E as (a & A & E). apply I in E as (v' & x & n & c & V' & Pv & X & Sx & ->).
    destruct V' as (l & L & F). injection L as <-. cbn in F. injection F as <-. destruct X as (l & L & F). injection L as <-. cbn in F. injection F as <-.
    apply said_unlockhash in Sx as (u & U & ->). exists v, a, n, u. split; [now apply said_iff|]. split; [now apply said_iff|auto].
Qed.
Lemma old_list_iff {A} (P : json -> A -> Prop) f k j l : (forall v x, P v x <-> f v = Ok x) -> old_list k P j l <-> legacy_list k f j = Ok l.
Proof. intro I. unfold old_list, legacy_list. apply maybe_iff. intros v x. now apply elements_iff. Qed.
Lemma old_iff d t : says_old H d t <-> (do ci <- legacy_list "coininputs" (legacy_in_from_json None) d;
  do co <- legacy_list "coinoutputs" (legacy_out_from_json (cout_from_json H now)) d;
  do bi <- legacy_list "blockstakeinputs" (legacy_in_from_json (Some out_default)) d;
  do bo <- legacy_list "blockstakeoutputs" (legacy_out_from_json (bout_from_json H now)) d;
  do fs <- legacy_list "minerfees" amt_from_json d;
  do a <- (do b <- jin "arbitrarydata" d; if b then arbitrary_from_json d else Ok []);
  Ok (T1 (mkstd true ci co bi bo fs a))) = Ok (T1 t).
Proof.
  pose proof (fun k j l => old_list_iff _ _ k j l (old_in_iff None)) as I1. pose proof (fun k j l => old_list_iff _ _ k j l (old_in_iff (Some out_default))) as I2.
  pose proof (fun k j l => old_list_iff _ _ k j l (fun j o => old_out_iff _ _ j o cout_iff)) as O1. pose proof (fun k j l => old_list_iff _ _ k j l (fun j o => old_out_iff _ _ j o bout_iff)) as O2.
  pose proof (fun k j l => old_list_iff _ _ k j l amount_iff) as FS.
  assert (D : forall b, ((lacks "arbitrarydata" d /\ b = []) \/ (~ lacks "arbitrarydata" d /\ says_data d b)) <-> (do b <- jin "arbitrarydata" d; if b then arbitrary_from_json d else Ok []) = Ok b).
  { intro b. split.
    - intros [(L & ->)|(L & S)]; [apply lacks_iff in L; rewrite L; reflexivity|]. apply data_iff in S. destruct (jin "arbitrarydata" d) as [[|]|e] eqn:J; [exact S|elim L; now apply lacks_iff|].
      exfalso. unfold arbitrary_from_json in S. destruct d; try discriminate J; discriminate S.
    - intro E. apply bind_ok in E as (x & X & E). destruct x; [right; split; [intro L; apply lacks_iff in L; congruence|now apply data_iff]|left; split; [now apply lacks_iff|apply ok_inj in E; auto]]. }
  unfold says_old. change (mkout 0 CNil []) with out_default. split.
  - intros (L & A & B & C & E & F & G). apply I1 in A. apply O1 in B. apply I2 in C. apply O2 in E. apply FS in F. apply D in G. rewrite A. cbn [bind]. rewrite B. cbn [bind]. rewrite C. cbn [bind]. rewrite E. cbn [bind]. rewrite F. cbn [bind]. rewrite G.
    destruct t; cbn in *; subst; reflexivity.
  - intro E. apply bind_ok in E as (ci & A & E). apply bind_ok in E as (co & B & E). apply bind_ok in E as (bi & C & E). apply bind_ok in E as (bo & F & E). apply bind_ok in E as (fs & G & E). apply bind_ok in E as (a & K & E). apply ok_inj in E. injection E as <-. cbn [s_legacy s_cin s_cout s_bin s_bout s_fees s_data].
    split; [reflexivity|]. split; [now apply I1|]. split; [now apply O1|]. split; [now apply I2|]. split; [now apply O2|]. split; [now apply FS|now apply D].
Qed.
Lemma version_iff j v : says_version j v <-> exists x, at_key "version" j x /\ version_of x = Some v.
Proof.
  unfold says_version. split; intros (x & At & E); exists x; (split; [exact At|]).
  - destruct E as [->|[->|[(-> & ->)|(-> & ->)]]]; reflexivity.
  - destruct x as [|[]|z| | | |z]; cbn [version_of] in E; try discriminate; injection E as <-; auto.
Qed.
Lemma rmap_ok {A B} (f : A -> B) r b : rmap f r = Ok b <-> exists a, r = Ok a /\ b = f a.
Proof. unfold rmap. split; [intro E; apply bind_ok in E as (a & -> & E); apply ok_inj in E; eauto|intros (a & -> & ->); reflexivity]. Qed.
Lemma content_iff v d t : says_content H ip v d t <-> txn_of_version H ip now v d = Some (Ok t).
Proof.
  assert (S : forall r : res txn, Some r = Some (Ok t) <-> r = Ok t) by (intro r; split; [intro E; injection E; auto|intros ->; reflexivity]).
  unfold txn_of_version. repeat match goal with |- context [(v =? ?k)%Z] => destruct (Z.eqb_spec v k) as [->|?] end;
  rewrite ?S, ?rmap_ok; (split; [|]);
  try (intro C; destruct t; cbn [says_content] in C; exfalso; lia);
  try discriminate;
  try (intros (a & A & ->); cbn [says_content]);
  try (intro C; destruct t; cbn [says_content] in C; try (exfalso; lia); destruct C as (? & C); eexists; split; [|reflexivity]).
  all: try (split; [reflexivity|]); try first [now apply standard_iff | now apply bot_iff | now apply update_iff | now apply transfer_iff | now apply conversion_iff | now apply erc20_coins_iff | now apply registration_iff].
  - intro C. destruct t; cbn [says_content] in C; try (exfalso; lia). destruct C as [(_ & C)|(X & _)]; [|discriminate X]. eexists. split; [|reflexivity]; now apply definition_iff.
  - left. split; [reflexivity|now apply definition_iff].
  - intro C. destruct t; cbn [says_content] in C; try (exfalso; lia). destruct C as [(X & _)|(_ & C)]; [discriminate X|]. eexists. split; [|reflexivity]; now apply creation_iff.
  - right. split; [reflexivity|now apply creation_iff].
Qed.
Lemma txn_iff j t : says_txn H ip j t <-> txn_from_json H ip now j = Ok t.
Proof.
  unfold says_txn, txn_from_json. split.
  - intros [(d & s & V & D & -> & S)|(v & d & N & V & D & C)]; apply version_iff in V as (x & X & E).
    + pose proof X as (l & -> & _). apply at_get in X. pose proof (proj2 (at_get_d _ _ x (JNum (-1))) (or_introl (proj2 (at_get _ _ _) X))) as G. rewrite G. cbn [bind]. rewrite E. cbn [Z.eqb].
      unfold legacy_from_json. rewrite (at_in _ _ _ D). cbn [bind guard]. apply at_get in D. rewrite D. cbn [bind]. now apply old_iff.
    + pose proof X as (l & -> & _). apply at_get in X. pose proof (proj2 (at_get_d _ _ x (JNum (-1))) (or_introl (proj2 (at_get _ _ _) X))) as G. rewrite G. cbn [bind]. rewrite E.
      replace (v =? 0)%Z with false by lia. apply said_iff in D. rewrite D. cbn [bind]. apply content_iff in C. rewrite C. reflexivity.
  - destruct j as [| | | | |l|]; try discriminate. intro E. apply bind_ok in E as (x & X & E). destruct (version_of x) as [v|] eqn:V; [|discriminate E]. destruct (v =? 0)%Z eqn:Z0.
    + assert (v = 0%Z) as -> by lia. left. apply at_get_d in X as [X|(_ & ->)]; [|discriminate V].
      unfold legacy_from_json in E. apply bind_ok in E as (has & J & E). apply bind_ok in E as (? & G & E). apply bind_ok in E as (d & D & E).
      assert (exists s, t = T1 s) as (s & ->) by (repeat (apply bind_ok in E as (? & _ & E)); apply ok_inj in E; eauto).
      exists d, s. split; [apply version_iff; eauto|]. split; [now apply at_get|]. split; [reflexivity|now apply old_iff].
    + right. apply bind_ok in E as (d & D & E). destruct (txn_of_version H ip now v d) as [r|] eqn:C; [|discriminate E]. subst r. exists v, d. split; [lia|].
      split; [apply version_iff; apply at_get_d in X as [X|(_ & ->)]; [eauto|]|]. 2: split; [now apply said_iff|now apply content_iff].
      exfalso. cbn [version_of] in V. injection V as <-. discriminate C.
Qed.
End Hash.
