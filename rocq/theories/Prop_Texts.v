(** C83: the texts that are read as hashes, signatures, keys and addresses. *)
From Verif Require Import Base BaseFacts Encoders EncodersFacts Primitive Currency Types Conditions Fulfillments ThreeBotTypes Spec_Types Spec_ERC20 Spec_Amounts Spec_Texts TypesFacts ConditionFacts ConditionFacts2 FulfilFacts AmountFacts Base64Facts Prop_ERC20Valid Prop_Types.
From Coq Require Import ZifyBool ZifyNat ZifyN.
Ltac Zify.zify_post_hook ::= Z.div_mod_to_equations.

Lemma data_hash s b : hash_new (BVStr s) = Ok b <-> data_text 32 s b.
Proof. rewrite hash_new_ok. unfold data_text. cbn [bd_norm from_str]. rewrite pairs_iff. reflexivity. Qed.
Lemma data_sig s b : sig_new (BVStr s) = Ok b <-> data_text 64 s b.
Proof. rewrite sig_new_ok. unfold data_text. cbn [bd_norm from_str]. rewrite pairs_iff. reflexivity. Qed.
Lemma data_none n b : data_text n [] b <-> b = [].
Proof. unfold data_text. rewrite pairs_iff. cbn [unhex]. split; [intros (E & _); apply ok_inj in E; auto|intros ->; auto]. Qed.
(** A hash (an identifier). *)
Theorem C83_hash : forall j b, hash_from_json j = Ok b <-> data_json 32 j b.
Proof.
  intros j b. unfold data_json. destruct j as [| | |s| | |]; cbn [hash_from_json].
  - split; [intro E; left; apply hash_new_ok in E as (E & _); apply ok_inj in E; auto|]. intros [(_ & ->)|(s & [=] & _)]. reflexivity.
  - split; [discriminate|intros [([=] & _)|(s & [=] & _)]].
  - split; [discriminate|intros [([=] & _)|(s & [=] & _)]].
  - destruct s as [|c s].
    + split; [intro E; right; exists []; split; [reflexivity|]; apply hash_new_ok in E as (E & _); apply ok_inj in E; subst b; now apply data_none|].
      intros [([=] & _)|(s & [= <-] & D)]. apply data_none in D. subst b. reflexivity.
    + rewrite data_hash. split; [eauto|]. intros [([=] & _)|(s' & [= <-] & D)]. exact D.
  - split; [discriminate|intros [([=] & _)|(s & [=] & _)]].
  - split; [discriminate|intros [([=] & _)|(s & [=] & _)]].
  - split; [discriminate|intros [([=] & _)|(s & [=] & _)]].
Qed.
Print Assumptions C83_hash.
(** A signature. *)
Theorem C83_signature : forall j b, sig_from_json j = Ok b <-> data_json 64 j b.
Proof.
  intros j b. unfold data_json. destruct j as [| | |s| | |]; cbn [sig_from_json].
  - split; [intro E; left; apply sig_new_ok in E as (E & _); apply ok_inj in E; auto|]. intros [(_ & ->)|(s & [=] & _)]. reflexivity.
  - split; [discriminate|intros [([=] & _)|(s & [=] & _)]].
  - split; [discriminate|intros [([=] & _)|(s & [=] & _)]].
  - destruct s as [|c s].
    + split; [intro E; right; exists []; split; [reflexivity|]; apply sig_new_ok in E as (E & _); apply ok_inj in E; subst b; now apply data_none|].
      intros [([=] & _)|(s & [= <-] & D)]. apply data_none in D. subst b. reflexivity.
    + rewrite data_sig. split; [eauto|]. intros [([=] & _)|(s' & [= <-] & D)]. exact D.
  - split; [discriminate|intros [([=] & _)|(s & [=] & _)]].
  - split; [discriminate|intros [([=] & _)|(s & [=] & _)]].
  - split; [discriminate|intros [([=] & _)|(s & [=] & _)]].
Qed.
Print Assumptions C83_signature.
(** A secret: null is refused. *)
Theorem C83_secret : forall j b, secret_from_json j = Ok b <-> exists s, j = JStr s /\ data_text 32 s b.
Proof.
  intros j b. destruct j as [| | |s| | |]; cbn [secret_from_json]; try (split; [discriminate|intros (s' & [=] & _)]).
  rewrite (data_hash s b). split; [eauto|]. intros (s' & [= <-] & D). exact D.
Qed.
Print Assumptions C83_secret.

Lemma splitn_not_nil sep n s : forall acc, splitn sep n acc s <> [].
Proof. revert n. induction s as [|c s IH]; intros n acc; cbn [splitn]; [discriminate|]. destruct n as [|n]; [discriminate|]. destruct (c =? sep); [discriminate|apply IH]. Qed.
Lemma splitn_one sep s : forall acc b, splitn sep 1 acc s = [b] <-> b = rev acc ++ s /\ ~ In sep s.
Proof.
  induction s as [|c s IH]; intros acc b; cbn [splitn].
  - rewrite app_nil_r. split; [intros [= <-]; auto|intros (-> & _); reflexivity].
  - destruct (N.eqb_spec c sep) as [->|Nc].
    + split; [|intros (_ & NI); exfalso; apply NI; left; reflexivity]. intro E. destruct (splitn sep 0 [] s) eqn:Q; [destruct (splitn_not_nil _ _ _ _ Q)|discriminate].
    + rewrite IH. cbn [rev]. rewrite <- app_assoc. cbn [app In]. intuition.
Qed.
Lemma splitn_two sep s : forall acc a b, splitn sep 2 acc s = [a; b] <-> exists x, a = rev acc ++ x /\ s = x ++ sep :: b /\ ~ In sep x /\ ~ In sep b.
Proof.
  induction s as [|c s IH]; intros acc a b; cbn [splitn].
  - split; [discriminate|]. intros (x & _ & E & _). destruct x; discriminate.
  - destruct (N.eqb_spec c sep) as [->|Nc].
    + split.
      * intros [= <- E]. apply splitn_one in E as (E & NI). cbn [rev app] in E. subst b. exists []. rewrite app_nil_r. cbn [app In]. auto.
      * intros (x & -> & E & NI & NB). destruct x as [|y x]; [|injection E as <- _; exfalso; apply NI; left; reflexivity]. injection E as ->. rewrite app_nil_r. f_equal. apply splitn_one. auto.
    + rewrite IH. cbn [rev]. split.
      * intros (x & -> & -> & NI & NB). exists (c :: x). rewrite <- app_assoc. cbn [app In]. intuition.
      * intros (x & -> & E & NI & NB). destruct x as [|y x]; [injection E as -> _; contradiction|]. injection E as <- ->. exists x. rewrite <- app_assoc. cbn [app In] in *. intuition.
Qed.
Lemma kind_name_iff s p : pkspec_from_str s = Ok p <-> kind_name s p.
Proof.
  unfold kind_name. unfold pkspec_from_str. destruct s as [|c s].
  - split; [intro E; apply ok_inj in E; auto|]. intros [(_ & ->)|(E & _)]; [reflexivity|discriminate].
  - destruct (listN_eqb (c :: s) (s2b "ed25519")) eqn:Q; [apply listN_eqb_eq in Q; rewrite Q|].
    + split; [intro E; apply ok_inj in E; auto|]. intros [([=] & _)|(_ & ->)]. reflexivity.
    + split; [discriminate|]. intros [([=] & _)|(E & _)]. rewrite E in Q. rewrite (proj2 (listN_eqb_eq _ _) eq_refl) in Q. discriminate.
Qed.
Lemma falsy_iff j : jtruthy j = false <-> falsy j.
Proof.
  unfold falsy. destruct j as [|[]|z|s|l|l|z]; cbn [jtruthy In]; split; intro X; try discriminate; try (intuition discriminate); auto 8.
  - destruct (Z.eqb_spec z 0) as [E0|]; [rewrite E0; auto|discriminate].
  - decompose [or] X; try discriminate; try contradiction. match goal with E : JNum 0 = _ |- _ => injection E as <- end. reflexivity.
  - destruct s; [auto 6|discriminate].
  - decompose [or] X; try discriminate; try contradiction. match goal with E : JStr [] = _ |- _ => injection E as <- end. reflexivity.
  - destruct l; [auto 7|discriminate].
  - decompose [or] X; try discriminate; try contradiction. match goal with E : JArr [] = _ |- _ => injection E as <- end. reflexivity.
  - destruct l; [auto 8|discriminate].
  - decompose [or] X; try discriminate; try contradiction. match goal with E : JObj [] = _ |- _ => injection E as <- end. reflexivity.
Qed.
(** A public key. *)
Theorem C83_key : forall j k, pk_from_json j = Ok k <-> key_json j k.
Proof.
  intros j k. unfold pk_from_json, key_json. destruct (jtruthy j) eqn:T.
  - assert (NF : ~ falsy j) by (intro F; apply falsy_iff in F; congruence).
    destruct j as [|b|z|s|l|l|z]; try (split; [discriminate|]; intros [(F & _)|(s' & [=] & _)]; contradiction).
    split.
    + intro E. right. exists s. split; [reflexivity|]. destruct (splitn 58 2 [] s) as [|a [|b [|]]] eqn:SP; try discriminate.
      apply splitn_two in SP as (x & Ea & Es & N1 & N2). cbn [rev app] in Ea. subst x. apply bind_ok in E as (p & P & E). apply bind_ok in E as (h & HH & E). apply ok_inj in E. subst k.
      apply kind_name_iff in P. apply C83_hash in HH. exists a, b. cbn [pk_spec pk_hash]. destruct HH as [([=] & _)|(s' & [= <-] & D)]. auto.
    + intros [(F & _)|(s' & E & K)]; [contradiction|]. injection E as <-. destruct K as (a & b & Es & N1 & N2 & K & D). rewrite (proj2 (splitn_two 58 s [] a b)) by (exists a; auto).
      rewrite (proj2 (kind_name_iff _ _) K). cbn [bind]. rewrite (proj2 (C83_hash (JStr b) (pk_hash k))) by (right; eauto). destruct k; reflexivity.
  - apply falsy_iff in T as F. split; [intro E; apply ok_inj in E; left; auto|]. intros [(_ & ->)|(s & -> & (a & b & -> & _))]; [reflexivity|]. destruct a; discriminate.
Qed.
Print Assumptions C83_key.

Lemma lower_hexdig c x : x < 16 -> lower_digit c -> digit_value c x -> c = hexdig x.
Proof. unfold lower_digit, digit_value, hexdig. intros. destruct (N.ltb_spec x 10); lia. Qed.
Lemma lower_hex b : wf_bytes b -> forall c, lower_text c b <-> c = hex b.
Proof.
  intros W c. split.
  - intros (P & L). induction P as [|c t b B P IH|c d t b x y X Y P IH]; [reflexivity| |].
    + exfalso. inversion L as [|? ? L1 _]; subst. unfold lower_digit in L1. lia.
    + inversion L as [|? ? L1 L2]; subst. inversion L2 as [|? ? L3 L4]; subst. inversion W as [|? ? _ W']; subst. cbn [hex].
      assert (X16 : x < 16) by (unfold digit_value in X; lia). assert (Y16 : y < 16) by (unfold digit_value in Y; lia).
      replace ((16 * x + y) / 16) with x by lia. replace ((16 * x + y) mod 16) with y by lia. rewrite <- (lower_hexdig c x), <- (lower_hexdig d y) by assumption. f_equal. f_equal. apply IH; assumption.
  - intros ->. split; [apply pairs_iff; apply unhex_hex; exact W|]. induction W as [|x b Wx W IH]; cbn [hex]; [constructor|].
    constructor; [unfold lower_digit, hexdig; destruct (N.ltb_spec (x / 16) 10); lia|]. constructor; [unfold lower_digit, hexdig; destruct (N.ltb_spec (x mod 16) 10); lia|exact IH].
Qed.
Lemma in_firstn {A} (x : A) l n : In x (firstn n l) -> In x l.
Proof. revert l. induction n as [|n IH]; intros [|y l] I; cbn [firstn In] in *; [contradiction|contradiction|contradiction|]. destruct I; auto. Qed.
Lemma riv_byte_head u : (0 < uh_type u < 256)%Z -> uh_riv u = Ok (Z.to_N (uh_type u) :: uh_hash u).
Proof.
  intro B. unfold uh_riv. rewrite riv_int_spec. change (Z.of_N (256 ^ N.of_nat 1)) with 256%Z. replace (_ && _) with true by lia. cbn [rapp]. f_equal.
  cbn [le app]. f_equal. rewrite N.mod_small by lia. reflexivity.
Qed.
Lemma int_text_two s z : length s = 2%nat -> int_text s z -> (z < 100)%Z.
Proof.
  intros L (l & b & g & ds & neg & r & v & Es & _ & _ & SB & G & D & ->).
  assert (LD : (length ds <= 2)%nat).
  { assert (LG : (length ds <= length g)%nat) by (clear - G; induction G; rewrite ?app_length in *; cbn [length] in *; lia).
    assert (length g <= length b)%nat by (destruct SB as [(-> & _)|[(-> & _)|(-> & _)]]; cbn [length]; lia). rewrite Es, !app_length in L. lia. }
  assert (V : v < 10 ^ N.of_nat (length ds)).
  { clear - D. induction D as [|ds v c D IH Dc]; [cbn; lia|]. rewrite app_length. cbn [length]. replace (N.of_nat (length ds + 1)) with (N.succ (N.of_nat (length ds))) by lia. rewrite N.pow_succ_r'. unfold digit in Dc. lia. }
  assert (10 ^ N.of_nat (length ds) <= 10 ^ 2) by (apply N.pow_le_mono_r; lia). change (10 ^ 2) with 100 in *. destruct neg; lia.
Qed.
(** An address. *)
Theorem C83_address : forall H s u, hash_ok H -> (uh_parse H s = Ok u <-> address_text H s u).
Proof.
  intros H s u HO. unfold uh_parse. split.
  - intro E. apply bind_ok in E as (v & G & E). apply guard_ok in G. assert (L : length s = 78%nat) by lia. clear v G. apply bind_ok in E as (t & T & E). apply bind_ok in E as (h & HH & E).
    exists (firstn 2 s), (firstn 64 (skipn 2 s)), (skipn 66 s).
    split; [|split; [|split; [|split]]]; rewrite ?firstn_length, ?skipn_length; try lia.
    + destruct s as [|x [|y s]]; [discriminate|discriminate|]. change (firstn 2 (x :: y :: s)) with [x; y]. change (skipn 2 (x :: y :: s)) with s. change (skipn 66 (x :: y :: s)) with (skipn 64 s). rewrite firstn_skipn. reflexivity.
    + assert (Q : u = mkuh t h /\ ((t = 0%Z /\ h = repeat 0 32) \/ ((t <> 0)%Z /\ exists c, uh_checksum H (mkuh t h) = Ok c /\ hex (firstn 6 c) = skipn 66 s))).
      { destruct (Z.eqb_spec t 0) as [->|Nt].
        - apply bind_ok in E as (w & G & E). apply guard_ok, listN_eqb_eq in G. apply ok_inj in E. split; [auto|]. left. split; [reflexivity|exact G].
        - apply bind_ok in E as (c & C & E). apply bind_ok in E as (w & G & E). apply guard_ok, listN_eqb_eq in G. apply ok_inj in E. split; [auto|]. right. eauto. }
      destruct Q as (-> & Q). cbn [uh_type uh_hash]. apply py_int_iff in T. split; [exact T|]. split; [apply data_hash; exact HH|].
      destruct Q as [Q|(Nt & c & C & Q)]; [left; exact Q|right]. unfold uh_checksum in C. cbn [uh_type] in C. replace (t =? 0)%Z with false in C by lia. apply bind_ok in C as (d & D & C). apply ok_inj in C. subst c.
      assert (T0 : (0 < t < 256)%Z).
      { unfold uh_riv in D. cbn [uh_type uh_hash] in D. apply int_text_two in T; [|rewrite firstn_length; lia]. rewrite riv_int_spec in D. destruct ((0 <=? t) && _)%Z eqn:X; [lia|discriminate]. }
      rewrite riv_byte_head in D by exact T0. apply ok_inj in D. subst d. cbn [uh_type uh_hash] in Q. split; [lia|]. apply lower_hex; [|symmetry; exact Q].
      apply Forall_forall. intros x I. destruct (HO (Z.to_N t :: h)) as (_ & W). exact (proj1 (Forall_forall _ _) W x (in_firstn _ _ _ I)).
  - intros (a & b & c & -> & La & Lb & Lc & T & D & X). rewrite !app_length, La, Lb, Lc. cbn [guard bind Nat.add Nat.eqb].
    assert (F2 : firstn 2 (a ++ b ++ c) = a) by (rewrite firstn_app, La, firstn_all2 by lia; cbn [Nat.sub firstn]; apply app_nil_r).
    assert (S2 : skipn 2 (a ++ b ++ c) = b ++ c) by (rewrite skipn_app, La, skipn_all2 by lia; reflexivity).
    assert (F64 : firstn 64 (b ++ c) = b) by (rewrite firstn_app, Lb, firstn_all2 by lia; cbn [Nat.sub firstn]; apply app_nil_r).
    assert (S66 : skipn 66 (a ++ b ++ c) = c) by (rewrite skipn_app, La, skipn_all2 by lia; change (66 - 2)%nat with 64%nat; rewrite skipn_app, Lb, skipn_all2 by lia; reflexivity).
    rewrite F2, S2, F64, S66. apply py_int_iff in T as T'. rewrite T'. cbn [bind]. apply data_hash in D. rewrite D. cbn [bind]. destruct u as [t h]. cbn [uh_type uh_hash] in *.
    destruct X as [(-> & ->)|(Pt & X)]; [vm_compute; reflexivity|]. replace (t =? 0)%Z with false by lia.
    assert (T1 : (t < 100)%Z) by (exact (int_text_two a t La T)). unfold uh_checksum. cbn [uh_type]. replace (t =? 0)%Z with false by lia.
    rewrite riv_byte_head by (cbn [uh_type]; lia). cbn [bind uh_type uh_hash]. apply lower_hex in X.
    + rewrite X, (proj2 (listN_eqb_eq _ _) eq_refl). reflexivity.
    + apply Forall_forall. intros x I. destruct (HO (Z.to_N t :: h)) as (_ & W). exact (proj1 (Forall_forall _ _) W x (in_firstn _ _ _ I)).
Qed.
Print Assumptions C83_address.
(** So no text is two addresses. *)
Theorem C83_one_address : forall H s u v, hash_ok H -> address_text H s u -> address_text H s v -> u = v.
Proof. intros H s u v HO A B. apply C83_address in A; [|exact HO]. apply C83_address in B; [|exact HO]. rewrite A in B. apply ok_inj in B. exact B. Qed.
Print Assumptions C83_one_address.
(** Only a text is read as an address. *)
Theorem C83_address_json : forall H j u, hash_ok H -> (uh_from_json H j = Ok u <-> exists s, j = JStr s /\ address_text H s u).
Proof.
  intros H j u HO. destruct j as [| | |s| | |]; cbn [uh_from_json]; try (split; [discriminate|intros (s' & [=] & _)]).
  rewrite C83_address by exact HO. split; [eauto|]. intros (s' & [= <-] & D). exact D.
Qed.
Print Assumptions C83_address_json.
(** A whole number. *)
Theorem C83_number : forall j z, jint j = Ok z <-> whole_json j z.
Proof.
  intros j z. unfold whole_json. destruct j as [|b|x|s|l|l|x]; cbn [jint].
  - split; [discriminate|]. intros [[=]|[[=]|[([=] & _)|[([=] & _)|(s & [=] & _)]]]].
  - destruct b; (split; [intro E; apply ok_inj in E; auto 6|]); intros [[=]|[[=]|[([=] & Q)|[([=] & Q)|(s & [=] & _)]]]]; rewrite Q; reflexivity.
  - split; [intro E; apply ok_inj in E; subst; auto|]. intros [[= <-]|[[=]|[([=] & _)|[([=] & _)|(s & [=] & _)]]]]. reflexivity.
  - rewrite <- py_int_iff. split; [intro E; do 4 right; eauto|]. intros [[=]|[[=]|[([=] & _)|[([=] & _)|(s' & [= <-] & Q)]]]]. exact Q.
  - split; [discriminate|]. intros [[=]|[[=]|[([=] & _)|[([=] & _)|(s & [=] & _)]]]].
  - split; [discriminate|]. intros [[=]|[[=]|[([=] & _)|[([=] & _)|(s & [=] & _)]]]].
  - split; [intro E; apply ok_inj in E; subst; auto|]. intros [[=]|[[= <-]|[([=] & _)|[([=] & _)|(s & [=] & _)]]]]. reflexivity.
Qed.
Print Assumptions C83_number.

(** ** C18 with the texts described *)
Lemma F2_eqv {A B} (P Q : A -> B -> Prop) : (forall a b, P a b <-> Q a b) -> forall l m, Forall2 P l m <-> Forall2 Q l m.
Proof. intros E l m. split; induction 1; constructor; auto; apply E; assumption. Qed.
Lemma owner_eqv P Q : (forall s u, P s u <-> Q s u) -> forall r u, owner P r u <-> owner Q r u.
Proof. intros E r u. split; intro O; destruct O; constructor; apply E; assumption. Qed.
Lemma owners_eqv P Q : (forall s u, P s u <-> Q s u) -> forall r us, owners_arg P r us <-> owners_arg Q r us.
Proof. intros E r us. split; intro O; destruct O as [l us F|l us F|r I]; try (now apply owners_empty); constructor; (eapply F2_eqv; [|exact F]); intros; apply owner_eqv; intros; (apply E || (symmetry; apply E)). Qed.
Lemma pays_eqv P Q : (forall s u, P s u <-> Q s u) -> forall r c, pays P r c <-> pays Q r c.
Proof.
  assert (G : forall P Q : pystr -> uh -> Prop, (forall s u, P s u <-> Q s u) -> forall r c, pays P r c -> pays Q r c).
  { clear. intros P Q E r c X. destruct X as [|c|u|s u X|b u X|l us F|a b us n W C O|a b us n W C O].
    - constructor.
    - constructor.
    - constructor.
    - constructor. apply E. exact X.
    - constructor. apply E. exact X.
    - constructor. eapply F2_eqv; [|exact F]. intros. apply owner_eqv. intros. symmetry. apply E.
    - apply pays_n_of; [exact W|exact C|]. eapply owners_eqv; [|exact O]. intros. symmetry. apply E.
    - apply pays_of_n; [exact W|exact C|]. eapply owners_eqv; [|exact O]. intros. symmetry. apply E. }
  intros E r c. split; apply G; intros; [apply E|symmetry; apply E].
Qed.
Theorem C18_recipient_texts : forall H now r c, hash_ok H -> (from_recipient H now r LNone = Ok c <-> pays (address_text H) r c).
Proof. intros H now r c HO. rewrite C18_recipient. apply pays_eqv. intros s u. apply C83_address. exact HO. Qed.
Print Assumptions C18_recipient_texts.

(** ** Binary data of any encoding *)
Lemma prefix_iff s b : from_str KHexPrefix s = Ok b <-> exists t, after_prefix s t /\ pairs t b.
Proof.
  assert (Z : forall t, ~ prefixed s -> s = t -> after_prefix s t) by (intros t NP E; right; right; auto).
  unfold from_str. destruct s as [|x [|y t]].
  - rewrite <- pairs_iff. split; [intro P; exists []; split; [apply Z; [intros (t & [E|E]); discriminate|reflexivity]|exact P]|].
    intros (t & [E|[E|(_ & <-)]] & P); [discriminate|discriminate|exact P].
  - rewrite <- pairs_iff. split; [intro P; exists [x]; split; [apply Z; [intros (t & [E|E]); discriminate|reflexivity]|exact P]|].
    intros (t & [E|[E|(_ & <-)]] & P); [discriminate|discriminate|exact P].
  - destruct ((x =? 48) && ((y =? 120) || (y =? 88))) eqn:Q.
    + assert (PF : x :: y :: t = s2b "0x" ++ t \/ x :: y :: t = s2b "0X" ++ t).
      { assert (x = 48) by lia. subst x. destruct (N.eqb_spec y 120) as [->|]; [left; reflexivity|]. assert (y = 88) by lia. subst y. right. reflexivity. }
      rewrite <- pairs_iff. split; [intro P; exists t; split; [destruct PF; [left|right; left]; assumption|exact P]|].
      intros (t' & [E|[E|(NP & _)]] & P); [injection E as _ _ ->; exact P|injection E as _ _ ->; exact P|destruct NP; exists t; exact PF].
    + assert (NP : ~ prefixed (x :: y :: t)) by (intros (t' & [E|E]); injection E as -> -> _; discriminate).
      rewrite <- pairs_iff. split; [intro P; exists (x :: y :: t); split; [apply Z; auto|exact P]|].
      intros (t' & [E|[E|(_ & <-)]] & P); [destruct NP; exists t'; auto|destruct NP; exists t'; auto|exact P].
Qed.
(** Data read from a text has the bytes the text writes, and the size asked for if it is not empty. *)
Theorem C83_binary : forall name s size b, In name [s2b "hex"; s2b "base64"; s2b "hexprefix"] -> (forall z, size = Some z -> (0 < z)%Z) ->
  ((exists d, bd_from_json (JStr s) size (Some name) = Ok d /\ bd_val d = b) <->
   encoded name s b /\ (forall z, size = Some z -> b = [] \/ Z.of_nat (length b) = z)).
Proof.
  intros name s size b I Z0.
  assert (K : exists k, strkind_of (Some name) = Ok k /\ bd_kind (Some name) = k /\ forall s, from_str k s = Ok b <-> encoded name s b).
  { cbn [In] in I. destruct I as [<-|[<-|[<-|[]]]]; eexists; (split; [vm_compute; reflexivity|]); (split; [vm_compute; reflexivity|]); intro s0; unfold encoded.
    - cbn [from_str]. rewrite <- pairs_iff. split; [auto|]. intros [(_ & P)|[(E & _)|(E & _)]]; [exact P|discriminate|discriminate].
    - cbn [from_str]. rewrite b64dec_iff. split; [auto|]. intros [(E & _)|[(_ & P)|(E & _)]]; [discriminate|exact P|discriminate].
    - rewrite prefix_iff. split; [auto|]. intros [(E & _)|[(E & _)|(_ & P)]]; [discriminate|discriminate|exact P]. }
  destruct K as (k & K1 & K2 & K3).
  assert (NR : forall v, (exists d, bd_new v size (Some name) = Ok d /\ bd_val d = b) <-> bd_norm k v = Ok b /\ (forall z, size = Some z -> b = [] \/ Z.of_nat (length b) = z)).
  { intro v. unfold bd_new. rewrite K1. cbn [bind]. destruct size as [z|].
    - specialize (Z0 z eq_refl). replace (0 <=? z)%Z with true by lia. cbn [guard bind]. destruct z as [|z|z]; [lia| |lia]. unfold bd_set. cbn [bd_enc bd_size]. rewrite K2. split.
      + intros (d & E & <-). apply bind_ok in E as (b' & B & E). apply bind_ok in E as (u & G & E). apply guard_ok in G. apply ok_inj in E. subst d. cbn [bd_val]. split; [exact B|].
        intros z' [= <-]. cbn [bd_size_ok] in G. unfold lenN in G. destruct b'; [auto|]. right. cbn [length] in *. lia.
      + intros (B & SZ). rewrite B. cbn [bind]. specialize (SZ _ eq_refl). replace (bd_size_ok (Some (Z.to_N (Z.pos z))) b) with true; [cbn [guard bind]; eexists; split; reflexivity|].
        cbn [bd_size_ok]. unfold lenN. destruct SZ as [->|SZ]; [reflexivity|]. symmetry. apply orb_true_iff. right. apply N.eqb_eq. lia.
    - cbn [guard bind]. unfold bd_set. cbn [bd_enc bd_size]. rewrite K2. split.
      + intros (d & E & <-). apply bind_ok in E as (b' & B & E). cbn [bd_size_ok guard bind] in E. apply ok_inj in E. subst d. split; [exact B|discriminate].
      + intros (B & _). rewrite B. cbn [bind bd_size_ok guard]. eexists; split; reflexivity. }
  cbn [bd_from_json]. rewrite NR, <- K3. destruct s as [|c s]; [|reflexivity]. cbn [bd_norm].
  assert (NL : from_str k [] = Ok []) by (destruct k; reflexivity). rewrite NL. reflexivity.
Qed.
Print Assumptions C83_binary.
(** What stands for a list: a list, the characters of a text, the keys of an object. *)
Theorem C83_elements : forall j l, jelems j = Ok l <->
  j = JArr l \/ (exists s, j = JStr s /\ Forall2 (fun c x => x = JStr [c]) s l) \/ (exists o, j = JObj o /\ Forall2 (fun kv x => x = JStr (s2b (fst kv))) o l).
Proof.
  assert (M : forall A (f : A -> json) (s : list A) l, map f s = l <-> Forall2 (fun c x => x = f c) s l).
  { intros A f. induction s as [|c s IH]; intro l; cbn [map]; (split; [|]); [intros <-; constructor|intro F; inversion F; reflexivity|intros <-; constructor; [reflexivity|apply IH; reflexivity]|].
    intro F. inversion F as [|? x ? l' Ex F']; subst. f_equal. apply IH. exact F'. }
  intros j l. destruct j as [|b|z|s|a|o|z]; cbn [jelems].
  - split; [discriminate|intros [[=]|[(? & [=] & _)|(? & [=] & _)]]].
  - split; [discriminate|intros [[=]|[(? & [=] & _)|(? & [=] & _)]]].
  - split; [discriminate|intros [[=]|[(? & [=] & _)|(? & [=] & _)]]].
  - split; [intro E; apply ok_inj in E; right; left; exists s; split; [reflexivity|]; apply (M N (fun c => JStr [c])); exact E|].
    intros [[=]|[(s' & [= <-] & F)|(? & [=] & _)]]. f_equal. apply M. exact F.
  - split; [intro E; apply ok_inj in E; subst; auto|intros [[= <-]|[(? & [=] & _)|(? & [=] & _)]]; reflexivity].
  - split; [intro E; apply ok_inj in E; right; right; exists o; split; [reflexivity|]; apply (M _ (fun kv : string * json => JStr (s2b (fst kv)))); exact E|].
    intros [[=]|[(? & [=] & _)|(o' & [= <-] & F)]]. f_equal. apply M. exact F.
  - split; [discriminate|intros [[=]|[(? & [=] & _)|(? & [=] & _)]]].
Qed.
Print Assumptions C83_elements.
(** Only a text is read as an amount (C82). *)
Theorem C83_amount_json : forall j c, cfrom_json j = Ok c -> exists s, j = JStr s /\ s <> [].
Proof. intros j c E. destruct j as [| | |s| | |]; try discriminate. destruct s; [discriminate|]. eexists. split; [reflexivity|discriminate]. Qed.
Print Assumptions C83_amount_json.
(** An IP address in bytes: four, or sixteen of which the first twelve may say that the last four are meant. *)
Theorem C83_packed : forall p, (length p = 4 \/ length p = 16)%nat ->
  (length p = 4%nat /\ na_packed p = mkna 1 p) \/
  (exists q, p = repeat 0 10 ++ [255; 255] ++ q /\ na_packed p = mkna 1 q) \/
  (length p = 16%nat /\ (forall q, p <> repeat 0 10 ++ [255; 255] ++ q) /\ na_packed p = mkna 2 p).
Proof.
  intros p L. unfold na_packed. destruct (Nat.eqb_spec (length p) 4) as [L4|N4]; [left; auto|right]. destruct (listN_eqb _ _) eqn:Q.
  - left. apply listN_eqb_eq in Q. exists (skipn 12 p). split; [|reflexivity]. rewrite <- (firstn_skipn 12 p) at 1. rewrite Q. reflexivity.
  - right. split; [lia|]. split; [|reflexivity]. intros q ->. vm_compute in Q. discriminate.
Qed.
Print Assumptions C83_packed.
(** ** Examples *)
Example C83_ex : data_text 32 (repeat 32 3 ++ hex (repeat 171 32) ++ [10]) (repeat 171 32) /\ data_text 32 [] [] /\ (forall b, ~ data_text 32 (hex (repeat 171 31)) b) /\
  key_text (s2b "ed25519:" ++ hex (repeat 7 32)) (mkpk PKEd25519 (repeat 7 32)) /\ key_json (JArr []) (mkpk PKNil []) /\
  base64_text (s2b "aGVsbG8=") (s2b "hello") /\ base64_text (s2b "aGVs*bG8=ignored") (s2b "hello") /\ (forall b, ~ base64_text (s2b "aGVsbG8") b) /\
  encoded (s2b "hexprefix") (s2b "0Xff 00") [255; 0].
Proof.
  split; [apply data_hash; vm_compute; reflexivity|]. split; [apply data_none; reflexivity|]. split; [intros b D; apply data_hash in D; vm_compute in D; discriminate|].
  split; [|split; [|split; [|split; [|split]]]].
  - assert (K : key_json (JStr (s2b "ed25519:" ++ hex (repeat 7 32))) (mkpk PKEd25519 (repeat 7 32))) by (apply C83_key; vm_compute; reflexivity).
    destruct K as [(F & _)|(s & [= <-] & K)]; [apply falsy_iff in F; discriminate|exact K].
  - apply C83_key. reflexivity.
  - apply b64dec_iff. vm_compute. reflexivity.
  - apply b64dec_iff. vm_compute. reflexivity.
  - intros b D. apply b64dec_iff in D. vm_compute in D. discriminate.
  - right. right. split; [reflexivity|]. apply prefix_iff. vm_compute. reflexivity.
Qed.
Example C83_address_ex : exists s, uh_str ex_H (ex_uh 1 7) = Ok s /\ address_text ex_H s (ex_uh 1 7).
Proof. eexists. split; [vm_compute; reflexivity|]. apply C83_address; [exact ex_H_ok|]. vm_compute. reflexivity. Qed.
