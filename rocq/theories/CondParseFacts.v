(** Facts about reading conditions from JSON. *)
From Verif Require Import Base BaseFacts Primitive Types Conditions Spec_Types TypesFacts TypesFacts2 ConditionFacts ConditionFacts2.
From Coq Require Import ZifyBool ZifyNat ZifyN.

Lemma depth_find k l v : jfind k l = Some v -> (jdepth v < jdepth (JObj l))%nat.
Proof.
  cbn [jdepth]. induction l as [|[k' v'] l IH]; [discriminate|]. cbn [jfind fold_right snd]. destruct (String.eqb k k' : bool) eqn:E.
  - intro X. injection X as ->. lia.
  - intro X. specialize (IH X). lia.
Qed.
Lemma depth_get k j v : jget k j = Ok v -> (jdepth v < jdepth j)%nat.
Proof.
  destruct j as [| | | | | l|]; try discriminate. cbn [jget]. destruct (jfind k l) eqn:E; [|discriminate]. intro X. apply ok_inj in X. subst. exact (depth_find _ _ _ E).
Qed.
Lemma depth_get_d k j v : jget_d k (JObj []) j = Ok v -> (v = JObj [] \/ jdepth v < jdepth j)%nat.
Proof.
  destruct j as [| | | | | l|]; try discriminate. cbn [jget_d]. destruct (jfind k l) eqn:E; intro X; apply ok_inj in X; subst; [right; exact (depth_find _ _ _ E) | now left].
Qed.
Section Hash.
Variable H : bytes -> bytes.
Lemma fuel_enough now : forall n m j, (jdepth j <= n)%nat -> (jdepth j <= m)%nat -> cond_from_json_f H now n j = cond_from_json_f H now m j.
Proof.
  induction n as [|n IH]; intros m j L M.
  - destruct j; cbn [jdepth] in L; lia.
  - destruct m as [|m]; [destruct j; cbn [jdepth] in M; lia|]. cbn [cond_from_json_f]. destruct (jget_d "type" (JNum 0) j) as [ct|e]; [|reflexivity]. cbn [bind].
    destruct (jget_d "data" (JObj []) j) as [data|e] eqn:D; [|reflexivity]. cbn [bind].
    destruct (jeq_int ct 0); [reflexivity|]. destruct (jeq_int ct 1); [reflexivity|]. destruct (jeq_int ct 2); [reflexivity|]. destruct (jeq_int ct 3); [|reflexivity].
    destruct (do x <- jget "locktime" data; do z <- jint x; lock_new now (LInt z)) as [l|e]; [|reflexivity]. cbn [bind].
    destruct (jget "condition" data) as [x|e] eqn:C; [|reflexivity]. cbn [bind].
    assert (jdepth x < jdepth j)%nat by (apply depth_get_d in D as [->|D]; [discriminate C | apply depth_get in C; lia]).
    rewrite (IH m x) by lia. reflexivity.
Qed.
Lemma cond_fuel now n j : (jdepth j <= n)%nat -> cond_from_json_f H now n j = cond_from_json H now j.
Proof. intro L. unfold cond_from_json. apply fuel_enough; lia. Qed.
End Hash.

From Verif Require Import Fulfillments Spec_Parse.
Lemma at_get k j v : at_key k j v <-> jget k j = Ok v.
Proof.
  split; [intros (l & -> & F); cbn [jget]; rewrite F; reflexivity|]. destruct j as [| | | | | l|]; try discriminate. cbn [jget]. intro E. exists l. split; [reflexivity|].
  destruct (jfind k l); [|discriminate E]. now apply ok_inj in E; subst.
Qed.
Lemma at_get_d k j v d : jget_d k d j = Ok v <-> at_key k j v \/ no_key_at k j /\ v = d.
Proof.
  split.
  - destruct j as [| | | | | l|]; try discriminate. cbn [jget_d]. destruct (jfind k l) eqn:F; intro E; apply ok_inj in E; subst; [left|right; split; [|reflexivity]]; exists l; auto.
  - intros [(l & -> & F)|((l & -> & F) & ->)]; cbn [jget_d]; rewrite F; reflexivity.
Qed.
Lemma at_not k j v : at_key k j v -> no_key_at k j -> False.
Proof. intros (l & -> & F) (l' & E & G). injection E as <-. congruence. Qed.
Lemma type_get j n : says_type j n <-> exists t, jget_d "type" (JNum 0) j = Ok t /\ jeq_int t n = true.
Proof.
  split.
  - intros [(t & A & E)|(A & ->)]; [exists t | exists (JNum 0)]; (split; [apply at_get_d|]); auto.
  - intros (t & A & E). apply at_get_d in A as [A|(A & ->)]; [left; eauto|]. right. split; [exact A|]. cbn [jeq_int] in E. lia.
Qed.
Lemma jeq_int_one t n m : jeq_int t n = true -> jeq_int t m = (n =? m)%Z.
Proof. destruct t as [|b|z| | | |z]; try discriminate; cbn [jeq_int]; lia. Qed.
Lemma int_get k j z : says_int k j z <-> (do x <- jget k j; jint x) = Ok z.
Proof.
  split; [intros (x & A & E); apply at_get in A; rewrite A; exact E|]. intro E. apply bind_ok in E as (x & A & E). exists x. split; [now apply at_get | exact E].
Qed.
Lemma F2_iff_mapM {A B} (P : A -> B -> Prop) (f : A -> res B) : (forall a b, P a b <-> f a = Ok b) -> forall l r, Forall2 P l r <-> mapM f l = Ok r.
Proof.
  intros I l r. split.
  - induction 1 as [|a b l r E F IH]; [reflexivity|]. cbn [mapM]. apply I in E. rewrite E. cbn [bind]. rewrite IH. reflexivity.
  - revert r. induction l as [|a l IH]; intros r E; cbn [mapM] in E; [apply ok_inj in E; subst; constructor|].
    apply bind_ok in E as (b & Eb & E). apply bind_ok in E as (bs & Ebs & E). apply ok_inj in E. subst. constructor; [apply I; exact Eb | exact (IH _ Ebs)].
Qed.
Lemma hash_get j b : says_hash j b <-> secret_hash_json j = Ok b.
Proof.
  unfold secret_hash_json. split.
  - intros [(-> & ->)|(s & -> & U & L)]; apply hash_new_ok; cbn [bd_norm]; auto.
  - destruct j as [| | |s| | |]; intro E; apply hash_new_ok in E as (E & L); try discriminate E; [left|right]; [cbn in E; apply ok_inj in E; auto | eauto].
Qed.
Section Reading.
Variable H : bytes -> bytes.
Lemma address_get j u : says_address H j u <-> uh_from_json H j = Ok u.
Proof. split; [intros (s & -> & E); exact E|]. destruct j; try discriminate. intro E. exists s. auto. Qed.
Lemma party_get j u : says_address H j u /\ (uh_type u = 0 \/ uh_type u = 1)%Z <-> (do u <- uh_from_json H j; swap_party u) = Ok u.
Proof.
  rewrite address_get. unfold swap_party. split.
  - intros (-> & T). cbn [bind]. replace ((uh_type u =? 1) || (uh_type u =? 0))%Z with true by lia. reflexivity.
  - intro E. apply bind_ok in E as (v & Ev & E). apply bind_ok in E as (? & G & E). apply guard_ok in G. apply ok_inj in E. subst v. split; [exact Ev | lia].
Qed.
Lemma cond_reads now : forall n j c, (jdepth j <= n)%nat -> cond_from_json_f H now n j = Ok c <-> says H j c.
Proof.
  induction n as [|n IH]; intros j c L; [destruct j; cbn [jdepth] in L; lia|]. cbn [cond_from_json_f]. split.
  - intro E. apply bind_ok in E as (ct & Et & E). apply bind_ok in E as (d & Ed & E).
    assert (T : forall n, jeq_int ct n = true -> says_type j n) by (intros k X; apply type_get; eauto).
    destruct (jeq_int ct 0) eqn:T0.
    { apply at_get_d in Ed. destruct d as [| | | | |[|]|]; try discriminate E; apply ok_inj in E; subst; (apply says_nil; [exact (T _ T0)|]); destruct Ed as [Ed|(Ed & _)]; auto. }
    assert (D : forall k v, jget k d = Ok v -> at_key "data" j d) by (intros k v G; apply at_get_d in Ed as [Ed|(_ & ->)]; [exact Ed | discriminate G]).
    destruct (jeq_int ct 1) eqn:T1.
    { apply bind_ok in E as (x & Ex & E). apply bind_ok in E as (u & Eu & E). apply ok_inj in E. subst. apply address_get in Eu. pose proof (D _ _ Ex). apply at_get in Ex. econstructor; eauto. }
    destruct (jeq_int ct 2) eqn:T2.
    { apply bind_ok in E as (s & Es & E). apply bind_ok in Es as (a & Ea & Es). apply party_get in Es as (Es & Ts). apply bind_ok in E as (r & Er & E). apply bind_ok in Er as (b & Eb & Er). apply party_get in Er as (Er & Tr).
      apply bind_ok in E as (h & Eh & E). apply bind_ok in Eh as (x & Ex & Eh). apply hash_get in Eh. apply bind_ok in E as (l & El & E). apply bind_ok in El as (y & Ey & El). apply bind_ok in El as (z & Ez & El).
      unfold swap_lock in El. apply bind_ok in El as (l' & El' & El). apply lock_int_spec in El' as (_ & ->). apply bind_ok in El as (? & G & El). apply guard_ok in G. apply ok_inj in El. apply ok_inj in E. subst.
      pose proof (D _ _ Ea). apply at_get in Ea, Eb, Ex, Ey. unfold lock_is_timestamp in G. econstructor; eauto; [exists y; auto | lia]. }
    destruct (jeq_int ct 3) eqn:T3.
    { apply bind_ok in E as (l & El & E). apply bind_ok in El as (y & Ey & El). apply bind_ok in El as (z & Ez & El). apply lock_int_spec in El as (Z0 & ->).
      apply bind_ok in E as (x & Ex & E). apply bind_ok in E as (i & Ei & E). apply bind_ok in E as (? & G & E). apply guard_ok in G. apply ok_inj in E. subst.
      assert (jdepth x < jdepth j)%nat by (apply at_get_d in Ed as [Ed|(_ & ->)]; [apply at_get, depth_get in Ed; apply depth_get in Ex; lia | discriminate Ex]).
      apply IH in Ei; [|lia]. pose proof (D _ _ Ex). apply at_get in Ex, Ey. econstructor; eauto; [exists y; auto|]. destruct i; try exact I; discriminate G. }
    destruct (jeq_int ct 4) eqn:T4; [|discriminate E].
    apply bind_ok in E as (m & Em & E). apply bind_ok in E as (xs & Ex & E). apply bind_ok in Ex as (x & Ex & El). apply bind_ok in E as (us & Eu & E). apply ok_inj in E. subst.
    pose proof (D _ _ Ex). apply int_get in Em. apply at_get in Ex. econstructor; eauto. apply (F2_iff_mapM _ _ address_get). exact Eu.
  - intro S0. destruct S0 as [j T D|j d x u T D X A|j d a b x s r h l T D A Sa B Sb X Sx Sl Ts Tr Ll|j d x l c T D Sl L0 X Sx M|j d x l us m T D Sm X El F];
      apply type_get in T as (t & -> & T); cbn [bind]; rewrite !(jeq_int_one _ _ _ T); cbn [Z.eqb Pos.eqb].
    + destruct D as [D|[D|D]]; [rewrite (proj2 (at_get_d _ _ _ _) (or_intror (conj D eq_refl))) | rewrite (proj2 (at_get_d _ _ _ (JObj [])) (or_introl D)).. ]; reflexivity.
    + rewrite (proj2 (at_get_d _ _ _ (JObj [])) (or_introl D)). cbn [bind]. apply at_get in X. rewrite X. cbn [bind]. apply address_get in A. rewrite A. reflexivity.
    + rewrite (proj2 (at_get_d _ _ _ (JObj [])) (or_introl D)). cbn [bind]. apply at_get in A, B, X. rewrite A. cbn [bind]. rewrite (proj1 (party_get _ _) (conj Sa Ts)). cbn [bind]. rewrite B. cbn [bind].
      rewrite (proj1 (party_get _ _) (conj Sb Tr)). cbn [bind]. rewrite X. cbn [bind]. apply hash_get in Sx. rewrite Sx. cbn [bind]. destruct Sl as (y & Y & Ey). apply at_get in Y. rewrite Y. cbn [bind]. rewrite Ey. cbn [bind].
      unfold swap_lock. assert (lock_new now (LInt l) = Ok l) as -> by (apply lock_int_spec; lia). cbn [bind]. unfold lock_is_timestamp. replace (_ <=? l)%Z with true by lia. reflexivity.
    + assert (jdepth x < jdepth j)%nat by (apply at_get, depth_get in D; apply at_get, depth_get in X; lia).
      rewrite (proj2 (at_get_d _ _ _ (JObj [])) (or_introl D)). cbn [bind]. destruct Sl as (y & Y & Ey). apply at_get in Y. rewrite Y. cbn [bind]. rewrite Ey. cbn [bind].
      assert (lock_new now (LInt l) = Ok l) as -> by (apply lock_int_spec; lia). cbn [bind]. apply at_get in X. rewrite X. cbn [bind]. apply IH in Sx; [|lia]. rewrite Sx. cbn [bind]. destruct c; try contradiction; reflexivity.
    + rewrite (proj2 (at_get_d _ _ _ (JObj [])) (or_introl D)). cbn [bind]. apply int_get in Sm. rewrite Sm. cbn [bind]. apply at_get in X. rewrite X. cbn [bind]. rewrite El. cbn [bind].
      apply (F2_iff_mapM _ _ address_get) in F. rewrite F. reflexivity.
Qed.
End Reading.
Lemma pair_get j p : says_pair j p <-> jpair_from j = Ok p.
Proof.
  unfold says_pair, jpair_from. split.
  - intros (k & s & K & Ek & Sg & Es). apply at_get in K, Sg. rewrite K. cbn [bind]. rewrite Ek. cbn [bind]. rewrite Sg. cbn [bind]. rewrite Es. destruct p; reflexivity.
  - intro E. apply bind_ok in E as (k & K & E). apply bind_ok in E as (pk & Ek & E). apply bind_ok in E as (s & Sg & E). apply bind_ok in E as (sg & Es & E). apply ok_inj in E. subst p. exists k, s.
    apply at_get in K, Sg. auto.
Qed.
Lemma ff_reads j f : ff_from_json j = Ok f <-> says_ff j f.
Proof.
  unfold ff_from_json. split.
  - intro E. apply bind_ok in E as (ct & Et & E). apply bind_ok in E as (d & Ed & E).
    assert (T : forall n, jeq_int ct n = true -> says_type j n) by (intros k X; apply type_get; eauto).
    assert (D : forall k v, at_key k d v -> at_key "data" j d) by (intros k v G; apply at_get_d in Ed as [Ed|(_ & ->)]; [exact Ed | apply at_get in G; discriminate G]).
    assert (P : forall p, jpair_from d = Ok p -> says_pair d p /\ at_key "data" j d) by (intros p G; apply pair_get in G; split; [exact G|]; destruct G as (k & s & K & _); exact (D _ _ K)).
    destruct (jeq_int ct 1) eqn:T1; [|destruct (jeq_int ct 3) eqn:T3; [|destruct (jeq_int ct 2) eqn:T2; [|discriminate E]]].
    + apply bind_ok in E as (p & Ep & E). apply ok_inj in E. subst. apply P in Ep as (Ep & Dj). econstructor; eauto.
    + apply bind_ok in E as (x & Ex & E). apply bind_ok in E as (l & El & E). apply bind_ok in E as (ps & Ep & E). apply ok_inj in E. subst. apply at_get in Ex. econstructor; eauto. apply (F2_iff_mapM _ _ pair_get). exact Ep.
    + apply bind_ok in E as (p & Ep & E). apply P in Ep as (Ep & Dj). destruct (jhas "secret" d) eqn:Hs.
      * apply bind_ok in E as (x & Ex & E). apply bind_ok in E as (s & Es & E). apply ok_inj in E. subst. apply at_get in Ex. econstructor; eauto.
      * apply ok_inj in E. subst. apply (says_refund_ff j d p); auto. destruct Ep as (k & ? & (l & -> & _) & _). exists l. split; [reflexivity|]. cbn [jhas] in Hs. destruct (jfind "secret" l); [discriminate Hs | reflexivity].
  - intros [j' d p T D P|j' d p x s T D P X Es|j' d p T D P N|j' d x l ps T D X El F]; apply type_get in T as (t & -> & T); cbn [bind]; rewrite !(jeq_int_one _ _ _ T); cbn [Z.eqb Pos.eqb];
      rewrite (proj2 (at_get_d _ _ _ (JObj [])) (or_introl D)); cbn [bind]; try (apply pair_get in P; rewrite P; cbn [bind]).
    + reflexivity.
    + assert (jhas "secret" d = true) as -> by (destruct X as (l & -> & X); cbn [jhas]; rewrite X; reflexivity). apply at_get in X. rewrite X. cbn [bind]. rewrite Es. reflexivity.
    + destruct N as (l & -> & N). cbn [jhas]. rewrite N. reflexivity.
    + apply at_get in X. rewrite X. cbn [bind]. rewrite El. cbn [bind]. apply (F2_iff_mapM _ _ pair_get) in F. rewrite F. reflexivity.
Qed.
