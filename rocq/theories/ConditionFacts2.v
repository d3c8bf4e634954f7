(** Counterexamples and derived facts used by Prop_Types.v. *)
From Verif Require Import Base BaseFacts Encoders EncodersFacts Merkle MerkleFacts Primitive Types Conditions Spec_Types
  TypesFacts TypesFacts2 ConditionFacts.
From Coq Require Import ZifyBool ZifyNat ZifyN.
Ltac Zify.zify_post_hook ::= Z.div_mod_to_equations.

Lemma hash32_repeat x : x < 256 -> hash32 (repeat x 32).
Proof.
  intros Hx. split; [apply repeat_length|]. apply Forall_forall. intros y Hy. apply repeat_spec in Hy. congruence.
Qed.

Lemma multi_perm_refuted : exists us vs, Permutation us vs /\ forall H, exists l1 l2,
  multi_leaves H us 1 = Ok l1 /\ multi_leaves H vs 1 = Ok l2 /\ l1 <> l2.
Proof.
  exists [mkuh 0 []; mkuh 0 (zeros 32)], [mkuh 0 (zeros 32); mkuh 0 []]. split; [apply perm_swap|].
  intros H. eexists _, _. split; [reflexivity|]. split; [reflexivity|]. vm_compute. discriminate.
Qed.

Lemma nil_round_trip_refuted : exists u s v, uh_type u = 0%Z /\ (forall H, uh_str H u = Ok s /\ uh_parse H s = Ok v) /\ u <> v.
Proof.
  exists uh_default. eexists _, _. split; [reflexivity|]. split; [intros H; split; vm_compute; reflexivity|]. discriminate.
Qed.
Lemma nil_hash_refuted : exists u s, uh_type u = 0%Z /\ hash32 (uh_hash u) /\
  (forall H, uh_str H u = Ok s /\ uh_parse H s = Err ValueError).
Proof.
  exists (mkuh 0 (1 :: zeros 31)). eexists. split; [reflexivity|]. split; [split; [reflexivity | repeat constructor]|].
  intros H; split; vm_compute; reflexivity.
Qed.
Lemma big_type_refuted H : hash_ok H -> exists s v, uh_str H (mkuh 10 (zeros 32)) = Ok s /\
  (uh_parse H s = Err v).
Proof.
  intros HH. destruct (uh_str_ok H (mkuh 10 (zeros 32)) HH ltac:(cbn; lia)) as (c & Ec & Es).
  eexists _, ValueError. split; [exact Es|]. 
  destruct (checksum_len _ _ _ HH Ec) as [L _].
  unfold uh_parse. cbn [uh_type uh_hash].
  assert (LL : length (hex [Z.to_N 10] ++ hash_str (zeros 32) ++ hex (firstn 6 c)) = 78%nat)
    by (rewrite !app_length, hex_length, (hex_length (firstn 6 c)), L; reflexivity).
  rewrite LL. cbn [Nat.eqb guard bind]. rewrite firstn_app_exact by reflexivity. vm_compute (py_int _). reflexivity.
Qed.
Lemma nil_checksum_refuted : exists s u, length s = 78%nat /\ skipn 66 s = s2b "ffffffffffff" /\
  (forall H, uh_parse H s = Ok u) /\ uh_type u = 0%Z.
Proof.
  exists (s2b "000000000000000000000000000000000000000000000000000000000000000000ffffffffffff"), (mkuh 0 (zeros 32)).
  split; [reflexivity|]. split; [reflexivity|]. split; [|reflexivity]. intros H. vm_compute. reflexivity.
Qed.
Lemma noncanonical H : hash_ok H -> exists s u, uh_parse H s = Ok u /\ uh_str H u <> Ok s.
Proof.
  intros HH. exists (s2b "+1" ++ hex (zeros 32) ++ checksum_text H 1 (zeros 32)), (mkuh 1 (zeros 32)).
  assert (Lc : length (checksum_text H 1 (zeros 32)) = 12%nat).
  { unfold checksum_text. rewrite hex_length, firstn_length. destruct (HH (1 :: zeros 32)) as [L _]. lia. }
  split.
  - apply uh_parse_complete; [rewrite !app_length, Lc; reflexivity | reflexivity | | right; reflexivity | lia | reflexivity].
    rewrite (skipn_app_exact (s2b "+1")) by reflexivity. rewrite firstn_app_exact by reflexivity. vm_compute. reflexivity.
  - destruct (uh_str_ok H (mkuh 1 (zeros 32)) HH ltac:(cbn; lia)) as (c & _ & E). rewrite E. cbn. discriminate.
Qed.

Lemma pk_default_refuted : exists p q, pk_from_json (JStr (pk_str p)) = Ok q /\ p <> q.
Proof. exists pk_default. eexists. split; [vm_compute; reflexivity | discriminate]. Qed.

Lemma json_refuted_secret H now : hash_ok H -> exists c j c', cond_json H c = Ok j /\ cond_from_json H now j = Ok c' /\ c <> c' /\
  cond_sia c <> cond_sia c' /\ c = CSwap (mkuh 1 (zeros 32)) (mkuh 1 (zeros 32)) None 1550000000.
Proof.
  intros HH. destruct (address_json H (mkuh 1 (zeros 32)) HH) as (s & E1 & E2).
  { repeat split; cbn; auto; repeat constructor. }
  eexists. eexists. exists (CSwap (mkuh 1 (zeros 32)) (mkuh 1 (zeros 32)) (Some []) 1550000000).
  split; [|split; [|split; [|split; [|reflexivity]]]].
  - cbn [cond_json]. rewrite E1. cbn [bind]. reflexivity.
  - unfold cond_from_json. cbn [jdepth fold_right snd Nat.max]. cbn [cond_from_json_f]. cbn. cbn [uh_from_json] in E2.
    rewrite E2. cbn [bind]. reflexivity.
  - discriminate.
  - vm_compute. discriminate.
Qed.
Lemma json_refuted_locked_swap H now : hash_ok H -> exists c j, full_cond c /\ cond_json H c = Ok j /\
  cond_from_json H now j = Err ValueError.
Proof.
  intros HH. destruct (address_json H (mkuh 1 (zeros 32)) HH) as (s & E1 & E2).
  { repeat split; cbn; auto; repeat constructor. }
  exists (CLock 1 (CSwap (mkuh 1 (zeros 32)) (mkuh 1 (zeros 32)) (Some (zeros 32)) 1550000000)). eexists.
  split; [|split].
  - cbn [full_cond]. assert (Z0 : hash32 (zeros 32)) by (apply hash32_repeat; reflexivity).
    split; [split; [cbn; lia | exact Z0]|]. split; [split; [cbn; lia | exact Z0]|].
    intros b E; injection E as <-. exact Z0.
  - cbn [cond_json]. rewrite E1. cbn [bind]. reflexivity.
  - unfold cond_from_json. cbn [jdepth fold_right snd Nat.max]. cbn [cond_from_json_f]. cbn. cbn [uh_from_json] in E2.
    rewrite E2. cbn [bind]. reflexivity.
Qed.
Lemma binary_refuted : exists c d x, c <> d /\ cond_sia c = Ok x /\ cond_sia d = Ok x /\
  exists y, cond_riv c = Ok y /\ cond_riv d = Ok y.
Proof.
  exists (CMulti [mkuh 0 (1 :: zeros 31); mkuh 0 []] 1), (CMulti [mkuh 0 []; mkuh 1 (zeros 32)] 1).
  eexists. split; [discriminate|]. split; [vm_compute; reflexivity|]. split; [vm_compute; reflexivity|].
  eexists. split; vm_compute; reflexivity.
Qed.
Lemma empty_hash_refuted : exists h, hash_new (BVBytes []) = Ok h /\ length h <> 32%nat /\ bd_sia (hash_bd h) = Ok [].
Proof. exists []. repeat split. discriminate. Qed.
(** The empty hash and the zero hash print alike but are different values. *)
Lemma zero_hash_text : exists a b, hash_new (BVBytes a) = Ok a /\ hash_new (BVBytes b) = Ok b /\ a <> b /\ hash_str a = hash_str b.
Proof. exists [], (zeros 32). repeat split. discriminate. Qed.

Lemma pk_address_fun H p q : pk_unlockhash H p = Ok q -> uh_type q = 1%Z /\ exists d, pk_uh_input p = Ok d /\ uh_hash q = H d.
Proof. unfold pk_unlockhash. intros E. apply bind_ok in E as (d & Ed & E). injection E as <-. cbn. eauto. Qed.
Lemma pk_address_total H p : pk_hash p = [] \/ length (pk_hash p) = 32%nat -> exists q, pk_unlockhash H p = Ok q.
Proof. intros L. destruct (pk_uh_total p L) as [x E]. unfold pk_unlockhash. rewrite E. eexists; reflexivity. Qed.
Lemma lock_int_spec now z l : lock_new now (LInt z) = Ok l <-> (0 <= z)%Z /\ l = z.
Proof.
  cbn [lock_new]. destruct (z <? 0)%Z eqn:E; split; try discriminate; try lia.
  - intros F; injection F as <-. lia.
  - intros [_ ->]. reflexivity.
Qed.

(** ** Concrete values for the examples *)
Definition ex_uh (t : Z) (x : N) : uh := mkuh t (repeat x 32).
Definition ex_H (b : bytes) : bytes := le 32 (le_dec b).
Lemma ex_H_ok : hash_ok ex_H.
Proof. intros x; split; [apply BaseFacts.le_length | apply BaseFacts.le_wf]. Qed.
Lemma ex_uh_full t x : (0 <= t < 256)%Z -> x < 256 -> full_uh (ex_uh t x).
Proof. intros Ht Hx. split; [exact Ht | apply hash32_repeat; exact Hx]. Qed.
Lemma ex_uh_address t x : (1 <= t < 4)%Z -> x < 256 -> address (ex_uh t x).
Proof. intros Ht Hx. split; [cbn; lia|]. split; [apply hash32_repeat; exact Hx | cbn; lia]. Qed.
Lemma nil_address : address (mkuh 0 (zeros 32)).
Proof. split; [cbn; auto|]. split; [apply hash32_repeat; reflexivity | reflexivity]. Qed.
