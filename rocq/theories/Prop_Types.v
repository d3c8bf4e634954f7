(** Properties C06, C12-C18 and C55: addresses, keys, locks, conditions, recipients. *)
From Verif Require Import Base BaseFacts Encoders Merkle Primitive Types Conditions Spec_Types TypesFacts TypesFacts2 ConditionFacts
  ConditionFacts2.

(** ** C06 *)
Theorem C06_owner_order_partial : forall H us vs n, hash_ok H -> Forall full_uh us -> Permutation us vs ->
  cond_unlockhash H (CMulti us n) = cond_unlockhash H (CMulti vs n).
Proof. exact multi_address_perm. Qed.
Print Assumptions C06_owner_order_partial.
Theorem C06_address_exists : forall H us n, hash_ok H -> Forall full_uh us -> lenN us < 2 ^ 64 -> (0 <= n < 2 ^ 64)%Z ->
  exists u, cond_unlockhash H (CMulti us n) = Ok u /\ uh_type u = 3%Z.
Proof. exact multi_address_total. Qed.
Print Assumptions C06_address_exists.
(** Missing: owners given as [None] or [UnlockHash()] have an empty hash which prints like the zero hash, and then the
    hashed leaves depend on the order. *)
Theorem C06_owner_order_refuted : exists us vs, Permutation us vs /\ forall H, exists l1 l2,
  multi_leaves H us 1 = Ok l1 /\ multi_leaves H vs 1 = Ok l2 /\ l1 <> l2.
Proof. exact multi_perm_refuted. Qed.
Print Assumptions C06_owner_order_refuted.
Example C06_ex : Forall full_uh [ex_uh 1 7; ex_uh 1 3; ex_uh 3 9] /\
  Permutation [ex_uh 1 7; ex_uh 1 3; ex_uh 3 9] [ex_uh 3 9; ex_uh 1 7; ex_uh 1 3] /\
  is_ok (cond_unlockhash ex_H (CMulti [ex_uh 1 7; ex_uh 1 3; ex_uh 3 9] 2)) = true.
Proof.
  split; [repeat (constructor; [apply ex_uh_full; lia|]); constructor|]. split; [|vm_compute; reflexivity].
  eapply perm_trans; [|apply perm_swap]. apply perm_skip. apply perm_swap.
Qed.

(** ** C12 *)
Theorem C12_address_round_trip_partial : forall H u, hash_ok H -> address u ->
  exists s, uh_str H u = Ok s /\ length s = 78%nat /\ uh_parse H s = Ok u.
Proof. exact address_round_trip. Qed.
Print Assumptions C12_address_round_trip_partial.
(** Missing: nil addresses whose hash is not 32 zero bytes; [UnlockHash()] itself is one. *)
Theorem C12_nil_round_trip_refuted : exists u s v, uh_type u = 0%Z /\
  (forall H, uh_str H u = Ok s /\ uh_parse H s = Ok v) /\ u <> v.
Proof. exact nil_round_trip_refuted. Qed.
Print Assumptions C12_nil_round_trip_refuted.
Theorem C12_nil_hash_refuted : exists u s, uh_type u = 0%Z /\ hash32 (uh_hash u) /\
  (forall H, uh_str H u = Ok s /\ uh_parse H s = Err ValueError).
Proof. exact nil_hash_refuted. Qed.
Print Assumptions C12_nil_hash_refuted.
(** The type is printed in hexadecimal and read in decimal. *)
Theorem C12_type_ten_refuted : forall H, hash_ok H -> exists s e,
  uh_str H (mkuh 10 (zeros 32)) = Ok s /\ uh_parse H s = Err e.
Proof. exact big_type_refuted. Qed.
Print Assumptions C12_type_ten_refuted.
Theorem C12_printed_distinct : forall H u v s, hash_ok H -> full_uh u -> full_uh v ->
  uh_str H u = Ok s -> uh_str H v = Ok s -> u = v.
Proof. exact uh_str_inj. Qed.
Print Assumptions C12_printed_distinct.
(** An accepted text need not be the printed form. *)
Theorem C12_canonical_refuted : forall H, hash_ok H -> exists s u, uh_parse H s = Ok u /\ uh_str H u <> Ok s.
Proof. exact noncanonical. Qed.
Print Assumptions C12_canonical_refuted.
Example C12_ex : address (ex_uh 1 200) /\ address (mkuh 0 (zeros 32)).
Proof. exact (conj (ex_uh_address 1 200 ltac:(lia) ltac:(lia)) nil_address). Qed.

(** ** C13 *)
Theorem C13_accepts_only_partial : forall H s u, uh_parse H s = Ok u -> uh_type u <> 0%Z ->
  length s = 78%nat /\ py_int (firstn 2 s) = Ok (uh_type u) /\ unhex (firstn 64 (skipn 2 s)) = Ok (uh_hash u) /\
  (0 < uh_type u < 256)%Z /\ skipn 66 s = checksum_text H (Z.to_N (uh_type u)) (uh_hash u).
Proof.
  intros H s u E N. destruct (uh_parse_sound H s u E) as (L & T & U & _ & [[Z0 _]|[R C]]); [contradiction|].
  exact (conj L (conj T (conj U (conj R C)))).
Qed.
Print Assumptions C13_accepts_only_partial.
Theorem C13_wrong_checksum_refused : forall H s s' u, uh_parse H s = Ok u -> uh_type u <> 0%Z ->
  firstn 66 s' = firstn 66 s -> s' <> s -> exists e, uh_parse H s' = Err e.
Proof. exact uh_parse_checksum. Qed.
Print Assumptions C13_wrong_checksum_refused.
(** False for the nil type: its checksum is never compared. *)
Theorem C13_nil_checksum_refuted : exists s u, length s = 78%nat /\ skipn 66 s = s2b "ffffffffffff" /\
  (forall H, uh_parse H s = Ok u) /\ uh_type u = 0%Z.
Proof. exact nil_checksum_refuted. Qed.
Print Assumptions C13_nil_checksum_refuted.
Example C13_ex : exists s, uh_parse ex_H s = Ok (ex_uh 1 200).
Proof. destruct (address_round_trip ex_H (ex_uh 1 200) ex_H_ok (proj1 C12_ex)) as (s & _ & _ & E). exists s; exact E. Qed.

(** ** C14 *)
Theorem C14_key_round_trip_partial : forall p, hash32 (pk_hash p) -> pk_from_json (JStr (pk_str p)) = Ok p.
Proof. exact pk_round_trip. Qed.
Print Assumptions C14_key_round_trip_partial.
(** Missing: the empty key [PublicKey()], which prints like the zero key. *)
Theorem C14_empty_key_refuted : exists p q, pk_from_json (JStr (pk_str p)) = Ok q /\ p <> q.
Proof. exact pk_default_refuted. Qed.
Print Assumptions C14_empty_key_refuted.
Theorem C14_accepted_shapes : forall s p, pk_from_json (JStr s) = Ok p <->
  s = [] /\ p = mkpk PKNil [] \/
  exists t, s = pkspec_str (pk_spec p) ++ 58 :: t /\ Forall (fun c => c <> 58) t /\
            unhex t = Ok (pk_hash p) /\ (pk_hash p = [] \/ length (pk_hash p) = 32%nat).
Proof. exact pk_accepts. Qed.
Print Assumptions C14_accepted_shapes.
Theorem C14_address_determined : forall H p u, pk_unlockhash H p = Ok u ->
  uh_type u = 1%Z /\ exists d, pk_uh_input p = Ok d /\ uh_hash u = H d.
Proof. exact pk_address_fun. Qed.
Print Assumptions C14_address_determined.
Theorem C14_address_total : forall H p, pk_hash p = [] \/ length (pk_hash p) = 32%nat ->
  exists u, pk_unlockhash H p = Ok u.
Proof. exact pk_address_total. Qed.
Print Assumptions C14_address_total.
Theorem C14_hash_input_injective : forall p q x, pk_uh_input p = Ok x -> pk_uh_input q = Ok x -> p = q.
Proof. exact pk_uh_input_inj. Qed.
Print Assumptions C14_hash_input_injective.
Example C14_ex : hash32 (repeat 17 32) /\ pk_str (mkpk PKEd25519 (repeat 17 32)) =
  s2b "ed25519:1111111111111111111111111111111111111111111111111111111111111111".
Proof. split; [apply hash32_repeat; reflexivity | reflexivity]. Qed.

(** ** C15 *)
Theorem C15_locked_exactly : forall l height time, locked_check l height time = true <->
  ((l < 500000000 /\ height < l) \/ (500000000 <= l /\ time < l))%Z.
Proof. exact locked_check_spec. Qed.
Print Assumptions C15_locked_exactly.
Theorem C15_stays_open : forall l h t h' t', (h <= h')%Z -> (t <= t')%Z ->
  locked_check l h t = false -> locked_check l h' t' = false.
Proof. exact locked_check_mono. Qed.
Print Assumptions C15_stays_open.
Theorem C15_lock_of_int : forall now z l, lock_new now (LInt z) = Ok l <-> (0 <= z)%Z /\ l = z.
Proof. exact lock_int_spec. Qed.
Print Assumptions C15_lock_of_int.
Example C15_ex : locked_check 42000 41999 1555555555 = true /\ locked_check 42000 42000 0 = false /\
  locked_check 1555555555 42000 1555555554 = true /\ locked_check 1555555555 0 1555555555 = false.
Proof. repeat split. Qed.

(** ** C16 *)
Theorem C16_json_round_trip_partial : forall H now c, hash_ok H -> network_cond c ->
  exists j, cond_json H c = Ok j /\ cond_from_json H now j = Ok c.
Proof. exact cond_json_round_trip. Qed.
Print Assumptions C16_json_round_trip_partial.
(** Missing, and false of the code: *)
Theorem C16_swap_without_secret_refuted : forall H now, hash_ok H -> exists c j c', cond_json H c = Ok j /\
  cond_from_json H now j = Ok c' /\ c <> c' /\ cond_sia c <> cond_sia c' /\
  c = CSwap (mkuh 1 (zeros 32)) (mkuh 1 (zeros 32)) None 1550000000.
Proof. exact json_refuted_secret. Qed.
Print Assumptions C16_swap_without_secret_refuted.
Theorem C16_locked_swap_refuted : forall H now, hash_ok H -> exists c j, full_cond c /\ cond_json H c = Ok j /\
  cond_from_json H now j = Err ValueError.
Proof. exact json_refuted_locked_swap. Qed.
Print Assumptions C16_locked_swap_refuted.
Example C16_ex : network_cond (CLock 42000 (CMulti [ex_uh 1 7; ex_uh 1 3] 2)) /\
  network_cond (CSwap (ex_uh 1 7) (ex_uh 1 3) (Some (repeat 5 32)) 1550000000).
Proof.
  assert (A7 : address (ex_uh 1 7)) by (apply ex_uh_address; lia).
  assert (A3 : address (ex_uh 1 3)) by (apply ex_uh_address; lia).
  split; [split; [lia | exact (Forall_cons _ A7 (Forall_cons _ A3 (Forall_nil _)))]|].
  split; [exact A7|]. split; [cbn; lia|]. split; [exact A3|]. split; [cbn; lia|]. split; [|lia].
  exists (repeat 5 32). split; [reflexivity | apply hash32_repeat; reflexivity].
Qed.

(** ** C17 *)
Theorem C17_sia_unambiguous_partial : forall c d x y r s, full_cond c -> full_cond d ->
  cond_sia c = Ok x -> cond_sia d = Ok y -> x ++ r = y ++ s -> c = d /\ r = s.
Proof. exact cond_sia_uniq. Qed.
Print Assumptions C17_sia_unambiguous_partial.
Theorem C17_rivine_unambiguous_partial : forall c d x y r s, full_cond c -> full_cond d ->
  cond_riv c = Ok x -> cond_riv d = Ok y -> x ++ r = y ++ s -> c = d /\ r = s.
Proof. exact cond_riv_uniq. Qed.
Print Assumptions C17_rivine_unambiguous_partial.
Theorem C17_swap_address_input_partial : forall s r h l s' r' h' l' x,
  full_cond (CSwap s r h l) -> full_cond (CSwap s' r' h' l') ->
  swap_uh_input s r h l = Ok x -> swap_uh_input s' r' h' l' = Ok x -> CSwap s r h l = CSwap s' r' h' l'.
Proof. exact swap_uh_input_inj. Qed.
Print Assumptions C17_swap_address_input_partial.
(** Missing: conditions with an owner whose hash is empty; two of them share an encoding. *)
Theorem C17_empty_hash_refuted : exists c d x, c <> d /\ cond_sia c = Ok x /\ cond_sia d = Ok x /\
  exists y, cond_riv c = Ok y /\ cond_riv d = Ok y.
Proof. exact binary_refuted. Qed.
Print Assumptions C17_empty_hash_refuted.
Example C17_ex : full_cond (CLock 5 (CMulti [ex_uh 1 7; ex_uh 1 3] 2)) /\
  is_ok (cond_sia (CLock 5 (CMulti [ex_uh 1 7; ex_uh 1 3] 2))) = true.
Proof. split; [repeat (constructor; [apply ex_uh_full; lia|]); constructor | reflexivity]. Qed.

(** ** C18 *)
Theorem C18_recipient : forall H now r c,
  from_recipient H now r LNone = Ok c <-> pays (fun s u => uh_parse H s = Ok u) r c.
Proof. exact from_recipient_plain. Qed.
Print Assumptions C18_recipient.
Theorem C18_locked_recipient : forall H now r lock c, lock <> LNone ->
  (from_recipient H now r lock = Ok c <->
   exists l i, lock_new now lock = Ok l /\ pays (fun s u => uh_parse H s = Ok u) r i /\ c = CLock l i).
Proof. exact from_recipient_locked. Qed.
Print Assumptions C18_locked_recipient.
Example C18_ex : pays (fun s u => uh_parse ex_H s = Ok u) (RTuple [RInt 2; RList [RUh (ex_uh 1 7); RUh (ex_uh 1 3)]])
  (CMulti [ex_uh 1 7; ex_uh 1 3] 2) /\
  from_recipient ex_H 0 (RTuple [RList [RUh (ex_uh 1 7)]; RInt 1]) (LInt 9) = Ok (CLock 9 (CMulti [ex_uh 1 7] 1)).
Proof. split; [apply pays_n_of; [left; eauto | constructor | repeat constructor] | reflexivity]. Qed.

(** ** C55 *)
Theorem C55_fixed_size_partial : forall v z enc d vs, (0 < z)%Z -> bd_new v (Some z) enc = Ok d ->
  let d' := bd_history d vs in
  (bd_val d' = [] \/ Z.of_nat (length (bd_val d')) = z) /\ bd_sia d' = Ok (bd_val d') /\ bd_riv d' = Ok (bd_val d').
Proof. exact bd_fixed_size. Qed.
Print Assumptions C55_fixed_size_partial.
Theorem C55_wrong_size_refused : forall d n v b, bd_size d = Some n -> bd_norm (bd_kind (bd_enc d)) v = Ok b ->
  b <> [] -> lenN b <> n -> bd_set d v = Err ValueError.
Proof. exact bd_wrong_size_refused. Qed.
Print Assumptions C55_wrong_size_refused.
Theorem C55_size_from_value : forall v enc d, bd_new v (Some 0%Z) enc = Ok d -> bd_size d = Some (lenN (bd_val d)).
Proof. exact bd_new_zero. Qed.
Print Assumptions C55_size_from_value.
(** Missing, and false: the empty value is accepted for every size, encodes to nothing, and prints like the zero hash. *)
Theorem C55_empty_hash_refuted : exists h, hash_new (BVBytes []) = Ok h /\ length h <> 32%nat /\ bd_sia (hash_bd h) = Ok [].
Proof. exact empty_hash_refuted. Qed.
Print Assumptions C55_empty_hash_refuted.
Theorem C55_zero_hash_text : exists a b, hash_new (BVBytes a) = Ok a /\ hash_new (BVBytes b) = Ok b /\ a <> b /\
  hash_str a = hash_str b.
Proof. exact zero_hash_text. Qed.
Print Assumptions C55_zero_hash_text.
Theorem C55_json_round_trip : forall d, wf_bytes (bd_val d) -> is_ok (strkind_of (bd_enc d)) = true -> bd_inv d ->
  (forall n, bd_size d = Some n -> n <> 0) ->
  bd_from_json (JStr (bd_str d)) (match bd_size d with Some n => Some (Z.of_N n) | None => None end) (bd_enc d) = Ok d.
Proof. exact bd_json_round_trip. Qed.
Print Assumptions C55_json_round_trip.
(** A hash is a binary object of 32 bytes, written in hexadecimal. *)
Theorem C55_hash_object : forall v h, hash_new v = Ok h <-> bd_new v (Some 32%Z) (Some (s2b "hex")) = Ok (hash_bd h).
Proof.
  intros v h. unfold hash_new. split; intro E.
  - apply bind_ok in E as (d & Ed & E). apply ok_inj in E. subst h. rewrite Ed. f_equal. unfold bd_new in Ed. apply bind_ok in Ed as (x & _ & Ed). apply bind_ok in Ed as (y & _ & Ed).
    unfold bd_set in Ed. apply bind_ok in Ed as (b & _ & Ed). apply bind_ok in Ed as (z & _ & Ed). apply ok_inj in Ed. subst d. reflexivity.
  - rewrite E. reflexivity.
Qed.
Print Assumptions C55_hash_object.
Example C55_ex : exists d, bd_new (BVStr (s2b "0a0b")) (Some 2%Z) None = Ok d /\ bd_val d = [10; 11] /\
  bd_history d [BVBytes [1]; BVBytes [1; 2; 3]] = d.
Proof. eexists; split; [reflexivity | split; reflexivity]. Qed.
