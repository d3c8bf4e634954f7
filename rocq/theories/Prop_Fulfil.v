(** Properties C19, C20, C21: signature requests, multi-signature inputs, fulfilment JSON. *)
From Verif Require Import Base Encoders Primitive Types Conditions Fulfillments Spec_Types Spec_Fulfil
  ConditionFacts2 FulfilFacts FulfilFacts2.

(** ** C19 *)
(** In every history of one input (requests asked for at any time, arbitrary attempts), no request accepts twice. *)
Theorem C19_accepts_once : forall H c os st st' t i, srun H c st os = (st', t) -> (accepted i t <= 1)%nat.
Proof. exact srun_at_most_once. Qed.
Print Assumptions C19_accepts_once.
Theorem C19_used_is_refused : forall H r f pk v, rq_signed r = true -> fulfil H r f pk v = (r, f, Err DoubleSignError).
Proof. exact fulfil_used. Qed.
Print Assumptions C19_used_is_refused.
(** An accepted attempt used an unused request, marks it used, and came from the key of the address asked (a request to the
    nil address can be answered by anyone). *)
Theorem C19_accepted_from_owner : forall H r f pk v r' f', fulfil H r f pk v = (r', f', Ok tt) ->
  rq_signed r = false /\ rq_signed r' = true /\ rq_uh r' = rq_uh r /\
  exists p, pk = Some p /\ (uh_type (rq_uh r) = 0%Z \/ owns H p (rq_uh r)) /\ signature_add f p v = (f', Ok tt).
Proof. exact fulfil_accepted. Qed.
Print Assumptions C19_accepted_from_owner.
Theorem C19_not_owner_refused : forall H r f p v, uh_type (rq_uh r) <> 0%Z -> ~ owns H p (rq_uh r) ->
  exists e, fulfil H r f (Some p) v = (r, f, Err e).
Proof. exact fulfil_not_owner. Qed.
Print Assumptions C19_not_owner_refused.
(** A failed attempt keeps the request and all stored signatures; if the offered signature had a valid format, nothing
    at all changed. *)
Theorem C19_failed_attempt : forall H r f pk v r' f' e, fulfil H r f pk v = (r', f', Err e) ->
  r' = r /\ signatures f' = signatures f /\ (is_ok (opt_sig v) = true -> f' = f).
Proof. exact fulfil_refused. Qed.
Print Assumptions C19_failed_attempt.
(** The owner of an unused request is accepted, and exactly his signature is stored. *)
Theorem C19_owner_accepted : forall H r f p s, rq_signed r = false -> owns H p (rq_uh r) -> length s = 64%nat ->
  (forall ps, f = FMulti ps -> ~ In (pk_str p) (map (fun q => pk_str (fst q)) ps)) ->
  exists f', fulfil H r f (Some p) (BVBytes s) = (mkrq (rq_uh r) true, f', Ok tt) /\
  match f with
  | FSingle _ _ => f' = FSingle p (Some s)
  | FSwap _ _ se => f' = FSwap p (Some s) se
  | FMulti ps => f' = FMulti (ps ++ [(p, s)])
  end.
Proof. exact fulfil_total. Qed.
Print Assumptions C19_owner_accepted.
(** What is missing of "a failed attempt uses nothing up": a signature of wrong size stores the key, after which the input
    is unsigned and no request is ever issued for it again. *)
Theorem C19_bad_signature_refuted : exists H c f0 r p f1, hash_ok H /\ from_condition c = Ok f0 /\ ff_requests H f0 c = Ok [r] /\
  fulfil H r f0 (Some p) (BVBytes (repeat 1 63)) = (r, f1, Err ValueError) /\ f1 <> f0 /\
  ff_is_fulfilled f1 c = Ok false /\ ff_requests H f1 c = Ok [].
Proof. exact bad_signature_refuted. Qed.
Print Assumptions C19_bad_signature_refuted.
(** A stand-in hash for the examples which tells the example keys apart: the last 32 bytes. *)
Definition ex_H2 (b : bytes) : bytes := le 32 (le_dec (skipn (length b - 32) b)).
Definition ex_key (x : N) : pubkey := mkpk PKEd25519 (repeat x 32).
Definition ex_key_uh (x : N) : uh := match pk_unlockhash ex_H2 (ex_key x) with Ok u => u | Err _ => uh_default end.
(** A history with an accepted, a repeated, a foreign and a malformed attempt. *)
Example C19_ex :
  map snd (snd (srun ex_H2 (CUnlockHash (ex_key_uh 7)) ([], FSingle pk_default None)
    [Ask; Try 0 (Some (ex_key 8)) (BVBytes (repeat 1 64)); Try 0 None (BVBytes (repeat 1 64));
     Try 0 (Some (ex_key 7)) (BVBytes (repeat 1 64)); Try 0 (Some (ex_key 7)) (BVBytes (repeat 1 64))])) =
  [None; Some (Err ValueError); Some (Err TypeError); Some (Ok tt); Some (Err DoubleSignError)].
Proof. vm_compute. reflexivity. Qed.

(** ** C20 *)
Theorem C20_distinct_owners_partial : forall H c us n os st t, cond_unwrap c = CMulti us n ->
  Forall (fun u => uh_type u <> 0%Z) us -> srun H c ([], FMulti []) os = (st, t) ->
  NoDup (signers (snd st)) /\ Forall (fun p => Exists (owns H p) us) (signers (snd st)) /\
  ff_is_fulfilled (snd st) c = Ok (n <=? Z.of_nat (length (signatures (snd st))))%Z.
Proof. exact multi_history_owned. Qed.
Print Assumptions C20_distinct_owners_partial.
(** If all owners sign, with different keys, the input becomes fulfilled. *)
Theorem C20_all_sign : forall H c us n ks, cond_unwrap c = CMulti us n -> (n <= Z.of_nat (length us))%Z ->
  Forall2 (fun k u => owns H (fst k) u) ks us -> Forall (fun k => length (snd k) = 64%nat) ks ->
  NoDup (map (fun k => pk_str (fst k)) ks) ->
  exists os st t, srun H c ([], FMulti []) os = (st, t) /\ snd st = FMulti ks /\ ff_is_fulfilled (snd st) c = Ok true.
Proof. exact multi_all_sign. Qed.
Print Assumptions C20_all_sign.
(** Missing: an owner of nil type can be impersonated by any key; and parsing JSON does not check for duplicates. *)
Theorem C20_nil_owner_refuted : exists H us c os p, hash_ok H /\ c = CMulti us 1 /\
  ff_is_fulfilled (snd (fst (srun H c ([], FMulti []) os))) c = Ok true /\
  signers (snd (fst (srun H c ([], FMulti []) os))) = [p] /\ Forall (fun u => ~ owns H p u) us.
Proof. exact nil_owner_refuted. Qed.
Print Assumptions C20_nil_owner_refuted.
Theorem C20_json_duplicates_refuted : exists j f c us, ff_from_json j = Ok f /\ c = CMulti us 2 /\
  ff_is_fulfilled f c = Ok true /\ exists p, forall q, In q (signers f) -> q = p.
Proof. exact ff_json_duplicate. Qed.
Print Assumptions C20_json_duplicates_refuted.
Example C20_ex : let c := CLock 5 (CMulti [ex_key_uh 7; ex_key_uh 8; ex_key_uh 9] 2) in
  let r := srun ex_H2 c ([], FMulti [])
    [Ask; Try 0 (Some (ex_key 7)) (BVBytes (repeat 1 64)); Ask; Try 0 (Some (ex_key 7)) (BVBytes (repeat 1 64));
     Try 3 (Some (ex_key 7)) (BVBytes (repeat 1 64)); Try 3 (Some (ex_key 8)) (BVBytes (repeat 2 64))] in
  signers (snd (fst r)) = [ex_key 7; ex_key 8] /\ ff_is_fulfilled (snd (fst r)) c = Ok true /\
  map snd (snd r) = [None; Some (Ok tt); None; Some (Err DoubleSignError); Some (Err ValueError); Some (Ok tt)].
Proof. vm_compute. auto. Qed.

(** ** C21 *)
Theorem C21_json_round_trip_partial : forall f, signed_ff f -> ff_from_json (ff_json f) = Ok f.
Proof. exact ff_json_rt. Qed.
Print Assumptions C21_json_round_trip_partial.
(** Missing: an unsigned single-signature input comes back as fulfilled. *)
Theorem C21_unsigned_refuted : exists f g c, from_condition c = Ok f /\ ff_from_json (ff_json f) = Ok g /\
  ff_is_fulfilled f c = Ok false /\ ff_is_fulfilled g c = Ok true.
Proof. exact ff_json_unsigned_refuted. Qed.
Print Assumptions C21_unsigned_refuted.
Example C21_ex : ff_from_json (ff_json (FMulti [(ex_key 7, repeat 1 64); (ex_key 8, [])])) =
  Ok (FMulti [(ex_key 7, repeat 1 64); (ex_key 8, [])]).
Proof. vm_compute. reflexivity. Qed.
