(** Properties C23 (histories of signing) and C53: a wallet signs exactly what it owns. *)
From Verif Require Import Base BaseFacts Encoders Primitive Types Conditions Fulfillments ThreeBotTypes Txn TxnSign Spec_Types Spec_Fulfil Spec_Txn Spec_Sign
  TypesFacts FulfilFacts FulfilFacts2 TxnFacts7 SignFacts SignFacts2 SignFacts3 SignFacts4 Prop_Fulfil Prop_Txn.

(** ** C23 *)
(** Whatever has been answered, by whom and with which outcome: the data to be signed by anyone are those of the start. *)
Theorem C23_any_history : forall H l t xs, is_legacy t = false -> sig_input H (attempts H t l) xs = sig_input H t xs.
Proof. exact attempts_sig. Qed.
Print Assumptions C23_any_history.
Example C23_ex_history : let q := mktq (CbCoin 0) [] (mkrq (ex_key_uh 9) false) in
  attempts ex_H2 ex_std [(q, ex_key 9, BVBytes (repeat 5 64))] <> ex_std.
Proof. vm_compute. discriminate. Qed.

(** ** C53 *)
(** Each fulfilment gets exactly the signatures it wants and the wallet can give; and each own signature likewise. *)
Theorem C53_signs_what_it_owns_partial : forall H sign primary ks, (forall k h, length (sign k h) = 64%nat) -> hash_ok H ->
  forall known mc submit t t' r, is_legacy t = false ->
  transaction_sign H sign primary ks known mc submit t = (t', Ok r) ->
  content_of t' = content_of t /\
  (forall c, c <> CbSelf -> match slot (prepared known mc t) c with
     | Some (f, p, ex) => exists us f', wanted H f p = Ok us /\ get_ff t' c = Some f' /\
                          signed_by H sign primary ks (prepared known mc t) ex us f f'
     | None => get_ff t' c = None
     end) /\
  ((forall b, t = T146 b -> pk_unlockhash H (opk (n_spk b)) <> pk_unlockhash H (opk (n_rpk b))) ->
   Forall2 (own_signed H sign primary ks (prepared known mc t)) (own_slots (prepared known mc t)) (own_slots t')).
Proof. exact sign_slots. Qed.
Print Assumptions C53_signs_what_it_owns_partial.
(** What [signed_by] means: nothing owned, nothing changed; a single signature; several signatures. *)
Theorem C53_foreign_untouched : forall H sign primary ks t ex us f f', (forall u, In u us -> wallet_key H primary ks u = None) ->
  signed_by H sign primary ks t ex us f f' -> f' = f.
Proof.
  intros H sign primary ks t ex us f f' N. apply signed_foreign. induction us as [|u us IH]; [reflexivity|].
  rewrite owned_cons, (N u (or_introl eq_refl)). apply IH. intros x I. apply N. right. exact I.
Qed.
Print Assumptions C53_foreign_untouched.
Theorem C53_single : forall H sign primary ks t ex u p g f', signed_by H sign primary ks t ex [u] (FSingle p g) f' ->
  match wallet_key H primary ks u with
  | Some k => exists d, sig_input H t (ex k) = Ok d /\ f' = FSingle k (Some (sign k (H d)))
  | None => f' = FSingle p g
  end.
Proof. exact signed_single. Qed.
Print Assumptions C53_single.
Theorem C53_multi : forall H sign primary ks t ex us ps f', signed_by H sign primary ks t ex us (FMulti ps) f' ->
  exists qs, f' = FMulti (ps ++ qs) /\ map fst qs = owned H primary ks us /\
  Forall (fun q => exists d, sig_input H t (ex (fst q)) = Ok d /\ snd q = sign (fst q) (H d)) qs.
Proof. exact signed_multi. Qed.
Print Assumptions C53_multi.
(** The result: signed iff the wallet has a key of some request; submitted iff asked for, something was outstanding, and
    the transaction is fulfilled. *)
Theorem C53_reported : forall H sign primary ks, (forall k h, length (sign k h) = 64%nat) ->
  forall known mc submit t t' sg sb, is_legacy t = false ->
  transaction_sign H sign primary ks known mc submit t = (t', Ok (sg, sb)) ->
  exists qs, requests H (prepared known mc t) = Ok qs /\
  (sg = true <-> exists q, In q qs /\ wallet_key H primary ks (rq_uh (q_rq q)) <> None) /\
  (sb = true <-> submit = true /\ qs <> [] /\ t_is_fulfilled t' = Ok true).
Proof. exact sign_result. Qed.
Print Assumptions C53_reported.
(** Signing does not fail if every request can be answered. *)
Theorem C53_does_not_fail_partial : forall H sign primary ks, (forall k h, length (sign k h) = 64%nat) -> hash_ok H -> wallet_ok H primary ks ->
  forall known mc submit t, is_legacy t = false -> snd (mint_prepare mc (set_cin t (attach known))) = Ok tt ->
  is_ok (coin_inputs t) = true ->
  let p := prepared known mc t in
  is_ok (requests H p) = true -> own_keys_ok H p -> no_clash H primary ks p ->
  (forall qs q k, requests H p = Ok qs -> In q qs -> wallet_key H primary ks (rq_uh (q_rq q)) = Some k ->
     is_ok (sig_input H p (q_extras p q k)) = true) ->
  exists t' r, transaction_sign H sign primary ks known mc submit t = (t', Ok r).
Proof. exact sign_total. Qed.
Print Assumptions C53_does_not_fail_partial.

(** A wallet with keys 7 (primary) and 8. *)
Definition ex_addr (x : N) : pystr := match pk_address ex_H2 (ex_key x) with Ok a => a | Err _ => [] end.
Definition ex_ks : keys := [(ex_addr 7, ex_key 7); (ex_addr 8, ex_key 8)].
Definition ex_sign (k : pubkey) (h : bytes) : bytes := firstn 32 (pk_hash k ++ zeros 32) ++ firstn 32 (h ++ zeros 32).
Lemma ex_sign64 k h : length (ex_sign k h) = 64%nat.
Proof. unfold ex_sign, zeros. rewrite app_length, !firstn_length, !app_length, !repeat_length. lia. Qed.
Lemma ex_H2_ok : hash_ok ex_H2.
Proof. intros x. unfold ex_H2. split; [apply le_length | apply le_wf]. Qed.
Lemma ex_wallet_ok : wallet_ok ex_H2 (ex_addr 7) ex_ks.
Proof. repeat constructor. Qed.
Definition ex_inp (x : N) (c : cond) : input :=
  mkin (repeat x 32) (match from_condition c with Ok f => f | Err _ => FMulti [] end) None.
Definition ex_conds : list cond := [CUnlockHash (ex_key_uh 7); CMulti [ex_key_uh 9; ex_key_uh 8; ex_key_uh 7] 2; CUnlockHash (ex_key_uh 9)].
Definition ex_known (p : bytes) : option output :=
  option_map (fun c => mkout 5 c p) (if listN_eqb p (repeat 0 32) then nth_error ex_conds 0 else if listN_eqb p (repeat 1 32) then nth_error ex_conds 1
    else if listN_eqb p (repeat 2 32) then nth_error ex_conds 2 else None).
Definition ex_three : txn := T1 (mkstd false [ex_inp 0 (CUnlockHash (ex_key_uh 7)); ex_inp 1 (CMulti [] 0); ex_inp 2 CNil] [] [] [] [1] []).
(** Own single input and own parts of the multi-signature input are signed, the foreign input is not; nothing is submitted. *)
Example C53_ex : let r := transaction_sign ex_H2 ex_sign (ex_addr 7) ex_ks ex_known (Err RuntimeError) true ex_three in
  snd r = Ok (true, false) /\
  option_map signers (get_ff (fst r) (CbCoin 0)) = Some [ex_key 7] /\
  option_map signers (get_ff (fst r) (CbCoin 1)) = Some [ex_key 8; ex_key 7] /\
  option_map signers (get_ff (fst r) (CbCoin 2)) = Some [].
Proof. vm_compute. auto. Qed.
Example C53_ex_no_clash : no_clash ex_H2 (ex_addr 7) ex_ks (prepared ex_known (Err RuntimeError) ex_three).
Proof.
  intros c ps p ex us S W. destruct c as [[|[|[|i]]]|i| |]; cbn in S; try discriminate; try (destruct i; discriminate).
  injection S as <- <- _. vm_compute in W. apply ok_inj in W. subst us. vm_compute. 
  constructor; [intros [X|[]]; discriminate|]. constructor; [intros [] | constructor].
Qed.
Example C53_ex_submit : snd (transaction_sign ex_H2 ex_sign (ex_addr 7) ex_ks ex_known (Err RuntimeError) true
  (T1 (mkstd false [ex_inp 0 CNil] [] [] [] [1] []))) = Ok (true, true).
Proof. vm_compute. reflexivity. Qed.

(** Missing, because false: a name transfer between two bots with the same key gets one signature only, the receiver's data
    signed in the sender's place. *)
Theorem C53_same_key_refuted : exists t t', t_is_fulfilled (T146 t') = Ok false /\
  transaction_sign ex_H2 ex_sign (ex_addr 7) ex_ks (fun _ => None) (Err RuntimeError) true (T146 t) = (T146 t', Ok (true, false)) /\
  n_ssig t = None /\ n_rsig t = None /\ n_rsig t' = None /\
  exists d, sig_input ex_H2 (T146 t) [XBytes RECEIVER] = Ok d /\ n_ssig t' = Some (true, ex_sign (ex_key 7) (ex_H2 d)).
Proof.
  exists (mkname 3 4 [s2b "example.net"] (Some 100) (Some []) None None None (Some (ex_key 7)) (Some (ex_key 7))).
  eexists. split; [|split; [vm_compute; reflexivity|]]; [vm_compute; reflexivity|].
  repeat (split; [reflexivity|]). eexists. split; [vm_compute; reflexivity | vm_compute; reflexivity].
Qed.
Print Assumptions C53_same_key_refuted.
(** A multi-signature input with the nil address among its owners makes signing fail, with what was signed before kept. *)
Theorem C53_nil_owner_refuted : exists t t',
  transaction_sign ex_H2 ex_sign (ex_addr 7) ex_ks (fun _ => Some (mkout 5 (CMulti [uh_default; ex_key_uh 7] 2) [])) (Err RuntimeError) true t = (t', Err ValueError) /\
  option_map signers (get_ff t' (CbCoin 0)) = Some [ex_key 7].
Proof.
  exists (T1 (mkstd false [ex_inp 0 (CMulti [] 0)] [] [] [] [1] [])). eexists.
  split; [vm_compute; reflexivity | vm_compute; reflexivity].
Qed.
Print Assumptions C53_nil_owner_refuted.
(** Both sides of an atomic swap owned by the wallet: the receiver's signature replaces the sender's. *)
Theorem C53_swap_refuted : exists t t' c, c = CSwap (ex_key_uh 7) (ex_key_uh 8) None 0 /\
  transaction_sign ex_H2 ex_sign (ex_addr 7) ex_ks (fun _ => Some (mkout 5 c [])) (Err RuntimeError) true t = (t', Ok (true, true)) /\
  option_map signers (get_ff t' (CbCoin 0)) = Some [ex_key 8].
Proof.
  exists (T1 (mkstd false [ex_inp 0 (CSwap (ex_key_uh 7) (ex_key_uh 8) None 0)] [] [] [] [1] [])). eexists. eexists. split; [reflexivity|].
  split; [vm_compute; reflexivity | vm_compute; reflexivity].
Qed.
Print Assumptions C53_swap_refuted.
