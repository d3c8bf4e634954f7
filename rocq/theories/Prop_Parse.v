(** Theorems about reading conditions (C71) and fulfilments (C72) from JSON. *)
From Verif Require Import Base BaseFacts Primitive Types Conditions Fulfillments Spec_Types TypesFacts TypesFacts2 ConditionFacts ConditionFacts2 Spec_Parse CondParseFacts TxnFacts3 Prop_Types Prop_Fulfil Prop_Sign.
From Coq Require Import ZifyBool ZifyNat ZifyN.

(** ** C71 *)
(** Exactly the values which say a condition are read, as that condition, at any time. *)
Theorem C71_reads : forall H now j c, cond_from_json H now j = Ok c <-> says H j c.
Proof. intros H now j c. unfold cond_from_json. apply cond_reads. lia. Qed.
Print Assumptions C71_reads.
(** So a value says at most one condition, and the time at which it is read does not matter. *)
Theorem C71_one : forall H j c d, says H j c -> says H j d -> c = d.
Proof. intros H j c d A B. apply (C71_reads H 0) in A, B. rewrite A in B. now apply ok_inj in B. Qed.
Print Assumptions C71_one.
(** No more than this is checked: for every number of owners and of signatures there is a value which is read, whether or not the condition could ever be met. *)
Theorem C71_any_count : forall H now us n, hash_ok H -> Forall address us -> exists j, says H j (CMulti us n) /\ cond_json H (CMulti us n) = Ok j /\ cond_from_json H now j = Ok (CMulti us n).
Proof.
  intros H now us n HH F. destruct (cond_json_round_trip H now (CMulti us n) HH F) as (j & E & R). exists j. split; [apply (C71_reads H now); exact R | auto].
Qed.
Print Assumptions C71_any_count.
(** *** Examples: a swap, a lock of a multi-signature wallet, and values which say nothing *)
Definition exp_text (u : uh) : json := match uh_str ex_H2 u with Ok s => JStr s | Err _ => JNull end.
Definition exp_cond (t : Z) (l : list (string * json)) : json := JObj [("type"%string, JNum t); ("data"%string, JObj l)].
Definition exp_swap (lock : Z) : json := exp_cond 2 [("sender"%string, exp_text (ex_uh 1 7)); ("receiver"%string, exp_text (ex_uh 1 3)); ("hashedsecret"%string, JStr (hex (repeat 5 32))); ("timelock"%string, JNum lock)].
Definition exp_multi : json := exp_cond 4 [("unlockhashes"%string, JArr [exp_text (ex_uh 1 7); exp_text (ex_uh 1 3)]); ("minimumsignaturecount"%string, JNum 2)].
Definition exp_lock (j : json) : json := exp_cond 3 [("locktime"%string, JNum 42000); ("condition"%string, j)].
Example C71_ex : says ex_H2 (exp_swap 1550000000) (CSwap (ex_uh 1 7) (ex_uh 1 3) (Some (repeat 5 32)) 1550000000) /\
  says ex_H2 (exp_lock exp_multi) (CLock 42000 (CMulti [ex_uh 1 7; ex_uh 1 3] 2)) /\
  (forall c, ~ says ex_H2 (exp_swap 42000) c) /\ (forall c, ~ says ex_H2 (exp_lock (exp_swap 1550000000)) c).
Proof.
  split; [apply (C71_reads _ 0); vm_compute; reflexivity|]. split; [apply (C71_reads _ 0); vm_compute; reflexivity|].
  split; intros c A; apply (C71_reads _ 0) in A; vm_compute in A; discriminate A.
Qed.

(** ** C72 *)
Theorem C72_reads : forall j f, ff_from_json j = Ok f <-> says_ff j f.
Proof. exact ff_reads. Qed.
Print Assumptions C72_reads.
Theorem C72_one : forall j f g, says_ff j f -> says_ff j g -> f = g.
Proof. intros j f g A B. apply C72_reads in A, B. rewrite A in B. now apply ok_inj in B. Qed.
Print Assumptions C72_one.
(** *** Examples *)
Definition exp_pair (k s : N) : list (string * json) := [("publickey"%string, JStr (pk_str (mkpk PKEd25519 (repeat k 32)))); ("signature"%string, JStr (hex (repeat s 64)))].
Example C72_ex : says_ff (exp_cond 2 (exp_pair 7 8 ++ [("secret"%string, JStr (hex (repeat 5 32)))])) (FSwap (mkpk PKEd25519 (repeat 7 32)) (Some (repeat 8 64)) (Some (repeat 5 32))) /\
  says_ff (exp_cond 2 (exp_pair 7 8)) (FSwap (mkpk PKEd25519 (repeat 7 32)) (Some (repeat 8 64)) None) /\
  says_ff (exp_cond 3 [("pairs"%string, JArr [JObj (exp_pair 7 8); JObj (exp_pair 3 4)])]) (FMulti [(mkpk PKEd25519 (repeat 7 32), repeat 8 64); (mkpk PKEd25519 (repeat 3 32), repeat 4 64)]) /\
  (forall f, ~ says_ff (exp_cond 0 (exp_pair 7 8)) f) /\ (forall f, ~ says_ff (exp_cond 1 [("publickey"%string, JNull)]) f).
Proof.
  split; [apply C72_reads; vm_compute; reflexivity|]. split; [apply C72_reads; vm_compute; reflexivity|]. split; [apply C72_reads; vm_compute; reflexivity|].
  split; intros f A; apply C72_reads in A; vm_compute in A; discriminate A.
Qed.
