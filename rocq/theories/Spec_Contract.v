(** What an atomic swap contract is equal to and how it is shown (C87). *)
From Verif Require Import Base Types Conditions Txn Dates AtomicSwap Spec_Types Spec_Texts Spec_Wire Spec_Show.

(** The bytes of a secret hash; a contract without one shows none. *)
Definition hash_bytes (k : contract) : bytes := match k_hash k with Some h => h | None => [] end.
(** A contract with complete addresses and hash. *)
Definition complete_contract (k : contract) : Prop := full_uh (k_sender k) /\ full_uh (k_receiver k) /\ exists h, k_hash k = Some h /\ hash32 h.
(** A contract whose parts are bytes, however many. *)
Definition of_bytes (k : contract) : Prop := wf_bytes (k_id k) /\ wf_bytes (uh_hash (k_sender k)) /\ wf_bytes (uh_hash (k_receiver k)) /\ wf_bytes (hash_bytes k).

(** The state of a contract at time [t]: spent, open for a refund, or to be opened; [local]: the local time of a moment *)
Definition state_shown (local : Z -> tm) (k : contract) (t : Z) (s : pystr) : Prop :=
  (k_unspent k = false /\ s = s2b "Spent and no longer available.") \/
  (k_unspent k = true /\ exists d, date_shown d (local (k_refund k)) /\
    (((k_refund k <= t)%Z /\ s = s2b "Refund is available since " ++ d ++ s2b ".") \/
     ((t < k_refund k)%Z /\ exists e, duration_shown e (Z.to_N (k_refund k - t)) /\ s = s2b "Refund available at " ++ d ++ s2b " (in: " ++ e ++ s2b ")."))).
(** A new line, indented *)
Definition nl : pystr := 10 :: repeat 32 8.
Definition contract_shown (H : bytes -> bytes) (local : Z -> tm) (k : contract) (t : Z) (s : pystr) : Prop :=
  exists id st v se re h, id_shown id (k_id k) /\ state_shown local k t st /\ tft_shown v (k_amount k) /\
    printed H (k_sender k) se /\ printed H (k_receiver k) re /\ lower_text h (hash_bytes k) /\
    s = s2b "Atomic Swap Contract " ++ id ++ s2b ":" ++ nl ++ st ++ nl ++ s2b "Value: " ++ v ++ nl ++ s2b "Sender: " ++ se ++ nl ++ s2b "Receiver: " ++ re ++ nl ++
        s2b "Secret Hash:" ++ (match h with [] => [] | _ => 32 :: h end).
(** What the text says of a contract: everything but when the refund of a spent contract is or was open; of a refund that is open it has the local time only. *)
Definition agree (local : Z -> tm) (t : Z) (a b : contract) : Prop :=
  k_id a = k_id b /\ k_amount a = k_amount b /\ k_unspent a = k_unspent b /\ k_sender a = k_sender b /\ k_receiver a = k_receiver b /\ k_hash a = k_hash b /\
  (k_unspent a = true -> (k_refund a <= t /\ k_refund b <= t /\ exists d, date_shown d (local (k_refund a)) /\ date_shown d (local (k_refund b))) \/ (t < k_refund a /\ k_refund a = k_refund b))%Z.
