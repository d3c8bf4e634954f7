(** Vocabulary for reading conditions and fulfilments from JSON (C71, C72): what a JSON value says.  Further fields may be there.
    Addresses, numbers, keys and hashes are read by the functions of C10, C18, ...; none of the code reading conditions or fulfilments is used. *)
From Verif Require Import Base Primitive Types Conditions Fulfillments.

Definition at_key (k : string) (j v : json) : Prop := exists l, j = JObj l /\ jfind k l = Some v.
Definition no_key_at (k : string) (j : json) : Prop := exists l, j = JObj l /\ jfind k l = None.
(** the type: a number, 0 if none is given *)
Definition says_type (j : json) (n : Z) : Prop := (exists t, at_key "type" j t /\ jeq_int t n = true) \/ (no_key_at "type" j /\ n = 0%Z).
(** a number under a key *)
Definition says_int (k : string) (j : json) (z : Z) : Prop := exists x, at_key k j x /\ jint x = Ok z.
Definition says_address H (j : json) (u : uh) : Prop := exists s, j = JStr s /\ uh_parse H s = Ok u.
(** hexadecimal digits of nothing or 32 bytes; null is nothing *)
Definition says_hash (j : json) (b : bytes) : Prop :=
  (j = JNull /\ b = []) \/ exists s, j = JStr s /\ unhex s = Ok b /\ (b = [] \/ length b = 32%nat).
Inductive says H : json -> cond -> Prop :=
| says_nil j : says_type j 0 -> (no_key_at "data" j \/ at_key "data" j JNull \/ at_key "data" j (JObj [])) -> says H j CNil
| says_unlockhash j d x u : says_type j 1 -> at_key "data" j d -> at_key "unlockhash" d x -> says_address H x u -> says H j (CUnlockHash u)
| says_swap j d a b c s r h l : says_type j 2 -> at_key "data" j d -> at_key "sender" d a -> says_address H a s -> at_key "receiver" d b -> says_address H b r ->
    at_key "hashedsecret" d c -> says_hash c h -> says_int "timelock" d l ->
    (uh_type s = 0 \/ uh_type s = 1)%Z -> (uh_type r = 0 \/ uh_type r = 1)%Z -> (500000000 <= l)%Z -> says H j (CSwap s r (Some h) l)
| says_lock j d x l c : says_type j 3 -> at_key "data" j d -> says_int "locktime" d l -> (0 <= l)%Z -> at_key "condition" d x -> says H x c ->
    match c with CNil | CUnlockHash _ | CMulti _ _ => True | CSwap _ _ _ _ | CLock _ _ => False end -> says H j (CLock l c)
| says_multi j d x l us n : says_type j 4 -> at_key "data" j d -> says_int "minimumsignaturecount" d n -> at_key "unlockhashes" d x -> jelems x = Ok l ->
    Forall2 (says_address H) l us -> says H j (CMulti us n).

Definition says_pair (j : json) (p : pubkey * bytes) : Prop :=
  exists k s, at_key "publickey" j k /\ pk_from_json k = Ok (fst p) /\ at_key "signature" j s /\ sig_from_json s = Ok (snd p).
Inductive says_ff : json -> ff -> Prop :=
| says_single j d p : says_type j 1 -> at_key "data" j d -> says_pair d p -> says_ff j (FSingle (fst p) (Some (snd p)))
| says_swap_ff j d p x s : says_type j 2 -> at_key "data" j d -> says_pair d p -> at_key "secret" d x -> secret_from_json x = Ok s ->
    says_ff j (FSwap (fst p) (Some (snd p)) (Some s))
| says_refund_ff j d p : says_type j 2 -> at_key "data" j d -> says_pair d p -> no_key_at "secret" d -> says_ff j (FSwap (fst p) (Some (snd p)) None)
| says_multi_ff j d x l ps : says_type j 3 -> at_key "data" j d -> at_key "pairs" d x -> jelems x = Ok l -> Forall2 says_pair l ps -> says_ff j (FMulti ps).
