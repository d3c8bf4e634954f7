(** Vocabulary for atomic swaps on a ledger (C94): explorers which show the outputs of the ledger, and histories in which contracts are made and claimed. *)
From Coq Require Import Permutation.
From Verif Require Import Base Primitive Types Conditions Fulfillments ThreeBotTypes Txn TxnJson TxnSign Wallet Explorer AtomicSwap SwapLookup WalletLoad Ops Session
  Spec_Types Spec_Json Spec_Wallet Spec_Ops Spec_Explorer Spec_Load Spec_Sign Spec_Swap Spec_Lookup Spec_Ledger.

Section Show.
Variables (H : bytes -> bytes) (ip_str : bytes -> pystr).
(** What an explorer answers for an id.  It is not the id of an output that the ledger makes: nothing, or an answer about something else.
    It is: the transaction that makes it, and, if there is one, the transaction that spends it, in any order. *)
Definition shows_output (l : ledger) (id : bytes) (answer : res json) : Prop :=
  ~ In id (ids (all_made l)) /\
    (answer = Err ExplorerNoContent \/ exists resp t, answer = Ok resp /\ field "hashtype" resp (JStr t) /\ t <> s2b "coinoutputid") \/
  exists resp c jc, answer = Ok resp /\ field "hashtype" resp (JStr (s2b "coinoutputid")) /\
    In c l /\ In id (ids (makes c)) /\ tells H ip_str jc c /\
    (~ In id (ids (all_spent l)) /\ field "transactions" resp (JArr [jc]) \/
     exists s js, In s l /\ In id (ids (Spec_Ledger.spends s)) /\ tells H ip_str js s /\
       (field "transactions" resp (JArr [jc; js]) \/ field "transactions" resp (JArr [js; jc]))).
Definition honest_outputs (l : ledger) (net : pystr -> res json) : Prop :=
  forall id, hash32 id -> shows_output l id (net (s2b "/explorer/hashes/" ++ hash_str id)).
End Show.

(** the first is in a block, the second in a later one *)
Definition earlier (c s : entry) : Prop := exists h h', en_height c = Some h /\ en_height s = Some h' /\ (h < h')%Z.

(** The entry claims the contract: it spends its output and nothing else, and makes one output, worth the amount less the miner fee, which pays to the address. *)
Definition collects (o : output) (to : uh) (fee : N) (e : entry) : Prop :=
  Spec_Ledger.spends e = [o] /\ coin_outputs (en_txn e) = [mkout (o_value o - fee) (CUnlockHash to) []] /\ miner_fees (en_txn e) = [fee] /\ fee <= o_value o.
(** its input carries the secret *)
Definition reveals (e : entry) (sec : bytes) : Prop := exists i p s, inputs_of (en_txn e) = [i] /\ i_ff i = FSwap p s (Some sec).

Section Trade.
Variables (H S256 : bytes -> bytes) (sign : pubkey -> bytes -> bytes) (ip_parse : pystr -> res bytes) (ip_str : bytes -> pystr).
(** the times at which refunds take place *)
Variable at_ : Z -> Prop.
(** Some wallet redeems or refunds the contract with this id, looking it up from explorers which show the ledger. *)
Definition claims_from (l : ledger) (id : bytes) (fee : N) (t : txn) : Prop :=
  exists now net primary ks data, wallet_ok H primary ks /\ hash32 id /\ id <> zeros 32 /\ honest_outputs H ip_str l net /\
    ((exists secret, redeem H S256 sign primary ks (output_fetch H ip_parse now net) fee id secret data = Ok t) \/
     (exists time, at_ time /\ AtomicSwap.refund H sign time primary ks (output_fetch H ip_parse now net) fee id data = Ok t)).
(** Some wallet makes a contract, from a balance looked up from explorers which show the ledger. *)
Definition makes_contract (l : ledger) (cost : N) (t : txn) : Prop :=
  exists now net info v x receiver amount sh lock f data submit sub, Forall (text_of H 1) (v_addrs v) /\ honest H ip_str l net (v_addrs v) /\
    opened H ip_parse now net info v = Ok x /\ (f_source f = None \/ wb_ms (x_bal x) = []) /\
    wallet_contract H sign now x receiver amount sh lock f data submit = Ok (t, sub) /\ cost = v_fee v.
(** Histories: wallets pay, make contracts, redeem and refund.  A transaction that is not taken changes nothing. *)
Inductive trade : ledger -> ledger -> N -> Prop :=
| T_start l : trade l l 0
| T_pays l l' c t e p : trade l l' c -> operates H ip_parse ip_str l' t p -> recorded t l' e -> entry_ok ip_parse e -> trade l (e :: l') (c + p)
| T_makes l l' c t e fee : trade l l' c -> makes_contract l' fee t -> recorded t l' e -> entry_ok ip_parse e -> trade l (e :: l') (c + fee)
| T_claims l l' c t e id fee : trade l l' c -> claims_from l' id fee t -> recorded t l' e -> entry_ok ip_parse e -> trade l (e :: l') (c + fee)
| T_block l l' l'' m c : trade l l' c -> Permutation l' m -> Forall2 moved m l'' -> Forall (entry_ok ip_parse) l'' -> trade l l'' c.
(** What became of a contract: it was redeemed by its receiver, with the secret, or refunded to its sender when its time had come. *)
Definition redeemed (o : output) (k : contract) (e : entry) : Prop :=
  exists fee sec, collects o (k_receiver k) fee e /\ k_hash k = Some (S256 sec) /\ (reveals e sec /\ length sec = 32%nat \/ sec = []).
Definition refunded (o : output) (k : contract) (e : entry) : Prop :=
  exists fee time, collects o (k_sender k) fee e /\ at_ time /\ (k_refund k <= time)%Z.
End Trade.
