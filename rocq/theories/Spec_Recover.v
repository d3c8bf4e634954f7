(** Vocabulary for wallets made anew from their seed (C91). *)
From Verif Require Import Base Primitive Types Conditions Fulfillments Txn TxnJson TxnSign Wallet Explorer WalletLoad KeyScan Recover Session Spec_Types Spec_Wallet Spec_Explorer Spec_Load Spec_Keys Spec_Ledger.

(** The addresses of a seed: [addr i] is the text of the address of its key [i], for every index there is; no two are the same, and none is that of the
    empty key.  (What [addr] is for indices from 2^64 on, which cannot be had, does not matter.) *)
Record seeded (H pub : bytes -> bytes) (seed : bytes) (addr : nat -> pystr) : Prop := {
  se_key : forall i, (Z.of_nat i < 2 ^ 64)%Z -> exists k, pair_at H pub seed i = Ok (addr i, k);
  se_apart : no_collision addr;
  se_real : forall i, pk_address H pk_default <> Ok (addr i) }.
(** something of the ledger concerns the address of the key *)
Definition touched (H : bytes -> bytes) (addr : nat -> pystr) (l : ledger) (i : nat) : Prop := exists e, In e l /\ concerns H (addr i) e.
(** The explorers show the ledger for every address of the seed, and for those nothing concerns they say that they know nothing. *)
Definition tell (H : bytes -> bytes) (ip_str : bytes -> pystr) (l : ledger) (addr : nat -> pystr) (ask : pystr -> res json) : Prop :=
  forall i, ask (addr i) = Err ExplorerNoContent /\ ~ touched H addr l i \/
    touched H addr l i /\ ask (addr i) <> Err ExplorerNoContent /\ exists ms, shows H ip_str l ms (addr i) (ask (addr i)).
(** all keys that are used come before this one *)
Definition all_before (H : bytes -> bytes) (addr : nat -> pystr) (l : ledger) (m : nat) : Prop := forall i, touched H addr l i -> (i < m)%nat.
(** no key from [n] on is used while one between [n] and it is not *)
Definition without_gaps (H : bytes -> bytes) (addr : nat -> pystr) (l : ledger) (n : nat) : Prop :=
  forall i j, (n <= i < j)%nat -> touched H addr l j -> touched H addr l i.
(** all that the seed's owner has: what pays to one of the first [m] addresses *)
Definition belongings (H : bytes -> bytes) (addr : nat -> pystr) (l : ledger) (m : nat) : N := fortune H (map addr (seq 0 m)) l.
(** at most 99 outputs of the ledger that pay to the addresses, are not spent and not locked at this height and time, are worth the amount *)
Definition ledger_pays (H : bytes -> bytes) (l : ledger) (addrs : list pystr) (height time : Z) (amount : N) : Prop :=
  exists s, NoDup (ids s) /\ (length s <= 99)%nat /\ amount <= worth s /\
    Forall (fun o => In o (unspent l) /\ for_any H addrs o = true /\ open_at height time o) s.
