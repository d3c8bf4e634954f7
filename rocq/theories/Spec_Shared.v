(** Vocabulary for multi-signature wallets on the chain (C92). *)
From Verif Require Import Base Primitive Types Conditions Fulfillments Txn TxnJson Wallet Explorer WalletLoad Spec_Types Spec_Wallet Spec_Ops Spec_Explorer Spec_Load Spec_Ledger.

Section Shared.
Variables (H : bytes -> bytes) (ip_parse : pystr -> res bytes) (ip_str : bytes -> pystr).
(** the condition asks for [n] signatures of these owners, maybe only after some time *)
Definition asks_for (c : cond) (us : list uh) (n : Z) : Prop := c = CMulti us n \/ exists lock, c = CLock lock (CMulti us n).
(** [u] is the address of a multi-signature wallet that something of the ledger pays to, and [a] the address of one of its owners *)
Definition shared_with (l : ledger) (a : pystr) (u : uh) : Prop :=
  exists e o us n x, In e l /\ In o (makes e ++ Spec_Ledger.spends e) /\ asks_for (o_cond o) us n /\ cond_unlockhash H (o_cond o) = Ok u /\ In x us /\ uh_str H x = Ok a.
(** What an explorer answers for an address, with the multi-signature wallets of its owner, each once. *)
Definition candid (l : ledger) (a : pystr) (answer : res json) : Prop :=
  exists ms, shows H ip_str l ms a answer /\ NoDup ms /\ (forall u, In u ms <-> shared_with l a u) /\ (answer = Err ExplorerNoContent -> ms = []).
(** Explorers that show the ledger for these addresses and for the multi-signature wallets of their owner. *)
Definition frank (l : ledger) (net : nat -> pystr -> res json) (addrs : list pystr) : Prop :=
  forall n, (forall a, In a addrs -> candid l a (net n a)) /\
    (forall a u b, In a addrs -> shared_with l a u -> uh_str H u = Ok b -> exists ms, shows H ip_str l ms b (net n b)).
(** there is no new definition of who may create coins (in the history of a multi-signature wallet the library takes it for the wallet's own, C49) *)
Definition no_definitions (l : ledger) : Prop := forall e, In e l -> no_definition (en_txn e).
(** Every output that pays to a multi-signature wallet asks for signatures of its owners, at least one and at most one of each. *)
Definition proper (l : ledger) : Prop := forall e o u, In e l -> In o (makes e ++ Spec_Ledger.spends e) -> cond_unlockhash H (o_cond o) = Ok u -> uh_type u = 3%Z ->
  exists us n, asks_for (o_cond o) us n /\ (1 <= n <= Z.of_nat (length us))%Z.
(** all the wallet can sign for, alone or with others: its addresses, and those of its multi-signature wallets *)
Definition reach (l : ledger) (addrs : list pystr) (o : output) : Prop :=
  for_any H addrs o = true \/ exists a u, In a addrs /\ shared_with l a u /\ cond_unlockhash H (o_cond o) = Ok u.
(** As [operates] (Spec_Ledger.v), but the money may also come from multi-signature wallets. *)
Definition operates_shared (l : ledger) (t : txn) (cost : N) : Prop :=
  exists now net info addrs w primary source refund fee pays price, Forall (text_of H 1) addrs /\ frank l net addrs /\
    wallet_balance H ip_parse now net info addrs = Ok w /\ funded H w primary source refund fee pays price t /\ cost = fee + price.
Inductive run_shared : ledger -> ledger -> N -> Prop :=
| RS_start l : run_shared l l 0
| RS_lost l l' c t p : run_shared l l' c -> operates_shared l' t p -> run_shared l l' c
| RS_taken l l' c t e p : run_shared l l' c -> operates_shared l' t p -> recorded t l' e -> entry_ok ip_parse e -> no_definition t -> run_shared l (e :: l') (c + p)
| RS_block l l' l'' m c : run_shared l l' c -> Permutation.Permutation l' m -> Forall2 moved m l'' -> Forall (entry_ok ip_parse) l'' -> run_shared l l'' c.
End Shared.
