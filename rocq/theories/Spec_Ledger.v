(** Vocabulary for what wallets make of the chain (C90): a ledger, what of it is unspent, and explorers which show it. *)
From Coq Require Import Permutation.
From Verif Require Import Base Primitive Types Conditions Fulfillments ThreeBotTypes Txn TxnJson Wallet Explorer WalletLoad Spec_Types Spec_Json Spec_Wallet Spec_Ops Spec_Explorer Spec_Load Spec_Lookup.

(** A transaction of the chain, or of the pool of transactions that wait: its id, the outputs it spends, the ids of the outputs it makes, and the height of
    its block, if it is in one.  The same for its block stakes. *)
Record entry := mkentry { en_txn : txn; en_id : bytes; en_parents : list output; en_stake_parents : list output;
  en_ids : list bytes; en_stake_ids : list bytes; en_height : option Z }.
Definition pending (e : entry) : bool := match en_height e with None => true | Some _ => false end.
(** the coin outputs it makes and spends, each with its id *)
Definition makes (e : entry) : list output := give_ids (coin_outputs (en_txn e)) (en_ids e).
Definition spends (e : entry) : list output :=
  map (fun x => mkout (o_value (snd x)) (o_cond (snd x)) (i_parent (fst x))) (combine (inputs_of (en_txn e)) (en_parents e)).
Definition ledger : Type := list entry.
Definition all_made (l : ledger) : list output := flat_map makes l.
Definition all_spent (l : ledger) : list output := flat_map spends l.
(** those of these outputs that nothing in the ledger spends *)
Definition left_over (l : ledger) (os : list output) : list output :=
  filter (fun o => negb (existsb (listN_eqb (o_id o)) (ids (all_spent l)))) os.
Definition unspent (l : ledger) : list output := left_over l (all_made l).
(** ... made by transactions in a block, and by transactions that wait *)
Definition unspent_confirmed (l : ledger) : list output := left_over l (all_made (filter (fun e => negb (pending e)) l)).
Definition unspent_pending (l : ledger) : list output := left_over l (all_made (filter pending l)).

(** No two outputs have the same id, what is spent is the output that was made, and nothing is spent twice.  (Outputs that no transaction
    made, such as those of the first block and block rewards, may be spent, too.) *)
Record consistent_ledger (l : ledger) : Prop := {
  lc_made : NoDup (ids (all_made l));
  lc_same : forall o p, In o (all_made l) -> In p (all_spent l) -> o_id o = o_id p -> o = p;
  lc_once : NoDup (ids (all_spent l)) }.

Section Explorer.
Variables (H : bytes -> bytes) (ip_parse : pystr -> res bytes) (ip_str : bytes -> pystr).
(** its parts have their sizes; it is no conversion from ERC20 (of whose outputs the library knows no ids, C46) *)
Definition entry_ok (e : entry) : Prop :=
  sensible ip_parse (en_txn e) (en_id e) (en_parents e) (en_stake_parents e) (en_ids e) (en_stake_ids e) (en_height e) /\
  (forall g, en_txn e <> T209 g) /\ (forall h, en_height e = Some h -> (h < MAXSIZE)%Z).
Definition tells (j : json) (e : entry) : Prop :=
  told_txn H ip_str j (en_txn e) (en_id e) (en_parents e) (en_stake_parents e) (en_ids e) (en_stake_ids e) (en_height e).
(** some output it makes or spends pays to the address *)
Definition concerns (a : pystr) (e : entry) : Prop := exists o, In o (makes e ++ spends e) /\ pays H a o = true.
(** What an explorer answers for an address: that it knows nothing, if there is nothing in the ledger that concerns it; or all that concerns it
    (and maybe other entries), in any order, each once. *)
Definition shows (l : ledger) (ms : list uh) (a : pystr) (answer : res json) : Prop :=
  (answer = Err ExplorerNoContent /\ forall e, In e l -> ~ concerns a e) \/
  exists resp es others erc20, answer = Ok resp /\ told_history H tells resp es ms erc20 /\ history_ok ms erc20 /\
    Permutation (es ++ others) l /\ forall e, In e others -> ~ concerns a e.
Definition honest (l : ledger) (net : nat -> pystr -> res json) (addrs : list pystr) : Prop :=
  forall n a, In a addrs -> exists ms, shows l ms a (net n a).
(** the output pays to one of the addresses *)
Definition for_any (addrs : list pystr) (o : output) : bool := existsb (fun a => pays H a o) addrs.
Definition fortune (addrs : list pystr) (l : ledger) : N := worth (filter (for_any addrs) (unspent l)).
End Explorer.
(** all a balance reports as its wallet's own *)
Definition everything (w : wbal) : N :=
  available (wb_own w) + locked (wb_own w) + unconfirmed (wb_own w) + unconfirmed_locked (wb_own w).
(** The entry that the transaction becomes: it spends what its inputs say, and its outputs get ids that were not used before. *)
Definition recorded (t : txn) (l : ledger) (e : entry) : Prop :=
  en_txn e = t /\ en_parents e = spent_by t /\ length (en_ids e) = length (coin_outputs t) /\ NoDup (en_ids e) /\
  (forall i, In i (en_ids e) -> ~ In i (ids (all_made l)) /\ ~ In i (ids (all_spent l))).

(** Histories of wallets.  In each step some wallet looks up its balance, from explorers which show the ledger as it is then, and funds a transaction from
    it; the transaction is recorded, or it is not (the explorers do not take it).  [cost]: what goes to miners or leaves the chain. *)
Section Run.
Variables (H : bytes -> bytes) (ip_parse : pystr -> res bytes) (ip_str : bytes -> pystr).
Definition operates (l : ledger) (t : txn) (cost : N) : Prop :=
  exists now net info addrs w primary source refund fee pays price, Forall (text_of H 1) addrs /\ honest H ip_str l net addrs /\
    wallet_balance H ip_parse now net info addrs = Ok w /\ funded H w primary source refund fee pays price t /\ (source = None \/ wb_ms w = []) /\ cost = fee + price.
(** the same entry, at this height or waiting *)
Definition moved (e e' : entry) : Prop :=
  exists h, e' = mkentry (en_txn e) (en_id e) (en_parents e) (en_stake_parents e) (en_ids e) (en_stake_ids e) h.
Inductive run : ledger -> ledger -> N -> Prop :=
| R_start l : run l l 0
| R_lost l l' c t p : run l l' c -> operates l' t p -> run l l' c
| R_taken l l' c t e p : run l l' c -> operates l' t p -> recorded t l' e -> entry_ok ip_parse e -> run l (e :: l') (c + p)
(* waiting transactions get into blocks (or out of them, or into others) *)
| R_block l l' l'' m c : run l l' c -> Permutation l' m -> Forall2 moved m l'' -> Forall (entry_ok ip_parse) l'' -> run l l'' c.
End Run.
