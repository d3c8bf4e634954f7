(** Vocabulary for the balance and the transactions of a whole wallet (C62, C63). *)
From Verif Require Import Base Primitive Types Conditions Fulfillments ThreeBotTypes Txn TxnJson Wallet Spec_Types Spec_Wallet Explorer Spec_Explorer.

(** What the lookups of a call found: the answers to the requests numbered from [n] on, one for each address in turn;
    addresses without activity on the chain are left out. *)
Inductive answers (look : nat -> pystr -> res uhresult) : nat -> list pystr -> list (pystr * uhresult) -> Prop :=
| A_none n : answers look n [] []
| A_unused n a l r : look n a = Err ExplorerNoContent -> answers look (S n) l r -> answers look n (a :: l) r
| A_found n a x l r : look n a = Ok x -> answers look (S n) l r -> answers look n (a :: l) ((a, x) :: r).

Section Hash.
Variable H : bytes -> bytes.
(** the text is that of an address of this type *)
Definition text_of (t : Z) (a : pystr) : Prop := exists u, address u /\ uh_type u = t /\ uh_str H u = Ok a.
(** the multi-signature addresses reported beside an address, as texts *)
Definition multisigs (x : uhresult) : list pystr :=
  flat_map (fun u => match uh_str H u with Ok s => [s] | Err _ => [] end) (h_multisigs x).
(** a (confirmed, unconfirmed) transaction of the history creates the output with this id for the address *)
Definition created (a : pystr) (l : list etx) (unconfirmed : bool) (id : bytes) : Prop :=
  exists x, In x l /\ e_unconfirmed x = unconfirmed /\ creates H a x id.
Definition spent (a : pystr) (l : list etx) (unconfirmed : bool) (id : bytes) : Prop :=
  exists x, In x l /\ e_unconfirmed x = unconfirmed /\ uses H a x id.
(** the four states of an output of an address, according to a history *)
Definition is_available (a : pystr) (l : list etx) (id : bytes) : Prop :=
  created a l false id /\ ~ spent a l false id /\ ~ spent a l true id.
Definition is_unconfirmed (a : pystr) (l : list etx) (id : bytes) : Prop :=
  created a l true id /\ ~ created a l false id /\ ~ spent a l false id /\ ~ spent a l true id.
Definition is_spent (a : pystr) (l : list etx) (id : bytes) : Prop := spent a l false id.
Definition is_spent_unconfirmed (a : pystr) (l : list etx) (id : bytes) : Prop := spent a l true id /\ ~ spent a l false id.
(** a balance says this about an id *)
Definition reports (b : bal) (id : bytes) (available unconfirmed spent spent_unconfirmed : Prop) : Prop :=
  (has (w_outs b) id <-> available) /\ (has (w_unc b) id <-> unconfirmed) /\
  (has (w_spent b) id <-> spent) /\ (has (w_uncspent b) id <-> spent_unconfirmed).
(** something in the history concerns the address *)
Definition concerned (a : pystr) (l : list etx) : Prop :=
  exists x o, In x l /\ (In o (spent_by (e_txn x)) \/ In o (coin_outputs (e_txn x))) /\ pays H a o = true.
(** the outputs created by confirmed transactions of a history for the address, and those of them not spent *)
Definition created_outputs (a : pystr) (l : list etx) : list output :=
  filter (pays H a) (flat_map (fun x => coin_outputs (e_txn x)) (filter (fun x => negb (e_unconfirmed x)) l)).
Definition unspent_outputs (a : pystr) (l : list etx) : list output :=
  filter (fun o => negb (existsb (listN_eqb (o_id o)) (ids (filter (pays H a) (flat_map (fun x => spent_by (e_txn x)) l))))) (created_outputs a l).
(** the chain's heights are below sys.maxsize *)
Definition real_heights (l : list (pystr * uhresult)) : Prop :=
  forall a r x, In (a, r) l -> In x (h_txns r) -> (e_height x < MAXSIZE)%Z.
End Hash.
