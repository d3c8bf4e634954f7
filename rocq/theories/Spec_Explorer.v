(** Vocabulary for what explorers answer (C45-C49).  It uses the data types of the model, its parsers of the parts of an answer
    (outputs, hashes, raw transactions) and [observe] of Spec_Wallet.v, and none of the code reading answers as a whole. *)
From Coq Require Import Sorting.Sorted.
From Verif Require Import Base Primitive Types Conditions Fulfillments ThreeBotTypes Txn TxnJson Wallet Spec_Wallet Explorer.

(** ** Requests (C45) *)
(** nothing came back: the connection failed (urllib reports an HTTP status 0 as none) *)
Definition silent (o : outcome) : Prop := o = Unreachable \/ exists body, o = Refused 0 body.
(** the order is some shuffling of the explorers *)
Definition shuffled {A} (addrs : list A) (order : list nat) : Prop := Permutation order (seq 0 (length addrs)).
Definition texts (addrs : list (option pystr)) : Prop := Forall (fun a => a <> None) addrs.
(** what the caller gets to see of an explorer that did something *)
Inductive get_says : outcome -> res bytes -> Prop :=
| GS_line line : get_says (Answered 200 line) (Ok line)
| GS_empty line : get_says (Answered 204 line) (Err ExplorerNoContent)
| GS_created line : get_says (Answered 201 line) (Err ExplorerServerError)
| GS_other code line : code <> 200%Z -> code <> 201%Z -> code <> 204%Z -> get_says (Answered code line) (Err TypeError)
| GS_unknown body : has_text "unrecognized hash" body = true \/ has_text "not found" body = true -> get_says (Refused 400 body) (Err ExplorerNoContent)
| GS_error code body : code <> 0%Z ->
    code <> 400%Z \/ (has_text "unrecognized hash" body = false /\ has_text "not found" body = false) -> get_says (Refused code body) (Err ExplorerServerError)
| GS_raised e : get_says (Raised e) (Err e).
Inductive post_says : outcome -> res bytes -> Prop :=
| PS_line line : post_says (Answered 200 line) (Ok line)
| PS_status code line : code = 201%Z \/ code = 204%Z -> post_says (Answered code line) (Err ExplorerServerPostError)
| PS_other code line : code <> 200%Z -> code <> 201%Z -> code <> 204%Z -> post_says (Answered code line) (Err TypeError)
| PS_error code body : code <> 0%Z -> post_says (Refused code body) (Err ExplorerServerPostError)
| PS_raised e : post_says (Raised e) (Err e).
(** A run over the explorers in the given order: those contacted are a first part of the order; all of them but the last were
    silent, and the result is what the last one says, or that none is available when all were silent. *)
Definition search (says : outcome -> res bytes -> Prop) (net : nat -> outcome) (order contacted : list nat) (r : res bytes) : Prop :=
  (contacted = order /\ Forall (fun i => silent (net i)) order /\ r = Err ExplorerNotAvailable) \/
  exists before i rest, order = before ++ i :: rest /\ contacted = before ++ [i] /\
    Forall (fun j => silent (net j)) before /\ ~ silent (net i) /\ says (net i) r.

(** ** Transactions (C46) *)
(** the list under a key of an answer; absent, null, false and empty ones are the empty list *)
Definition listed (k : string) (e : json) (l : list json) : Prop :=
  exists v, jget_d k JNull e = Ok v /\ (if jtruthy v then jelems v = Ok l else l = []).
(** the inputs of a transaction; one whose inputs cannot be read has none *)
Definition inputs_of (t : txn) : list input := match coin_inputs t with Ok l => l | Err _ => [] end.
(** [l] are the inputs [l0] of which each is told the output it spends, as read from the answer *)
Definition with_parents (read : json -> res output) (l0 : list input) (ps : list json) (l : list input) : Prop :=
  length l = length l0 /\ length ps = length l0 /\
  forall k i, nth_error l k = Some i ->
  exists i0 p o, nth_error l0 k = Some i0 /\ nth_error ps k = Some p /\ read p = Ok o /\
    i_parent i = i_parent i0 /\ i_ff i = i_ff i0 /\
    exists q, i_out i = Some q /\ o_value q = o_value o /\ o_cond q = o_cond o /\ o_id q = i_parent i0.
(** [l] are the outputs [l0] of which each is told its id, as read from the answer *)
Definition with_ids (l0 : list output) (ids : list json) (l : list output) : Prop :=
  length l = length l0 /\ length ids = length l0 /\
  forall k o, nth_error l k = Some o ->
  exists o0 j, nth_error l0 k = Some o0 /\ nth_error ids k = Some j /\ hash_from_json j = Ok (o_id o) /\
    o_value o = o_value o0 /\ o_cond o = o_cond o0.

(** ** Histories (C48, C49) *)
Definition confirmed_at (x : etx) (h : Z) : Prop := e_unconfirmed x = false /\ e_height x = h.
(** [x] may be listed before [y] *)
Definition newer (x y : etx) : Prop :=
  e_unconfirmed x = true \/ exists h k, confirmed_at x h /\ confirmed_at y k /\ (k <= h)%Z.
Section Hash.
Variable H : bytes -> bytes.
(** the output pays to the address with this text *)
Definition pays (address : pystr) (o : output) : bool :=
  match cond_unlockhash H (o_cond o) with
  | Ok u => match uh_str H u with Ok s => listN_eqb s address | Err _ => false end
  | Err _ => false
  end.
(** the outputs spent and created by a transaction *)
Definition spent_by (t : txn) : list output := map (fun i => match i_out i with Some o => o | None => mkout 0 CNil [] end) (inputs_of t).
(** what a history tells about the outputs of an address *)
Definition observations (address : pystr) (x : etx) : list obs :=
  map (fun o => mkobs o (negb (e_unconfirmed x)) true) (filter (pays address) (spent_by (e_txn x))) ++
  map (fun o => mkobs o (negb (e_unconfirmed x)) false) (filter (pays address) (coin_outputs (e_txn x))).
Definition history (address : pystr) (l : list etx) : list obs := flat_map (observations address) l.
End Hash.
(** some transaction of the history creates, or spends, an output with this id paying to the address *)
Definition creates H (address : pystr) (x : etx) (id : bytes) : Prop := exists o, In o (coin_outputs (e_txn x)) /\ pays H address o = true /\ o_id o = id.
Definition uses H (address : pystr) (x : etx) (id : bytes) : Prop := exists o, In o (spent_by (e_txn x)) /\ pays H address o = true /\ o_id o = id.
(** the transaction is no definition of the mint condition *)
Definition no_definition (t : txn) : Prop := match t with TMint m => match m_new m with MCond _ => False | MCoins _ => True end | _ => True end.
