(** Vocabulary for the arguments of [coins_send] (C75). *)
From Verif Require Import Base Primitive Types Conditions Currency Front Spec_Types Spec_ERC20 Spec_Currency.

(** the recipient names the ERC20 address: by its 40 hexadecimal digits with or without 0x, by its 20 bytes, or as object *)
Definition names_erc20 (p : payee) (a : bytes) : Prop :=
  length a = 20%nat /\
  match p with
  | PErc20 b => b = a
  | PVal (RBytes b) => b = a
  | PVal (RStr s) => exists t, digits_of s t /\ Forall hexchar t /\ length t = 40%nat /\ unhex t = Ok a
  | _ => False
  end.
Section Hash.
Variable H : bytes -> bytes.
(** the recipient names the owner, or owners, of the condition *)
Definition names_payee (p : payee) (c : cond) : Prop := exists r, p = PVal r /\ pays (fun s u => uh_parse H s = Ok u) r c.
(** the sources: addresses, as objects or texts *)
Definition names_source (v : rval) (u : uh) : Prop := v = RUh u \/ exists s, v = RStr s /\ uh_parse H s = Ok u.
Definition names_sources (v : rval) (s : option (list uh)) : Prop :=
  match s with
  | None => v = RNone
  | Some us => (exists l, v = RList l /\ Forall2 names_source l us) \/ (exists u, us = [u] /\ names_source v u)
  end.
Definition names_refund (v : rval) (c : option cond) : Prop :=
  match c with None => v = RNone | Some c => v <> RNone /\ pays (fun s u => uh_parse H s = Ok u) v c end.
End Hash.
(** the condition with the lock asked for, if any *)
Definition locked_as (now : Z) (lock : lockval) (i c : cond) : Prop :=
  match lock with LNone => c = i | _ => exists l, lock_new now lock = Ok l /\ c = CLock l i end.
(** the amount in smallest units *)
Definition is_amount (v : cinput) (n : N) : Prop := exists c, cset v = Ok c /\ amount c n.
(** the bytes of the data *)
Definition data_is (d : dataval) (b : bytes) : Prop :=
  match d with DVNone => b = [] | DVStr s => utf8 s = Ok b | DVBytes x => b = x end.
