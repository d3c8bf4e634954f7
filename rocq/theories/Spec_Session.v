(** Vocabulary for operations from the chain to the submission (C76). *)
From Verif Require Import Base Primitive Types Conditions Fulfillments ThreeBotTypes Txn TxnJson Wallet Ops Explorer Submit Spec_Wallet Spec_Explorer Spec_Load.

(** the operations that pay from the balance of the wallet *)
Definition paying (o : op) : Prop :=
  match o with
  | OSend _ _ _ _ | OSendMany _ _ _ | OContract _ _ _ _ _ _ _ _ | ORecordNew _ _ _ _ _ | ORecordUpdate _ _ _ _ _ _ _ _ _
  | ONameTransfer _ _ _ _ _ _ | OErc20Send _ _ _ | OErc20Register _ _ => True
  | _ => False
  end.
Section Hash.
Variable H : bytes -> bytes.
(** the output occurs in the history of the address, as paying to it *)
Definition told (a : pystr) (l : list etx) (o : output) : Prop :=
  pays H a o = true /\ exists x, In x l /\ (In o (spent_by (e_txn x)) \/ In o (coin_outputs (e_txn x))).
(** the chain, as these histories tell it at this height and time, lets the address spend the output *)
Definition free (height time : Z) (hs : list (pystr * uhresult)) (o : output) : Prop :=
  exists a r, In (a, r) hs /\ told a (h_txns r) o /\ open_at height time o /\
    (is_available H a (h_txns r) (o_id o) \/ is_unconfirmed H a (h_txns r) (o_id o)).
(** all histories that have a transaction creating the output have one spending it *)
Definition known_spent (hs : list (pystr * uhresult)) (id : bytes) : Prop :=
  forall a r b, In (a, r) hs -> created H a (h_txns r) b id -> exists c, spent H a (h_txns r) c id.
End Hash.
(** the ids of the outputs a transaction spends *)
Definition consumed (t : txn) (ids : list bytes) : Prop := exists ins, coin_inputs t = Ok ins /\ ids = map i_parent ins.
