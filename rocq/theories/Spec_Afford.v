(** What it takes for a payment to go through. *)
From Verif Require Import Base Primitive Types Conditions Fulfillments Txn TxnSign Wallet Ops Spec_Wallet Spec_Sign Spec_Swap Spec_Fits.

(** The output is locked by an address of the wallet alone, possibly until some time; the wallet has the key of the address. *)
Definition mine (H : bytes -> bytes) (ks : keys) (o : output) : Prop :=
  exists u, (o_cond o = CUnlockHash u \/ exists l, o_cond o = CLock l (CUnlockHash u)) /\ has_key H ks u /\ real_address H u.
(** Without source, or with addresses as source that are not those of multi-signature wallets, the money comes from here. *)
Definition purse_of (H : bytes -> bytes) (w : wbal) (source : option (list uh)) : list output :=
  match source with None => spendable (wb_own w) | Some s => filter (pays_to H s) (spendable (wb_own w)) end.
Definition own_source (source : option (list uh)) : Prop := forall s, source = Some s -> Forall (fun u => uh_type u = 1%Z) s.
(** At most 99 outputs (the limit of a transaction's inputs) of the purse are worth the amount. *)
Definition affordable (pool : list output) (amount : N) : Prop := exists s, selection s pool /\ (length s <= 99)%nat /\ amount <= worth s.
(** A purse the wallet can spend: all of it is its own, and its worth can be written in 1000 digits. *)
Definition good_purse (H : bytes -> bytes) (ks : keys) (w : wbal) (source : option (list uh)) : Prop :=
  own_source source /\ Forall (mine H ks) (spendable (wb_own w)) /\ modest (worth (spendable (wb_own w))).
(** A wallet that can pay: its keys are filed under their addresses, its purse is good, and the recipient of the change can be encoded. *)
Definition ready_to_pay (H : bytes -> bytes) (x : wctx) (f : funding) : Prop :=
  wallet_ok H (x_primary x) (x_keys x) /\ good_purse H (x_keys x) (x_bal x) (f_source f) /\ fits_cond (refund_to (x_bal x) (x_address x) (f_source f) (f_refund f)).
(** What came out of an operation that needs an amount: the transaction is complete (and thus submitted), and the amount is affordable; or the
    complaint is that there is not enough money, and it is not affordable. *)
Definition goes_through (H : bytes -> bytes) (x : wctx) (f : funding) (need : N) (submitted : bool) (r : res (txn * bool)) : Prop :=
  match r with
  | Ok (_, b) => b = submitted /\ affordable (purse_of H (x_bal x) (f_source f)) need
  | Err e => e = InsufficientFunds /\ ~ affordable (purse_of H (x_bal x) (f_source f)) need
  end.
