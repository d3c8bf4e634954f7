(** Vocabulary for payments of a multi-signature wallet, from the proposal of one of its owners to the chain (C95). *)
From Verif Require Import Base Primitive Types Conditions Fulfillments Txn TxnJson TxnSign Wallet Explorer WalletLoad Ops Submit Session
  Spec_Types Spec_Fulfil Spec_Wallet Spec_Ops Spec_Sign Spec_Swap Spec_Explorer Spec_Load Spec_Ledger Spec_Shared Spec_Together.

(** the wallet as far as signing goes *)
Definition signer_of (x : wctx) : signer := mksigner (x_primary x) (x_keys x) (known_outputs (x_bal x)).
(** the unspent output with this id *)
Definition at_ledger (l : ledger) (id : bytes) : option output := find (fun o => listN_eqb (o_id o) id) (unspent l).
(** An unsigned transaction that spends these outputs of multi-signature wallets. *)
Definition draft (used outs : list output) (fee : N) (data : bytes) : tx_std :=
  mkstd false (map (fun o => mkin (o_id o) (FMulti []) (Some o)) used) outs [] [] [fee] data.

Section Jointly.
Variables (H : bytes -> bytes) (ip_parse : pystr -> res bytes) (ip_str : bytes -> pystr).
(** a ledger as in C90 and C92 *)
Definition sound (l : ledger) : Prop := Forall (entry_ok ip_parse) l /\ consistent_ledger l /\ no_definitions l.
(** A wallet that was opened on the ledger, at this height and time: the explorers it asked show the ledger; its keys are filed under their addresses, which
    are addresses of the wallet. *)
Definition party (l : ledger) (h t : Z) (x : wctx) : Prop :=
  (0 < h)%Z /\ (0 < t)%Z /\ exists now net k v, Forall (text_of H 1) (v_addrs v) /\ frank H ip_str l net (v_addrs v) /\ opened H ip_parse now net (h, t, k) v = Ok x /\
    wallet_ok H (v_primary v) (v_keys v) /\ Forall (fun p => key32 (snd p)) (v_keys v) /\ forall a p, In (a, p) (v_keys v) -> In a (v_addrs v).
(** [u] is the address of a multi-signature wallet: all unspent outputs that pay to its text ask for [n] signatures of these owners, in whatever order, maybe
    only after some time *)
Definition wallet_of (l : ledger) (u : uh) (us : list uh) (n : Z) : Prop :=
  address u /\ uh_type u = 3%Z /\ owners us /\
  forall o v, In o (unspent l) -> cond_unlockhash H (o_cond o) = Ok v -> uh_str H v = uh_str H u -> exists us', asks_for (o_cond o) us' n /\ Permutation.Permutation us' us.
(** outputs of the wallet which may be spent at this height and time, in one transaction *)
Definition draws (l : ledger) (u : uh) (h t : Z) (used : list output) : Prop :=
  NoDup used /\ (length used <= 99)%nat /\ Forall (fun o => In o (unspent l) /\ cond_unlockhash H (o_cond o) = Ok u /\ open_at h t o) used.
(** A wallet opened on some ledger on which these outputs are unspent, and may be spent. *)
Definition could_sign (u : uh) (us : list uh) (n : Z) (used : list output) (y : wctx) : Prop :=
  exists l h t, sound l /\ wallet_of l u us n /\ draws l u h t used /\ party l h t y.
(** The wallet has the key of one of the owners. *)
Definition co_owns (us : list uh) (y : wctx) : Prop := exists v, In v us /\ has_key H (x_keys y) v.
(** where the change goes: where the caller says, or back to the wallet *)
Definition goes_back (u : uh) (refund : option cond) (back : cond) : Prop :=
  refund = Some back \/ (refund = None /\ cond_unlockhash H back = Ok u /\ exists us n, back = CMulti us n).
End Jointly.
