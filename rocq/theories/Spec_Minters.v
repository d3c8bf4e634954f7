(** Vocabulary for several minters signing one minting transaction (C96). *)
From Verif Require Import Base Types Conditions Fulfillments Txn TxnSign Spec_Types Spec_Fulfil Spec_Sign Spec_Swap Spec_Together Spec_Shared.

(** The mint condition asks for [n] signatures of these addresses, maybe only after some time. *)
Definition minters (c : cond) (us : list uh) (n : Z) : Prop := asks_for c us n /\ owners us.
(** A wallet that is asked to sign, and the mint condition that is in force then, as it is told. *)
Record turn := mkturn { tn_who : signer; tn_rule : cond }.
(** the minting transaction as it looks when it is received from someone else: without the mint condition that was looked up *)
Definition received (t : txn) : txn :=
  match t with TMint m => TMint (mkmint (m_ff m) (m_new m) (m_fees m) (m_data m) (m_nonce m) None) | _ => t end.
(** nobody has signed *)
Definition blank_mint (m : tx_mint) : Prop := m_ff m = None \/ m_ff m = Some (FMulti []).
(** [minted ts t t']: the wallets sign [t] one after the other, each what the one before made of it, and [t'] is what they end with. *)
Inductive minted (H : bytes -> bytes) (sign : pubkey -> bytes -> bytes) : list turn -> txn -> txn -> Prop :=
| mi_done t : minted H sign [] t t
| mi_next w c ts t t1 t2 t' submit r : (t1 = t \/ t1 = received t) ->
    transaction_sign H sign (g_primary w) (g_keys w) (g_known w) (Ok c) submit t1 = (t2, Ok r) ->
    minted H sign ts t2 t' -> minted H sign (mkturn w c :: ts) t t'.
(** The wallet files its keys under their addresses; the mint condition it is told is one of several minters. *)
Definition proper_turn (H : bytes -> bytes) (tn : turn) : Prop :=
  wallet_ok H (g_primary (tn_who tn)) (g_keys (tn_who tn)) /\ Forall (fun k => key32 (snd k)) (g_keys (tn_who tn)) /\ exists us n, minters (tn_rule tn) us n.
(** The address was one of the minters when a wallet with its key was asked. *)
Definition has_signed (H : bytes -> bytes) (ts : list turn) (u : uh) : Prop :=
  exists tn us n, In tn ts /\ minters (tn_rule tn) us n /\ In u us /\ has_key H (g_keys (tn_who tn)) u.
(** [n] of them *)
Definition enough_signed (H : bytes -> bytes) (ts : list turn) (n : Z) : Prop :=
  exists held, NoDup held /\ (forall u, In u held -> has_signed H ts u) /\ (n <= Z.of_nat (length held))%Z.
(** The transaction with the mint condition in force looked up *)
Definition under (c : cond) (t : txn) : txn :=
  match t with TMint m => TMint (mkmint (m_ff m) (m_new m) (m_fees m) (m_data m) (m_nonce m) (Some c)) | _ => t end.
