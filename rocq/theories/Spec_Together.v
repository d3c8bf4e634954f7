(** Vocabulary for several wallets signing one transaction that spends outputs of multi-signature wallets. *)
From Verif Require Import Base Types Conditions Fulfillments Txn TxnSign Spec_Types Spec_Fulfil Spec_Sign Spec_Swap.

(** A wallet as far as signing goes: its primary address, its keys, and the spendable outputs it knows of, by identifier. *)
Record signer := mksigner { g_primary : pystr; g_keys : keys; g_known : bytes -> option output }.
(** The transaction without what was looked up about its inputs, as it looks when it is received from someone else. *)
Definition loose (t : txn) : txn := set_cin t (map (fun x => mkin (i_parent x) (i_ff x) None)).
(** [in_turn ws t t']: the wallets sign [t] one after the other, each what the one before made of it, and [t'] is what they end with. *)
Inductive in_turn (H : bytes -> bytes) (sign : pubkey -> bytes -> bytes) : list signer -> txn -> txn -> Prop :=
| it_done t : in_turn H sign [] t t
| it_next w ws t t1 t2 t' mc submit r : (t1 = t \/ t1 = loose t) ->
    transaction_sign H sign (g_primary w) (g_keys w) (g_known w) mc submit t1 = (t2, Ok r) ->
    in_turn H sign ws t2 t' -> in_turn H sign (w :: ws) t t'.

(** The outputs on the chain an input may spend here: of a multi-signature wallet with different owners, none of them the nil address. *)
Definition owners (us : list uh) : Prop := NoDup us /\ Forall (fun u => full_uh u /\ uh_type u <> 0%Z) us.
Definition multi (chain : bytes -> option output) (x : input) (o : output) (us : list uh) (n : Z) : Prop :=
  chain (i_parent x) = Some o /\ cond_unwrap (o_cond o) = CMulti us n.
(** An unsigned transaction of the common kind spending such outputs only. *)
Definition shared (chain : bytes -> option output) (s : tx_std) : Prop :=
  s_legacy s = false /\ s_bin s = [] /\
  Forall (fun x => i_ff x = FMulti [] /\ exists o us n, multi chain x o us n /\ owners us /\ (i_out x = None \/ i_out x = Some o)) (s_cin s).
(** The wallet files its keys under their addresses, and knows the outputs spent as they are, except perhaps those it is no owner of. *)
Definition takes_part (H : bytes -> bytes) (chain : bytes -> option output) (s : tx_std) (w : signer) : Prop :=
  wallet_ok H (g_primary w) (g_keys w) /\ Forall (fun k => key32 (snd k)) (g_keys w) /\
  Forall (fun x => forall o us n, multi chain x o us n ->
    g_known w (i_parent x) = Some o \/ (g_known w (i_parent x) = None /\ forall u, In u us -> ~ has_key H (g_keys w) u)) (s_cin s).
(** One of the wallets has the key of the address. *)
Definition holder (H : bytes -> bytes) (ws : list signer) (u : uh) : Prop := exists w, In w ws /\ has_key H (g_keys w) u.
(** The signatures are of exactly those owners, each once. *)
Definition signed_exactly (H : bytes -> bytes) (ws : list signer) (us : list uh) (ps : list (pubkey * bytes)) : Prop :=
  exists as_, mapM (fun p => pk_unlockhash H (fst p)) ps = Ok as_ /\ NoDup as_ /\ forall u, In u as_ <-> In u us /\ holder H ws u.
(** At least [n] of the owners are held by the wallets. *)
Definition quorum (H : bytes -> bytes) (ws : list signer) (us : list uh) (n : Z) : Prop :=
  exists held, NoDup held /\ (forall u, In u held -> In u us /\ holder H ws u) /\ (n <= Z.of_nat (length held))%Z.
