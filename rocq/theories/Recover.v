(** Model of a wallet as made from its seed: /repo/tfchain/TFChainWallet.py:32-89, 158-212, 251-302, 556-603.  The scan for keys is KeyScan.v, the collection of
    the balance WalletLoad.v; here they are joined.  The mnemonic words and ed25519 are not modelled: [pub] gives the public key of a private key. *)
From Verif Require Import Base Encoders Primitive Types Conditions Fulfillments TxnJson TxnSign Wallet Explorer WalletLoad KeyScan Session.

Section Recover.
Variable H : bytes -> bytes.
Variable ip_parse : pystr -> res bytes.
Variable now : Z.
(** the ed25519 public key of the private key with these 32 bytes as its seed *)
Variable pub : bytes -> bytes.

(** TFChainWallet.py:570-580: the key with an index *)
Definition key_at (seed : bytes) (i : nat) : res pubkey := do b <- key_seed seed i; Ok (mkpk PKEd25519 (pub (H b))).
(** TFChainWallet.py:599: its address, as text, with the key *)
Definition pair_at (seed : bytes) (i : nat) : res (pystr * pubkey) := do k <- key_at seed i; do a <- pk_address H k; Ok (a, k).
(** TFChainWallet.py:269-280: looking up an address during a scan; [ask]: what the explorers answer for it *)
Definition probe_of (ask : pystr -> res json) (a : pystr) : res unit := do j <- ask a; do _ <- unlockhash_get H ip_parse now a j; Ok tt.
(** TFChainWallet.py:36-89: the wallet, once its keys are known *)
Definition purse_at (seed : bytes) (k : kw) (fee : N) : res purse :=
  do p <- pair_at seed 0; do u <- pk_unlockhash H (snd p); do ps <- mapM (pair_at seed) (k_pairs k); Ok (mkpurse (fst p) ps u (map fst ps) fee).
(** TFChainWallet.py:184-229, 158-166: the balance, after two scans for keys (its own, and the one of [addresses]) *)
Definition balance_get (addr : nat -> pystr) (ask : pystr -> res json) (fuel count : nat) (net : nat -> pystr -> res json) (info : Z * Z * bytes) (k : kw) : option (kw * res wbal) :=
  match key_scan addr (probe_of ask) fuel count k with
  | None => None
  | Some (k, Err e) => Some (k, Err e)
  | Some (k, Ok _) =>
      match addresses addr (probe_of ask) fuel count k with
      | None => None
      | Some (k, r) => Some (k, do l <- r; wallet_balance H ip_parse now net info l)
      end
  end.
End Recover.
