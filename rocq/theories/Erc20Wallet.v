(** Model of a wallet's ERC20 lookups: /repo/tfchain/TFChainWallet.py:1541-1556 and 1567-1616. *)
From Verif Require Import Base Encoders Currency Primitive Types Conditions Fulfillments ThreeBotTypes Txn TxnSign Wallet Explorer Lookups.

(** TFChainWallet.py:1526-1616: what an address is given as: nothing, a text, an UnlockHash, an index (not a bool), anything else *)
Inductive eref := ENone | EText (s : pystr) | EAddr (u : uh) | EIndex (z : Z) | EBad.

Section Wallet.
Variable H : bytes -> bytes.
(** the primary address, the keys by address, and the addresses after the key scan that an index makes (KeyScan.v) *)
Variables (primary : pystr) (ks : keys) (addrs : list pystr).
Variable net : pystr -> res json.

(** TFChainWallet.py:1577-1593: (and 1541-1556 of [address_register], where [missing] is another exception and ENone makes a new key) *)
Definition own_key (missing : exn) (v : eref) : res pubkey :=
  match v with
  | ENone => match key_pair_get primary ks primary with Some k => Ok k | None => Err KeyError end
  | EText s => match key_pair_get primary ks s with Some k => Ok k | None => do _ <- uh_from_json H (JStr s); Err missing end
  | EAddr u => do s <- uh_str H u; match key_pair_get primary ks s with Some k => Ok k | None => Err missing end
  | EIndex z =>
      if ((z <? 0) || (Z.of_nat (length addrs) <=? z))%Z then Err ValueError
      else match nth_error addrs (Z.to_nat z) with
           | Some a => match key_pair_get primary ks a with Some k => Ok k | None => Err KeyError end
           | None => Err IndexError
           end
  | EBad => Err ValueError
  end.
(** TFChainWallet.py:1567-1596: [address_get] *)
Definition wallet_erc20_get (v : eref) : res (uh * bytes * Z) :=
  do k <- own_key AddressNotInWallet v;
  do u <- pk_unlockhash H k;
  erc20_address_get H net (UHash u).
(** TFChainWallet.py:1598-1616: [addresses_get]; [l]: the addresses after the key scan *)
Fixpoint wallet_erc20_gets (l : list pystr) : res (list (uh * bytes * Z)) :=
  match l with
  | [] => Ok []
  | a :: l =>
      match erc20_address_get H net (UStr a) with
      | Err ExplorerNoContent => wallet_erc20_gets l
      | Err e => Err e
      | Ok i => do is <- wallet_erc20_gets l; Ok (i :: is)
      end
  end.
End Wallet.
