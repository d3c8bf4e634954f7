(** Model of how atomic swaps look up contracts: /repo/tfchain/TFChainWallet.py, by [coin_output_get] of /repo/tfchain/TFChainClient.py. *)
From Verif Require Import Base Primitive Types Conditions Fulfillments Txn Wallet Explorer Lookups AtomicSwap.

Section Look.
Variables (H : bytes -> bytes) (ip_parse : pystr -> res bytes).
Variable now : Z.
(** what the explorers answer at an endpoint *)
Variable net : pystr -> res json.
(** TFChainWallet.py:902-910, 999-1008, 1037-1046, TFChainClient.py:309-317: the output and whether there is a transaction that spends it.  The id is given as bytes (as text or Hash it leads to the same
    request, [normalize]). *)
Definition output_fetch : AtomicSwap.lookup := fun id =>
  do r <- client_output_get H ip_parse now net KCoin (BVBytes id);
  let '(o, _, s) := r in
  Ok (o, match s with None => false | Some _ => true end).
End Look.
