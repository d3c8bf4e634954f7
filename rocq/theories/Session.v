(** Model of an operation of a wallet from the balance to the submission: /repo/tfchain/TFChainWallet.py:184-229 (the balance is looked up
    anew by each operation), 355-358, 1085, 1397, 1625, 2485 ([balance.fund]), and Submit.v for the rest. *)
From Verif Require Import Base Encoders Currency Primitive Types Conditions Fulfillments ThreeBotTypes Txn TxnJson TxnSign Wallet Explorer AtomicSwap Ops WalletLoad Submit.

(** TFChainWallet.py:36-90: a wallet: its primary address as text and as address, its keys, its addresses after the scan for keys and the minimum fee
    of its network *)
Record purse := mkpurse { v_primary : pystr; v_keys : keys; v_address : uh; v_addrs : list pystr; v_fee : N }.

Section Session.
Variable H : bytes -> bytes.
Variable S256 : bytes -> bytes.
Variable sign : pubkey -> bytes -> bytes.
Variable ip_parse : pystr -> res bytes.
Variable now : Z.

(** TFChainWallet.py:184-229: what an operation works on, once the balance is looked up.  [net]: the answers of the explorers, numbered in
    the order of the requests; [info]: height, time and id of the last block *)
Definition opened (net : nat -> pystr -> res json) (info : Z * Z * bytes) (v : purse) : res wctx :=
  do w <- wallet_balance H ip_parse now net info (v_addrs v); Ok (mkctx (v_primary v) (v_keys v) (v_address v) w (v_fee v)).
(** TFChainWallet.py:304-513, 618-761, 798-878, 984-1062, 1250-1386, 1491-1565, 2477-2542.  Arguments are checked before the balance is looked
    up; here after it: with bad arguments and a failing look-up the exception may be another one. *)
Definition perform (put : txn -> bool * res bytes) (own : res (list pystr)) (rebal : res wbal) (net : nat -> pystr -> res json) (info : Z * Z * bytes)
    (v : purse) (o : op) : list txn * res (txn * option bytes) :=
  match opened net info v with
  | Err e => ([], Err e)
  | Ok x => run H S256 sign ip_parse put own rebal x o
  end.
(** TFChainWallet.py:175-182: [addresses_multisig], after the scan for keys *)
Definition addresses_multisig (net : nat -> pystr -> res json) (info : Z * Z * bytes) (v : purse) : res (list pystr) :=
  do w <- wallet_balance H ip_parse now net info (v_addrs v); multisig_texts H w.
End Session.
