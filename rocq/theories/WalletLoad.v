(** Model of the balance and the transactions of a wallet: /repo/tfchain/TFChainWallet.py:184-249. *)
From Verif Require Import Base Encoders Currency Primitive Types Conditions Fulfillments ThreeBotTypes Txn TxnJson Wallet Explorer.

(** 2248-2282 [WalletsBalance.balance_add] of what [ExplorerUnlockhashResult.balance] returns (TFChainClient.py:517-569): a plain
    balance is merged into the wallet's own one, that of a multi-signature wallet is kept under its address (2157-2158, made of
    the owners and the number of signatures); if there is already one, [merge] (2282) does not exist. *)
Section Hash.
Variable H : bytes -> bytes.
(** TFChainWallet.py:2234-2269 *)
Definition wb_add (w : wbal) (x : option (list uh * Z) * bal) : res wbal :=
  match fst x with
  | None => do o <- balance_add (wb_own w) (snd x); Ok (mkwb o (wb_ms w))
  | Some (us, n) =>
      do u <- cond_unlockhash H (CMulti us n);
      do l <- ms_merge (wb_ms w) [mkms u us n (snd x)]; Ok (mkwb (wb_own w) l)
  end.
(** TFChainWallet.py:2197-2219 *)
Definition wb_new : wbal := mkwb bal_new [].

Variable ip_parse : pystr -> res bytes.
Variable now : Z.
(** what the explorers answer to the [n]-th request of the call, for an address: JSON, or the exception [explorer_get] raises *)
Variable net : nat -> pystr -> res json.
(** 548-549, TFChainClient.py:254-307 *)
Definition lookup (n : nat) (a : pystr) : res uhresult := do j <- net n a; unlockhash_get H ip_parse now a j.

(** TFChainWallet.py:199-212: the wallet's addresses, one after the other.  The result is the balance and the multi-signature addresses, as texts, in
    the order found.  Nothing else than the lookup raises ExplorerNoContent. *)
Fixpoint load_own (info : Z * Z * bytes) (n : nat) (addrs : list pystr) (w : wbal) (ms : list pystr) : res (wbal * list pystr) :=
  match addrs with
  | [] => Ok (w, ms)
  | a :: addrs =>
      match lookup n a with
      | Err ExplorerNoContent => load_own info (S n) addrs w ms
      | Err e => Err e
      | Ok r =>
          do x <- result_balance H r (Some info);
          do w <- wb_add w x;
          do l <- mapM (uh_str H) (h_multisigs r);
          load_own info (S n) addrs w (ms ++ l)
      end
  end.
(** TFChainWallet.py:214-224: the multi-signature addresses found *)
Fixpoint load_multi (info : Z * Z * bytes) (n : nat) (addrs : list pystr) (w : wbal) : res wbal :=
  match addrs with
  | [] => Ok w
  | a :: addrs =>
      match lookup n a with
      | Err ExplorerNoContent => load_multi info (S n) addrs w
      | Err e => Err e
      | Ok r =>
          do x <- result_balance H r (Some info);
          do w <- wb_add w x;
          load_multi info (S n) addrs w
      end
  end.
(** TFChainWallet.py:184-229: [balance]; [info]: height, time and id of the last block; [addrs]: the wallet's addresses after the key scan (KeyScan.v) *)
Definition wallet_balance (info : Z * Z * bytes) (addrs : list pystr) : res wbal :=
  do x <- load_own info 0 addrs wb_new [];
  do w <- load_multi info (length addrs) (snd x) (fst x);
  Ok (mkwb (with_chain (wb_own w) (Some info)) (wb_ms w)).

(** TFChainWallet.py:231-249: [transactions]: a Python set of transactions (equal if their ids are, C58), in an arbitrary order ([shuffle]) before it
    is sorted; the sort is the one of Explorer.v.  No exception is caught. *)
Definition set_add (l : list etx) (x : etx) : list etx := if existsb (fun y => listN_eqb (e_id y) (e_id x)) l then l else l ++ [x].
(** TFChainWallet.py:231-249 *)
Fixpoint collect (n : nat) (addrs : list pystr) (l : list etx) : res (list etx) :=
  match addrs with
  | [] => Ok l
  | a :: addrs => do r <- lookup n a; collect (S n) addrs (fold_left set_add (h_txns r) l)
  end.
(** TFChainWallet.py:231-249 *)
Definition wallet_transactions (shuffle : list etx -> list etx) (addrs : list pystr) : res (list etx) :=
  do l <- collect 0 addrs []; Ok (sort_desc (shuffle l)).
End Hash.
