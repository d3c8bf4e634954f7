(** Model of [balance_add] over the three classes of balances: /repo/tfchain/TFChainWallet.py:2023-2056, 2171-2189, 2244-2278. *)
From Verif Require Import Base Encoders Primitive Types Conditions Txn Wallet.

(** TFChainWallet.py:1820-1832 (WalletBalance), 2135-2148 (MultiSigWalletBalance), 2197-2204 (WalletsBalance) *)
Inductive anybal := BPlain (b : bal) | BMulti (m : msbal) | BWallets (w : wbal).

Section HashMerge.
Variable H : bytes -> bytes.
(** TFChainWallet.py:2150-2155: [MultiSigWalletBalance.address] *)
Definition ms_address (m : msbal) : res uh := cond_unlockhash H (CMulti (ms_owners m) (ms_count m)).
(** TFChainWallet.py:2244-2278: [WalletsBalance.balance_add] of a balance of any class; 2271-2278: the wallet is stored under its own address *)
Definition wallets_add (w : wbal) (other : anybal) : res wbal :=
  match other with
  | BMulti m => do u <- ms_address m; do l <- ms_merge (wb_ms w) [mkms u (ms_owners m) (ms_count m) (ms_bal m)]; Ok (mkwb (wb_own w) l)
  | BPlain b => do o <- balance_add (wb_own w) b; Ok (mkwb o (wb_ms w))
  | BWallets v => wb_balance_add w v
  end.
(** TFChainWallet.py:2197-2204: [WalletsBalance()] *)
Definition wallets_new : wbal := mkwb bal_new [].
(** TFChainWallet.py:2023-2056 (a plain balance), 2171-2189 (a multi-signature one: it adds itself twice, 2181; [addres], 2184), 2244-2269; None: 2030-2031,
    2178-2179, 2251-2252 *)
Definition any_add (a : anybal) (other : option anybal) : res anybal :=
  match other with
  | None => Ok a
  | Some o =>
      match a with
      | BPlain b =>
          match o with
          | BPlain c => do d <- balance_add b c; Ok (BPlain d)
          | _ => do w <- wallets_add wallets_new a; do w <- wallets_add w o; Ok (BWallets w)
          end
      | BMulti m =>
          match o with
          | BMulti _ => do _ <- ms_address m; Err AttributeError
          | _ => do w <- wallets_add wallets_new a; do w <- wallets_add w a; Ok (BWallets w)
          end
      | BWallets w => do v <- wallets_add w o; Ok (BWallets v)
      end
  end.
End HashMerge.
