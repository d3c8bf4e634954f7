(** Model of the comparison and the texts of atomic swap contracts (/repo/tfchain/types/AtomicSwap.py) and of the texts of balances
    (/repo/tfchain/TFChainWallet.py:2109-2131, 2191-2195, 2280-2285), and of the state of the chain (/repo/tfchain/TFChainClient.py:438-471). *)
From Verif Require Lookups.
From Verif Require Import Base Primitive Types Conditions Currency Dates Txn Wallet AtomicSwap.

(** ** Atomic swap contracts *)
(** types/AtomicSwap.py:15-39: the arguments of the constructor: an output or another object, a bool or another object, and a time *)
Inductive stamp := StampNone | StampInt (z : Z) | StampOther.
(** types/AtomicSwap.py:15-39: a contract with the time it was made at *)
Record kept := mkkept { kt_contract : contract; kt_time : Z }.
(** types/AtomicSwap.py:15-39; [now]: the clock.  All refusals are TypeErrors, so their order does not show. *)
Definition contract_make (now : Z) (o : option output) (unspent : option bool) (t : stamp) : res kept :=
  match o with
  | None => Err TypeError
  | Some o =>
      match unspent with
      | None => do _ <- contract_new o true; Err TypeError
      | Some u =>
          do k <- contract_new o u;
          match t with
          | StampNone => Ok (mkkept k now)
          | StampInt z => Ok (mkkept k (if (z <=? 0)%Z then now else z))
          | StampOther => Err TypeError
          end
      end
  end.

Section Show.
Variable H : bytes -> bytes.
(** Python's time.localtime, for times whose year Python can show *)
Variable localtime : Z -> tm.

(** types/AtomicSwap.py:41-49: [__eq__]; [None]: the other object is no contract.  The comparison of the JSON of two conditions of this kind compares the
    texts of both addresses and of the hash, and the lock time (ConditionTypes.py:224-229, 607-613). *)
Definition contract_eq (a : contract) (b : option contract) : res bool :=
  match b with
  | None => Err TypeError
  | Some b =>
      if negb (Bool.eqb (k_unspent a) (k_unspent b)) then Ok false
      else if negb (listN_eqb (k_id a) (k_id b)) then Ok false
      else if negb (k_amount a =? k_amount b) then Ok false
      else
        do sa <- uh_str H (k_sender a); do ra <- uh_str H (k_receiver a);
        do sb <- uh_str H (k_sender b); do rb <- uh_str H (k_receiver b);
        Ok (listN_eqb sa sb && listN_eqb ra rb && listN_eqb (bd_str (secret_bd (k_hash a))) (bd_str (secret_bd (k_hash b))) && (k_refund a =? k_refund b)%Z)
  end.
(** types/AtomicSwap.py:51-52 *)
Definition contract_ne (a : contract) (b : option contract) : res bool := do r <- contract_eq a b; Ok (negb r).

(** types/PrimitiveTypes.py:311-326: [str(with_unit=True)] of an amount of smallest units; the text of a Currency depends on its amount only (C08_printed) *)
Definition tft_str (n : N) : pystr := cstr (Some (mkdec false n (-9))) true.
(** internal/jsutils.py:427-437: the text of a duration given as an int: nothing is parsed *)
Definition secs_str (z : Z) : res pystr := dur_str (fun _ _ _ _ => Err ValueError) (DInt z).
(** types/AtomicSwap.py:132-145 *)
Definition status_str (k : contract) (t : Z) : res pystr :=
  if k_unspent k then
    let since := date_str localtime (k_refund k) in
    if (k_refund k <=? t)%Z then Ok (s2b "Refund is available since " ++ since ++ s2b ".")
    else do d <- secs_str (k_refund k - t)%Z; Ok (s2b "Refund available at " ++ since ++ s2b " (in: " ++ d ++ s2b ").")
  else Ok (s2b "Spent and no longer available.").
(** types/AtomicSwap.py:132-152: a line break and the eight blanks of the source before each line *)
Definition line_break : pystr := 10 :: repeat 32 8.
(** types/AtomicSwap.py:132-152: [__repr__] *)
Definition contract_repr (c : kept) : res pystr :=
  let k := kt_contract c in
  do st <- status_str k (kt_time c);
  do s <- uh_str H (k_sender k);
  do r <- uh_str H (k_receiver k);
  Ok (strip (line_break ++ s2b "Atomic Swap Contract " ++ hash_str (k_id k) ++ s2b ":" ++
             line_break ++ st ++
             line_break ++ s2b "Value: " ++ tft_str (k_amount k) ++
             line_break ++ s2b "Sender: " ++ s ++
             line_break ++ s2b "Receiver: " ++ r ++
             line_break ++ s2b "Secret Hash: " ++ bd_str (secret_bd (k_hash k)) ++
             line_break)).

(** ** Balances *)
(** TFChainWallet.py:2109-2121: [_human_readable_balance] *)
Definition balance_text (b : bal) : pystr :=
  tft_str (available b) ++ s2b " available and " ++ tft_str (locked b) ++ s2b " locked" ++
  (if (0 <? unconfirmed b) || (0 <? unconfirmed_locked b)
   then 10 :: s2b "Unconfirmed: " ++ tft_str (unconfirmed b) ++ s2b " available " ++ tft_str (unconfirmed_locked b) ++ s2b " locked" else []) ++
  (let d := total (values (w_uncspent b)) in
   if 0 <? d then 10 :: s2b "Unconfirmed Balance Deduction: -" ++ tft_str d else []).
(** TFChainWallet.py:2123-2131: [__repr__]; z_str: Python's str of an int *)
Definition header (b : bal) : pystr :=
  if ((0 <? w_height b) && (0 <? w_time b))%Z
  then s2b "wallet balance on height " ++ z_str (w_height b) ++ s2b " at " ++ date_str localtime (w_time b) ++ [10]
  else s2b "wallet balance at an unknown time" ++ [10].
(** TFChainWallet.py:2123-2131 *)
Definition balance_repr (b : bal) : pystr := header b ++ balance_text b.
(** Python's str.join, for TFChainWallet.py:2191-2195 *)
Fixpoint join (sep : pystr) (l : list pystr) : pystr :=
  match l with [] => [] | [x] => x | x :: l => x ++ sep ++ join sep l end.
(** TFChainWallet.py:2191-2195, 2150-2169: the address shown is computed from the owners and the number of signatures *)
Definition ms_text (m : msbal) : res pystr :=
  do u <- cond_unlockhash H (CMulti (ms_owners m) (ms_count m));
  do a <- uh_str H u;
  do os <- mapM (uh_str H) (ms_owners m);
  Ok (s2b "MultiSignature (" ++ z_str (ms_count m) ++ s2b "-of-" ++ dec_str (lenN (ms_owners m)) ++ s2b ") Wallet " ++ a ++ s2b ":" ++ [10] ++
      s2b "Owners: " ++ join (s2b ", ") os ++ [10] ++ balance_text (ms_bal m)).
(** TFChainWallet.py:1894-1900: [active] *)
Definition active (b : bal) : bool := negb (length (w_outs b) =? 0)%nat || negb (length (w_unc b) =? 0)%nat.
(** TFChainWallet.py:2280-2285: [__repr__] of a WalletsBalance *)
Fixpoint ms_texts (l : list msbal) : res pystr :=
  match l with
  | [] => Ok []
  | m :: l =>
      if active (ms_bal m) then do t <- ms_text m; do r <- ms_texts l; Ok (10 :: 10 :: t ++ r) else ms_texts l
  end.
(** TFChainWallet.py:2280-2285 *)
Definition wallets_repr (w : wbal) : res pystr := do t <- ms_texts (wb_ms w); Ok (balance_repr (wb_own w) ++ t).
(** TFChainClient.py:448-453: [blockid] of what [blockchain_info_get] returns: the last block *)
Definition info_blockid (b : Lookups.block) : pystr := hash_str (Lookups.k_bid b).
(** TFChainClient.py:469-471: [__repr__]; height and timestamp: 455-467 *)
Definition info_repr (b : Lookups.block) : pystr :=
  s2b "Block " ++ info_blockid b ++ s2b " at height " ++ z_str (Lookups.k_bheight b) ++ s2b ", published on " ++ date_str localtime (Lookups.k_btime b) ++ s2b ", is the last known block.".
End Show.
