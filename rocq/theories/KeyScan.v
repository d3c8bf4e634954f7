(** Model of a wallet's keys: /repo/tfchain/TFChainWallet.py:32-89, 158-173, 251-302, 515-532, 556-603.
    A key pair is its index; [addr] gives its address as text.  What the chain knows of an address is a parameter. *)
From Verif Require Import Base Encoders.

(** TFChainWallet.py:556-586: what is hashed for the private key with an index *)
Definition key_seed (seed : bytes) (index : nat) : res bytes := do n <- sia_int (Z.of_nat index); Ok (seed ++ n).

Section Keys.
Variable addr : nat -> pystr.
(** what looking up an address does: it succeeds if the address was used, raises ExplorerNoContent if not, or something else *)
Variable probe : pystr -> res unit.

(** TFChainWallet.py:32-89: [_key_count], [_key_pairs] (a dict by address, in order), [_unused_key_pairs] *)
Record kw := mkkw { k_count : nat; k_pairs : list nat; k_unused : list nat }.
(** TFChainWallet.py:588-603: [_key_pair_add] *)
Definition pair_add (k : kw) (i : nat) (add_count : bool) (offset : nat) : kw * res unit :=
  if existsb (fun j => listN_eqb (addr j) (addr i)) (k_pairs k) then (k, Err KeyError)
  else (mkkw (if add_count then k_count k + (1 + offset) else k_count k)%nat (k_pairs k ++ [i]) (k_unused k), Ok tt).
(** TFChainWallet.py:556-586: [_key_pair_new] with [integrate=True, offset=0] *)
Definition key_new (k : kw) : kw * res nat :=
  match k_unused k with
  | i :: l => let r := pair_add (mkkw (k_count k) (k_pairs k) l) i false 0 in (fst r, do _ <- snd r; Ok i)
  | [] => let r := pair_add k (k_count k) true 0 in (fst r, do _ <- snd r; Ok (k_count k))
  end.
(** TFChainWallet.py:515-525: [address_new] *)
Definition address_new (k : kw) : kw * res pystr := let r := key_new k in (fst r, do i <- snd r; Ok (addr i)).

(** TFChainWallet.py:269-280 *)
Definition known (i : nat) : res bool :=
  match probe (addr i) with Ok _ => Ok true | Err ExplorerNoContent => Ok false | Err e => Err e end.
(** TFChainWallet.py:285-291: the pairs with offsets [idx], ...; [last]: the last index found so far *)
Fixpoint sort_out (k : kw) (idx last : nat) (pairs : list nat) (used : list bool) : kw * res nat :=
  match pairs, used with
  | i :: pairs, u :: used =>
      if u then let r := pair_add k i false 0 in
                match snd r with Ok _ => sort_out (fst r) (S idx) idx pairs used | Err e => (fst r, Err e) end
      else sort_out (mkkw (k_count k) (k_pairs k) (k_unused k ++ [i])) (S idx) last pairs used
  | _, _ => (k, Ok last)
  end.
(** Python's slice, TFChainWallet.py:251-302: [l[:-n]] for a positive [n] *)
Definition drop_last {A} (n : nat) (l : list A) : list A := firstn (length l - n) l.
(** TFChainWallet.py:264-300: the loop, [count] at least 1; [None]: it does not end within [fuel] rounds *)
Fixpoint scan_loop (fuel count : nat) (k : kw) : option (kw * res unit) :=
  match fuel with
  | O => None
  | S fuel =>
      let pairs := map (fun o => k_count k + o)%nat (seq 0 count) in
      match mapM known pairs with
      | Err e => Some (k, Err e)
      | Ok used =>
          if existsb (fun u => u) used then
            let r := sort_out k 0 0 pairs used in
            match snd r with
            | Err e => Some (fst r, Err e)
            | Ok last =>
                let k' := fst r in
                let k' := mkkw (k_count k' + (last + 1)) (k_pairs k') (drop_last (count - last) (k_unused k')) in
                if List.last used false then scan_loop fuel count k' else Some (k', Ok tt)
            end
          else Some (k, Ok tt)
      end
  end.
(** TFChainWallet.py:251-302: [_key_scan]: whether new keys were found *)
Definition key_scan (fuel count : nat) (k : kw) : option (kw * res bool) :=
  if (0 <? length (k_unused k))%nat || (count =? 0)%nat then Some (k, Ok false)
  else match scan_loop fuel count k with
       | None => None
       | Some (k', r) => Some (k', do _ <- r; Ok (k_count k <? k_count k')%nat)
       end.
(** TFChainWallet.py:64-71: the number of keys to scan for *)
Definition scan_count (key_scan_count : Z) : nat := Z.to_nat (if (Z.max (-1) key_scan_count =? -1)%Z then 3 else Z.max (-1) key_scan_count)%Z.
(** TFChainWallet.py:64-89 *)
Fixpoint key_news (n : nat) (k : kw) : kw * res unit :=
  match n with
  | O => (k, Ok tt)
  | S n => let r := key_new k in match snd r with Ok _ => key_news n (fst r) | Err e => (fst r, Err e) end
  end.
(** TFChainWallet.py:32-89: the keys of a new wallet and its primary address; [key_start_index] is stored in a variable nothing reads *)
Definition wallet_keys (fuel : nat) (key_count key_start_index key_scan_count : Z) : option (kw * res pystr) :=
  let k := mkkw 0 [] [] in
  let r := key_new k in
  match snd r with
  | Err e => Some (fst r, Err e)
  | Ok i =>
      let s := key_news (Z.to_nat (Z.max 1 key_count) - 1) (fst r) in
      match snd s with
      | Err e => Some (fst s, Err e)
      | Ok _ => match key_scan fuel (scan_count key_scan_count) (fst s) with
                | None => None
                | Some (k, r) => Some (k, do _ <- r; Ok (addr i))
                end
      end
  end.
(** TFChainWallet.py:158-166: [addresses] *)
Definition addresses (fuel count : nat) (k : kw) : option (kw * res (list pystr)) :=
  match key_scan fuel count k with
  | None => None
  | Some (k, r) => Some (k, do _ <- r; Ok (map addr (k_pairs k)))
  end.
End Keys.
