(** Vocabulary for the keys of a wallet (C38, C59, C60). *)
From Verif Require Import Base KeyScan.

(** different keys have different addresses (no hash collision) *)
Definition no_collision (addr : nat -> pystr) : Prop := forall i j, addr i = addr j -> i = j.
(** the chain: [used i] says whether the address of key [i] occurs on it *)
Definition chain (addr : nat -> pystr) (used : nat -> bool) (probe : pystr -> res unit) : Prop :=
  forall i, probe (addr i) = if used i then Ok tt else Err ExplorerNoContent.
(** the key is part of the loaded wallet: its address is listed and it can sign *)
Definition loaded (k : kw) (i : nat) : Prop := In i (k_pairs k).
(** the first key index handed out next *)
Definition fresh_from (k : kw) : nat := k_count k.
(** every index at or above [n] is unused *)
Definition none_from (used : nat -> bool) (n : nat) : Prop := forall i, (n <= i)%nat -> used i = false.
(** an operation on a wallet's keys: a new address, or a scan (asking for addresses, balance or transactions) *)
Inductive kop := NewAddress | Scan (fuel : nat).
Definition kstep (addr : nat -> pystr) (probe : pystr -> res unit) (count : nat) (k : kw) (o : kop) : option (kw * res unit) :=
  match o with
  | NewAddress => let r := address_new addr k in Some (fst r, do _ <- snd r; Ok tt)
  | Scan fuel => match key_scan addr probe fuel count k with Some (k, r) => Some (k, do _ <- r; Ok tt) | None => None end
  end.
(** a history of operations under possibly changing chains *)
Inductive khistory (addr : nat -> pystr) (count : nat) : kw -> kw -> Prop :=
| KH_nil k : khistory addr count k k
| KH_cons k probe o k1 r k2 : kstep addr probe count k o = Some (k1, r) -> khistory addr count k1 k2 -> khistory addr count k k2.
(** asking [n] times for the addresses (or the balance), on an unchanging chain *)
Fixpoint rescans (addr : nat -> pystr) (probe : pystr -> res unit) (fuel count n : nat) (k : kw) : option kw :=
  match n with
  | O => Some k
  | S n => match key_scan addr probe fuel count k with Some (k', Ok _) => rescans addr probe fuel count n k' | _ => None end
  end.
(** from [a] to [m] there is a used key in any [count] consecutive ones *)
Definition gaps_within (used : nat -> bool) (count a m : nat) : Prop :=
  forall i, (a <= i < m)%nat -> exists j, (i <= j < i + count)%nat /\ used j = true.
(** a wallet that was opened and then used in any way *)
Definition reachable (addr : nat -> pystr) (k : kw) : Prop :=
  exists probe fuel n start scan k0 r, wallet_keys addr probe fuel n start scan = Some (k0, r) /\ khistory addr (scan_count scan) k0 k.
