(** Model of /repo/tfchain/types/ConditionTypes.py: output locks and conditions. *)
From Verif Require Import Base Encoders Merkle Primitive Types.

(** ** OutputLock (ConditionTypes.py:112-175) *)
(** types/ConditionTypes.py:116-144: What a lock can be made of; a text or [datetime] enters as the number the (unmodelled) date and
    duration parsers give, [None] when they raise. *)
Inductive lockval :=
| LNone
| LLock (z : Z)             (* another OutputLock *)
| LInt (z : Z)
| LDuration (offset : res Z) (* "+<duration>" *)
| LDate (t : res Z)          (* "<datetime>" *)
| LDelta (secs : Z)         (* timedelta *)
| LDatetime (t : Z)
| LOther.
(** types/ConditionTypes.py:116-144 [OutputLock] *)
Definition lock_new (now : Z) (v : lockval) : res Z :=
  match v with
  | LNone => Ok 0%Z
  | LLock z => Ok z
  | LInt z => if (z <? 0)%Z then Err ValueError else Ok z
  | LDuration o => do z <- o; Ok (now + z)%Z
  | LDate t => t
  | LDelta s => Ok (now + s)%Z
  | LDatetime t => Ok t
  | LOther => Err TypeError
  end.
(** types/ConditionTypes.py:114, 162-167: [_MIN_TIMESTAMP_VALUE], 161-166 [is_timestamp] *)
Definition lock_is_timestamp (l : Z) : bool := (500 * 1000 * 1000 <=? l)%Z.
(** types/ConditionTypes.py:169-175: [locked_check] *)
Definition locked_check (l height time : Z) : bool :=
  if lock_is_timestamp l then (time <? l)%Z else (height <? l)%Z.

(** ** Conditions *)
(** types/ConditionTypes.py:400-760: An absent unlock hash / inner condition is represented by the default its getter returns
    (432-439, 537-549, 660-664); an absent hashed secret stays [None], because its getter (568-571)
    returns a BinaryData of another kind. *)
Inductive cond :=
| CNil
| CUnlockHash (u : uh)
| CSwap (sender receiver : uh) (secret : option bytes) (lock_time : Z)
| CLock (lock : Z) (inner : cond)
| CMulti (owners : list uh) (required : Z).

(** types/ConditionTypes.py:9-13, 405-407, 435-437, 525-527, 632-634, 701-703: _CONDITION_TYPE_*, ConditionTypes.py:9-13 *)
Definition cond_type (c : cond) : Z :=
  match c with CNil => 0 | CUnlockHash _ => 1 | CSwap _ _ _ _ => 2 | CLock _ _ => 3 | CMulti _ _ => 4 end.
(** types/ConditionTypes.py:197-199, 640-644 [lock]: [lock]; 214-219, 675-676 [unwrap] *)
Definition cond_lock (c : cond) : Z := match c with CLock l _ => l | _ => 0%Z end.
(** types/ConditionTypes.py:209-214, 663-664 [unwrap] *)
Definition cond_unwrap (c : cond) : cond := match c with CLock _ i => i | _ => c end.

(** types/ConditionTypes.py:576-586: The hashed secret as BinaryData: 568-576. *)
Definition secret_bd (s : option bytes) : bindata :=
  match s with Some b => hash_bd b | None => mkbd None None [] end.

(** ** Binary encoding *)
(** types/ConditionTypes.py:420-421, 462-463, 615-616, 679-682, 754-756: [*_binary_encode_data]: 420-424, 461-465, 613-619, 683-693, 750-758.  The lock time of 'CSwap' and 'CLock' is an
    int handed to [encoder.add]. *)
Fixpoint cond_sia_data (c : cond) : res bytes :=
  match c with
  | CNil => Ok []
  | CUnlockHash u => uh_sia u
  | CSwap s r h l => uh_sia s +++ uh_sia r +++ bd_sia (secret_bd h) +++ sia_int l
  | CLock l i => sia_int l +++ Ok [Z.to_N (cond_type i)] +++ cond_sia_data i
  | CMulti us n => sia_int n +++ sia_list uh_sia us
  end.
(** types/ConditionTypes.py:423-424, 465-466, 618-619, 684-687, 758-760 *)
Fixpoint cond_riv_data (c : cond) : res bytes :=
  match c with
  | CNil => Ok []
  | CUnlockHash u => uh_riv u
  | CSwap s r h l => uh_riv s +++ uh_riv r +++ bd_riv (secret_bd h) +++ riv_int 8 l
  | CLock l i => riv_int 8 l +++ riv_int 1 (cond_type i) +++ cond_riv_data i
  | CMulti us n => riv_int 8 n +++ riv_list uh_riv us
  end.
(** types/ConditionTypes.py:235-242 [sia_binary_encode]: [sia_binary_encode] / [rivine_binary_encode] *)
Definition cond_sia (c : cond) : res bytes :=
  Ok [Z.to_N (cond_type c)] +++ (do d <- cond_sia_data c; sia_slice d).
(** types/ConditionTypes.py:248-255 [rivine_binary_encode] *)
Definition cond_riv (c : cond) : res bytes :=
  riv_int 1 (cond_type c) +++ (do d <- cond_riv_data c; riv_slice d).

(** ** Sorting by text: Python's [sorted(uhs, key=str)], a stable sort on code points. *)
(** types/ConditionTypes.py:705-713, Python's comparison of str *)
Fixpoint str_leb (a b : pystr) : bool :=
  match a, b with
  | [], _ => true
  | _ :: _, [] => false
  | x :: a, y :: b => (x <? y) || ((x =? y) && str_leb a b)
  end.
(** types/ConditionTypes.py:705-713, Python's [sorted] *)
Fixpoint insert_by {A} (k : pystr) (x : A) (l : list (pystr * A)) : list (pystr * A) :=
  match l with
  | [] => [(k, x)]
  | (k', y) :: l' => if str_leb k k' then (k, x) :: l else (k', y) :: insert_by k x l'
  end.
(** types/ConditionTypes.py:705-713, Python's [sorted]: Insertion from the right keeps equal keys in their original order. *)
Fixpoint isort {A} (l : list (pystr * A)) : list (pystr * A) :=
  match l with [] => [] | (k, x) :: l => insert_by k x (isort l) end.

Section Hash.
Variable H : bytes -> bytes.

(** types/ConditionTypes.py:705-713, [sorted(self.unlockhashes, key=lambda uh: str(uh))] *)
Definition sort_uhs (us : list uh) : res (list uh) :=
  do ks <- mapM (uh_str H) us;
  Ok (map snd (isort (combine ks us))).

(** types/ConditionTypes.py:705-713: , the leaves of the multi-signature tree *)
Definition multi_leaves (us : list uh) (n : Z) : res (list bytes) :=
  do ss <- sort_uhs us;
  do a <- sia_int (Z.of_nat (length ss));
  do ls <- mapM uh_sia ss;
  do b <- sia_int n;
  Ok (a :: ls ++ [b]).

(** types/ConditionTypes.py:529-538: what an atomic swap address hashes.  The *Rivine* encoder is used for the data (so
    [sia_binary_encode_data] writes Rivine bytes), the Sia encoder for the length. *)
Definition swap_uh_input (s r : uh) (h : option bytes) (l : Z) : res bytes :=
  do d <- cond_riv_data (CSwap s r h l); sia_slice d.

(** types/ConditionTypes.py:409-411, 439-443, 529-538, 636-638, 705-713: [unlockhash]: 409-411, 435-439, 523-532, 643-645, 703-712.  [MerkleTree.root]
    cannot be empty here. *)
Fixpoint cond_unlockhash (c : cond) : res uh :=
  match c with
  | CNil => Ok uh_default
  | CUnlockHash u => Ok u
  | CSwap s r h l => do d <- swap_uh_input s r h l; Ok (mkuh UH_ATOMIC_SWAP (H d))
  | CLock _ i => cond_unlockhash i
  | CMulti us n =>
      do ls <- multi_leaves us n;
      do r <- root H (push_all H ls);
      Ok (mkuh UH_MULTI_SIG r)
  end.

(** ** JSON *)
(** Shape of a JSON object of one entry (types/ConditionTypes.py:457-460) *)
Definition jobj1 (k : string) (v : json) : json := JObj [(k, v)].
(** types/ConditionTypes.py:224-229 [json]; 417-418, 457-460, 607-613, 673-677, 748-752: [json_data_object]: 417-418, 456-459, 604-610, 678-681, 744-748 *)
Fixpoint cond_json (c : cond) : res json :=
  match c with
  | CNil => Ok (JObj [("type"%string, JNum 0)])
  | CUnlockHash u =>
      do s <- uh_str H u;
      Ok (JObj [("type"%string, JNum 1); ("data"%string, JObj [("unlockhash"%string, JStr s)])])
  | CSwap se re h l =>
      do s <- uh_str H se;
      do r <- uh_str H re;
      Ok (JObj [("type"%string, JNum 2);
                ("data"%string, JObj [("sender"%string, JStr s); ("receiver"%string, JStr r);
                                      ("hashedsecret"%string, JStr (bd_str (secret_bd h)));
                                      ("timelock"%string, JNum l)])])
  | CLock l i =>
      do j <- cond_json i;
      Ok (JObj [("type"%string, JNum 3);
                ("data"%string, JObj [("locktime"%string, JNum l); ("condition"%string, j)])])
  | CMulti us n =>
      do ss <- mapM (uh_str H) us;
      Ok (JObj [("type"%string, JNum 4);
                ("data"%string, JObj [("minimumsignaturecount"%string, JNum n);
                                      ("unlockhashes"%string, JArr (map JStr ss))])])
  end.

(** types/ConditionTypes.py:545-556, 563-574: the sender / receiver setters accept nil and public key addresses only. *)
Definition swap_party (u : uh) : res uh :=
  do _ <- guard ((uh_type u =? 1) || (uh_type u =? 0))%Z ValueError; Ok u.
(** types/ConditionTypes.py:591-599: [lock_time] setter with an int *)
Definition swap_lock (now z : Z) : res Z :=
  do l <- lock_new now (LInt z);
  do _ <- guard (lock_is_timestamp l) TypeError; Ok l.
(** types/ConditionTypes.py:498-502, 581-586: [AtomicSwapSecretHash(value=...)] on a JSON value, 490-498 *)
Definition secret_hash_json (j : json) : res bytes :=
  hash_new (match j with JNull => BVNone | JStr s => BVStr s | _ => BVOther end).

(** Python's iteration, types/ConditionTypes.py:741-746: Elements of a JSON list in [for uh in data['unlockhashes']]; a str iterates over its characters, a
    dict over its keys. *)
Definition jelems (j : json) : res (list json) :=
  match j with
  | JArr l => Ok l
  | JStr s => Ok (map (fun c => JStr [c]) s)
  | JObj l => Ok (map (fun kv => JStr (s2b (fst kv))) l)
  | _ => Err TypeError
  end.

(** No counterpart in the code: nesting of a JSON value, the fuel below (types/ConditionTypes.py:666-671 recurses) *)
Fixpoint jdepth (j : json) : nat :=
  match j with
  | JArr l => S (fold_right (fun x n => Nat.max (jdepth x) n) O l)
  | JObj l => S (fold_right (fun kv n => Nat.max (jdepth (snd kv)) n) O l)
  | _ => 1%nat
  end.

(** types/ConditionTypes.py:15-27, 183-190, 413-415, 454-455, 601-605, 666-671, 741-746: [from_json], 183-190 [ConditionBaseClass.from_json], and the [from_json_data_object] of each class:
    413-415, 453-454, 597-602, 666-673, 735-742.  Recursion only through the inner condition of a time lock; [fuel]
    bounds it ([jdepth] is always enough, running out would be a RecursionError). *)
Fixpoint cond_from_json_f (now : Z) (fuel : nat) (j : json) : res cond :=
  match fuel with
  | O => Err RuntimeError
  | S fuel =>
      do ct <- jget_d "type" (JNum 0) j;
      do data <- jget_d "data" (JObj []) j;
      if jeq_int ct 0 then
        match data with JNull | JObj [] => Ok CNil | _ => Err ValueError end
      else if jeq_int ct 1 then
        do s <- jget "unlockhash" data;
        do u <- uh_from_json H s;
        Ok (CUnlockHash u)
      else if jeq_int ct 2 then
        do s <- (do x <- jget "sender" data; do u <- uh_from_json H x; swap_party u);
        do r <- (do x <- jget "receiver" data; do u <- uh_from_json H x; swap_party u);
        do h <- (do x <- jget "hashedsecret" data; secret_hash_json x);
        do l <- (do x <- jget "timelock" data; do z <- jint x; swap_lock now z);
        Ok (CSwap s r (Some h) l)
      else if jeq_int ct 3 then
        do l <- (do x <- jget "locktime" data; do z <- jint x; lock_new now (LInt z));
        do x <- jget "condition" data;
        do i <- cond_from_json_f now fuel x;
        do _ <- guard ((cond_type i =? 1) || (cond_type i =? 4) || (cond_type i =? 0))%Z ValueError;
        Ok (CLock l i)
      else if jeq_int ct 4 then
        do n <- (do x <- jget "minimumsignaturecount" data; jint x);
        do xs <- (do x <- jget "unlockhashes" data; jelems x);
        do us <- mapM (uh_from_json H) xs;
        Ok (CMulti us n)
      else Err ValueError
  end.
(** types/ConditionTypes.py:15-27 [from_json] *)
Definition cond_from_json (now : Z) (j : json) : res cond := cond_from_json_f now (jdepth j) j.

(** ** Recipients (ConditionTypes.py:29-68) *)
(** types/ConditionTypes.py:29-68 *)
Inductive rval :=
| RNone
| RInt (z : Z)
| RBool (b : bool)
| RStr (s : pystr)
| RBytes (b : bytes)
| RUh (u : uh)
| RCond (c : cond)
| RList (l : list rval)
| RTuple (l : list rval)
| ROther.

(** types/ConditionTypes.py:719-727: [add_unlockhash] *)
Definition add_unlockhash (v : rval) : res uh :=
  match v with
  | RNone => Ok uh_default
  | RUh u => Ok u
  | RStr s => uh_parse H s
  | _ => Err TypeError
  end.
(** types/ConditionTypes.py:693-699: Iterating a Python value, preceded by the truth test of 694. *)
Definition riter (v : rval) : res (list rval) :=
  match v with
  | RNone => Ok []
  | RInt z => if (z =? 0)%Z then Ok [] else Err TypeError
  | RBool b => if b then Err TypeError else Ok []
  | RStr s => Ok (map (fun c => RStr [c]) s)
  | RBytes b => Ok (map (fun x => RInt (Z.of_N x)) b)
  | RList l | RTuple l => Ok l
  | RUh _ | RCond _ | ROther => Err TypeError
  end.
(** types/ConditionTypes.py:693-699, 732-739: (constructor) and 729-735 ([required_signatures] setter) *)
Definition multi_new (n : rval) (hs : rval) : res cond :=
  do l <- riter hs;
  do us <- mapM add_unlockhash l;
  match n with
  | RNone => Ok (CMulti us 0)
  | RInt z => Ok (CMulti us z)
  | RBool b => Ok (CMulti us (if b then 1 else 0)%Z)
  | _ => Err TypeError
  end.
(** types/ConditionTypes.py:55-60 *)
Definition is_int (v : rval) : bool := match v with RInt _ | RBool _ => true | _ => false end.
(** types/ConditionTypes.py:29-62 *)
Definition base_recipient (r : rval) : res cond :=
  match r with
  | RCond c => Ok c
  | RNone => Ok CNil
  | RUh u => Ok (CUnlockHash u)
  | RStr s => do u <- uh_parse H s; Ok (CUnlockHash u)
  | RBytes b => do u <- uh_parse H (hex b); Ok (CUnlockHash u)
  | RList l => multi_new (RInt (Z.of_nat (length l))) (RList l)
  | RTuple [a; b] => if is_int a then multi_new a b else multi_new b a
  | RTuple _ => Err ValueError
  | RInt _ | RBool _ | ROther => Err TypeError
  end.
(** types/ConditionTypes.py:29-68 [from_recipient] *)
Definition from_recipient (now : Z) (r : rval) (lock : lockval) : res cond :=
  do c <- base_recipient r;
  match lock with
  | LNone => Ok c
  | _ => do l <- lock_new now lock; Ok (CLock l c)
  end.

End Hash.
