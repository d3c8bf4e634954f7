(** Base: Python values used by every model file.

    - [bytes]  : Python [bytes] / [bytearray] (each element below 256, see [wf_bytes]);
    - [pystr]  : Python [str], a list of Unicode code points;
    - [res]    : result of running Python code: a value or a raised exception. *)
From Coq Require Export String Ascii List NArith ZArith Lia Bool Arith Permutation.
From Coq Require Import ZifyBool ZifyNat ZifyN.
Export ListNotations.
Open Scope N_scope.
Open Scope list_scope.
Set Implicit Arguments.
Global Arguments N.add : simpl never.
Global Arguments N.mul : simpl never.
Global Arguments N.sub : simpl never.
Global Arguments N.div : simpl never.
Global Arguments N.modulo : simpl never.
Global Arguments N.pow : simpl never.
Global Arguments N.leb : simpl never.
Global Arguments N.ltb : simpl never.
Global Arguments N.eqb : simpl never.
Global Arguments Z.add : simpl never.
Global Arguments Z.mul : simpl never.
Global Arguments Z.sub : simpl never.
Global Arguments Z.pow : simpl never.
Global Arguments Z.div : simpl never.
Global Arguments Z.modulo : simpl never.
Global Arguments Z.leb : simpl never.
Global Arguments Z.ltb : simpl never.
Global Arguments Z.eqb : simpl never.

(** Python builtin, no source of its own; used in all of /repo/tfchain, e.g. encoders/sia.py:32-40 *)
Definition bytes := list N.
(** Python builtin, no source of its own; used in all of /repo/tfchain, e.g. types/PrimitiveTypes.py:67-88; a str is its code points *)
Definition pystr := list N.

(** errors.py:5-318 and encoders/exceptions.py:4-13, with Python's builtin exceptions: Exceptions raised by the modelled code (Python builtins, /repo/tfchain/errors.py and
    /repo/tfchain/encoders/exceptions.py). *)
Inductive exn :=
| TypeError | ValueError | KeyError | NameError | AttributeError | IndexError | RuntimeError
| OverflowError | AssertionError | DecimalInvalidOperation
| IntegerOutOfRange | SliceLengthOutOfRange
| CurrencyPrecisionOverflow | CurrencyNegativeValue
| InvalidPublicKeySpecifier | UnknownTransactionVersion
| InsufficientFunds
| ExplorerNoContent | ExplorerServerError | ExplorerServerPostError | ExplorerNotAvailable
| ExplorerInvalidResponse
| DoubleSignError
| AtomicSwapInsufficientAmount | AtomicSwapForbidden | AtomicSwapInvalidSecret
| AtomicSwapContractInvalid | AtomicSwapContractSpent | AtomicSwapContractNotFound
| ThreeBotNotFound | ThreeBotInactive | AddressNotInWallet | ERC20RegistrationForbidden
| BackendError (* whatever an external call (HTTP) raised *).

(** Outcome of a Python call: a value or a raised exception (errors.py:5-318) *)
Inductive res (A : Type) := Ok (a : A) | Err (e : exn).
Arguments Ok {A} a.
Arguments Err {A} e.

(** Python's sequential execution: an exception ends it (e.g. encoders/sia.py:160-170) *)
Definition bind {A B} (r : res A) (f : A -> res B) : res B :=
  match r with Ok a => f a | Err e => Err e end.
(** As [bind], with a pure last step (e.g. encoders/sia.py:160-170) *)
Definition rmap {A B} (f : A -> B) (r : res A) : res B :=
  match r with Ok a => Ok (f a) | Err e => Err e end.
Notation "'do' x <- r ; k" := (bind r (fun x => k))
  (at level 200, x binder, r at level 100, k at level 200, right associativity).
(** [if not c: raise e], e.g. types/PrimitiveTypes.py:83-86: [guard c e ; k]: raise [e] unless [c]. *)
Definition guard (c : bool) (e : exn) : res unit := if c then Ok tt else Err e.

(** encoders/sia.py:160-170, encoders/rivine.py:220-230: Sequential writes to one encoder: the data appended by the first, then by the second. *)
Definition rapp (a b : res bytes) : res bytes :=
  do x <- a; do y <- b; Ok (x ++ y).
Notation "a +++ b" := (rapp a b) (at level 60, right associativity).

(** encoders/sia.py:160-170, encoders/rivine.py:220-230: writes one after the other *)
Fixpoint rconcat (l : list (res bytes)) : res bytes :=
  match l with [] => Ok [] | r :: l => r +++ rconcat l end.

(** A list comprehension or loop whose body may raise, e.g. types/transactions/Standard.py:359-366 *)
Fixpoint mapM {A B} (f : A -> res B) (l : list A) : res (list B) :=
  match l with
  | [] => Ok []
  | x :: l => do y <- f x; do ys <- mapM f l; Ok (y :: ys)
  end.

(** No counterpart in the code: whether a call returned (e.g. of types/ERC20.py:17-18) *)
Definition is_ok {A} (r : res A) : bool := match r with Ok _ => true | Err _ => false end.

(** ** Bytes *)
(** Python's bytes (e.g. types/PrimitiveTypes.py:67-88): all elements below 256 *)
Definition wf_bytes (b : bytes) : Prop := Forall (fun x => x < 256) b.
(** The same as a boolean; no counterpart in the code (types/PrimitiveTypes.py:67-88 gets bytes from Python) *)
Definition wf_bytesb (b : bytes) : bool := forallb (fun x => x <? 256) b.

(** Python builtin, no source of its own; used in types/PrimitiveTypes.py:102-104: [==] of bytes or str *)
Fixpoint listN_eqb (a b : list N) : bool :=
  match a, b with
  | [], [] => true
  | x :: a, y :: b => (x =? y) && listN_eqb a b
  | _, _ => false
  end.

(** encoders/sia.py:42-58, encoders/rivine.py:86-145: [int.to_bytes(w, 'little')] for a value that fits (Python built-in). *)
Fixpoint le (w : nat) (v : N) : bytes :=
  match w with
  | O => []
  | S w => (v mod 256) :: le w (v / 256)
  end.

(** Inverse of the above, not used by the code (encoders/sia.py:42-58 only encodes): [int.from_bytes(b, 'little')]. *)
Fixpoint le_dec (b : bytes) : N :=
  match b with
  | [] => 0
  | x :: b => x + 256 * le_dec b
  end.

(** types/PrimitiveTypes.py:334-353: [int.to_bytes(w, 'big')] / [int.from_bytes(b, 'big')]. *)
Definition be (w : nat) (v : N) : bytes := rev (le w v).
(** Inverse of the above, not used by the code (types/PrimitiveTypes.py:334-353 only encodes) *)
Definition be_dec (b : bytes) : N := le_dec (rev b).

(** types/PrimitiveTypes.py:334-353: Number of bytes of the minimal representation:
    [divmod(value.bit_length(), 8)] rounded up; Python's [bit_length] is [N.size]. *)
Definition nbytes (v : N) : nat := N.to_nat ((N.size v + 7) / 8).

(** ** Text *)
(** Notation for str literals of the code (e.g. types/CryptoTypes.py:8): Code points of a Coq string literal. *)
Fixpoint s2b (s : string) : list N :=
  match s with
  | EmptyString => []
  | String a s => N_of_ascii a :: s2b s
  end.

(** Python builtin, no source of its own; used in encoders/rivine.py:185-199: [len] *)
Definition lenN {A} (l : list A) : N := N.of_nat (length l).

(** Python builtin, no source of its own; used in types/CryptoTypes.py:128-132: [b'\0' * n] *)
Fixpoint repeatN {A} (x : A) (n : nat) : list A :=
  match n with O => [] | S n => x :: repeatN x n end.

(** Python builtin, no source of its own; used in types/PrimitiveTypes.py:17-26: Lower-case hexadecimal, [bytes.hex()]. *)
Definition hexdig (d : N) : N := if d <? 10 then 48 + d else 87 + d.
(** Python builtin, no source of its own; used in types/PrimitiveTypes.py:17-26: [bytes.hex()] *)
Fixpoint hex (b : bytes) : pystr :=
  match b with
  | [] => []
  | x :: b => hexdig (x / 16) :: hexdig (x mod 16) :: hex b
  end.

(** Python builtin, no source of its own; used in types/PrimitiveTypes.py:17-26 *)
Definition unhexdig (c : N) : option N :=
  if (48 <=? c) && (c <=? 57) then Some (c - 48)
  else if (97 <=? c) && (c <=? 102) then Some (c - 87)
  else if (65 <=? c) && (c <=? 70) then Some (c - 55)
  else None.

(** Python builtin, no source of its own; used in types/PrimitiveTypes.py:17-26: Python's ASCII whitespace (str.isspace restricted to ASCII; [bytes.fromhex] skips exactly
    space, \t \n \v \f \r between bytes). *)
Definition is_space (c : N) : bool := (c =? 32) || ((9 <=? c) && (c <=? 13)).

(** Python builtin, no source of its own; used in types/PrimitiveTypes.py:17-26: [bytearray.fromhex(s)] (CPython 3.7+): skips ASCII whitespace between byte pairs, both digits of a
    pair must be adjacent; anything else raises ValueError. *)
Fixpoint unhex (s : pystr) : res bytes :=
  match s with
  | [] => Ok []
  | c :: s' =>
      if is_space c then unhex s'
      else match s' with
           | [] => Err ValueError
           | d :: s'' =>
               match unhexdig c, unhexdig d with
               | Some x, Some y => do r <- unhex s''; Ok ((16 * x + y) :: r)
               | _, _ => Err ValueError
               end
           end
  end.

(** Python builtin, no source of its own; used in encoders/sia.py:60-98: UTF-8 encoding of a str ([str.encode('utf-8')]); surrogates raise UnicodeEncodeError, a ValueError. *)
Definition utf8_char (c : N) : res bytes :=
  if c <? 128 then Ok [c]
  else if c <? 2048 then Ok [192 + c / 64; 128 + c mod 64]
  else if (55296 <=? c) && (c <? 57344) then Err ValueError
  else if c <? 65536 then Ok [224 + c / 4096; 128 + (c / 64) mod 64; 128 + c mod 64]
  else if c <? 1114112 then
    Ok [240 + c / 262144; 128 + (c / 4096) mod 64; 128 + (c / 64) mod 64; 128 + c mod 64]
  else Err ValueError.
(** Python builtin, no source of its own; used in encoders/sia.py:60-98 *)
Definition utf8 (s : pystr) : res bytes := rconcat (map utf8_char s).

(** No counterpart in the code: all code points below 128 (encoders/sia.py:60-98 encodes any str) *)
Definition ascii_str (s : pystr) : Prop := Forall (fun c => c < 128) s.

(** Python builtin, no source of its own; used in types/PrimitiveTypes.py:331-332, 403-404: Decimal digits of a number, most significant first: Python's [str(int)] for a natural number. *)
Fixpoint digs (fuel : nat) (n : N) (acc : pystr) : pystr :=
  match fuel with
  | O => acc
  | S f => let acc' := (48 + n mod 10) :: acc in
           if n / 10 =? 0 then acc' else digs f (n / 10) acc'
  end.
(** Python builtin, no source of its own; used in types/PrimitiveTypes.py:331-332, 403-404: [str(int)] *)
Definition dec_str (n : N) : pystr := digs (S (N.to_nat (N.size n))) n [].

(** Python builtin, no source of its own; used in types/PrimitiveTypes.py:190-199: value of decimal digits *)
Fixpoint digits_val (acc : N) (s : pystr) : option N :=
  match s with
  | [] => Some acc
  | c :: s => if (48 <=? c) && (c <=? 57) then digits_val (10 * acc + (c - 48)) s else None
  end.

(** Python builtin, no source of its own; used in types/PrimitiveTypes.py:207-229: [str.strip()] restricted to ASCII whitespace (simplification: other Unicode blanks are not
    treated as blanks). *)
Fixpoint lstrip (p : N -> bool) (s : pystr) : pystr :=
  match s with
  | c :: s' => if p c then lstrip p s' else s
  | [] => []
  end.
(** Python builtin, no source of its own; used in types/PrimitiveTypes.py:311-326 *)
Definition rstrip (p : N -> bool) (s : pystr) : pystr := rev (lstrip p (rev s)).
(** Python builtin; used in types/PrimitiveTypes.py:207-229: str.isspace also holds for the ASCII separators 0x1c..0x1f *)
Definition is_pyspace (c : N) : bool := is_space c || ((28 <=? c) && (c <=? 31)).
(** Python builtin, no source of its own; used in types/PrimitiveTypes.py:207-229: [str.strip()] *)
Definition strip (s : pystr) : pystr := rstrip is_pyspace (lstrip is_pyspace s).

(** Python builtin, no source of its own; used in types/PrimitiveTypes.py:207-229: [str.upper()] / [str.lower()] restricted to ASCII letters (simplification). *)
Definition upper_c (c : N) : N := if (97 <=? c) && (c <=? 122) then c - 32 else c.
(** Python builtin, no source of its own; used in types/PrimitiveTypes.py:12-30 *)
Definition lower_c (c : N) : N := if (65 <=? c) && (c <=? 90) then c + 32 else c.
(** Python builtin, no source of its own; used in types/PrimitiveTypes.py:207-229: [str.upper()] *)
Definition upper (s : pystr) : pystr := map upper_c s.
(** Python builtin, no source of its own; used in types/PrimitiveTypes.py:12-30: [str.lower()] *)
Definition lower (s : pystr) : pystr := map lower_c s.

(** Python builtin, no source of its own; used in types/ConditionTypes.py:310-331: Underscores as allowed in Python integer literals: single, between digits. *)
Fixpoint int_digits (prev_digit : bool) (acc : N) (s : pystr) : option N :=
  match s with
  | [] => if prev_digit then Some acc else None
  | c :: s =>
      if (48 <=? c) && (c <=? 57) then int_digits true (10 * acc + (c - 48)) s
      else if (c =? 95) && prev_digit then int_digits false acc s
      else None
  end.
(** Python builtin, no source of its own; used in types/ConditionTypes.py:310-331: [int(s)] for a str in base 10: strips blanks, optional sign, digits with single underscores. *)
Definition py_int (s : pystr) : res Z :=
  match strip s with
  | c :: s' =>
      if c =? 45 then match int_digits false 0 s' with Some v => Ok (- Z.of_N v)%Z | None => Err ValueError end
      else if c =? 43 then match int_digits false 0 s' with Some v => Ok (Z.of_N v) | None => Err ValueError end
      else match int_digits false 0 (c :: s') with Some v => Ok (Z.of_N v) | None => Err ValueError end
  | [] => Err ValueError
  end.

(** ** JSON values.  [JVersion z] is no JSON value but an object of class TransactionVersion
    (transactions/Base.py:8-26), which the [json] of a transaction contains. *)
Inductive json :=
| JNull
| JBool (b : bool)
| JNum (z : Z)
| JStr (s : pystr)
| JArr (l : list json)
| JObj (l : list (string * json))
| JVersion (z : Z).

(** Python builtin, no source of its own; used in all from_json functions, e.g. types/ConditionTypes.py:15-27: [dict.get(key)] / [key in dict]; Python dictionaries have unique keys, so the first match is the
    only one. *)
Fixpoint jfind (k : string) (l : list (string * json)) : option json :=
  match l with
  | [] => None
  | (k', v) :: l => if String.eqb k k' then Some v else jfind k l
  end.

(** Python builtin, no source of its own; used in all from_json functions, e.g. types/ConditionTypes.py:15-27: [obj[key]]: KeyError when absent; TypeError on a value which is not a dict. *)
Definition jget (k : string) (j : json) : res json :=
  match j with
  | JObj l => match jfind k l with Some v => Ok v | None => Err KeyError end
  | _ => Err TypeError
  end.
(** Python builtin, no source of its own; used in all from_json functions, e.g. types/transactions/Standard.py:73-98: [obj.get(key, default)]: AttributeError on a value which is not a dict. *)
Definition jget_d (k : string) (d : json) (j : json) : res json :=
  match j with
  | JObj l => match jfind k l with Some v => Ok v | None => Ok d end
  | _ => Err AttributeError
  end.

(** Python builtin, no source of its own; used in e.g. types/CryptoTypes.py:64-77: Python truth value of a JSON value. *)
Definition jtruthy (j : json) : bool :=
  match j with
  | JNull => false
  | JBool b => b
  | JNum z => negb (z =? 0)%Z
  | JStr s => match s with [] => false | _ => true end
  | JArr l => match l with [] => false | _ => true end
  | JObj l => match l with [] => false | _ => true end
  | JVersion _ => true
  end.

(** What [json.dumps] accepts (/repo/tfchain/internal/jsutils.py:654-671, json_dumps): the default encoder raises a
    TypeError for objects of other classes. *)
Fixpoint jserialisable (j : json) : bool :=
  match j with
  | JArr l => forallb jserialisable l
  | JObj l => forallb (fun kv => jserialisable (snd kv)) l
  | JVersion _ => false
  | _ => true
  end.
