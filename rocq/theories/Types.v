(** Model of the unlock hash (/repo/tfchain/types/ConditionTypes.py:257-397) and of
    /repo/tfchain/types/CryptoTypes.py.  [H] is BLAKE2b-256 (jsutils.py:15-21), a parameter. *)
From Verif Require Import Base Encoders Primitive.

(** [value == int] between a JSON value and a Python int: bool is an int; a TransactionVersion compares its value
    (types/transactions/Base.py:21-24). *)
Definition jeq_int (j : json) (n : Z) : bool :=
  match j with
  | JNum z => (z =? n)%Z
  | JBool b => ((if b then 1 else 0) =? n)%Z
  | JVersion z => (z =? n)%Z
  | _ => false
  end.
(** [int(v)] of a JSON value; TransactionVersion has [__int__] (types/transactions/Base.py:26-27). *)
Definition jint (j : json) : res Z :=
  match j with
  | JNum z => Ok z
  | JBool b => Ok (if b then 1 else 0)%Z
  | JVersion z => Ok z
  | JStr s => py_int s
  | _ => Err TypeError
  end.

(** types/ConditionTypes.py:257-289 (type values; any int can be given) and 291-308. *)
Record uh := mkuh { uh_type : Z; uh_hash : bytes }.
(** types/ConditionTypes.py:286 *)
Definition UH_NIL : Z := 0.
(** types/ConditionTypes.py:287 *)
Definition UH_PUBLIC_KEY : Z := 1.
(** types/ConditionTypes.py:288 *)
Definition UH_ATOMIC_SWAP : Z := 2.
(** types/ConditionTypes.py:289 *)
Definition UH_MULTI_SIG : Z := 3.
(** types/ConditionTypes.py:304-308: [UnlockHash()]: nil type and the *empty* hash. *)
Definition uh_default : uh := mkuh 0 [].

(** types/ConditionTypes.py:385-390: type byte, hash as fixed-size array. *)
Definition uh_sia (u : uh) : res bytes := sia_byte (uh_type u) +++ Ok (uh_hash u).
(** types/ConditionTypes.py:392-397 [rivine_binary_encode] *)
Definition uh_riv (u : uh) : res bytes := riv_int 1 (uh_type u) +++ Ok (uh_hash u).

Section Hash.
Variable H : bytes -> bytes.

(** types/ConditionTypes.py:355-361 [_checksum] *)
Definition uh_checksum (u : uh) : res bytes :=
  if (uh_type u =? 0)%Z then Ok (repeatN 0 6)
  else do d <- uh_riv u; Ok (H d).

(** types/ConditionTypes.py:351-353 [__str__]; [bytearray([n])] raises ValueError outside 0..255. *)
Definition uh_str (u : uh) : res pystr :=
  do c <- uh_checksum u;
  do _ <- guard ((0 <=? uh_type u) && (uh_type u <? 256))%Z ValueError;
  Ok (hex [Z.to_N (uh_type u)] ++ hash_str (uh_hash u) ++ hex (firstn 6 c)).

(** types/ConditionTypes.py:310-331 [from_json] on a str *)
Definition uh_parse (s : pystr) : res uh :=
  do _ <- guard (length s =? 78)%nat ValueError;
  do t <- py_int (firstn 2 s);
  do h <- hash_new (BVStr (firstn 64 (skipn 2 s)));
  let u := mkuh t h in
  if (t =? 0)%Z then
    do _ <- guard (listN_eqb h (repeatN 0 32)) ValueError; Ok u
  else
    do c <- uh_checksum u;
    do _ <- guard (listN_eqb (hex (firstn 6 c)) (skipn 66 s)) ValueError; Ok u.
(** types/ConditionTypes.py:310-331 [from_json] *)
Definition uh_from_json (j : json) : res uh :=
  match j with JStr s => uh_parse s | _ => Err TypeError end.

(** types/ConditionTypes.py:367-372 [__eq__] on two UnlockHash objects. *)
Definition uh_eqb (a b : uh) : bool := (uh_type a =? uh_type b)%Z && listN_eqb (uh_hash a) (uh_hash b).

(** ** Public keys *)
(** types/CryptoTypes.py:11-48; only the two specifiers the library defines. *)
Inductive pkspec := PKNil | PKEd25519.
(** types/CryptoTypes.py:38-41 [__str__] *)
Definition pkspec_str (p : pkspec) : pystr := match p with PKNil => [] | PKEd25519 => s2b "ed25519" end.
(** types/CryptoTypes.py:35-36, 47-48 *)
Definition pkspec_int (p : pkspec) : Z := match p with PKNil => 0 | PKEd25519 => 1 end.
(** types/CryptoTypes.py:21-28: [from_json] *)
Definition pkspec_from_str (s : pystr) : res pkspec :=
  match s with
  | [] => Ok PKNil
  | _ => if listN_eqb s (s2b "ed25519") then Ok PKEd25519 else Err InvalidPublicKeySpecifier
  end.

(** types/CryptoTypes.py:50-62; [_hash] None and the empty hash behave alike (getter 92-96). *)
Record pubkey := mkpk { pk_spec : pkspec; pk_hash : bytes }.
(** types/CryptoTypes.py:57-62 [PublicKey()] *)
Definition pk_default : pubkey := mkpk PKNil [].

(** Python builtin, used in types/CryptoTypes.py:64-77: [str.split(sep, maxsplit)] for one separator character: at most [n] splits. *)
Fixpoint splitn (sep : N) (n : nat) (acc : pystr) (s : pystr) : list pystr :=
  match s with
  | [] => [rev acc]
  | c :: s' =>
      match n with
      | O => [rev acc ++ s]
      | S n' => if c =? sep then rev acc :: splitn sep n' [] s' else splitn sep n (c :: acc) s'
      end
  end.

(** types/CryptoTypes.py:64-77 [from_json] *)
Definition pk_from_json (j : json) : res pubkey :=
  if jtruthy j then
    match j with
    | JStr s =>
        match splitn 58 2 [] s with
        | [a; b] =>
            do sp <- pkspec_from_str a;
            do h <- hash_from_json (JStr b);
            Ok (mkpk sp h)
        | _ => Err ValueError
        end
    | _ => Err TypeError
    end
  else Ok pk_default.

(** types/CryptoTypes.py:107-108 [__str__] *)
Definition pk_str (p : pubkey) : pystr := pkspec_str (pk_spec p) ++ 58 :: hash_str (pk_hash p).

(** types/CryptoTypes.py:128-132 [_pad_specifier] *)
Definition pad16 (s : bytes) : bytes := s ++ repeatN 0 (16 - length s).
(** types/CryptoTypes.py:134-139 *)
Definition pk_sia (p : pubkey) : res bytes := Ok (pad16 (pkspec_str (pk_spec p))) +++ sia_slice (pk_hash p).
(** types/CryptoTypes.py:141-146 [rivine_binary_encode] *)
Definition pk_riv (p : pubkey) : res bytes := riv_int 1 (pkspec_int (pk_spec p)) +++ Ok (pk_hash p).

(** types/CryptoTypes.py:113-126 [unlockhash]: what is hashed, and the result. *)
Definition pk_uh_input (p : pubkey) : res bytes := do d <- pk_sia p; sia_slice d.
(** types/CryptoTypes.py:114-126 [unlockhash] *)
Definition pk_unlockhash (p : pubkey) : res uh := do d <- pk_uh_input p; Ok (mkuh UH_PUBLIC_KEY (H d)).

End Hash.
