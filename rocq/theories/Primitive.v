(** Model of /repo/tfchain/types/PrimitiveTypes.py (BinaryData and Hash).
    A BinaryData is a value; mutation through a shared bytearray is not modelled. *)
From Verif Require Import Base Encoders.

(** ** Base64: Python's [base64.b64encode] / [base64.b64decode] (standard library). *)
(** Python's base64 (standard library), used in types/PrimitiveTypes.py:20-22 *)
Definition b64c (d : N) : N :=
  if d <? 26 then 65 + d
  else if d <? 52 then 71 + d
  else if d <? 62 then d - 4
  else if d =? 62 then 43 else 47.
(** Python's base64 (standard library), used in types/PrimitiveTypes.py:20-22 *)
Definition unb64c (c : N) : option N :=
  if (65 <=? c) && (c <=? 90) then Some (c - 65)
  else if (97 <=? c) && (c <=? 122) then Some (c - 71)
  else if (48 <=? c) && (c <=? 57) then Some (c + 4)
  else if c =? 43 then Some 62
  else if c =? 47 then Some 63
  else None.
(** Python's base64 (standard library), used in types/PrimitiveTypes.py:20-22: [b64encode] *)
Fixpoint b64enc (b : bytes) : pystr :=
  match b with
  | [] => []
  | [x] => [b64c (x / 4); b64c (16 * (x mod 4)); 61; 61]
  | [x; y] => [b64c (x / 4); b64c (16 * (x mod 4) + y / 16); b64c (4 * (y mod 16)); 61]
  | x :: y :: z :: b =>
      b64c (x / 4) :: b64c (16 * (x mod 4) + y / 16) :: b64c (4 * (y mod 16) + z / 64) ::
      b64c (z mod 64) :: b64enc b
  end.
(** Python's base64 (standard library), used in types/PrimitiveTypes.py:20-22: CPython's [binascii.a2b_base64] in its lenient mode: characters outside the alphabet are skipped.
    [q]: position in the quad, [left]: bits carried over, [pads]: consecutive '=' seen. *)
Fixpoint b64dec_go (q left pads : N) (s : pystr) : res bytes :=
  match s with
  | [] => if q =? 0 then Ok [] else Err ValueError
  | c :: s =>
      if c =? 61 then
        if (2 <=? q) && (4 <=? q + (pads + 1)) then Ok []
        else b64dec_go q left (if 2 <=? q then pads + 1 else pads) s
      else match unb64c c with
           | None => b64dec_go q left pads s
           | Some d =>
               if q =? 0 then b64dec_go 1 d 0 s
               else if q =? 1 then do r <- b64dec_go 2 (d mod 16) 0 s; Ok ((4 * left + d / 16) :: r)
               else if q =? 2 then do r <- b64dec_go 3 (d mod 4) 0 s; Ok ((16 * left + d / 4) :: r)
               else do r <- b64dec_go 0 0 0 s; Ok ((64 * left + d) :: r)
           end
  end.
(** Python's base64 (standard library), used in types/PrimitiveTypes.py:20-22: [b64decode] *)
Definition b64dec (s : pystr) : res bytes :=
  if forallb (fun c => c <? 128) s then b64dec_go 0 0 0 s else Err ValueError.

(** ** BinaryData *)
(** String encodings, types/PrimitiveTypes.py:12-30.  [strencoding] itself ([None] or the text given) is kept, because
    [__eq__] compares it. *)
Inductive strkind := KHex | KBase64 | KHexPrefix.
(** types/PrimitiveTypes.py:12-30 *)
Definition strkind_of (e : option pystr) : res strkind :=
  match e with
  | None => Ok KHex
  | Some s =>
      let s := strip (lower s) in
      if listN_eqb s (s2b "hex") then Ok KHex
      else if listN_eqb s (s2b "base64") then Ok KBase64
      else if listN_eqb s (s2b "hexprefix") then Ok KHexPrefix
      else Err TypeError
  end.
(** types/PrimitiveTypes.py:17-25 [_from_str] *)
Definition from_str (k : strkind) (s : pystr) : res bytes :=
  match k with
  | KHex => unhex s
  | KBase64 => b64dec s
  | KHexPrefix =>
      match s with
      | a :: b :: t => if (a =? 48) && ((b =? 120) || (b =? 88)) then unhex t else unhex s
      | _ => unhex s
      end
  end.
(** types/PrimitiveTypes.py:17-26 [_to_str] *)
Definition to_str (k : strkind) (b : bytes) : pystr :=
  match k with
  | KHex => hex b
  | KBase64 => b64enc b
  | KHexPrefix => 48 :: 120 :: hex b
  end.

(** types/PrimitiveTypes.py:7-52 [BinaryData] *)
Record bindata := mkbd {
  bd_size : option N;       (* _fixed_size *)
  bd_enc : option pystr;    (* _strencoding *)
  bd_val : bytes            (* _value *)
}.

(** types/PrimitiveTypes.py:67-79: Values accepted by the [value] setter. *)
Inductive bval := BVNone | BVStr (s : pystr) | BVBytes (b : bytes) | BVData (d : bindata) | BVOther.

(** types/PrimitiveTypes.py:12-30: The kind of an existing object; [strkind_of] succeeded when it was built. *)
Definition bd_kind (e : option pystr) : strkind := match strkind_of e with Ok k => k | Err _ => KHex end.

(** types/PrimitiveTypes.py:67-79: the [value] setter: normalise, then check the size. *)
Definition bd_norm (k : strkind) (v : bval) : res bytes :=
  match v with
  | BVData d => Ok (bd_val d)
  | BVNone => Ok []
  | BVStr s => from_str k s
  | BVBytes b => Ok b
  | BVOther => Err TypeError
  end.
(** types/PrimitiveTypes.py:80-86 *)
Definition bd_size_ok (sz : option N) (b : bytes) : bool :=
  match sz with
  | Some n => (lenN b =? 0) || (lenN b =? n)
  | None => true
  end.
(** types/PrimitiveTypes.py:67-88 [value] setter *)
Definition bd_set (d : bindata) (v : bval) : res bindata :=
  do b <- bd_norm (bd_kind (bd_enc d)) v;
  do _ <- guard (bd_size_ok (bd_size d) b) ValueError;
  Ok (mkbd (bd_size d) (bd_enc d) b).

(** types/PrimitiveTypes.py:12-52, the constructor; [fixed_size] an int or None. *)
Definition bd_new (v : bval) (fixed_size : option Z) (enc : option pystr) : res bindata :=
  do _ <- strkind_of enc;
  do _ <- guard (match fixed_size with Some z => (0 <=? z)%Z | None => true end) TypeError;
  match fixed_size with
  | Some 0%Z => do d <- bd_set (mkbd None enc []) v; Ok (mkbd (Some (lenN (bd_val d))) enc (bd_val d))
  | Some z => bd_set (mkbd (Some (Z.to_N z)) enc []) v
  | None => bd_set (mkbd None enc []) v
  end.

(** types/PrimitiveTypes.py:54-61 [from_json] *)
Definition bd_from_json (j : json) (fixed_size : option Z) (enc : option pystr) : res bindata :=
  match j with
  | JNull => bd_new BVNone fixed_size enc
  | JStr s => bd_new (match s with [] => BVNone | _ => BVStr s end) fixed_size enc
  | _ => Err TypeError
  end.

(** types/PrimitiveTypes.py:93-100 [__str__] / [json] *)
Definition bd_str (d : bindata) : pystr := to_str (bd_kind (bd_enc d)) (bd_val d).

(** Python's [==] of None or int, types/PrimitiveTypes.py:117-120: [__eq__] between BinaryData objects. *)
Definition optN_eqb (a b : option N) : bool :=
  match a, b with Some x, Some y => x =? y | None, None => true | _, _ => false end.
(** Python's [==] of None or str, types/PrimitiveTypes.py:121-124 *)
Definition optS_eqb (a b : option pystr) : bool :=
  match a, b with Some x, Some y => listN_eqb x y | None, None => true | _, _ => false end.
(** types/PrimitiveTypes.py:102-125 [__eq__] *)
Definition bd_eq (a b : bindata) : res bool :=
  do _ <- guard (optN_eqb (bd_size a) (bd_size b)) TypeError;
  do _ <- guard (optS_eqb (bd_enc a) (bd_enc b)) TypeError;
  Ok (listN_eqb (bd_val a) (bd_val b)).

(** PrimitiveTypes.py:130-148: slice, or array when of fixed size. *)
Definition bd_sia (d : bindata) : res bytes :=
  match bd_size d with None => sia_slice (bd_val d) | Some _ => Ok (bd_val d) end.
(** types/PrimitiveTypes.py:140-148 [rivine_binary_encode] *)
Definition bd_riv (d : bindata) : res bytes :=
  match bd_size d with None => riv_slice (bd_val d) | Some _ => Ok (bd_val d) end.

(** ** Hash (PrimitiveTypes.py:151-174), always of fixed size 32 and encoding 'hex': represented by its bytes. *)
Definition hash_bd (h : bytes) : bindata := mkbd (Some 32) (Some (s2b "hex")) h.
(** types/PrimitiveTypes.py:158-159 [Hash] *)
Definition hash_new (v : bval) : res bytes :=
  do d <- bd_new v (Some 32%Z) (Some (s2b "hex")); Ok (bd_val d).
(** types/PrimitiveTypes.py:161-168: [from_json] *)
Definition hash_from_json (j : json) : res bytes :=
  match j with
  | JNull => hash_new BVNone
  | JStr s => hash_new (match s with [] => BVNone | _ => BVStr s end)
  | _ => Err TypeError
  end.
(** types/PrimitiveTypes.py:170-174: [__str__] *)
Definition hash_str (h : bytes) : pystr :=
  match hex h with [] => repeatN 48 64 | s => s end.
