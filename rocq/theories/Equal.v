(** Comparison of binary data and of addresses, with objects, texts and bytes. *)
From Verif Require Import Base Primitive Types.

(** types/PrimitiveTypes.py:110-116: what binary data is compared with: a str, bytes or bytearray, binary data, or anything else (None included). *)
Inductive dataop := DOText (s : pystr) | DOBytes (b : bytes) | DOData (d : bindata) | DOOther.
(** types/PrimitiveTypes.py:110-125: [_op_other_as_binary_data] *)
Definition bd_other (a : bindata) (o : dataop) : res bindata :=
  do b <- match o with
          | DOText s => bd_new (BVStr s) (option_map Z.of_N (bd_size a)) (bd_enc a)
          | DOBytes b => bd_new (BVBytes b) (option_map Z.of_N (bd_size a)) (bd_enc a)
          | DOData d => Ok d
          | DOOther => Err TypeError
          end;
  do _ <- guard (optN_eqb (bd_size a) (bd_size b)) TypeError;
  do _ <- guard (optS_eqb (bd_enc a) (bd_enc b)) TypeError;
  Ok b.
(** types/PrimitiveTypes.py:102-104: [__eq__] *)
Definition bd_eq_op (a : bindata) (o : dataop) : res bool := do b <- bd_other a o; Ok (listN_eqb (bd_val a) (bd_val b)).
(** types/PrimitiveTypes.py:106-108: [__ne__] *)
Definition bd_ne_op (a : bindata) (o : dataop) : res bool := do b <- bd_other a o; Ok (negb (listN_eqb (bd_val a) (bd_val b))).
(** types/PrimitiveTypes.py:127-128: [__hash__]; [shash]: Python's hash of a str *)
Definition bd_hash (shash : pystr -> Z) (a : bindata) : Z := shash (bd_str a).
(** types/PrimitiveTypes.py:127-128, 170-174: [__hash__] of a Hash *)
Definition hash_hash (shash : pystr -> Z) (a : bytes) : Z := shash (hash_str a).

Section Hash.
Variable H : bytes -> bytes.
(** types/ConditionTypes.py:378-383: what an address is compared with *)
Inductive uhop := UOText (s : pystr) | UOUh (u : uh) | UOOther.
(** types/ConditionTypes.py:377-383: [_op_other_as_unlockhash] *)
Definition uh_other (o : uhop) : res uh := match o with UOText s => uh_from_json H (JStr s) | UOUh u => Ok u | UOOther => Err TypeError end.
(** types/ConditionTypes.py:367-369: [__eq__]; the hashes are compared if the types are the same *)
Definition uh_eq_op (a : uh) (o : uhop) : res bool :=
  do b <- uh_other o;
  if (uh_type a =? uh_type b)%Z then bd_eq_op (hash_bd (uh_hash a)) (DOData (hash_bd (uh_hash b))) else Ok false.
(** types/ConditionTypes.py:370-372: [__ne__] *)
Definition uh_ne_op (a : uh) (o : uhop) : res bool :=
  do b <- uh_other o;
  if negb (uh_type a =? uh_type b)%Z then Ok true else bd_ne_op (hash_bd (uh_hash a)) (DOData (hash_bd (uh_hash b))).
(** types/ConditionTypes.py:374-375: [__hash__] *)
Definition uh_hash_op (shash : pystr -> Z) (a : uh) : res Z := do s <- uh_str H a; Ok (shash s).
End Hash.
