(** Model of /repo/tfchain/encoders/sia.py and /repo/tfchain/encoders/rivine.py. *)
From Verif Require Import Base.
Set Implicit Arguments.

(** encoders/sia.py:32-40, encoders/rivine.py:36-44: A write to an encoder: the bytes appended to [_data] and the exception raised, if any (bytes
    written before an exception stay in [_data]). *)
Definition W : Type := bytes * option exn.
(** encoders/sia.py:42-58: [self._data += b] *)
Definition wok (b : bytes) : W := (b, None).
(** encoders/sia.py:42-58: [raise e] *)
Definition wraise (e : exn) : W := ([], Some e).
(** encoders/sia.py:160-170: one write after the other *)
Definition wseq (a b : W) : W :=
  match snd a with None => (fst a ++ fst b, snd b) | Some _ => a end.
(** encoders/sia.py:60-98: [self._data += r], where computing r may raise *)
Definition w_of_res (r : res bytes) : W := match r with Ok b => wok b | Err e => wraise e end.
(** encoders/sia.py:148-158, encoders/rivine.py:74-84: [try: ... except TypeError: raise e] *)
Definition w_retype (e : exn) (a : W) : W :=
  match snd a with Some TypeError => (fst a, Some e) | _ => a end.

(** encoders/sia.py:128-158, encoders/rivine.py:46-84: Python values which can be handed to an encoder.
    - [VIntLike z]: an object with [__int__] which is not an [int] (and no encoder object);
    - [VObj sia riv]: an object implementing both encoder interfaces, given by what its
      [sia_binary_encode] / [rivine_binary_encode] write. *)
Inductive pyval :=
| VNone
| VBool (b : bool)
| VInt (z : Z)
| VIntLike (z : Z)
| VStr (s : pystr)
| VBytes (b : bytes)
| VList (l : list pyval)
| VObj (sia riv : W).

(** Range-checked little-endian integer; the shared core of sia.py:42-58 and rivine.py:86-145.
    [int.to_bytes] never overflows after the check. *)
Definition int_le (w : nat) (limit : Z) (z : Z) : W :=
  if (z <? 0)%Z then wraise IntegerOutOfRange
  else if (limit <? z)%Z then wraise IntegerOutOfRange
  else wok (le w (Z.to_N z)).

(** encoders/sia.py:42-58, encoders/rivine.py:97-145: the largest integer of w bytes *)
Definition limit_of (w : nat) : Z := (2 ^ (8 * Z.of_nat w) - 1)%Z.

(** sia.py:42-58 [add_int]: only real ints ([bool] is an [int]); an int-like is a TypeError. *)
Definition sia_add_int (v : pyval) : W :=
  match v with
  | VInt z => int_le 8 (limit_of 8) z
  | VBool b => int_le 8 (limit_of 8) (if b then 1 else 0)%Z
  | _ => wraise TypeError
  end.

(** encoders/sia.py:100-126, encoders/rivine.py:201-218: the str and bytes cases: sia.py:100-126 [add_byte] *)
Definition byte_of_text (r : res bytes) : W :=
  match r with
  | Ok b => if (length b =? 1)%nat then wok b else wraise ValueError
  | Err e => wraise e
  end.
(** encoders/sia.py:100-126 [add_byte] *)
Definition sia_add_byte (v : pyval) : W :=
  match v with
  | VInt z | VIntLike z =>
      if (z <? 0)%Z || (255 <? z)%Z then wraise ValueError else wok (le 1 (Z.to_N z))
  | VBool b => wok (le 1 (if b then 1 else 0))
  | VStr s => byte_of_text (utf8 s)
  | VBytes b => byte_of_text (Ok b)
  | _ => wraise ValueError
  end.

(** sia.py:128-158 [add], with [add_array] (60-78) and [add_slice] (80-98) for the list case, where they call
    [add] back on each element. *)
Fixpoint sia_add (v : pyval) : W :=
  match v with
  | VObj sia _ => sia
  | VBool b => wok [if b then 1 else 0]
  | VInt z => sia_add_int (VInt z)
  | VStr s => w_retype ValueError (wseq (sia_add_int (VInt (Z.of_nat (length s)))) (w_of_res (utf8 s)))
  | VBytes b => w_retype ValueError (wseq (sia_add_int (VInt (Z.of_nat (length b)))) (wok b))
  | VList l =>
      w_retype ValueError
        (wseq (sia_add_int (VInt (Z.of_nat (length l))))
              ((fix go (l : list pyval) : W :=
                  match l with [] => wok [] | x :: l => wseq (sia_add x) (go l) end) l))
  | VNone | VIntLike _ => wraise ValueError
  end.

(** sia.py:160-170 [add_all] *)
Fixpoint sia_add_all (vs : list pyval) : W :=
  match vs with [] => wok [] | v :: vs => wseq (sia_add v) (sia_add_all vs) end.

(** sia.py:60-78 [add_array] *)
Definition sia_add_array (v : pyval) : W :=
  match v with
  | VStr s => w_of_res (utf8 s)
  | VBytes b => wok b
  | VList l => sia_add_all l
  | _ => wraise TypeError
  end.

(** sia.py:80-98 [add_slice] *)
Definition sia_add_slice (v : pyval) : W :=
  match v with
  | VStr s => wseq (sia_add_int (VInt (Z.of_nat (length s)))) (w_of_res (utf8 s))
  | VBytes b => wseq (sia_add_int (VInt (Z.of_nat (length b)))) (wok b)
  | VList l => wseq (sia_add_int (VInt (Z.of_nat (length l)))) (sia_add_array v)
  | _ => wraise TypeError
  end.

(** rivine.py:86-145 [add_int8] ... [add_int64]; [w] is the width in bytes. *)
Definition riv_add_intw (w : nat) (v : pyval) : W :=
  match v with
  | VInt z | VIntLike z => int_le w (limit_of w) z
  | VBool b => int_le w (limit_of w) (if b then 1 else 0)%Z
  | _ => wraise TypeError
  end.

(** rivine.py:185-199 [_add_slice_length]; the shifts and ors are on non-negative numbers. *)
Definition riv_len (n : N) : W :=
  if n <? 2 ^ 7 then riv_add_intw 1 (VInt (Z.of_N (N.shiftl n 1)))
  else if n <? 2 ^ 14 then riv_add_intw 2 (VInt (Z.of_N (N.lor 1 (N.shiftl n 2))))
  else if n <? 2 ^ 21 then riv_add_intw 3 (VInt (Z.of_N (N.lor 3 (N.shiftl n 3))))
  else if n <? 2 ^ 29 then riv_add_intw 4 (VInt (Z.of_N (N.lor 7 (N.shiftl n 3))))
  else wraise SliceLengthOutOfRange.

(** rivine.py:46-84 [add] with [add_array] (147-163) and [add_slice] (165-183) inlined for lists. *)
Fixpoint riv_add (v : pyval) : W :=
  match v with
  | VObj _ riv => riv
  | VBool b => wok [if b then 1 else 0]
  | VInt z => riv_add_intw 8 (VInt z)
  | VIntLike z => riv_add_intw 8 (VIntLike z)
  | VStr s => w_retype ValueError (wseq (riv_len (lenN s)) (w_of_res (utf8 s)))
  | VBytes b => w_retype ValueError (wseq (riv_len (lenN b)) (wok b))
  | VList l =>
      w_retype ValueError
        (wseq (riv_len (lenN l))
              ((fix go (l : list pyval) : W :=
                  match l with [] => wok [] | x :: l => wseq (riv_add x) (go l) end) l))
  | VNone => wraise ValueError
  end.

(** rivine.py:220-230 [add_all] *)
Fixpoint riv_add_all (vs : list pyval) : W :=
  match vs with [] => wok [] | v :: vs => wseq (riv_add v) (riv_add_all vs) end.

(** rivine.py:147-163 [add_array] *)
Definition riv_add_array (v : pyval) : W :=
  match v with
  | VStr s => w_of_res (utf8 s)
  | VBytes b => wok b
  | VList l => riv_add_all l
  | _ => wraise TypeError
  end.

(** rivine.py:165-183 [add_slice] *)
Definition riv_add_slice (v : pyval) : W :=
  match v with
  | VStr s => wseq (riv_len (lenN s)) (w_of_res (utf8 s))
  | VBytes b => wseq (riv_len (lenN b)) (wok b)
  | VList l => wseq (riv_len (lenN l)) (riv_add_array v)
  | _ => wraise TypeError
  end.

(** rivine.py:201-218 [add_byte] *)
Definition riv_add_byte (v : pyval) : W :=
  match v with
  | VInt z | VIntLike z => riv_add_intw 1 (VInt z)
  | VBool b => riv_add_intw 1 (VBool b)
  | VStr s => byte_of_text (utf8 s)
  | VBytes b => byte_of_text (Ok b)
  | _ => wraise ValueError
  end.

(** An encoder object: its [_data] (sia.py:32-40, rivine.py:36-44), and a call on it. *)
Definition encoder := bytes.
(** encoders/__init__.py:7-12, encoders/sia.py:32-33, encoders/rivine.py:36-37 *)
Definition encoder_new : encoder := [].
(** encoders/sia.py:32-170, encoders/rivine.py:36-230: any of the methods, on the object *)
Definition call (d : encoder) (w : W) : encoder * option exn := (d ++ fst w, snd w).

(** ** The same primitives as used by the type models: appended bytes or the exception. *)
(** encoders/sia.py:32-170, encoders/rivine.py:36-230 *)
Definition r_of_w (w : W) : res bytes := match snd w with None => Ok (fst w) | Some e => Err e end.

(** [encoder.add_int(n)] / [encoder.add(n)] with an int, sia.py:42-58 *)
Definition sia_int (z : Z) : res bytes := r_of_w (sia_add_int (VInt z)).
(** [encoder.add_slice(b)] with bytes, sia.py:80-98 *)
Definition sia_slice (b : bytes) : res bytes := r_of_w (sia_add_slice (VBytes b)).
(** [encoder.add_byte(n)] with an int, sia.py:100-126 *)
Definition sia_byte (z : Z) : res bytes := r_of_w (sia_add_byte (VInt z)).
(** [encoder.add(l)] / [add_slice(l)] for a list of encoder objects: length then each object, sia.py:80-98 *)
Definition sia_list {A} (enc : A -> res bytes) (l : list A) : res bytes :=
  sia_int (Z.of_nat (length l)) +++ rconcat (map enc l).
(** [encoder.add_intN], rivine.py:86-145 *)
Definition riv_int (w : nat) (z : Z) : res bytes := r_of_w (riv_add_intw w (VInt z)).
(** [encoder.add_slice(b)], rivine.py:165-183 *)
Definition riv_slice (b : bytes) : res bytes := r_of_w (riv_add_slice (VBytes b)).
(** encoders/rivine.py:201-218 [add_byte] with an int *)
Definition riv_byte (z : Z) : res bytes := r_of_w (riv_add_byte (VInt z)).
(** encoders/rivine.py:185-199 [_add_slice_length] *)
Definition riv_lenr (n : N) : res bytes := r_of_w (riv_len n).
(** encoders/rivine.py:165-183 [add_slice] of a list of encoder objects *)
Definition riv_list {A} (enc : A -> res bytes) (l : list A) : res bytes :=
  riv_lenr (lenN l) +++ rconcat (map enc l).
