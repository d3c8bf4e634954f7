(** Vocabulary for what the encoders write (C81): the published form of each kind of value, independent of the encoders. *)
From Verif Require Import Base Encoders.

(** a number in so many bytes, the lowest first *)
Definition little (w : nat) (n : N) (b : bytes) : Prop := length b = w /\ Forall (fun x => x < 256) b /\ le_dec b = n.
(** a character in UTF-8: the shortest form of its number, which is no surrogate *)
Definition tail_byte (x : N) : Prop := 128 <= x < 192.
Inductive utf8_of (c : N) : bytes -> Prop :=
| one_byte : c < 128 -> utf8_of c [c]
| two_bytes x y : 192 <= x < 224 -> tail_byte y -> c = (x - 192) * 64 + (y - 128) -> 128 <= c -> utf8_of c [x; y]
| three_bytes x y z : 224 <= x < 240 -> tail_byte y -> tail_byte z -> c = (x - 224) * 4096 + (y - 128) * 64 + (z - 128) -> 2048 <= c -> ~ 55296 <= c <= 57343 -> utf8_of c [x; y; z]
| four_bytes x y z t : 240 <= x < 248 -> tail_byte y -> tail_byte z -> tail_byte t -> c = (x - 240) * 262144 + (y - 128) * 4096 + (z - 128) * 64 + (t - 128) -> 65536 <= c <= 1114111 -> utf8_of c [x; y; z; t].
Definition text_bytes (s : pystr) (b : bytes) : Prop := exists bs, Forall2 utf8_of s bs /\ b = concat bs.

(** lengths *)
Definition sia_length (n : N) (p : bytes) : Prop := little 8 n p.
Definition rivine_length (n : N) (p : bytes) : Prop :=
  (n < 2 ^ 7 /\ little 1 (2 * n) p) \/ (2 ^ 7 <= n < 2 ^ 14 /\ little 2 (1 + 4 * n) p) \/ (2 ^ 14 <= n < 2 ^ 21 /\ little 3 (3 + 8 * n) p) \/ (2 ^ 21 <= n < 2 ^ 29 /\ little 4 (7 + 8 * n) p).
(** an int, or (Rivine only) an object with a number *)
Definition number_in (w : nat) (z : Z) (b : bytes) : Prop := exists n, z = Z.of_N n /\ little w n b.

Section Form.
Variable len : N -> bytes -> Prop.
Variable like : bool.
Variable own : W -> W -> W.
(** a value of any kind, with the length before a text, bytes or a list; the length of a text counts its characters.  An object writes its own form. *)
Inductive form : pyval -> bytes -> Prop :=
| form_false : form (VBool false) [0]
| form_true : form (VBool true) [1]
| form_int z b : number_in 8 z b -> form (VInt z) b
| form_like z b : like = true -> number_in 8 z b -> form (VIntLike z) b
| form_text s p b : len (lenN s) p -> text_bytes s b -> form (VStr s) (p ++ b)
| form_bytes b p : len (lenN b) p -> form (VBytes b) (p ++ b)
| form_list l p bs : len (lenN l) p -> Forall2 form l bs -> form (VList l) (p ++ concat bs)
| form_object x y b : own x y = (b, None) -> form (VObj x y) b.
(** [add_all]: one after the other; [add_array]: without the length; [add_slice]: with it *)
Definition all_form (l : list pyval) (b : bytes) : Prop := exists bs, Forall2 form l bs /\ b = concat bs.
Definition array_form (v : pyval) (b : bytes) : Prop := (exists s, v = VStr s /\ text_bytes s b) \/ v = VBytes b \/ exists l, v = VList l /\ all_form l b.
Definition items (v : pyval) : option N := match v with VStr s => Some (lenN s) | VBytes b => Some (lenN b) | VList l => Some (lenN l) | _ => None end.
Definition slice_form (v : pyval) (w : bytes) : Prop := exists n p b, items v = Some n /\ len n p /\ array_form v b /\ w = p ++ b.
End Form.
Definition sia_form := form sia_length false (fun x _ => x).
Definition rivine_form := form rivine_length true (fun _ y => y).
(** [add_int] and [add_int8] ... [add_int64]: True and False are 1 and 0 *)
Definition int_form (like : bool) (w : nat) (v : pyval) (b : bytes) : Prop :=
  match v with VInt z => number_in w z b | VBool x => number_in w (if x then 1 else 0)%Z b | VIntLike z => like = true /\ number_in w z b | _ => False end.
(** [add_byte]: a number, or a text or bytes of one byte *)
Definition byte_form (v : pyval) (b : bytes) : Prop :=
  int_form true 1 v b \/ (exists s, v = VStr s /\ text_bytes s b /\ length b = 1%nat) \/ (v = VBytes b /\ length b = 1%nat).
(** what is no value of such a kind *)
Definition no_number (like : bool) (v : pyval) : Prop := match v with VInt _ | VBool _ => False | VIntLike _ => like = false | _ => True end.
