(** Properties C01-C04: the two binary encoders. *)
From Verif Require Import Base Encoders Spec_Encoders EncodersFacts EncodersFacts2 EncodersFacts3.

(** C01: an integer is written as 8 little-endian bytes holding exactly that integer ... *)
Theorem C01_sia_int_exact : forall (d : encoder) (z : Z), (0 <= z < 2 ^ 64)%Z ->
  exists b, length b = 8%nat /\ wf_bytes b /\ Z.of_N (le_dec b) = z /\
            call d (sia_add_int (VInt z)) = (d ++ b, None).
Proof. exact sia_int_exact. Qed.
Print Assumptions C01_sia_int_exact.
Example C01_sia_int_exact_ex : (0 <= 18446744073709551615 < 2 ^ 64)%Z /\
  call [7] (sia_add_int (VInt 258)) = ([7; 2; 1; 0; 0; 0; 0; 0; 0], None).
Proof. split; [lia | reflexivity]. Qed.

(** ... and any other integer is refused, with nothing written. *)
Theorem C01_sia_int_reject : forall (d : encoder) (z : Z), ~ (0 <= z < 2 ^ 64)%Z ->
  call d (sia_add_int (VInt z)) = (d, Some IntegerOutOfRange).
Proof. exact sia_int_reject. Qed.
Print Assumptions C01_sia_int_reject.
Example C01_sia_int_reject_ex : ~ (0 <= -1 < 2 ^ 64)%Z /\ ~ (0 <= 2 ^ 64 < 2 ^ 64)%Z.
Proof. split; lia. Qed.

(** A byte slice is its 8-byte length followed by the bytes. *)
Theorem C01_sia_slice_exact : forall (d : encoder) (b : bytes), lenN b < 2 ^ 64 ->
  exists p, length p = 8%nat /\ le_dec p = lenN b /\ call d (sia_add_slice (VBytes b)) = (d ++ p ++ b, None).
Proof. exact sia_slice_exact. Qed.
Print Assumptions C01_sia_slice_exact.
Example C01_sia_slice_exact_ex : lenN [9; 8; 7] < 2 ^ 64 /\
  call [] (sia_add_slice (VBytes [9; 8; 7])) = ([3; 0; 0; 0; 0; 0; 0; 0; 9; 8; 7], None).
Proof. split; [reflexivity | reflexivity]. Qed.

(** Any sequence of values (booleans, 64-bit integers, byte strings, nested lists) is appended to what was
    written before and can be read back exactly, whatever follows. *)
Theorem C01_sia_decodable : forall (vs : list pyval) (ss : list shape) (d : encoder) (rest : bytes),
  Forall2 has_shape vs ss -> Forall (fits (2 ^ 64)) vs ->
  exists w, call d (sia_add_all vs) = (d ++ w, None) /\ sia_read_all ss (w ++ rest) = Some (vs, rest).
Proof. exact sia_decodable. Qed.
Print Assumptions C01_sia_decodable.
Example C01_sia_decodable_ex :
  let vs := [VBool true; VInt 300; VList [VList [VBytes [1;2]; VBytes []]; VList []]] in
  let ss := [ShBool; ShInt; ShList (ShList ShBytes)] in
  Forall2 has_shape vs ss /\ Forall (fits (2 ^ 64)) vs.
Proof. cbn. split; repeat constructor; cbn; try reflexivity; try lia. Qed.

Theorem C01_sia_injective : forall (vs vs' : list pyval) (ss : list shape) (w rest rest' w' : bytes),
  Forall2 has_shape vs ss -> Forall2 has_shape vs' ss ->
  sia_add_all vs = (w, None) -> sia_add_all vs' = (w', None) -> w ++ rest = w' ++ rest' ->
  vs = vs' /\ rest = rest'.
Proof. exact sia_injective. Qed.
Print Assumptions C01_sia_injective.
Example C01_sia_injective_ex :
  let vs := [VBytes [1]; VBytes [2; 3]] in
  Forall2 has_shape vs [ShBytes; ShBytes] /\ exists w, sia_add_all vs = (w, None).
Proof. cbn. split; [repeat constructor | eexists; reflexivity]. Qed.

(** C02: every slice length below 2^29 has the shortest of the four prefixes and is read back whatever
    follows ... *)
Theorem C02_riv_prefix_exact : forall (d : encoder) (n : N), n < 2 ^ 29 ->
  exists p, call d (riv_len n) = (d ++ p, None) /\ wf_bytes p /\
    length p = (if n <? 2 ^ 7 then 1%nat else if n <? 2 ^ 14 then 2%nat else if n <? 2 ^ 21 then 3%nat else 4%nat) /\
    forall rest, riv_read_len (p ++ rest) = Some (n, rest).
Proof. exact riv_prefix_exact. Qed.
Print Assumptions C02_riv_prefix_exact.
Example C02_riv_prefix_exact_ex : 536870911 < 2 ^ 29 /\
  call [] (riv_len 128) = ([1; 2], None) /\ call [] (riv_len 536870911) = ([255; 255; 255; 255], None).
Proof. repeat split. Qed.

Theorem C02_riv_prefix_minimal : forall (n : N) (q rest : bytes), n < 2 ^ 29 -> wf_bytes (q ++ rest) ->
  riv_read_len (q ++ rest) = Some (n, rest) ->
  exists p, riv_len n = (p, None) /\ (length p <= length q)%nat.
Proof. exact riv_prefix_minimal_w. Qed.
Print Assumptions C02_riv_prefix_minimal.
Example C02_riv_prefix_minimal_ex : riv_read_len ([21; 0] ++ [4]) = Some (5, [4]) /\ riv_len 5 = ([10], None).
Proof. split; reflexivity. Qed.

(** ... and longer slices are refused with nothing written. *)
Theorem C02_riv_prefix_reject : forall (d : encoder) (n : N), 2 ^ 29 <= n ->
  call d (riv_len n) = (d, Some SliceLengthOutOfRange).
Proof. exact riv_prefix_reject. Qed.
Print Assumptions C02_riv_prefix_reject.
Example C02_riv_prefix_reject_ex : 2 ^ 29 <= 2 ^ 29 /\ 2 ^ 29 <= 2 ^ 40.
Proof. split; discriminate. Qed.

Theorem C02_riv_decodable : forall (vs : list pyval) (ss : list shape) (d : encoder) (rest : bytes),
  Forall2 has_shape vs ss -> Forall (fits (2 ^ 29)) vs ->
  exists w, call d (riv_add_all vs) = (d ++ w, None) /\ riv_read_all ss (w ++ rest) = Some (vs, rest).
Proof. exact riv_decodable. Qed.
Print Assumptions C02_riv_decodable.
Example C02_riv_decodable_ex :
  let vs := [VBytes [1;2;3]; VInt 5; VList [VBytes [9]; VBytes []]] in
  Forall2 has_shape vs [ShBytes; ShInt; ShList ShBytes] /\ Forall (fits (2 ^ 29)) vs.
Proof. cbn. split; repeat constructor; cbn; try reflexivity; try lia. Qed.

(** C03: fixed-width integers (w = 1, 2, 3, 4, 8 bytes in the code). *)
Theorem C03_riv_int_exact : forall (d : encoder) (w : nat) (z : Z), (0 <= z < 2 ^ (8 * Z.of_nat w))%Z ->
  exists b, length b = w /\ wf_bytes b /\ Z.of_N (le_dec b) = z /\
            call d (riv_add_intw w (VInt z)) = (d ++ b, None) /\
            call d (riv_add_intw w (VIntLike z)) = (d ++ b, None).
Proof. exact riv_int_exact. Qed.
Print Assumptions C03_riv_int_exact.
Example C03_riv_int_exact_ex : (0 <= 16777215 < 2 ^ (8 * Z.of_nat 3))%Z /\
  call [1] (riv_add_intw 3 (VInt 16777215)) = ([1; 255; 255; 255], None).
Proof. split; [lia | reflexivity]. Qed.

Theorem C03_riv_int_reject : forall (d : encoder) (w : nat) (z : Z), ~ (0 <= z < 2 ^ (8 * Z.of_nat w))%Z ->
  call d (riv_add_intw w (VInt z)) = (d, Some IntegerOutOfRange) /\
  call d (riv_add_intw w (VIntLike z)) = (d, Some IntegerOutOfRange).
Proof. exact riv_int_reject. Qed.
Print Assumptions C03_riv_int_reject.
Example C03_riv_int_reject_ex : ~ (0 <= 256 < 2 ^ (8 * Z.of_nat 1))%Z /\ ~ (0 <= -1 < 2 ^ (8 * Z.of_nat 8))%Z.
Proof. split; lia. Qed.

(** C04 is false: the declared length of a text counts characters, not bytes. *)
Theorem C04_string_slice_refuted :
  exists s b ws wr, utf8 s = Ok b /\ sia_add_slice (VStr s) = (ws, None) /\ riv_add_slice (VStr s) = (wr, None) /\
    sia_read ShBytes ws <> Some (VBytes b, []) /\ riv_read ShBytes wr <> Some (VBytes b, []).
Proof. exact str_slice_refuted. Qed.
Print Assumptions C04_string_slice_refuted.

(** What holds: the slice is readable exactly when the text is ASCII (both encoders). *)
Theorem C04_sia_string_slice_partial : forall (s : pystr) (w b : bytes),
  utf8 s = Ok b -> sia_add_slice (VStr s) = (w, None) ->
  (sia_read ShBytes w = Some (VBytes b, []) <-> Forall (fun c => c < 128) s).
Proof. exact sia_str_read. Qed.
Print Assumptions C04_sia_string_slice_partial.
Theorem C04_riv_string_slice_partial : forall (s : pystr) (w b : bytes),
  utf8 s = Ok b -> riv_add_slice (VStr s) = (w, None) ->
  (riv_read ShBytes w = Some (VBytes b, []) <-> Forall (fun c => c < 128) s).
Proof. exact riv_str_read. Qed.
Print Assumptions C04_riv_string_slice_partial.
Example C04_string_slice_partial_ex : exists b w w', utf8 (s2b "foo") = Ok b /\
  sia_add_slice (VStr (s2b "foo")) = (w, None) /\ riv_add_slice (VStr (s2b "foo")) = (w', None).
Proof. do 3 eexists. repeat split; reflexivity. Qed.

(** C01-C03, explicit calls of [add_slice], [add_array] and [add_byte].  A slice of a list carries its length, an array does
    not; a byte is one byte or refused with nothing written. *)
Theorem C01_sia_slice_list : forall (l : list pyval) (s : shape) (d : encoder) (rest : bytes),
  has_shape (VList l) (ShList s) -> fits (2 ^ 64) (VList l) ->
  exists w, call d (sia_add_slice (VList l)) = (d ++ w, None) /\ sia_read (ShList s) (w ++ rest) = Some (VList l, rest).
Proof. exact sia_slice_list. Qed.
Print Assumptions C01_sia_slice_list.
Theorem C01_sia_array_list : forall (l : list pyval) (ss : list shape) (d : encoder) (rest : bytes),
  Forall2 has_shape l ss -> Forall (fits (2 ^ 64)) l ->
  exists w, call d (sia_add_array (VList l)) = (d ++ w, None) /\ sia_read_all ss (w ++ rest) = Some (l, rest).
Proof. exact sia_array_list. Qed.
Print Assumptions C01_sia_array_list.
Theorem C01_array_bytes : forall (d : encoder) (b : bytes),
  call d (sia_add_array (VBytes b)) = (d ++ b, None) /\ call d (riv_add_array (VBytes b)) = (d ++ b, None).
Proof. exact array_bytes. Qed.
Print Assumptions C01_array_bytes.
Theorem C02_riv_slice_list : forall (l : list pyval) (s : shape) (d : encoder) (rest : bytes),
  has_shape (VList l) (ShList s) -> fits (2 ^ 29) (VList l) ->
  exists w, call d (riv_add_slice (VList l)) = (d ++ w, None) /\ riv_read (ShList s) (w ++ rest) = Some (VList l, rest).
Proof. exact riv_slice_list. Qed.
Print Assumptions C02_riv_slice_list.
Theorem C02_riv_slice_bytes : forall (d : encoder) (b : bytes), lenN b < 2 ^ 29 ->
  exists p, call d (riv_add_slice (VBytes b)) = (d ++ p ++ b, None) /\ forall rest, riv_read_len (p ++ rest) = Some (lenN b, rest).
Proof. exact riv_slice_bytes. Qed.
Print Assumptions C02_riv_slice_bytes.
Theorem C02_riv_slice_bytes_reject : forall (d : encoder) (b : bytes), 2 ^ 29 <= lenN b ->
  call d (riv_add_slice (VBytes b)) = (d, Some SliceLengthOutOfRange).
Proof. exact riv_slice_bytes_reject. Qed.
Print Assumptions C02_riv_slice_bytes_reject.
Theorem C02_riv_array_list : forall (l : list pyval) (ss : list shape) (d : encoder) (rest : bytes),
  Forall2 has_shape l ss -> Forall (fits (2 ^ 29)) l ->
  exists w, call d (riv_add_array (VList l)) = (d ++ w, None) /\ riv_read_all ss (w ++ rest) = Some (l, rest).
Proof. exact riv_array_list. Qed.
Print Assumptions C02_riv_array_list.
Example C02_riv_slice_list_ex : let l := [VList [VBytes [1]; VBytes []]; VList []] in
  has_shape (VList l) (ShList (ShList ShBytes)) /\ fits (2 ^ 29) (VList l) /\ Forall2 has_shape l [ShList ShBytes; ShList ShBytes].
Proof. cbn. repeat split; repeat constructor. Qed.
(** [byte_int v]: the integer a Python int, bool or int-like object stands for *)
Theorem C03_add_byte_exact : forall (d : encoder) (v : pyval) (z : Z), byte_int v = Some z -> (0 <= z < 256)%Z ->
  call d (sia_add_byte v) = (d ++ [Z.to_N z], None) /\ call d (riv_add_byte v) = (d ++ [Z.to_N z], None).
Proof. exact add_byte_int. Qed.
Print Assumptions C03_add_byte_exact.
Theorem C03_add_byte_reject : forall (d : encoder) (v : pyval) (z : Z), byte_int v = Some z -> ~ (0 <= z < 256)%Z ->
  call d (sia_add_byte v) = (d, Some ValueError) /\ call d (riv_add_byte v) = (d, Some IntegerOutOfRange).
Proof. exact add_byte_int_reject. Qed.
Print Assumptions C03_add_byte_reject.
Theorem C03_add_byte_bytes : forall (d : encoder) (b : bytes),
  (length b = 1%nat -> call d (sia_add_byte (VBytes b)) = (d ++ b, None) /\ call d (riv_add_byte (VBytes b)) = (d ++ b, None)) /\
  (length b <> 1%nat -> call d (sia_add_byte (VBytes b)) = (d, Some ValueError) /\ call d (riv_add_byte (VBytes b)) = (d, Some ValueError)).
Proof. exact add_byte_text. Qed.
Print Assumptions C03_add_byte_bytes.
Example C03_add_byte_ex : byte_int (VIntLike 255) = Some 255%Z /\ (0 <= 255 < 256)%Z /\ byte_int (VInt 256) = Some 256%Z /\ ~ (0 <= 256 < 256)%Z.
Proof. repeat split; lia. Qed.
