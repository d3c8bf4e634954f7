(** Hashes, keys, signatures and addresses as texts (C83). *)
From Verif Require Import Base Primitive Types Spec_ERC20 Spec_Amounts.

(** Some digits in pairs and blanks before and between them: nothing at all, or [n] bytes. *)
Definition data_text (n : nat) (s : pystr) (b : bytes) : Prop := pairs s b /\ (b = [] \/ length b = n).
(** Digits in pairs, all in lower case and without blanks. *)
Definition lower_digit (c : N) : Prop := 48 <= c <= 57 \/ 97 <= c <= 102.
Definition lower_text (s : pystr) (b : bytes) : Prop := pairs s b /\ Forall lower_digit s.
(** Data of [n] bytes in a document: null, or a text. *)
Definition data_json (n : nat) (j : json) (b : bytes) : Prop := (j = JNull /\ b = []) \/ exists s, j = JStr s /\ data_text n s b.
(** What Python takes for false. *)
Definition falsy (j : json) : Prop := In j [JNull; JBool false; JNum 0; JStr []; JArr []; JObj []].
(** A public key: the name of its kind, a colon and its bytes. *)
Definition kind_name (s : pystr) (p : pkspec) : Prop := (s = [] /\ p = PKNil) \/ (s = s2b "ed25519" /\ p = PKEd25519).
Definition key_text (s : pystr) (k : pubkey) : Prop :=
  exists a b, s = a ++ 58 :: b /\ ~ In 58 a /\ ~ In 58 b /\ kind_name a (pk_spec k) /\ data_text 32 b (pk_hash k).
Definition key_json (j : json) (k : pubkey) : Prop := (falsy j /\ k = mkpk PKNil []) \/ exists s, j = JStr s /\ key_text s k.
(** An address: two characters with its type, 64 with its hash, and 12 with six bytes of the hash of both. *)
Definition address_text (H : bytes -> bytes) (s : pystr) (u : uh) : Prop :=
  exists a b c, s = a ++ b ++ c /\ length a = 2%nat /\ length b = 64%nat /\ length c = 12%nat /\
    int_text a (uh_type u) /\ data_text 32 b (uh_hash u) /\
    ((uh_type u = 0%Z /\ uh_hash u = repeat 0 32) \/
     ((0 < uh_type u)%Z /\ lower_text c (firstn 6 (H (Z.to_N (uh_type u) :: uh_hash u))))).
(** A whole number in a document. *)
Definition whole_json (j : json) (z : Z) : Prop :=
  j = JNum z \/ j = JVersion z \/ (j = JBool true /\ z = 1%Z) \/ (j = JBool false /\ z = 0%Z) \/ exists s, j = JStr s /\ int_text s z.
(** ** Data in base64 *)
Definition letter (c d : N) : Prop := (65 <= c <= 90 /\ d = c - 65) \/ (97 <= c <= 122 /\ d = c - 71) \/ (48 <= c <= 57 /\ d = c + 4) \/ (c = 43 /\ d = 62) \/ (c = 47 /\ d = 63).
(** The letters of a text, as six bits each; other characters do not count. *)
Inductive letters : pystr -> list N -> Prop :=
| letters_end : letters [] []
| letters_count c d t l : letter c d -> letters t l -> letters (c :: t) (d :: l)
| letters_skip c t l : (forall d, ~ letter c d) -> letters t l -> letters (c :: t) l.
(** Four letters are three bytes; two or three letters at the end are one or two. *)
Inductive six_bits : list N -> bytes -> Prop :=
| no_letters : six_bits [] []
| two_letters a b : six_bits [a; b] [4 * a + b / 16]
| three_letters a b c : six_bits [a; b; c] [4 * a + b / 16; 16 * (b mod 16) + c / 4]
| four_letters a b c d l r : six_bits l r -> six_bits (a :: b :: c :: d :: l) (4 * a + b / 16 :: 16 * (b mod 16) + c / 4 :: 64 * (c mod 4) + d :: r).
(** Whether an = after the text [p] ends the data: it follows a third letter, or a second one and another =. *)
Definition closes (p : pystr) : Prop := exists l, letters p l /\
  (Nat.modulo (length l) 4 = 3%nat \/ (Nat.modulo (length l) 4 = 2%nat /\ exists x y, p = x ++ 61 :: y /\ letters y [])).
Definition open_text (p : pystr) : Prop := forall x y, p = x ++ 61 :: y -> ~ closes x.
(** A text without such an = has all its letters in groups of four; otherwise only what is before it counts. *)
Definition base64_text (s : pystr) (b : bytes) : Prop := Forall (fun c => c < 128) s /\ exists l, six_bits l b /\
  ((letters s l /\ open_text s /\ Nat.modulo (length l) 4 = 0%nat) \/ (exists p r, s = p ++ 61 :: r /\ closes p /\ open_text p /\ letters p l)).
(** Data of one of the three encodings, by their names. *)
Definition encoded (name s : pystr) (b : bytes) : Prop :=
  (name = s2b "hex" /\ pairs s b) \/ (name = s2b "base64" /\ base64_text s b) \/ (name = s2b "hexprefix" /\ exists t, after_prefix s t /\ pairs t b).
