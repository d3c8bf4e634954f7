(** Vocabulary for the properties of addresses, keys, locks and conditions. *)
From Verif Require Import Base Primitive Types Conditions.

(** What is assumed of BLAKE2b-256: it returns 32 bytes.  Nothing else (no collision freedom). *)
Definition hash_ok (H : bytes -> bytes) : Prop := forall x, length (H x) = 32%nat /\ wf_bytes (H x).

Definition hash32 (h : bytes) : Prop := length h = 32%nat /\ wf_bytes h.
Definition zeros (n : nat) : bytes := repeat 0 n.

(** An address in its normal form: a type the library defines, a 32 byte hash, all zero for the nil type. *)
Definition address (u : uh) : Prop :=
  (uh_type u = 0 \/ uh_type u = 1 \/ uh_type u = 2 \/ uh_type u = 3)%Z /\
  hash32 (uh_hash u) /\ (uh_type u = 0%Z -> uh_hash u = zeros 32).

(** An address of any printable type with a full hash. *)
Definition full_uh (u : uh) : Prop := (0 <= uh_type u < 256)%Z /\ hash32 (uh_hash u).

(** The checksum text of an address of a given type (1..255) and hash: six bytes of the hash of type and hash. *)
Definition checksum_text (H : bytes -> bytes) (t : N) (h : bytes) : pystr := hex (firstn 6 (H (t :: h))).

(** ** Conditions all of whose parts have their normal size. *)
Fixpoint full_cond (c : cond) : Prop :=
  match c with
  | CNil => True
  | CUnlockHash u => full_uh u
  | CSwap s r h _ => full_uh s /\ full_uh r /\ (forall b, h = Some b -> hash32 b)
  | CLock _ i => full_cond i
  | CMulti us _ => Forall full_uh us
  end.

(** Conditions as the network knows them, for the JSON round trip. *)
Definition simple_cond (c : cond) : Prop :=
  match c with
  | CNil => True
  | CUnlockHash u => address u
  | CMulti us _ => Forall address us
  | _ => False
  end.
Definition network_cond (c : cond) : Prop :=
  match c with
  | CSwap s r h l =>
      address s /\ (uh_type s <= 1)%Z /\ address r /\ (uh_type r <= 1)%Z /\
      (exists b, h = Some b /\ hash32 b) /\ (500000000 <= l)%Z
  | CLock l i => (0 <= l)%Z /\ simple_cond i
  | _ => simple_cond c
  end.

(** ** Who a recipient argument pays.  [parses s u]: the text [s] is an address. *)
Inductive owner (parses : pystr -> uh -> Prop) : rval -> uh -> Prop :=
| owner_none : owner parses RNone (mkuh 0 [])
| owner_uh u : owner parses (RUh u) u
| owner_str s u : parses s u -> owner parses (RStr s) u.

(** A sequence of owners: a list or tuple, or nothing. *)
Inductive owners_arg (parses : pystr -> uh -> Prop) : rval -> list uh -> Prop :=
| owners_list l us : Forall2 (owner parses) l us -> owners_arg parses (RList l) us
| owners_tuple l us : Forall2 (owner parses) l us -> owners_arg parses (RTuple l) us
| owners_empty r : In r [RNone; RInt 0; RBool false; RStr []; RBytes []] -> owners_arg parses r [].

Inductive count_arg : rval -> Z -> Prop :=
| count_int z : count_arg (RInt z) z
| count_true : count_arg (RBool true) 1
| count_false : count_arg (RBool false) 0
| count_none : count_arg RNone 0.

(** What Python counts as a whole number: an [int], or one of its subclass [bool]. *)
Definition whole_number (v : rval) : Prop := (exists z, v = RInt z) \/ (exists b, v = RBool b).

Inductive pays (parses : pystr -> uh -> Prop) : rval -> cond -> Prop :=
| pays_anyone : pays parses RNone CNil
| pays_cond c : pays parses (RCond c) c
| pays_address u : pays parses (RUh u) (CUnlockHash u)
| pays_text s u : parses s u -> pays parses (RStr s) (CUnlockHash u)
| pays_raw b u : parses (hex b) u -> pays parses (RBytes b) (CUnlockHash u)
| pays_all l us : Forall2 (owner parses) l us -> pays parses (RList l) (CMulti us (Z.of_nat (length us)))
| pays_n_of a b us n : whole_number a -> count_arg a n -> owners_arg parses b us ->
    pays parses (RTuple [a; b]) (CMulti us n)
| pays_of_n a b us n : ~ whole_number a -> count_arg b n -> owners_arg parses a us ->
    pays parses (RTuple [a; b]) (CMulti us n).
