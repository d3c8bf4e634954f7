(** Specification of the two binary formats: what a reader of the published formats does.  Independent
    of the model of the encoders. *)
From Verif Require Import Base Encoders.
Set Implicit Arguments.

(** The reader knows the shape of the value it expects. *)
Inductive shape := ShBool | ShInt | ShBytes | ShList (s : shape).

Fixpoint has_shape (v : pyval) (s : shape) : Prop :=
  match v, s with
  | VBool _, ShBool => True
  | VInt _, ShInt => True
  | VBytes _, ShBytes => True
  | VList l, ShList s =>
      (fix all (l : list pyval) : Prop :=
         match l with [] => True | x :: l => has_shape x s /\ all l end) l
  | _, _ => False
  end.

Definition take (n : nat) (b : bytes) : option (bytes * bytes) :=
  if (n <=? length b)%nat then Some (firstn n b, skipn n b) else None.

(** Sia: lengths and integers are 8 little-endian bytes. *)
Definition sia_read_int (b : bytes) : option (N * bytes) :=
  match take 8 b with Some (x, r) => Some (le_dec x, r) | None => None end.

(** Rivine: the low bits of the first byte tell the width of the length. *)
Definition riv_read_len (b : bytes) : option (N * bytes) :=
  match b with
  | [] => None
  | b0 :: _ =>
      if b0 mod 2 =? 0 then match take 1 b with Some (x, r) => Some (le_dec x / 2, r) | None => None end
      else if b0 mod 4 =? 1 then match take 2 b with Some (x, r) => Some (le_dec x / 4, r) | None => None end
      else if b0 mod 8 =? 3 then match take 3 b with Some (x, r) => Some (le_dec x / 8, r) | None => None end
      else match take 4 b with Some (x, r) => Some (le_dec x / 8, r) | None => None end
  end.

Section Reader.
  Variable read_len : bytes -> option (N * bytes).

  Fixpoint read_n (rd : bytes -> option (pyval * bytes)) (n : nat) (b : bytes)
    : option (list pyval * bytes) :=
    match n with
    | O => Some ([], b)
    | S n => match rd b with
             | Some (v, r) => match read_n rd n r with Some (vs, r) => Some (v :: vs, r) | None => None end
             | None => None
             end
    end.

  Fixpoint read (s : shape) (b : bytes) : option (pyval * bytes) :=
    match s with
    | ShBool => match b with
                | 0 :: r => Some (VBool false, r)
                | 1 :: r => Some (VBool true, r)
                | _ => None
                end
    | ShInt => match sia_read_int b with Some (n, r) => Some (VInt (Z.of_N n), r) | None => None end
    | ShBytes => match read_len b with
                 | Some (n, r) => match take (N.to_nat n) r with
                                  | Some (x, r) => Some (VBytes x, r) | None => None end
                 | None => None end
    | ShList s => match read_len b with
                  | Some (n, r) => match read_n (read s) (N.to_nat n) r with
                                   | Some (l, r) => Some (VList l, r) | None => None end
                  | None => None end
    end.

  Fixpoint read_all (ss : list shape) (b : bytes) : option (list pyval * bytes) :=
    match ss with
    | [] => Some ([], b)
    | s :: ss => match read s b with
                 | Some (v, r) => match read_all ss r with Some (vs, r) => Some (v :: vs, r) | None => None end
                 | None => None
                 end
    end.
End Reader.

Definition sia_read := read sia_read_int.
Definition sia_read_all := read_all sia_read_int.
Definition riv_read := read riv_read_len.
Definition riv_read_all := read_all riv_read_len.
