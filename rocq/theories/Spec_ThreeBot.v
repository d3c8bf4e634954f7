(** Specification vocabulary for 3Bot names and network addresses (C42, C43), independent of the code: what a host name and a
    3Bot name are, and how to read them back from bytes. *)
From Verif Require Import Base Types ThreeBotTypes.

(** ** Character classes *)
Definition letter (c : N) : Prop := (65 <= c <= 90) \/ (97 <= c <= 122).
Definition digit (c : N) : Prop := 48 <= c <= 57.
Definition letter_digit (c : N) : Prop := letter c \/ digit c.
Definition dash (c : N) : Prop := c = 45.
Definition underscore (c : N) : Prop := c = 95.
Definition DOT : N := 46.

(** ** 3Bot names: parts of at least five characters separated by dots *)
(** a part starts with a letter, ends with a letter or digit, and has [mid] letters, digits or dashes between *)
Definition name_part (most : nat) (s : pystr) : Prop :=
  exists a m z, s = a :: m ++ [z] /\ letter a /\ letter_digit z /\ Forall (fun c => letter_digit c \/ dash c) m /\ (3 <= length m <= most)%nat.
Definition bot_name (s : pystr) : Prop :=
  exists p ps, s = p ++ flat_map (fun q => DOT :: q) ps /\ name_part 61 p /\ Forall (name_part 55) ps.

(** ** Host names: a label, a dot, and a top level domain or a domain under one *)
Definition host_label (s : pystr) : Prop :=
  (exists a, s = [a] /\ letter a) \/
  (exists a b, s = [a; b] /\ ((letter a /\ letter b) \/ (letter a /\ digit b) \/ (digit a /\ letter b))) \/
  (exists a m z, s = a :: m ++ [z] /\ letter_digit a /\ letter_digit z /\ Forall (fun c => letter_digit c \/ dash c \/ underscore c) m /\ (1 <= length m <= 61)%nat).
Definition host_domain (s : pystr) : Prop :=
  (Forall letter s /\ (2 <= length s <= 6)%nat) \/
  (exists d t, s = d ++ DOT :: t /\ Forall (fun c => letter_digit c \/ dash c) d /\ (2 <= length d <= 30)%nat /\ Forall letter t /\ (2 <= length t <= 3)%nat).
Definition host_name (s : pystr) : Prop := exists l d, s = l ++ DOT :: d /\ host_label l /\ host_domain d.
(** Python's [$] also accepts a line feed at the end *)
Definition maybe_newline (P : pystr -> Prop) (s : pystr) : Prop := P s \/ exists t, s = t ++ [10] /\ P t.

(** ** Reading *)
(** a network address: type in the two low bits, length in the six high bits of the first byte *)
Definition read_address (w : bytes) : option (naddr * bytes) :=
  match w with
  | [] => None
  | b :: r => let n := N.to_nat (b / 4) in
              if (length r <? n)%nat then None else Some (mkna (b mod 4) (firstn n r), skipn n r)
  end.
(** a short text: twice its length, then the text *)
Definition read_name (w : bytes) : option (pystr * bytes) :=
  match w with
  | [] => None
  | b :: r => let n := N.to_nat (b / 2) in
              if (length r <? n)%nat || negb (b mod 2 =? 0) then None else Some (firstn n r, skipn n r)
  end.
Fixpoint read_many {A} (rd : bytes -> option (A * bytes)) (n : nat) (w : bytes) : option (list A * bytes) :=
  match n with
  | O => Some ([], w)
  | S n => match rd w with
           | None => None
           | Some (a, w) => match read_many rd n w with None => None | Some (l, w) => Some (a :: l, w) end
           end
  end.

(** ** Reading the records of 3Bot transactions *)
Definition flag (b bit : N) : bool := (b / bit) mod 2 =? 1.
Definition then_ {A B} (o : option (A * bytes)) (f : A -> bytes -> option B) : option B :=
  match o with None => None | Some (a, w) => f a w end.
Definition byte (w : bytes) : option (N * bytes) := match w with [] => None | b :: w => Some (b, w) end.
(** two lists whose lengths are the low and the high half of a byte *)
Definition read_two {A B} (ra : bytes -> option (A * bytes)) (rb : bytes -> option (B * bytes)) (w : bytes) : option ((list A * list B) * bytes) :=
  then_ (byte w) (fun c w => then_ (read_many ra (N.to_nat (c mod 16)) w) (fun a w => then_ (read_many rb (N.to_nat (c / 16)) w) (fun b w =>
  Some ((a, b), w)))).
Definition number (n : nat) (w : bytes) : option (N * bytes) := if (length w <? n)%nat then None else Some (le_dec (firstn n w), skipn n w).
Definition skip (n : nat) (w : bytes) : option (unit * bytes) := if (length w <? n)%nat then None else Some (tt, skipn n w).

(** a registration: months and flags (addresses, names, refund present), addresses, names *)
Record registration := mkR { R_months : N; R_has_addresses : bool; R_has_names : bool; R_refund : bool; R_addresses : list naddr; R_names : list pystr }.
Definition read_registration (w : bytes) : option (registration * bytes) :=
  then_ (byte w) (fun f w => then_ (read_two read_address read_name w) (fun l w =>
  Some (mkR (f mod 32) (flag f 32) (flag f 64) (flag f 128) (fst l) (snd l), w))).
(** an update: the 3Bot, months and flags, addresses to add and to remove if flagged, names to add and to remove if flagged *)
Record update := mkU { U_bot : N; U_months : N; U_has_addresses : bool; U_has_names : bool; U_refund : bool;
                       U_addresses : list naddr * list naddr; U_names : list pystr * list pystr }.
Definition read_update (w : bytes) : option (update * bytes) :=
  then_ (number 4 w) (fun i w => then_ (byte w) (fun f w =>
  then_ (if flag f 32 then read_two read_address read_address w else Some (([], []), w)) (fun a w =>
  then_ (if flag f 64 then read_two read_name read_name w else Some (([], []), w)) (fun n w =>
  Some (mkU i (f mod 32) (flag f 32) (flag f 64) (flag f 128) a n, w))))).
(** a signed name transfer: sender, its signature, receiver, its signature, number of names and refund flag, names *)
Record transfer := mkT { T_sender : N; T_receiver : N; T_refund : bool; T_names : list pystr }.
Definition read_transfer (w : bytes) : option (transfer * bytes) :=
  then_ (number 4 w) (fun s w => then_ (skip 64 w) (fun _ w => then_ (number 4 w) (fun r w => then_ (skip 64 w) (fun _ w =>
  then_ (byte w) (fun c w => then_ (read_many read_name (N.to_nat (c mod 16)) w) (fun n w =>
  Some (mkT s r (flag c 16) n, w))))))).

(** ** What is required of the standard library's [ipaddress] *)
Record ip_library (parse : pystr -> res bytes) (str : bytes -> pystr) : Prop := {
  ip_sizes : forall s p, parse s = Ok p -> (length p = 4 \/ length p = 16)%nat /\ Forall (fun b => b < 256) p;
  ip_round : forall p, (length p = 4 \/ length p = 16)%nat -> Forall (fun b => b < 256) p -> parse (str p) = Ok p;
  ip_four : forall p, length p = 4%nat -> Forall (fun b => b < 256) p -> exists t c, str p = t ++ [c] /\ digit c;
  ip_six : forall p, length p = 16%nat -> Forall (fun b => b < 256) p -> In 58 (str p)
}.
