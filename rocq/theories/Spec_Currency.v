(** Specification vocabulary for currency amounts. *)
From Verif Require Import Base Currency.

(** The object holds exactly [k] smallest units: coef * 10^exp = k * 10^-9, cross-multiplied. *)
Definition amount (c : currency) (k : N) : Prop :=
  let d := cvalue c in
  dneg d = false /\
  dcoef d * 10 ^ Z.to_N (dexp d) * 10 ^ 9 = k * 10 ^ Z.to_N (- dexp d).

(** Histories of a program using Currency objects: construction, assignment, binary operators and in-place
    operators; the operand is a literal or one of the existing objects. *)
Inductive src := SNone | SInt (z : Z) | SStr (s : pystr) | SFloat (s : pystr) | SDec (d : decv) | SRef (i : nat) | SOther.
Inductive bop := BAdd | BSub | BMul | BRsub.
Inductive cop :=
| ONew (v : src)                          (* Currency(value=v) *)
| OSet (i : nat) (v : src)                (* c_i.value = v *)
| OBin (k : bop) (i : nat) (o : src)      (* new object c_i + o, c_i - o, c_i * o, o - c_i *)
| OInp (k : bop) (i : nat) (o : src).     (* c_i += o, c_i -= o, c_i *= o *)

Definition cstore := list currency.

Definition as_input (st : cstore) (v : src) : cinput :=
  match v with
  | SNone => CINone | SInt z => CIInt z | SStr s => CIStr s | SDec d => CIDec d
  | SRef j => match nth_error st j with Some c => CICur c | None => CIOther end
  | SFloat _ | SOther => CIOther
  end.
Definition as_operand (st : cstore) (v : src) : coperand :=
  match v with
  | SInt z => COInt z | SStr s => COStr s | SFloat s => COFloat s
  | SRef j => match nth_error st j with Some c => COCur c | None => COOther end
  | SNone | SDec _ | SOther => COOther
  end.
Definition binop (k : bop) (a : currency) (o : coperand) : res currency :=
  match k with BAdd => cadd a o | BSub => csub a o | BMul => cmul a o | BRsub => crsub o a end.

Fixpoint upd {A} (i : nat) (x : A) (l : list A) : list A :=
  match l, i with
  | [], _ => []
  | _ :: l, O => x :: l
  | y :: l, S i => y :: upd i x l
  end.

(** One step: the new store and the exception, if one was raised (IndexError when there is no object [i]). *)
Definition cstep (st : cstore) (op : cop) : cstore * option exn :=
  match op with
  | ONew v => match cset (as_input st v) with Ok c => (st ++ [c], None) | Err e => (st, Some e) end
  | OSet i v => match nth_error st i with
                | None => (st, Some IndexError)
                | Some _ => match cset (as_input st v) with Ok c => (upd i c st, None) | Err e => (st, Some e) end
                end
  | OBin k i o => match nth_error st i with
                  | None => (st, Some IndexError)
                  | Some a => match binop k a (as_operand st o) with
                              | Ok c => (st ++ [c], None) | Err e => (st, Some e) end
                  end
  | OInp k i o => match nth_error st i with
                  | None => (st, Some IndexError)
                  | Some a => match binop k a (as_operand st o) with
                              | Ok c => (upd i c st, None) | Err e => (st, Some e) end
                  end
  end.
Definition crun (ops : list cop) : cstore := fold_left (fun st op => fst (cstep st op)) ops [].

(** [c] is the state of some Currency object at the end of some history. *)
Definition is_currency (c : currency) : Prop := exists ops, In c (crun ops).
