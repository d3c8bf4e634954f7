(** Model of Python's [decimal] as used by Currency, and of the Currency and Blockstake classes,
    /repo/tfchain/types/PrimitiveTypes.py:177-425. *)
From Verif Require Import Base Encoders.

(** ** decimal.Decimal, default context (precision 28, ROUND_HALF_EVEN).
    Simplifications: exponents are unbounded (the real context overflows above 10^999999) and only ASCII digits
    are recognised by the parser. *)
(** Python's decimal.Decimal (C library), used in types/PrimitiveTypes.py:186-329 *)
Record dec := mkdec { dneg : bool; dcoef : N; dexp : Z }.
(** Python's decimal.Decimal (C library), used in types/PrimitiveTypes.py:186-329; NaN and infinities are the special values *)
Inductive decv := DFin (d : dec) | DSpecial (* NaN, Infinity *).

(** Python's decimal.Decimal (C library), used in types/PrimitiveTypes.py:186-329: number of digits *)
Definition ndigits (n : N) : N := lenN (dec_str n).
(** Python's decimal.Decimal (C library), used in types/PrimitiveTypes.py:186-329: the default context *)
Definition prec : N := 28.

(** Python's decimal.Decimal (C library), used in types/PrimitiveTypes.py:186-329: [n / 10^k] rounded half to even *)
Definition rhe (n : N) (k : N) : N :=
  let q := n / 10 ^ k in
  let r := n mod 10 ^ k in
  if (10 ^ k <? 2 * r) || ((2 * r =? 10 ^ k) && N.odd q) then q + 1 else q.

(** Python's decimal.Decimal (C library), used in types/PrimitiveTypes.py:186-329: Rounding of an exact result to the context (decimal's [_fix]). *)
Definition dfix (d : dec) : dec :=
  let n := ndigits (dcoef d) in
  if n <=? prec then d
  else let k := n - prec in
       let q := rhe (dcoef d) k in
       if q =? 10 ^ prec then mkdec (dneg d) (10 ^ (prec - 1)) (dexp d + Z.of_N k + 1)
       else mkdec (dneg d) q (dexp d + Z.of_N k).

(** Python's decimal.Decimal (C library), used in types/PrimitiveTypes.py:186-329: the coefficient at exponent e, with its sign *)
Definition signed (d : dec) (e : Z) : Z :=
  let m := Z.of_N (dcoef d * 10 ^ Z.to_N (dexp d - e)) in if dneg d then (- m)%Z else m.

(** Python's decimal.Decimal (C library), used in types/PrimitiveTypes.py:186-329: [a + b]: exact sum at the smaller exponent, then rounding; a zero sum is negative only if both are. *)
Definition dadd (a b : dec) : dec :=
  let e := Z.min (dexp a) (dexp b) in
  let s := (signed a e + signed b e)%Z in
  dfix (mkdec (if (s =? 0)%Z then dneg a && dneg b else (s <? 0)%Z) (Z.to_N (Z.abs s)) e).
(** Python's decimal.Decimal (C library), used in types/PrimitiveTypes.py:186-329: [-a] *)
Definition dopp (d : dec) : dec := mkdec (negb (dneg d)) (dcoef d) (dexp d).
(** Python's decimal.Decimal (C library), used in types/PrimitiveTypes.py:186-329: [a - b] *)
Definition dsub (a b : dec) : dec := dadd a (dopp b).
(** Python's decimal.Decimal (C library), used in types/PrimitiveTypes.py:186-329: [a * b] *)
Definition dmul (a b : dec) : dec :=
  dfix (mkdec (xorb (dneg a) (dneg b)) (dcoef a * dcoef b) (dexp a + dexp b)).
(** Python's decimal.Decimal (C library), used in types/PrimitiveTypes.py:186-329: numeric comparison *)
Definition dcmp (a b : dec) : comparison :=
  let e := Z.min (dexp a) (dexp b) in Z.compare (signed a e) (signed b e).

(** Python's decimal.Decimal (C library), used in types/PrimitiveTypes.py:186-329: [Decimal()] *)
Definition dec_zero : dec := mkdec false 0 0.
(** Python's decimal.Decimal (C library), used in types/PrimitiveTypes.py:186-329: [Decimal(int)] *)
Definition dec_of_Z (z : Z) : dec := mkdec (z <? 0)%Z (Z.to_N (Z.abs z)) 0.

(** Python's decimal.Decimal (C library), used in types/PrimitiveTypes.py:186-329: [Decimal(str)] *)
Definition is_digit_b (c : N) : bool := (48 <=? c) && (c <=? 57).
(** Python's decimal.Decimal (C library), used in types/PrimitiveTypes.py:186-329: leading digits and the rest *)
Fixpoint span_digits (s : pystr) : pystr * pystr :=
  match s with
  | c :: s' => if is_digit_b c then let (a, b) := span_digits s' in (c :: a, b) else ([], s)
  | [] => ([], [])
  end.
(** Python's decimal.Decimal (C library), used in types/PrimitiveTypes.py:186-329: optional leading sign: (negative?, rest) *)
Definition split_sign (s : pystr) : bool * pystr :=
  match s with
  | c :: t => if c =? 45 then (true, t) else if c =? 43 then (false, t) else (false, s)
  | [] => (false, s)
  end.
(** Python's decimal.Decimal (C library), used in types/PrimitiveTypes.py:186-329: the exponent of a text *)
Definition parse_exp (s : pystr) : option Z :=
  match s with
  | [] => Some 0%Z
  | c :: s' =>
      if (c =? 69) || (c =? 101) then   (* E e *)
        let '(neg, ds) := split_sign s' in
        match ds with
        | [] => None
        | _ => match digits_val 0 ds with
               | Some v => Some (if neg : bool then - Z.of_N v else Z.of_N v)%Z
               | None => None end
        end
      else None
  end.
(** Python's decimal.Decimal (C library), used in types/PrimitiveTypes.py:186-329: digits, fraction and exponent of a text *)
Definition parse_number (neg : bool) (s : pystr) : option decv :=
  let (ip, r) := span_digits s in
  let '(fp, r') := match r with
                   | c :: t => if c =? 46 then span_digits t else ([], r)
                   | [] => ([], r) end in
  match ip ++ fp with
  | [] => None
  | ds => match digits_val 0 ds, parse_exp r' with
          | Some v, Some e => Some (DFin (mkdec neg v (e - Z.of_nat (length fp))))
          | _, _ => None
          end
  end.
(** Python's decimal.Decimal (C library), used in types/PrimitiveTypes.py:186-329: the texts of NaN and infinity *)
Definition special_name (s : pystr) : bool :=
  let u := lower s in
  listN_eqb u (s2b "inf") || listN_eqb u (s2b "infinity") ||
  (listN_eqb (firstn 3 u) (s2b "nan") && forallb is_digit_b (skipn 3 u)) ||
  (listN_eqb (firstn 4 u) (s2b "snan") && forallb is_digit_b (skipn 4 u)).
(** Python's decimal.Decimal (C library), used in types/PrimitiveTypes.py:186-329: [Decimal(str)] *)
Definition parse_dec (s0 : pystr) : res decv :=
  let s := filter (fun c => negb (c =? 95)) (strip s0) in
  let '(neg, t) := split_sign s in
  if special_name t then Ok DSpecial
  else match parse_number neg t with Some d => Ok d | None => Err DecimalInvalidOperation end.

(** ** Currency: PrimitiveTypes.py:181-353.  The object's state is [_value]: None or a Decimal. *)
Definition currency := option dec.

(** PrimitiveTypes.py:201-205 [value] getter *)
Definition cvalue (c : currency) : dec := match c with Some d => d | None => dec_zero end.

(** types/PrimitiveTypes.py:207-229: What may be assigned to [value]. *)
Inductive cinput := CINone | CICur (c : currency) | CIInt (z : Z) | CIStr (s : pystr) | CIDec (d : decv) | CIOther.

(** PrimitiveTypes.py:220-226.  The names in lines 223 and 225 ([errors.…]) are not bound in that module (it
    imports [tfchain.errors] without alias), so raising them raises NameError.  For NaN and infinities the exponent
    is a str and the comparison raises TypeError. *)
Definition check_dec (d : decv) : res currency :=
  match d with
  | DSpecial => Err TypeError
  | DFin d => if (dexp d <? -9)%Z then Err NameError
              else if dneg d then Err NameError
              else Ok (Some d)
  end.

(** PrimitiveTypes.py:216-219: drop a TFT suffix. *)
Definition strip_unit (s : pystr) : pystr :=
  let v := strip (upper s) in
  let n := length v in
  if (4 <=? n)%nat && listN_eqb (skipn (n - 3) v) (s2b "TFT")
  then rstrip is_pyspace (firstn (n - 3) v) else v.

(** PrimitiveTypes.py:207-229 [value] setter: the new [_value] or the exception (then [_value] is unchanged). *)
Definition cset (v : cinput) : res currency :=
  match v with
  | CINone => Ok None
  | CICur c => Ok (Some (cvalue c))
  | CIInt z => check_dec (DFin (dec_of_Z z))
  | CIStr s => do d <- parse_dec (strip_unit s); check_dec d
  | CIDec d => check_dec d
  | CIOther => Err TypeError
  end.

(** PrimitiveTypes.py:292-301 [_op_other_as_currency]; [COFloat s] is a float with [str(float)] = s. *)
Inductive coperand := COInt (z : Z) | COStr (s : pystr) | COFloat (s : pystr) | COCur (c : currency) | COOther.
(** types/PrimitiveTypes.py:292-301 [_op_other_as_currency] *)
Definition as_currency (o : coperand) : res currency :=
  match o with
  | COInt z => cset (CIInt z)
  | COStr s => cset (CIStr s)
  | COFloat s => do d <- parse_dec s; cset (CIDec d)
  | COCur c => Ok c
  | COOther => Err TypeError
  end.

(** PrimitiveTypes.py:232-265: the operators; [__radd__], [__rmul__], [__rsub__] are the same functions, so
    [other - self] is computed as [self - other]. *)
Definition cadd (a : currency) (o : coperand) : res currency :=
  do b <- as_currency o; cset (CIDec (DFin (dadd (cvalue a) (cvalue b)))).
(** types/PrimitiveTypes.py:256-259 [__sub__] *)
Definition csub (a : currency) (o : coperand) : res currency :=
  do b <- as_currency o; cset (CIDec (DFin (dsub (cvalue a) (cvalue b)))).
(** types/PrimitiveTypes.py:244-247 [__mul__] *)
Definition cmul (a : currency) (o : coperand) : res currency :=
  do b <- as_currency o; cset (CIDec (DFin (dmul (cvalue a) (cvalue b)))).
(** types/PrimitiveTypes.py:260 [__rsub__ = __sub__] *)
Definition crsub (o : coperand) (a : currency) : res currency := csub a o.

(** PrimitiveTypes.py:268-290 comparisons *)
Definition ccmp (a : currency) (o : coperand) : res comparison :=
  do b <- as_currency o; Ok (dcmp (cvalue a) (cvalue b)).
(** types/PrimitiveTypes.py:276-278 [__eq__] *)
Definition ceq (a : currency) (o : coperand) : res bool :=
  do c <- ccmp a o; Ok (match c with Eq => true | _ => false end).
(** types/PrimitiveTypes.py:268-270 [__lt__] *)
Definition clt (a : currency) (o : coperand) : res bool :=
  do c <- ccmp a o; Ok (match c with Lt => true | _ => false end).
(** types/PrimitiveTypes.py:272-274 [__le__] *)
Definition cle (a : currency) (o : coperand) : res bool :=
  do c <- ccmp a o; Ok (match c with Gt => false | _ => true end).
(** types/PrimitiveTypes.py:280-282 [__ne__] *)
Definition cne (a : currency) (o : coperand) : res bool :=
  do c <- ccmp a o; Ok (match c with Eq => false | _ => true end).
(** types/PrimitiveTypes.py:284-286 [__gt__] *)
Definition cgt (a : currency) (o : coperand) : res bool :=
  do c <- ccmp a o; Ok (match c with Gt => true | _ => false end).
(** types/PrimitiveTypes.py:288-290 [__ge__] *)
Definition cge (a : currency) (o : coperand) : res bool :=
  do c <- ccmp a o; Ok (match c with Lt => false | _ => true end).

(** types/PrimitiveTypes.py:304-306, 311-326: "{:.9f}".format(value): scaled to nine decimals (exact when the exponent is at least -9). *)
Definition scaled9 (d : dec) : N :=
  if (-9 <=? dexp d)%Z then dcoef d * 10 ^ Z.to_N (dexp d + 9) else rhe (dcoef d) (Z.to_N (-9 - dexp d)).
(** types/PrimitiveTypes.py:311-326, Python's padding of the fraction *)
Definition pad_left (w : nat) (s : pystr) : pystr := repeatN 48 (w - length s) ++ s.
(** types/PrimitiveTypes.py:304-306, 311-326: the text of 9 decimals *)
Definition fmt9 (d : dec) : pystr :=
  let n := scaled9 d in
  (if dneg d then [45] else []) ++ dec_str (n / 10 ^ 9) ++ 46 :: pad_left 9 (dec_str (n mod 10 ^ 9)).

(** PrimitiveTypes.py:304-306 [__int__] *)
Definition cint (c : currency) : res Z := py_int (filter (fun x => negb (x =? 46)) (fmt9 (cvalue c))).
(** PrimitiveTypes.py:311-326 [str] *)
Definition cstr (c : currency) (with_unit : bool) : pystr :=
  let s := rstrip (fun x => (x =? 48) || (x =? 32)) (fmt9 (cvalue c)) in
  let s := match rev s with c :: t => if c =? 46 then rev t else s | [] => s end in
  let s := match s with [] => [48] | _ => s end in
  if with_unit then s ++ s2b " TFT" else s.
(** Python builtin, types/PrimitiveTypes.py:331-332: [str(int)] *)
Definition z_str (z : Z) : pystr := if (z <? 0)%Z then 45 :: dec_str (Z.to_N (- z)) else dec_str (Z.to_N z).
(** PrimitiveTypes.py:331-332 [json] *)
Definition cjson (c : currency) : res pystr := do z <- cint c; Ok (z_str z).

(** PrimitiveTypes.py:190-199 [from_json]; [Decimal(None)] raises TypeError. *)
Definition cfrom_json (j : json) : res currency :=
  match j with
  | JStr [] | JNull => Err TypeError
  | JStr s => do d <- parse_dec s;
              match d with
              | DFin d => cset (CIDec (DFin (dmul d (mkdec false 1 (-9)))))
              | DSpecial => Err TypeError
              end
  | _ => Err TypeError
  end.

(** PrimitiveTypes.py:334-353: minimal big-endian, preceded by an 8-byte length (Sia) or as slice (Rivine). *)
Definition min_be (v : N) : bytes := be (nbytes v) v.
(** types/PrimitiveTypes.py:334-343 [sia_binary_encode] *)
Definition csia (c : currency) : res bytes :=
  do z <- cint c; sia_int (Z.of_nat (nbytes (Z.to_N z))) +++ Ok (min_be (Z.to_N z)).
(** types/PrimitiveTypes.py:345-353 [rivine_binary_encode] *)
Definition criv (c : currency) : res bytes :=
  do z <- cint c; riv_slice (min_be (Z.to_N z)).

(** ** Blockstake: PrimitiveTypes.py:356-425, a non-negative integer (an assignment from a Currency, which would
    store a Decimal, is not modelled). *)
Inductive bsinput := BINone | BIInt (z : Z) | BIStr (s : pystr) | BIOther.
(** types/PrimitiveTypes.py:378-397 [Blockstake.value] setter *)
Definition bsset (v : bsinput) : res N :=
  match v with
  | BINone => Ok 0
  | BIInt z => if (z <? 0)%Z then Err TypeError else Ok (Z.to_N z)
  | BIStr s => do z <- py_int s; if (z <? 0)%Z then Err TypeError else Ok (Z.to_N z)
  | BIOther => Err TypeError
  end.
(** PrimitiveTypes.py:365-372 *)
Definition bsfrom_json (j : json) : res N :=
  match j with
  | JNull | JStr [] => bsset BINone
  | JStr s => bsset (BIStr s)
  | _ => Err TypeError
  end.
(** PrimitiveTypes.py:403-406 *)
Definition bsjson (b : N) : pystr := dec_str b.
(** PrimitiveTypes.py:408-425 *)
Definition bssia (b : N) : res bytes := sia_int (Z.of_nat (nbytes b)) +++ Ok (min_be b).
(** types/PrimitiveTypes.py:418-425 [rivine_binary_encode] *)
Definition bsriv (b : N) : res bytes := riv_slice (min_be b).
