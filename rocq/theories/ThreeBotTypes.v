(** Model of /repo/tfchain/types/ThreeBot.py (NetworkAddress, BotName) and /repo/tfchain/types/ERC20.py. *)
From Verif Require Import Base Encoders Primitive Types.

(** ** Regular expressions (Python's [re]), matched with derivatives. *)
(** Python's re (standard library), used in types/ThreeBot.py:100-102, 214-216 *)
Inductive re :=
| RVoid
| REps
| RCls (p : N -> bool)
| RSeq (a b : re)
| RAlt (a b : re)
| RStar (a : re).
(** Python's re (standard library), used in types/ThreeBot.py:100-102, 214-216: whether the empty text matches *)
Fixpoint nullable (r : re) : bool :=
  match r with
  | RVoid | RCls _ => false
  | REps | RStar _ => true
  | RSeq a b => nullable a && nullable b
  | RAlt a b => nullable a || nullable b
  end.
(** Python's re (standard library), used in types/ThreeBot.py:100-102, 214-216: what is left to match after a character *)
Fixpoint deriv (c : N) (r : re) : re :=
  match r with
  | RVoid | REps => RVoid
  | RCls p => if p c then REps else RVoid
  | RSeq a b => if nullable a then RAlt (RSeq (deriv c a) b) (deriv c b) else RSeq (deriv c a) b
  | RAlt a b => RAlt (deriv c a) (deriv c b)
  | RStar a => RSeq (deriv c a) (RStar a)
  end.
(** Python's re (standard library), used in types/ThreeBot.py:100-102, 214-216 *)
Fixpoint rmatch (r : re) (s : pystr) : bool :=
  match s with [] => nullable r | c :: s => rmatch (deriv c r) s end.
(** Python's re (standard library), used in types/ThreeBot.py:100-102, 214-216: [r{n}], [r{lo,hi}] *)
Fixpoint rrep (n : nat) (r : re) : re := match n with O => REps | S n => RSeq r (rrep n r) end.
(** Python's re (standard library), used in types/ThreeBot.py:100-102, 214-216: at most n times *)
Fixpoint rupto (n : nat) (r : re) : re := match n with O => REps | S n => RAlt REps (RSeq r (rupto n r)) end.
(** Python's re (standard library), used in types/ThreeBot.py:100-102, 214-216: [r{lo,hi}] *)
Definition rrange (lo hi : nat) (r : re) : re := RSeq (rrep lo r) (rupto (hi - lo) r).
(** Python's re (standard library), used in types/ThreeBot.py:100-102, 214-216: [re.match('^...$', s)]: the dollar also matches before a final newline. *)
Definition re_match (r : re) (s : pystr) : bool :=
  rmatch r s || match rev s with c :: t => (c =? 10) && rmatch r (rev t) | [] => false end.

(** types/ThreeBot.py:100-102: [a-zA-Z] *)
Definition is_alpha (c : N) : bool := ((65 <=? c) && (c <=? 90)) || ((97 <=? c) && (c <=? 122)).
(** types/ThreeBot.py:100-102: [0-9] *)
Definition is_num (c : N) : bool := (48 <=? c) && (c <=? 57).
(** types/ThreeBot.py:100-102: [a-zA-Z0-9] *)
Definition is_alnum (c : N) : bool := is_alpha c || is_num c.
(** types/ThreeBot.py:100-102: one character *)
Definition chr (x : N) : re := RCls (fun c => c =? x).

(** ** NetworkAddress: ThreeBot.py:83-212 *)
(** types/ThreeBot.py:100-102: HOSTNAME_REGEXP *)
Definition hostname_label : re :=
  RAlt (RCls is_alpha)
  (RAlt (RSeq (RCls is_alpha) (RCls is_alpha))
  (RAlt (RSeq (RCls is_alpha) (RCls is_num))
  (RAlt (RSeq (RCls is_num) (RCls is_alpha))
        (RSeq (RCls is_alnum)
              (RSeq (rrange 1 61 (RCls (fun c => is_alnum c || (c =? 45) || (c =? 95)))) (RCls is_alnum)))))).
(** types/ThreeBot.py:100-102: after the last dot *)
Definition hostname_tld : re :=
  RAlt (rrange 2 6 (RCls is_alpha))
       (RSeq (rrange 2 30 (RCls (fun c => is_alnum c || (c =? 45)))) (RSeq (chr 46) (rrange 2 3 (RCls is_alpha)))).
(** types/ThreeBot.py:100-102 HOSTNAME_REGEXP *)
Definition hostname_re : re := RSeq hostname_label (RSeq (chr 46) hostname_tld).

(** types/ThreeBot.py:83-119, 209-211: Type values: 0 hostname, 1 IPv4, 2 IPv6 (209-211). *)
Record naddr := mkna { na_type : N; na_bytes : bytes }.
(** types/ThreeBot.py:104-119 [NetworkAddress()] *)
Definition na_empty : naddr := mkna 0 [].

Section IP.
(** The standard library's [ipaddress]: [ip_parse s] the packed bytes (4 or 16) of an address text; [ip_str] the
    text of packed bytes. *)
Variable ip_parse : pystr -> res bytes.
Variable ip_str : bytes -> pystr.

(** Python's [ipv4_mapped] (standard library), used in types/ThreeBot.py:157-172 *)
Definition mapped_prefix : bytes := repeatN 0 10 ++ [255; 255].
(** types/ThreeBot.py:157-172: the type and bytes of an IP address; IPv4 addresses written as IPv6 ones are IPv4 addresses *)
Definition na_packed (p : bytes) : naddr :=
  if (length p =? 4)%nat then mkna 1 p
  else if listN_eqb (firstn 12 p) mapped_prefix then mkna 1 (skipn 12 p)
  else mkna 2 p.
(** types/ThreeBot.py:139-179: , the [value] setter on [None] and on a str *)
Definition na_new (v : option pystr) : res naddr :=
  match v with
  | None => Ok na_empty
  | Some s =>
      if re_match hostname_re s then
        if (63 <? lenN s) then Err ValueError else do b <- utf8 s; Ok (mkna 0 b)
      else
        do p <- ip_parse s; Ok (na_packed p)
  end.
(** types/ThreeBot.py:121-128: [from_json] *)
Definition na_from_json (j : json) : res naddr :=
  match j with
  | JNull => na_new None
  | JStr s => na_new (match s with [] => None | _ => Some s end)
  | _ => Err TypeError
  end.
(** types/ThreeBot.py:130-137: [value]; host names are ASCII, so decoding returns the bytes *)
Definition na_str (a : naddr) : pystr := if na_type a =? 0 then na_bytes a else ip_str (na_bytes a).
End IP.

(** types/ThreeBot.py:139-179: , the other values of the setter.  An int is an address by number ([ipaddress.ip_address]: IPv4 below 2^32, else
    IPv6); the bytes of a host name are a bytearray, which can be copied, those of an IP address are not. *)
Inductive naval := NVText (v : option pystr) | NVInt (z : Z) | NVAddr (a : naddr).
(** Python's ipaddress.ip_address(int) (standard library), used in types/ThreeBot.py:139-179 *)
Definition ip_of_int (z : Z) : res bytes :=
  if ((0 <=? z) && (z <? 2 ^ 32))%Z then Ok (be 4 (Z.to_N z))
  else if ((0 <=? z) && (z <? 2 ^ 128))%Z then Ok (be 16 (Z.to_N z))
  else Err ValueError.
(** types/ThreeBot.py:139-179 [value] setter *)
Definition na_value (ip_parse : pystr -> res bytes) (v : naval) : res naddr :=
  match v with
  | NVText v => na_new ip_parse v
  | NVInt z => do p <- ip_of_int z; Ok (na_packed p)
  | NVAddr a => if na_type a =? 0 then Ok a else Err AttributeError
  end.

(** types/ThreeBot.py:190-207: [rivine_binary_encode]; the Sia encoding (190-197) writes the same bytes *)
Definition na_riv (a : naddr) : res bytes :=
  riv_int 1 (Z.of_N (N.lor (na_type a) (N.shiftl (lenN (na_bytes a)) 2))) +++ Ok (na_bytes a).

(** ** BotName: ThreeBot.py:213-282 *)
(** types/ThreeBot.py:214-216: [a-zA-Z0-9-]: REGEXP and LENGTH_MAX *)
Definition alnum_dash (c : N) : bool := is_alnum c || (c =? 45).
(** types/ThreeBot.py:214-216 *)
Definition botname_part (hi : nat) : re :=
  RSeq (RCls is_alpha) (RSeq (rrange 3 hi (RCls alnum_dash)) (RCls is_alnum)).
(** types/ThreeBot.py:214-216 REGEXP *)
Definition botname_re : re := RSeq (botname_part 61) (RStar (RSeq (chr 46) (botname_part 55))).
(** types/ThreeBot.py:218-223, 243-261: A name is its text, [] for None (234-241).  243-261 setter on [None] or a str. *)
Definition bn_new (v : option pystr) : res pystr :=
  match v with
  | None => Ok []
  | Some s =>
      if 63 <? lenN s then Err ValueError
      else if re_match botname_re s then Ok s else Err ValueError
  end.
(** types/ThreeBot.py:225-232: [from_json] *)
Definition bn_from_json (j : json) : res pystr :=
  match j with
  | JNull => bn_new None
  | JStr s => bn_new (match s with [] => None | _ => Some s end)
  | _ => Err TypeError
  end.
(** types/ThreeBot.py:278-282 [rivine_binary_encode] *)
Definition bn_riv (s : pystr) : res bytes := r_of_w (riv_add_slice (VStr s)).

(** ** ERC20 types, represented by their bytes *)
(** types/ERC20.py:17-18 [ERC20Address]: ERC20.py:17-18, 69-70 *)
Definition eaddr_new (v : bval) : res bytes :=
  do d <- bd_new v (Some 20%Z) (Some (s2b "hexprefix")); Ok (bd_val d).
(** types/ERC20.py:69-70 [ERC20Hash] *)
Definition ehash_new (v : bval) : res bytes :=
  do d <- bd_new v (Some 32%Z) (Some (s2b "hexprefix")); Ok (bd_val d).
(** types/ERC20.py:52-59, 72-79: [from_json] *)
Definition prefixed_from_json (mk : bval -> res bytes) (j : json) : res bytes :=
  match j with
  | JNull => mk BVNone
  | JStr s => mk (match s with [] => BVNone | _ => BVStr s end)
  | _ => Err TypeError
  end.
(** types/ERC20.py:52-59 *)
Definition eaddr_from_json : json -> res bytes := prefixed_from_json eaddr_new.
(** types/ERC20.py:72-79 *)
Definition ehash_from_json : json -> res bytes := prefixed_from_json ehash_new.
(** types/PrimitiveTypes.py:99-100: [json] of BinaryData with encoding hexprefix *)
Definition prefixed_json (b : bytes) : json := JStr (to_str KHexPrefix b).

(** Python builtin, used in types/ERC20.py:20-40: [int(s, 16)]: blanks stripped, optional sign, optional 0x, digits with single underscores. *)
Fixpoint hexint_digits (prev_digit : bool) (s : pystr) : bool :=
  match s with
  | [] => prev_digit
  | c :: s =>
      match unhexdig c with
      | Some _ => hexint_digits true s
      | None => (c =? 95) && prev_digit && hexint_digits false s
      end
  end.
(** Python builtin [int(s, 16)], used in types/ERC20.py:20-40 *)
Definition drop_sign (s : pystr) : pystr :=
  match s with c :: t => if (c =? 45) || (c =? 43) then t else s | [] => s end.
(** Python builtin, used in types/ERC20.py:20-40: whether [int(s, 16)] returns *)
Definition hexint_ok (s : pystr) : bool :=
  match drop_sign (strip s) with
  | a :: b :: t =>
      if (a =? 48) && ((b =? 120) || (b =? 88))
      then match t with
           | u :: t' => if u =? 95 then hexint_digits false t' else hexint_digits false t
           | [] => false
           end
      else hexint_digits false (a :: b :: t)
  | t => hexint_digits false t
  end.
(** types/ERC20.py:25-26: ERC20.py:20-40 [is_valid_value] *)
Definition drop_0x (s : pystr) : pystr :=
  match s with a :: b :: t => if (a =? 48) && ((b =? 120) || (b =? 88)) then t else s | _ => s end.
(** types/ERC20.py:20-40 [is_valid_value] *)
Definition eaddr_valid (v : bval) : bool :=
  match v with
  | BVStr s => let s := drop_0x s in (length s =? 40)%nat && hexint_ok s
  | BVBytes b => (length b =? 20)%nat
  | BVData d => (length (bd_val d) =? 20)%nat   (* an ERC20Address *)
  | BVNone | BVOther => false
  end.
(** types/ERC20.py:42-50: [from_unlockhash]: the last 20 bytes of the hash of the Sia encoding *)
Definition eaddr_from_uh (H : bytes -> bytes) (u : uh) : res bytes :=
  do d <- uh_sia u; eaddr_new (BVBytes (skipn 12 (H d))).
