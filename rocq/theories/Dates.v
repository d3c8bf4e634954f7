(** Model of the texts for durations and dates: /repo/tfchain/internal/jsutils.py:97-104 (TIMES), 257-288, 390-472 (Duration),
    478-594 (DateTime), 169-194 (formatTime, epoch2HRDateTime), and of their use in /repo/tfchain/types/ConditionTypes.py:130-138.
    Simplifications: of the characters outside ASCII none is a digit or a blank.  Floating point numbers ([td], [scaled]),
    the calendar and time zone ([strptime], [mktime], [localtime]) and the clock ([now]) are parameters. *)
From Verif Require Import Base Types Conditions.

(** internal/jsutils.py:504-594: both [replace] calls: single and double quotes are dropped *)
Definition unquote (v : pystr) : pystr := filter (fun c => negb ((c =? 39) || (c =? 34))) v.
(** Python's [0-9], for internal/jsutils.py:390-472 *)
Definition digitb (c : N) : bool := (48 <=? c) && (c <=? 57).
(** internal/jsutils.py:398-399: the class [\.\d] *)
Definition numc (c : N) : bool := (c =? 46) || digitb c.
(** internal/jsutils.py:398-399: the longest prefix of number characters, and the rest *)
Fixpoint span (p : N -> bool) (s : pystr) : pystr * pystr :=
  match s with
  | c :: s' => if p c then (c :: fst (span p s'), snd (span p s')) else ([], s)
  | [] => ([], [])
  end.
(** internal/jsutils.py:398-399: one group [((?P<...>[\.\d]+?)u)?]; as [u] is no number character, the number is the longest possible prefix *)
Definition group (u : N) (s : pystr) : option pystr * pystr :=
  let r := span numc s in
  match fst r, snd r with
  | _ :: _, c :: rest => if c =? u then (Some (fst r), rest) else (None, s)
  | _, _ => (None, s)
  end.
(** internal/jsutils.py:442-472 *)
Inductive durval := DNone | DInt (z : Z) | DStr (s : pystr) | DOther.
Section Lib.
(** [int(timedelta(days=float(d), hours=float(h), minutes=float(m), seconds=float(s)).total_seconds())], absent ones left out *)
Variable td : option pystr -> option pystr -> option pystr -> option pystr -> res Z.
(** internal/jsutils.py:442-472: [Duration.clean] (also [fromString], 424-425) *)
Definition dur_clean (v : durval) : res Z :=
  match v with
  | DNone => Ok 0%Z
  | DInt z => Ok z
  | DStr s0 =>
      if listN_eqb s0 (s2b "0") || listN_eqb s0 [] then Ok 0%Z
      else let s := strip (unquote s0) in
      if negb (listN_eqb s []) && forallb digitb s then py_int s
      else
        let d := group 100 s in
        let h := group 104 (snd d) in
        let m := group 109 (snd h) in
        let x := group 115 (snd m) in
        match snd x with
        | [] => td (fst d) (fst h) (fst m) (fst x)
        | _ => Err ValueError
        end
  | DOther => Err ValueError
  end.
(** internal/jsutils.py:427-437: [toString] *)
Definition dur_part (n : Z) (u : N) : pystr := if (0 <? n)%Z then dec_str (Z.to_N n) ++ [u] else [].
(** internal/jsutils.py:427-437 *)
Definition dur_str (v : durval) : res pystr :=
  do z <- dur_clean v;
  if (z =? 0)%Z then Ok []
  else let days := (z / 86400)%Z in
       let hours := ((z - days * 86400) / 3600)%Z in
       let minutes := ((z - days * 86400 - hours * 3600) / 60)%Z in
       let seconds := (z - days * 86400 - hours * 3600 - minutes * 60)%Z in
       Ok (dur_part days 100 ++ dur_part hours 104 ++ dur_part minutes 109 ++ dur_part seconds 115).

(** internal/jsutils.py:97-104: [TIMES] *)
Definition times (c : N) : option Z :=
  if c =? 115 then Some 1%Z else if c =? 109 then Some 60%Z else if c =? 104 then Some 3600%Z else if c =? 100 then Some 86400%Z
  else if c =? 119 then Some 604800%Z else if c =? 77 then Some 2628000%Z else if c =? 89 then Some 31536000%Z else None.
(** [int(float(t) * unit)] *)
Variable scaled : pystr -> Z -> res Z.
(** internal/jsutils.py:257-272: [getDeltaTime], for a non-empty text *)
Definition delta_time (txt : pystr) : res Z :=
  match rev (strip txt) with
  | [] => Err IndexError
  | u :: r => match times u with None => Err RuntimeError | Some k => scaled (rev r) k end
  end.

(** internal/jsutils.py:523-574: the formats of dates and times put together in 528-574 *)
Inductive dfmt := F_Ymd | F_dmY | F_ymd.
(** internal/jsutils.py:549-574 *)
Inductive tfmt := F_HMS | F_HM | F_IpM | F_IpMS.
(** Python's time.struct_time, for internal/jsutils.py:504-594: a broken-down time: year, month, day, hour, minute, second *)
Definition tm := (Z * Z * Z * Z * Z * Z)%type.
Variable strptime : pystr -> dfmt -> tfmt -> res tm.
Variable mktime : tm -> res Z.
Variable localtime : Z -> tm.
(** Python's str.split, for internal/jsutils.py:523-568: [str.split(c)] *)
Definition split_all (c : N) (s : pystr) : list pystr := splitn c (length s) [] s.
(** Python's [in], for internal/jsutils.py:504-594 *)
Definition hasc (c : N) (s : pystr) : bool := existsb (N.eqb c) s.
(** Python's [in], for internal/jsutils.py:549-594: ["am" in v.lower()] *)
Fixpoint has2 (a b : N) (s : pystr) : bool :=
  match s with
  | x :: s' => (x =? a) && match s' with y :: _ => y =? b | [] => false end || has2 a b s'
  | [] => false
  end.
(** internal/jsutils.py:549-594 *)
Definition half (v : pystr) : bool := has2 97 109 (lower v) || has2 112 109 (lower v).
(** internal/jsutils.py:169-188, 523-568: [str] of a year as [%Y] prints it (no leading zeros), and of a two-digit field *)
Definition two (n : Z) : pystr := let n := Z.to_N n in [48 + n / 10; 48 + n mod 10].
(** internal/jsutils.py:523-547 *)
Definition year_of (t : tm) : Z := let '(y, _, _, _, _, _) := t in y.
(** internal/jsutils.py:523-568 *)
Definition one_two (s : pystr) : bool := (length s =? 2)%nat || (length s =? 1)%nat.
(** internal/jsutils.py:523-547: [date_process]; [now2]: the clock ([jstime.epoch]) *)
Definition date_process (now2 : Z) (dd : pystr) : res (pystr * dfmt) :=
  if negb (hasc 47 dd) then Err ValueError
  else match split_all 47 dd with
       | [_; _] => Ok (dec_str (Z.to_N (year_of (localtime now2))) ++ [47] ++ strip dd, F_Ymd)
       | [a; b; c] =>
           let s0 := strip a in let s1 := strip b in let s2 := strip c in
           if (length s0 =? 4)%nat && one_two s1 && one_two s2 then Ok (dd, F_Ymd)
           else if (length s2 =? 4)%nat && one_two s1 && one_two s0 then Ok (dd, F_dmY)
           else if one_two s2 && one_two s1 && one_two s0 then Ok (dd, F_ymd)
           else Err ValueError
       | _ => Err ValueError
       end.
(** internal/jsutils.py:549-568: [time_process]; with another number of colons the format is never set *)
Definition time_process (v0 : pystr) : res (pystr * tfmt) :=
  let v := strip v0 in
  if negb (hasc 58 v) then Ok (s2b "00:00:00", F_HMS)
  else match split_all 58 v with
       | [_; _] => Ok (v, if half v then F_IpM else F_HM)
       | [_; _; _] => Ok (v, if half v then F_IpMS else F_HMS)
       | _ => Err NameError
       end.
(** internal/jsutils.py:504-594: [DateTime.clean] for a str *)
Definition date_clean (now2 : Z) (v0 : pystr) : res Z :=
  let v := strip (unquote v0) in
  if listN_eqb v (s2b "0") || listN_eqb v [] then Ok 0%Z
  else if hasc 43 v || hasc 45 v then (do d <- delta_time v; Ok (now2 + d)%Z)
  else
    do dt <- (if hasc 58 v then match splitn 32 1 [] v with
                               | [dd; ti] => do t <- time_process ti; Ok (dd, t)
                               | _ => Err ValueError
                               end
              else do t <- time_process []; Ok (v, t));
    do d <- date_process now2 (fst dt);
    do t <- strptime (fst d ++ [32] ++ fst (snd dt)) (snd d) (snd (snd dt));
    mktime t.
(** internal/jsutils.py:169-188: [epoch2HRDateTime] *)
Definition date_str (e : Z) : pystr :=
  let '(y, mo, d, h, mi, s) := localtime e in
  dec_str (Z.to_N y) ++ [47] ++ two mo ++ [47] ++ two d ++ [32] ++ two h ++ [58] ++ two mi ++ [58] ++ two s.

(** ConditionTypes.py:130-138: a lock given as text; [now]: [current_timestamp], [now2]: the clock when the date is read *)
Definition lock_of_text (s : pystr) (now2 : Z) : res lockval :=
  match lstrip is_pyspace s with
  | [] => Err IndexError
  | c :: r => if c =? 43 then Ok (LDuration (dur_clean (DStr r))) else Ok (LDate (date_clean now2 (c :: r)))
  end.
(** types/ConditionTypes.py:116-144 *)
Definition lock_text (now now2 : Z) (s : pystr) : res Z := do v <- lock_of_text s now2; lock_new now v.
End Lib.
