(** Model of Python's time.strptime (Lib/_strptime.py, locale C) for the formats that /repo/tfchain/internal/jsutils.py:523-586 puts together:
    a format is made into a regular expression; the first match is taken and has to be the whole text; the day has to exist.
    Simplification, as in Dates.v: of the characters outside ASCII none is a digit or a blank. *)
From Verif Require Import Base Types Dates.

(** Lib/_strptime.py, TimeRE, for internal/jsutils.py:586: the ways a directive matches the beginning of a text, in the order of preference: what it reads, and what is left *)
Definition matcher := pystr -> list (N * pystr).
(** a class of digits [[lo-hi]], for internal/jsutils.py:586 *)
Definition cls (lo hi c : N) : bool := (48 + lo <=? c) && (c <=? 48 + hi).
(** one digit, for internal/jsutils.py:586 *)
Definition m1 (lo hi : N) : matcher := fun s => match s with x :: r => if cls lo hi x then [(x - 48, r)] else [] | [] => [] end.
(** two digits, for internal/jsutils.py:586 *)
Definition m2 (lo hi lo' hi' : N) : matcher := fun s =>
  match s with x :: y :: r => if cls lo hi x && cls lo' hi' y then [(10 * (x - 48) + (y - 48), r)] else [] | _ => [] end.
(** %m and %I: [1[0-2]|0[1-9]|[1-9]], for internal/jsutils.py:523-568 *)
Definition d_m : matcher := fun s => m2 1 1 0 2 s ++ m2 0 0 1 9 s ++ m1 1 9 s.
(** %d: [3[0-1]|[1-2]\d|0[1-9]|[1-9]| [1-9]], for internal/jsutils.py:523-547 *)
Definition d_d : matcher := fun s => m2 3 3 0 1 s ++ m2 1 2 0 9 s ++ m2 0 0 1 9 s ++ m1 1 9 s ++ match s with x :: r => if x =? 32 then m1 1 9 r else [] | [] => [] end.
(** %H: [2[0-3]|[0-1]\d|\d], for internal/jsutils.py:549-568 *)
Definition d_H : matcher := fun s => m2 2 2 0 3 s ++ m2 0 1 0 9 s ++ m1 0 9 s.
(** %M: [[0-5]\d|\d], for internal/jsutils.py:549-568 *)
Definition d_M : matcher := fun s => m2 0 5 0 9 s ++ m1 0 9 s.
(** %S: [6[0-1]|[0-5]\d|\d], for internal/jsutils.py:549-568 *)
Definition d_S : matcher := fun s => m2 6 6 0 1 s ++ m2 0 5 0 9 s ++ m1 0 9 s.
(** %y: [\d\d], for internal/jsutils.py:523-547 *)
Definition d_y : matcher := m2 0 9 0 9.
(** %Y: [\d\d\d\d], for internal/jsutils.py:523-547 *)
Definition d_Y : matcher := fun s => flat_map (fun p => map (fun q => (100 * fst p + fst q, snd q)) (m2 0 9 0 9 (snd p))) (m2 0 9 0 9 s).
(** %p: [am|pm], with re.IGNORECASE, for internal/jsutils.py:549-568; 0: am, 1: pm *)
Definition d_p : matcher := fun s =>
  match s with
  | x :: y :: r => if listN_eqb (lower [x; y]) (s2b "am") then [(0, r)] else if listN_eqb (lower [x; y]) (s2b "pm") then [(1, r)] else []
  | _ => []
  end.
(** Lib/_strptime.py, TimeRE.pattern, for internal/jsutils.py:586: directives, other characters, and blanks ([\s+]) *)
Inductive item := IRead (m : matcher) | IChar (c : N) | IBlanks.
(** [\s+]: what may be left, longest match first; for internal/jsutils.py:586 *)
Fixpoint blanks (s : pystr) : list pystr := match s with c :: r => if is_pyspace c then blanks r ++ [r] else [] | [] => [] end.
(** all matches in the order of preference, with what they read; for internal/jsutils.py:586 *)
Fixpoint matches (l : list item) (s : pystr) : list (list N * pystr) :=
  match l with
  | [] => [([], s)]
  | IRead m :: l => flat_map (fun p => map (fun q => (fst p :: fst q, snd q)) (matches l (snd p))) (m s)
  | IChar c :: l => match s with x :: r => if x =? c then matches l r else [] | [] => [] end
  | IBlanks :: l => flat_map (matches l) (blanks s)
  end.
(** internal/jsutils.py:523-547 *)
Definition date_items (f : dfmt) : list item :=
  match f with
  | F_Ymd => [IRead d_Y; IChar 47; IRead d_m; IChar 47; IRead d_d]
  | F_dmY => [IRead d_d; IChar 47; IRead d_m; IChar 47; IRead d_Y]
  | F_ymd => [IRead d_y; IChar 47; IRead d_m; IChar 47; IRead d_d]
  end.
(** internal/jsutils.py:549-568 *)
Definition time_items (f : tfmt) : list item :=
  match f with
  | F_HMS => [IRead d_H; IChar 58; IRead d_M; IChar 58; IRead d_S]
  | F_HM => [IRead d_H; IChar 58; IRead d_M]
  | F_IpM => [IRead d_m; IRead d_p; IChar 58; IRead d_M]
  | F_IpMS => [IRead d_m; IRead d_p; IChar 58; IRead d_M; IChar 58; IRead d_S]
  end.
(** Lib/_strptime.py, _strptime, for internal/jsutils.py:586: the year of %y *)
Definition century (y : N) : N := if y <=? 68 then 2000 + y else 1900 + y.
(** Lib/_strptime.py, _strptime, for internal/jsutils.py:586: the hour of %I and %p *)
Definition hour_of (i p : N) : N := if p =? 0 then (if i =? 12 then 0 else i) else (if i =? 12 then 12 else i + 12).
(** Lib/datetime.py, for internal/jsutils.py:586: [datetime.date(year, month, day)] raises no ValueError *)
Definition leap (y : N) : bool := ((y mod 4 =? 0) && negb (y mod 100 =? 0)) || (y mod 400 =? 0).
(** Lib/datetime.py, for internal/jsutils.py:586 *)
Definition month_days (y m : N) : N :=
  if m =? 2 then (if leap y then 29 else 28) else if (m =? 4) || (m =? 6) || (m =? 9) || (m =? 11) then 30 else 31.
(** Lib/datetime.py, for internal/jsutils.py:586 *)
Definition day_exists (y m d : N) : bool := (1 <=? y) && (y <=? 9999) && (1 <=? m) && (m <=? 12) && (1 <=? d) && (d <=? month_days y m).
(** Lib/_strptime.py, _strptime, for internal/jsutils.py:586: year, month and day of what is read *)
Definition date_of (f : dfmt) (l : list N) : option (N * N * N * list N) :=
  match l with
  | a :: b :: c :: l => Some (match f with F_Ymd => (a, b, c) | F_dmY => (c, b, a) | F_ymd => (century a, b, c) end, l)
  | _ => None
  end.
(** Lib/_strptime.py, _strptime, for internal/jsutils.py:586: hour, minute and second *)
Definition time_of (f : tfmt) (l : list N) : option (N * N * N) :=
  match f, l with
  | F_HMS, [h; m; s] => Some (h, m, s)
  | F_HM, [h; m] => Some (h, m, 0)
  | F_IpM, [i; p; m] => Some (hour_of i p, m, 0)
  | F_IpMS, [i; p; m; s] => Some (hour_of i p, m, s)
  | _, _ => None
  end.
(** Lib/_strptime.py, _strptime, for internal/jsutils.py:586 *)
Definition py_strptime (s : pystr) (df : dfmt) (tf : tfmt) : res tm :=
  match matches (date_items df ++ IBlanks :: time_items tf) s with
  | (l, []) :: _ =>
      match date_of df l with
      | Some (y, mo, d, l) =>
          match time_of tf l with
          | Some (h, mi, sec) => do _ <- guard (day_exists y mo d) ValueError; Ok (Z.of_N y, Z.of_N mo, Z.of_N d, Z.of_N h, Z.of_N mi, Z.of_N sec)
          | None => Err ValueError
          end
      | None => Err ValueError
      end
  | _ => Err ValueError
  end.
