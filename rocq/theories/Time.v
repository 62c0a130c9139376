(** [time.strptime] for the two formats used by spec2nexus, and [iso8601].

    Models: /repo/spec2nexus/utils.py 52-76 (iso8601),
    /repo/spec2nexus/spec.py 498-505 (strptime with the default format) and
    /repo/spec2nexus/plugins/spec_common.py 137-140.
    The regular expressions are those of CPython 3.11 Lib/_strptime.py in the
    C locale.  *)
From Coq Require Import String.
From Verif Require Import Py.
Import ListNotations.
Local Open Scope list_scope.
Local Open Scope Z_scope.

(** utils.py 66-71: the fields of [time.struct_time] that the code uses or compares
    ([tm_yday] is a function of the date and [tm_isdst] is always -1). *)
Record tm := mk_tm { year : Z; mon : Z; mday : Z; hour : Z; minute : Z; sec : Z; wday : Z }.

(** spec.py 501-502: tuple comparison of struct_time *)
Definition tm_list (t : tm) : list Z :=
  [year t; mon t; mday t; hour t; minute t; sec t; wday t].
Fixpoint zlist_leb (a b : list Z) : bool :=
  match a, b with
  | [], _ => true
  | _ :: _, [] => false
  | x :: a', y :: b' => if x <? y then true else if y <? x then false else zlist_leb a' b'
  end.
Definition tm_leb (a b : tm) : bool := zlist_leb (tm_list a) (tm_list b).

(** utils.py 64: [%a], [%b]: abbreviated names of the C locale, any case (all have three letters) *)
Definition day_names : list str := map L ["mon"; "tue"; "wed"; "thu"; "fri"; "sat"; "sun"]%string.
Definition month_names : list str :=
  map L ["jan"; "feb"; "mar"; "apr"; "may"; "jun"; "jul"; "aug"; "sep"; "oct"; "nov"; "dec"]%string.

(** utils.py 64: position of a name in a list *)
Fixpoint index_of (x : str) (l : list str) (i : Z) : option Z :=
  match l with
  | [] => None
  | y :: t => if seqb x y then Some i else index_of x t (i + 1)
  end.

(** utils.py 64: match one name, return its index and the rest *)
Definition take_name (names : list str) (s : str) : option (Z * str) :=
  match s with
  | a :: b :: c :: r =>
      match index_of (lower [a; b; c]) names 0 with
      | Some i => Some (i, r)
      | None => None
      end
  | _ => None
  end.

(** utils.py 64: a blank in the format is the regular expression \s+ *)
Definition take_ws (s : str) : option str :=
  match s with
  | c :: t => if is_space c then Some (lstrip t) else None
  | [] => None
  end.

(** utils.py 64, 68: a literal character of the format *)
Definition take_c (c : N) (s : str) : option str :=
  match s with
  | x :: t => if (x =? c)%N then Some t else None
  | [] => None
  end.

Definition dv (c : N) : Z := match digval c with Some d => Z.of_N d | None => 0 end.
Definition asc (lo hi : N) (c : N) : bool := ((48 + lo <=? c) && (c <=? 48 + hi))%N.

(** utils.py 64, 68: a field of two digits ([two]) or one digit ([one]) *)
Definition take_field (two : N -> N -> bool) (one : N -> bool) (s : str) : option (Z * str) :=
  match s with
  | c1 :: c2 :: r =>
      if two c1 c2 then Some (10 * dv c1 + dv c2, r)
      else if one c1 then Some (dv c1, c2 :: r) else None
  | [c1] => if one c1 then Some (dv c1, []) else None
  | [] => None
  end.
(** [%d]: 3[0-1]|[1-2]\d|0[1-9]|[1-9] *)
Definition two_d c1 c2 := (asc 3 3 c1 && asc 0 1 c2) || (asc 1 2 c1 && is_dec c2) || (asc 0 0 c1 && asc 1 9 c2).
Definition take_mday := take_field two_d (asc 1 9).
(** [%H]: 2[0-3]|[0-1]\d|\d *)
Definition two_H c1 c2 := (asc 2 2 c1 && asc 0 3 c2) || (asc 0 1 c1 && is_dec c2).
Definition take_hour := take_field two_H is_dec.
(** [%M]: [0-5]\d|\d *)
Definition two_M c1 c2 := asc 0 5 c1 && is_dec c2.
Definition take_min := take_field two_M is_dec.
(** [%S]: 6[0-1]|[0-5]\d|\d *)
Definition two_S c1 c2 := (asc 6 6 c1 && asc 0 1 c2) || (asc 0 5 c1 && is_dec c2).
Definition take_sec := take_field two_S is_dec.
(** [%m]: 1[0-2]|0[1-9]|[1-9] *)
Definition two_m c1 c2 := (asc 1 1 c1 && asc 0 2 c2) || (asc 0 0 c1 && asc 1 9 c2).
Definition take_mon := take_field two_m (asc 1 9).
(** [%Y]: \d\d\d\d *)
Definition take_Y (s : str) : option (Z * str) :=
  match s with
  | a :: b :: c :: d :: r =>
      if is_dec a && is_dec b && is_dec c && is_dec d
      then Some (1000 * dv a + 100 * dv b + 10 * dv c + dv d, r) else None
  | _ => None
  end.
(** [%y]: \d\d, pivot 68 *)
Definition take_y (s : str) : option (Z * str) :=
  match s with
  | a :: b :: r =>
      if is_dec a && is_dec b then
        let v := 10 * dv a + dv b in
        Some (if v <=? 68 then 2000 + v else 1900 + v, r)
      else None
  | _ => None
  end.

(** utils.py 66: [datetime.date(y, m, d)] must exist *)
Definition leap (y : Z) : bool := ((y mod 4 =? 0) && negb (y mod 100 =? 0)) || (y mod 400 =? 0).
Definition month_days (y m : Z) : Z :=
  if m =? 2 then (if leap y then 29 else 28)
  else if (m =? 4) || (m =? 6) || (m =? 9) || (m =? 11) then 30 else 31.
Definition valid_date (y m d : Z) : bool :=
  (1 <=? y) && (y <=? 9999) && (1 <=? m) && (m <=? 12) && (1 <=? d) && (d <=? month_days y m).

(** days before year [y] / before month [m], for the weekday of a date (Monday = 0) *)
Definition days_before_year (y : Z) : Z := let p := y - 1 in 365 * p + p / 4 - p / 100 + p / 400.
Definition days_before_month (y m : Z) : Z :=
  nth (Z.to_nat (m - 1)) [0; 31; 59; 90; 120; 151; 181; 212; 243; 273; 304; 334] 0
  + (if (m >? 2) && leap y then 1 else 0).
Definition weekday (y m d : Z) : Z :=
  (days_before_year y + days_before_month y m + d + 6) mod 7.

Notation "'opt' x <- m ; k" := (match m with Some x => k | None => None end)
  (at level 200, x pattern, m at level 100, k at level 200, right associativity).

(** utils.py 64-66: "%a %b %d %H:%M:%S %Y" *)
Definition parse_spec (s : str) : option tm :=
  opt (wd, s) <- take_name day_names s;
  opt s <- take_ws s;
  opt (mo, s) <- take_name month_names s;
  opt s <- take_ws s;
  opt (d, s) <- take_mday s;
  opt s <- take_ws s;
  opt (h, s) <- take_hour s;
  opt s <- take_c 58%N s;
  opt (mi, s) <- take_min s;
  opt s <- take_c 58%N s;
  opt (se, s) <- take_sec s;
  opt s <- take_ws s;
  opt (y, s) <- take_Y s;
  match s with
  | [] => if valid_date y (mo + 1) d then Some (mk_tm y (mo + 1) d h mi se wd) else None
  | _ => None
  end.

(** utils.py 68-70: "%m/%d/%y %H:%M:%S"; [%d] may start with one blank *)
Definition parse_spock (s : str) : option tm :=
  opt (mo, s) <- take_mon s;
  opt s <- take_c 47%N s;
  opt (d, s) <- (match s with
                 | c :: r => if (c =? SP)%N
                             then match r with x :: r' => if asc 1 9 x then Some (dv x, r') else None
                                             | [] => None end
                             else take_mday s
                 | [] => None
                 end);
  opt s <- take_c 47%N s;
  opt (y, s) <- take_y s;
  opt s <- take_ws s;
  opt (h, s) <- take_hour s;
  opt s <- take_c 58%N s;
  opt (mi, s) <- take_min s;
  opt s <- take_c 58%N s;
  opt (se, s) <- take_sec s;
  match s with
  | [] => if valid_date y mo d then Some (mk_tm y mo d h mi se (weekday y mo d)) else None
  | _ => None
  end.

(** spec.py 502: [time.strptime(date)] (default format) *)
Definition strptime (s : str) : res tm := of_opt ValueError (parse_spec s).

(** utils.py 75: [%m], [%d], [%H] ... of [time.strftime]: two digits *)
Definition two_digits (z : Z) : str := if z <? 10 then 48%N :: str_of_Z z else str_of_Z z.

(** utils.py 74-76: [time.strftime("%Y-%m-%dT%H:%M:%S", t)]; [%Y] is not padded (glibc) *)
Definition strftime_iso (t : tm) : str :=
  str_of_Z (year t) ++ L "-" ++ two_digits (mon t) ++ L "-" ++ two_digits (mday t) ++ L "T" ++
  two_digits (hour t) ++ L ":" ++ two_digits (minute t) ++ L ":" ++ two_digits (sec t).

(** utils.py 52-76 *)
Definition iso8601 (date : str) : res str :=
  match parse_spec date with
  | Some t => Ok (strftime_iso t)
  | None => match parse_spock date with
            | Some t => Ok (strftime_iso t)
            | None => Raise ValueError
            end
  end.
