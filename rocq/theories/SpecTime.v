(** Specification of the two date formats and of ISO8601 text, independent of the model's parser. *)
From Coq Require Import String ZArith.
From Verif Require Import Py SpecText.
Import ListNotations.
Local Open Scope list_scope.
Local Open Scope Z_scope.

Definition day_name (w : str) : Prop :=
  In (lower w) (map L ["mon"; "tue"; "wed"; "thu"; "fri"; "sat"; "sun"]%string).
Definition month_name (m : Z) (w : str) : Prop :=
  1 <= m /\
  nth_error (map L ["jan"; "feb"; "mar"; "apr"; "may"; "jun"; "jul"; "aug"; "sep"; "oct"; "nov"; "dec"]%string)
            (Z.to_nat (m - 1)) = Some (lower w).

(** the Gregorian calendar *)
Definition leap_year (y : Z) : Prop := ((4 | y) /\ ~ (100 | y)) \/ (400 | y).
Definition month_length (y m n : Z) : Prop :=
  (In m [1; 3; 5; 7; 8; 10; 12] /\ n = 31) \/ (In m [4; 6; 9; 11] /\ n = 30) \/
  (m = 2 /\ leap_year y /\ n = 29) \/ (m = 2 /\ ~ leap_year y /\ n = 28).
Definition calendar (y m d : Z) : Prop := 1 <= y <= 9999 /\ exists n, month_length y m n /\ 1 <= d <= n.
Definition clock (h mi s : Z) : Prop := 0 <= h <= 23 /\ 0 <= mi <= 59 /\ 0 <= s <= 61.

(** decimal digits of a small number *)
Definition ch (z : Z) : N := Z.to_N (48 + z).
Definition two (v : Z) : str := [ch (v / 10); ch (v mod 10)].
Definition four (y : Z) : str := [ch (y / 1000); ch (y / 100 mod 10); ch (y / 10 mod 10); ch (y mod 10)].
(** a field written with one or two digits *)
Inductive field (v : Z) : str -> Prop :=
| field_one : 0 <= v <= 9 -> field v [ch v]
| field_two : 0 <= v <= 99 -> field v (two v).
(** a run of white space *)
Definition gap (s : str) : Prop := s <> [] /\ blank s.

(** "Www Mmm dd HH:MM:SS YYYY" *)
Definition spec_date (s : str) (y m d h mi se : Z) : Prop :=
  exists wd g1 mo g2 fd g3 fh fm fs g4,
    s = wd ++ g1 ++ mo ++ g2 ++ fd ++ g3 ++ fh ++ L ":" ++ fm ++ L ":" ++ fs ++ g4 ++ four y /\
    day_name wd /\ month_name m mo /\ field d fd /\ field h fh /\ field mi fm /\ field se fs /\
    gap g1 /\ gap g2 /\ gap g3 /\ gap g4.
(** "mm/dd/yy HH:MM:SS", years 1969 to 2068 *)
Definition spock_date (s : str) (y m d h mi se : Z) : Prop :=
  exists fmo fd g fh fm fs,
    s = fmo ++ L "/" ++ fd ++ L "/" ++ two (y mod 100) ++ g ++ fh ++ L ":" ++ fm ++ L ":" ++ fs /\
    1969 <= y <= 2068 /\ field m fmo /\ field d fd /\ field h fh /\ field mi fm /\ field se fs /\ gap g.

(** ISO8601; the year is written without padding *)
Definition iso (y m d h mi se : Z) : str :=
  str_of_Z y ++ L "-" ++ two m ++ L "-" ++ two d ++ L "T" ++ two h ++ L ":" ++ two mi ++ L ":" ++ two se.

(** the same formats with decimal digits of any script (as re [\d] has them) *)
Definition digit (v : Z) (c : N) : Prop := exists d, digval c = Some d /\ v = Z.of_N d.
Inductive gfield (v : Z) : str -> Prop :=
| gfield_one c : digit v c -> gfield v [c]
| gfield_two a b c1 c2 : digit a c1 -> digit b c2 -> v = 10 * a + b -> gfield v [c1; c2].
Definition gfour (y : Z) (s : str) : Prop :=
  exists a b c d ca cb cc cd, s = [ca; cb; cc; cd] /\ digit a ca /\ digit b cb /\ digit c cc /\ digit d cd /\
    y = 1000 * a + 100 * b + 10 * c + d.
Definition gtwo_year (y : Z) (s : str) : Prop :=
  exists a b ca cb, s = [ca; cb] /\ digit a ca /\ digit b cb /\
    y = (if 10 * a + b <=? 68 then 2000 + (10 * a + b) else 1900 + (10 * a + b)).
Definition any_spec_date (s : str) (y m d h mi se : Z) : Prop :=
  exists wd g1 mo g2 fd g3 fh fm fs g4 fy,
    s = wd ++ g1 ++ mo ++ g2 ++ fd ++ g3 ++ fh ++ L ":" ++ fm ++ L ":" ++ fs ++ g4 ++ fy /\
    day_name wd /\ month_name m mo /\ gfield d fd /\ gfield h fh /\ gfield mi fm /\ gfield se fs /\
    gfour y fy /\ gap g1 /\ gap g2 /\ gap g3 /\ gap g4.
Definition any_spock_date (s : str) (y m d h mi se : Z) : Prop :=
  exists fmo pad fd fy g fh fm fs,
    s = fmo ++ L "/" ++ pad ++ fd ++ L "/" ++ fy ++ g ++ fh ++ L ":" ++ fm ++ L ":" ++ fs /\
    (pad = [] \/ pad = [SP]) /\ gtwo_year y fy /\
    gfield m fmo /\ gfield d fd /\ gfield h fh /\ gfield mi fm /\ gfield se fs /\ gap g.
