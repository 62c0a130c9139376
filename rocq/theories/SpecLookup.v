(** Specification of looking up scans: by number, in order of numbers, in order of dates. *)
From Coq Require Import String Sorted Permutation.
From Verif Require Import Py Time Utils Keys Handlers Reader SpecNum SpecHistory.
Import ListNotations.
Local Open Scope list_scope.

(** all scan names are numbers; none of them is NaN; all of them are at least 1 and finite *)
Definition numeric (s : sdf) : Prop := Forall (fun k => exists f, py_float k = Ok f) (keys (scans s)).
Definition no_nan (s : sdf) : Prop := Forall (fun k => py_float k <> Ok FNaN) (keys (scans s)).
Definition all_ge1 (s : sdf) : Prop := Forall at_least_one (keys (scans s)).

(** the time on the #D line of a scan *)
Definition scan_time (sc : scan) (t : tm) : Prop := exists d, s_obj sc A_date = Some d /\ strptime d = Ok t.

(** [scs] are all scans of the file in order of time, those with the same time in file order *)
Definition chronological (s : sdf) (scs : list scan) : Prop :=
  Permutation scs (values (scans s)) /\
  StronglySorted (fun a b => exists x y, scan_time a x /\ scan_time b y /\ time_le x y) scs /\
  (forall a b x, before (values (scans s)) a b -> scan_time a x -> scan_time b x -> before scs a b).

(** the number of the scan is in the half-open range; the scan is the [k]-th repeat of its number *)
Definition in_range_of (a b : Z) (sc : scan) : Prop :=
  exists x, py_float (s_num sc) = Ok x /\ num_le (fl_of_Z a) x /\ num_lt x (fl_of_Z b).
Definition repeat_of (k : Z) (name : str) : Prop := exists ps, split_scan_number_string name = Ok ps /\ nth_error ps 1 = Some k.

(** the lines of a report of the scans asked for *)
Inductive reported (s : sdf) : list skey -> list str -> Prop :=
| Rep_nil : reported s [] []
| Rep_yes k ks out sc : getScan k s = Ok (Some sc) -> reported s ks out ->
    reported s (k :: ks) ((L "#S " ++ key_str k ++ L " " ++ s_cmd sc) :: out)
| Rep_no k ks out : getScan k s = Ok None -> reported s ks out -> reported s (k :: ks) out.

(** a bound of a slice that counts from the end, or is left out *)
Definition rel_bound (o : option Z) : Prop := match o with None => True | Some z => (z < 0)%Z end.
