(** What can be done to a data file object, in any order and with any results *)
From Coq Require Import String.
From Verif Require Import Py Keys Handlers Reader SpecText SpecReader SpecNum.
Import ListNotations.
Local Open Scope list_scope.

Inductive history (E : env) (known : list hid) : sdf -> Prop :=
| Hist_new name : history E known (sdf_init name)
| Hist_read p s : history E known s -> history E known (fst (read E known p s))
| Hist_refresh p s : history E known s -> history E known (fst (refresh E known p s))
| Hist_interpret name s : history E known s -> history E known (fst (interpret E known name s))
| Hist_attr nm a name s : history E known s -> history E known (fst (get_attr E known nm a name s)).

(** [uses E known s s']: from [s], scans were interpreted or their attributes read, giving [s'] *)
Inductive uses (E : env) (known : list hid) : sdf -> sdf -> Prop :=
| Uses_none s : uses E known s s
| Uses_interpret name s s' : uses E known s s' -> uses E known s (fst (interpret E known name s'))
| Uses_attr nm a name s s' : uses E known s s' -> uses E known s (fst (get_attr E known nm a name s')).

(* ------------------------------------------------------------------ *)
(** * Files that grow *)

(** the lines starting with # among the first five lines of a text without its surrounding white space *)
Definition opening (t : str) (o : list str) : Prop :=
  exists c ls, padded t c /\ (forall x y, c = x ++ y -> blank x -> x = []) /\ (forall x y, c = x ++ y -> blank y -> y = []) /\
    Lines py_eol c ls /\ Keeps (starts_with "#") (firstn 5 ls) o.
Definition same_opening (a b : str) : Prop := exists o, opening a o /\ opening b o.
(** the same number on the #S line *)
Definition same_number (a b : str) : Prop := exists n, scan_number a n /\ scan_number b n.

(** a scan name that is a number of at least 1 *)
Definition at_least_one (n : str) : Prop := exists x, py_float n = Ok x /\ num_le (fl_of_Z 1) x /\ x <> FInf false.

(** How the scan sections of a file may change while it is written: [l] is the last section of the old file,
    [l'] the same scan in the new file and [N] the sections after it. *)
(** further scans were appended, all different from each other and from the old ones,
    and none of them opens like the last old one *)
Definition appended (A : list str) (l l' : str) (N : list str) : Prop :=
  same_text l' l /\ ForallOrdPairs (fun a b => ~ same_text a b) N /\
  Forall (fun x => Forall (fun a => ~ same_text x a) (A ++ [l]) /\ ~ same_opening x l) N.
(** the last scan got longer (and any scans may have been appended after it) *)
Definition lengthened (A : list str) (l l' : str) : Prop :=
  Forall (fun a => ~ same_text l' a) (A ++ [l]) /\ same_opening l' l /\ same_number l' l.

(** [grows s T T']: [T] the scan sections of the file as [s] last read it, [T'] those of the new file.
    The last scan in the file is also the one [s] knows as its last scan (the chronologically last one),
    it has a number of at least 1, and no other scan has the same text. *)
Definition grows (s : sdf) (T T' : list str) : Prop :=
  exists A A' l l' N ks n,
    T = A ++ [l] /\ T' = A' ++ l' :: N /\ Forall2 same_text A' A /\ Forall (fun a => ~ same_text a l) A /\
    keys (scans s) = ks ++ [n] /\ last_scan s = Some (KStr n) /\ at_least_one n /\
    (appended A l l' N \/ lengthened A l l').

(** [follows E known T s]: the file was opened, used, and read again or refreshed while it grew; its scan sections
    at the latest reading were [T] *)
Inductive follows (E : env) (known : list hid) : list str -> sdf -> Prop :=
| Follow_open name p s secs T : open_file E known name p = Ok s -> dissect p = Ok secs -> Keeps scan_section secs T ->
    follows E known T s
| Follow_use T s s' : follows E known T s -> uses E known s s' -> follows E known T s'
| Follow_read T s p secs T' s' : follows E known T s -> dissect p = Ok secs -> Keeps scan_section secs T' ->
    grows s T T' -> read E known p s = (s', None) -> follows E known T' s'
| Follow_unchanged T s p s' : follows E known T s -> refresh E known p s = (s', Ok None) -> last_scan s <> None -> follows E known T s'
| Follow_refresh T s p secs T' s' k : follows E known T s -> dissect p = Ok secs -> Keeps scan_section secs T' ->
    grows s T T' -> refresh E known p s = (s', Ok (Some k)) -> follows E known T' s'.
