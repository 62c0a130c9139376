(** Specification of data columns, rows and spectra, independent of the model's functions. *)
From Coq Require Import String.
From Verif Require Import Py Keys Handlers SpecText SpecUtils SpecReader SpecKeys SpecInterp.
Import ListNotations.
Local Open Scope list_scope.

(** ** Labels *)
(** the names tried for a label: label, label_1, label_2, ... *)
Definition candidate (l : str) (i : nat) (c : str) : Prop :=
  (i = 0 /\ c = l) \/ (0 < i /\ exists ds, numeral ds i /\ c = l ++ L "_" ++ ds).
(** the first of them that is not taken *)
Definition first_free (taken : list str) (l c : str) (i : nat) : Prop :=
  candidate l i c /\ ~ In c taken /\ forall j, j < i -> exists c', candidate l j c' /\ In c' taken.
(** each label gets the first name not taken by a label before it *)
Inductive relabelled : list str -> list str -> list str -> Prop :=
| Rel_nil taken : relabelled taken [] []
| Rel_cons taken l ls c i cs : first_free taken l c i -> i < 1000 -> relabelled (taken ++ [c]) ls cs -> relabelled taken (l :: ls) (c :: cs).

(** the labels of a text: separated by tabs or at least two blanks *)
Definition label_list (t : str) (labs : list str) : Prop :=
  (t = [] /\ labs = [[]]) \/
  exists first more, t = joined first more /\ good_label first /\ Forall (fun p => good_sep (fst p) /\ good_label (snd p)) more /\
    labs = first :: map snd more.
(** the labels on the last #L line; a text without tabs and double blanks may also be a list of words *)
Definition labels_written (ls : list str) (labs : list str) : Prop :=
  (Forall (fun l => ~ control H_L l) ls /\ labs = []) \/
  exists l t, last_line_of H_L ls l /\ content l t /\
    (label_list t labs \/ (label_list t [t] /\ fields t labs)).
Definition data_line_of (l : str) : Prop := control H_data l \/ control H_atA l.

(** ** Rows *)
Definition number (w : str) (v : fl) : Prop := py_float w = Ok v.
(** a line with one number for each of [n] columns *)
Definition a_row (n : nat) (line : str) (vals : list fl) : Prop :=
  exists ws, fields line ws /\ Forall2 number ws vals /\ List.length vals = n.
Definition is_row (n : nat) (line : str) : Prop := exists vals, a_row n line vals.

(** [tabulated labels data lines]: the columns of [data] are made of the rows found among [lines]: entry i of column j is
    the number in field j of the i-th line that is a row; other lines leave no trace *)
Definition tabulated (labels : list str) (data : dict col) (lines : list str) : Prop :=
  exists rows tbl, Keeps (is_row (List.length labels)) lines rows /\ Forall2 (a_row (List.length labels)) rows tbl /\
    forall j l, nth_error labels j = Some l ->
      exists c, dget l data = Some (Col c) /\ Forall2 (fun vals x => nth_error vals j = Some x) tbl c.

(** ** Spectra *)
Definition mca_line_of (key line : str) : Prop := exists w, first_word_is line (L "@A" ++ w) /\ key = L "mca" ++ w.
(** the numbers after the first word: real numbers if there is a decimal point, else integers *)
Definition spectrum (line : str) (sp : list num) : Prop :=
  exists w ws, fields line (w :: ws) /\
    ((In 46%N line /\ exists fs, Forall2 number ws fs /\ sp = map NF fs) \/
     (~ In 46%N line /\ exists zs, Forall2 (fun w z => py_int w = Ok z) ws zs /\ sp = map NI zs)).
(** [spectra m lines]: [m] has, for each detector, the spectra of its lines in order *)
Definition spectra (m : dict (list (list num))) (lines : list str) : Prop :=
  forall key, exists ml sps, Keeps (mca_line_of key) lines ml /\ Forall2 spectrum ml sps /\
    ((sps = [] /\ dget key m = None) \/ (sps <> [] /\ dget key m = Some sps)).

(** ** Rows cut into pieces *)
(** the words of several lines *)
Definition all_fields (lines : list str) (ws : list str) : Prop := exists wss, Forall2 fields lines wss /\ ws = List.concat wss.
(** [put_together N lines rows]: the lines are those of the rows, each cut into pieces with at least one word, and
    possibly an incomplete last row; each of [rows] has the [N] words of its pieces *)
Inductive put_together (N : nat) : list str -> list str -> Prop :=
| Put_rest lines ws : all_fields lines ws -> List.length ws < N -> put_together N lines []
| Put_row piece lines row rows ws : all_fields piece ws -> List.length ws = N -> Forall (fun l => ~ blank l) piece -> fields row ws ->
    put_together N lines rows -> put_together N (piece ++ lines) (row :: rows).
