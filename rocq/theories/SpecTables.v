(** Specification of tables given by numbered lines (#O/#P, #H/#V, #J/#j, #O/#o), independent of the model's functions. *)
From Coq Require Import String.
From Verif Require Import Py Keys Handlers Reader SpecText SpecUtils SpecReader SpecHistory SpecKeys SpecInterp SpecData.
Import ListNotations.
Local Open Scope list_scope.

(** the entry in row [r], column [c] (both counted from 0) of a table, whose rows may have any lengths *)
Definition at_cell {A} (t : list (list A)) (r c : nat) (x : A) : Prop :=
  exists row, nth_error t r = Some row /\ nth_error row c = Some x.
(** reading order *)
Definition later (p q : nat * nat) : Prop := fst p < fst q \/ (fst p = fst q /\ snd p < snd q).
(** [last_pair keys values k v]: [k] is in the first table and [v] at the same position of the second one,
    and no later position, present in both tables, has the key [k] *)
Definition last_pair {A} (keys : list (list str)) (values : list (list A)) (k : str) (v : A) : Prop :=
  exists r c, at_cell keys r c k /\ at_cell values r c v /\
    forall r' c' v', at_cell keys r' c' k -> at_cell values r' c' v' -> (r', c') = (r, c) \/ later (r', c') (r, c).

(** the rows given by lines: the words after the first blank *)
Definition word_row (l : str) (ws : list str) : Prop := exists t, content l t /\ fields t ws.
Definition word_rows (h : hid) (ls : list str) (rows : list (list str)) : Prop :=
  exists cs, Keeps (control h) ls cs /\ Forall2 word_row cs rows.

(** ** #P values without a label *)
(** "#P0 found without #O0" *)
Definition no_row_message (r : nat) (m : str) : Prop :=
  exists n, numeral n r /\ m = L "#P" ++ n ++ L " found without #O" ++ n.
(** "extra value in #P0 position 9, no matching label in #O0": the column counted from 1 *)
Definition no_label_message (r c : nat) (m : str) : Prop :=
  exists n k, numeral n r /\ numeral k (c + 1) /\
    m = L "extra value in #P" ++ n ++ L " position " ++ k ++ L ", no matching label in #O" ++ n.
(** the messages for row [r] *)
Definition row_messages (labels : list (list str)) (r : nat) (row : list str) (ms : list str) : Prop :=
  (nth_error labels r = None /\ exists m, ms = [m] /\ no_row_message r m) \/
  (exists labs, nth_error labels r = Some labs /\ List.length ms = List.length row - List.length labs /\
     forall i m, nth_error ms i = Some m -> no_label_message r (List.length labs + i) m).
Definition messages (labels values : list (list str)) (ms : list str) : Prop :=
  exists mss, ms = List.concat mss /\ List.length mss = List.length values /\
    forall r row m, nth_error values r = Some row -> nth_error mss r = Some m -> row_messages labels r row m.

(** the header object of a scan: [header_is s sc o] *)
Definition header_is (s : sdf) (sc : scan) (o : obj) : Prop :=
  exists h, nth_error (headers s) (s_hdr sc) = Some h /\ o = h_obj h.

(** ** #V lines *)
(** cut at each blank *)
Definition cut_at_blanks (t : str) (parts : list str) : Prop :=
  parts <> [] /\ t = join [SP] parts /\ Forall (fun p => ~ In SP p) parts.
(** cut at double blanks, from the left *)
Definition no_double_blank (p : str) : Prop := forall a b, p <> a ++ SP :: SP :: b.
Inductive cut_at_double_blanks : str -> list str -> Prop :=
| Cut_last p : no_double_blank p -> cut_at_double_blanks p [p]
| Cut_more p t ps : no_double_blank p -> (forall q, p <> q ++ [SP]) -> cut_at_double_blanks t ps -> cut_at_double_blanks (p ++ SP :: SP :: t) (p :: ps).
(** [value_row labels t vs]: the values of a #V line with content [t] *)
Definition value_row (labels : list str) (t : str) (vs : list str) : Prop :=
  exists v2, cut_at_double_blanks t v2 /\
    ((List.length v2 = List.length labels /\ vs = v2) \/ (List.length v2 <> List.length labels /\ cut_at_blanks t vs)).
(** the value kept: a number if it is one *)
Definition meta_value (w : str) (v : mdval) : Prop :=
  (exists f, number w f /\ v = MdF f) \/ ((forall f, ~ number w f) /\ v = MdS w).

(** ** Header blocks *)
(** [starts h line]: the line starts with a word that belongs to the handler, and a blank *)
Definition starts (h : hid) (line : str) : Prop := exists w rest, line = w ++ SP :: rest /\ ~ In SP w /\ belongs h w.
(** [header_read E known raw o]: the text [raw] of a header block was interpreted without an error; this gave the attributes [o] *)
Definition header_read (E : env) (known : list hid) (raw : str) (o : obj) : Prop :=
  exists ep latest w, interpret_header E known raw (mk_w false (upd A_epoch ep header_init) latest) = (w, Ok tt) /\ o = me w.
(** rows of words given by lines of a header block *)
Definition header_rows (h : hid) (ls : list str) (rows : list (list str)) : Prop :=
  exists cs, Keeps (starts h) ls cs /\ Forall2 word_row cs rows.
(** the labels of an #O line; none if nothing is written *)
Definition label_row (l : str) (labs : list str) : Prop :=
  exists t, content l t /\ ((t = [] /\ labs = []) \/ (t <> [] /\ label_list t labs)).
(** the labels of an #H line; they are separated by two or more blanks *)
Definition meta_labels (l : str) (labs : list str) : Prop :=
  exists t, content l t /\ (~ In TAB t -> label_list t labs).
(** [since_last P l k]: what follows and includes the last element with [P], or everything *)
Definition since_last {A} (P : A -> Prop) (l k : list A) : Prop :=
  (Forall (fun x => ~ P x) l /\ k = l) \/ exists pre x post, l = pre ++ x :: post /\ P x /\ Forall (fun x => ~ P x) post /\ k = x :: post.
(** the names of positioners: the lines from the last #O0 line on *)
Definition positioner_names (ls : list str) (rows : list (list str)) : Prop :=
  exists cs ds, Keeps (starts H_O) ls cs /\ since_last (fun l => first_word_is l (L "#O0")) cs ds /\ Forall2 label_row ds rows.
(** cross reference of mnemonics and names; the entries are in the order of the mnemonics, if these are different *)
Definition cross_reference (x : dict str) (mnemonics names : list (list str)) : Prop :=
  (forall r c m, at_cell mnemonics r c m -> exists n, at_cell names r c n) /\
  NoDup (keys x) /\ (NoDup (List.concat mnemonics) -> keys x = List.concat mnemonics) /\ forall m n, dget m x = Some n <-> last_pair mnemonics names m n.

(** [clean_history E known s]: like [history], but every reading of the file succeeded *)
Inductive clean_history (E : env) (known : list hid) : sdf -> Prop :=
| Clean_new name : clean_history E known (sdf_init name)
| Clean_read p s s' : clean_history E known s -> read E known p s = (s', None) -> clean_history E known s'
| Clean_refresh p s s' k : clean_history E known s -> refresh E known p s = (s', Ok k) -> clean_history E known s'
| Clean_interpret name s : clean_history E known s -> clean_history E known (fst (interpret E known name s))
| Clean_attr nm a name s : clean_history E known s -> clean_history E known (fst (get_attr E known nm a name s)).
(** no scan has a line that names positioners *)
Definition no_names_in_scans (s : sdf) : Prop :=
  forall name sc ls l, dget name (scans s) = Some sc -> lines_of (s_raw sc) ls -> In l ls -> ~ control H_O l.
