(** The layout in which SPEC writes a data file, independent of the model's functions. *)
From Coq Require Import String.
From Verif Require Import Py Keys Handlers Reader Time SpecText SpecUtils SpecReader SpecKeys SpecInterp SpecData SpecDecimal.
Import ListNotations.
Local Open Scope list_scope.

(** a text on one line that does not continue on the next one *)
Definition line_text (t : str) : Prop := free_of py_eol t /\ forall a, t <> a ++ [BACKSLASH].
(** a number as it is written, and its value *)
Definition written_number (w : str) (v : fl) : Prop := exists m e, float_text w m e /\ v = FDec m e.

(** what is written for one scan: its number, command and date, the number of columns in decimal notation,
    the labels, and the texts of the numbers of each point *)
Record written := mk_written {
  w_num : str; w_cmd : str; w_date : str; w_ncols : str; w_labels : list str; w_rows : list (list str) }.
(** labels separated by two blanks, numbers by one *)
Definition table_lines (w : written) : list str :=
  [L "#N " ++ w_ncols w; L "#L " ++ join [SP; SP] (w_labels w)] ++ map (join [SP]) (w_rows w).
Definition section_lines (w : written) : list str :=
  [L "#S " ++ w_num w ++ L "  " ++ w_cmd w; L "#D " ++ w_date w] ++ table_lines w.
(** a table of at least two columns, with different labels and as many numbers in each row *)
Definition good_table (w : written) (vals : list (list fl)) : Prop :=
  2 <= List.length (w_labels w) /\ NoDup (w_labels w) /\ Forall (fun l => good_label l /\ tight l /\ line_text l) (w_labels w) /\
  numeral (w_ncols w) (List.length (w_labels w)) /\
  Forall (fun r => List.length r = List.length (w_labels w)) (w_rows w) /\
  Forall2 (Forall2 written_number) (w_rows w) vals.
(** [read_back sc w vals]: the labels and the columns of the scan are those that were written:
    entry i of column j is the j-th number of row i *)
Definition read_back (sc : scan) (w : written) (vals : list (list fl)) : Prop :=
  attr_is sc A_L (w_labels w) /\
  exists data, attr_is sc A_data data /\ keys data = w_labels w /\
    forall j l, nth_error (w_labels w) j = Some l ->
      exists c, dget l data = Some (Col c) /\ Forall2 (fun row x => nth_error row j = Some x) vals c.

(** ** A whole file *)
(** the file name, the epoch, the date and the comment of the header *)
Record head := mk_head { hd_file : str; hd_epoch : str; hd_date : str; hd_comment : str }.
(** header, then the scans, each after an empty line *)
Definition file_lines (h : head) (ws : list written) : list str :=
  [L "#F " ++ hd_file h; L "#E " ++ hd_epoch h; L "#D " ++ hd_date h; L "#C " ++ hd_comment h] ++
  List.concat (map (fun w => [] :: section_lines w) ws).
Definition file_text (h : head) (ws : list written) : str := List.concat (map (fun l => l ++ [LF]) (file_lines h ws)).

(** a time stamp that can be shown as a date *)
Definition good_epoch (E : env) (n : num) : Prop := (exists i, int_of_num n = Ok i) /\ exists u, fromtimestamp E (fl_of_num n) = Ok u.
(** a date text with blanks in it, e.g. Wed Nov 03 13:48:06 2010 *)
Definition date_text (d : str) : Prop := line_text d /\ tight d /\ In SP d.
(** the time functions of the platform accept the date *)
Definition good_date (E : env) (d : str) : Prop :=
  date_text d /\ exists t e, strptime d = Ok t /\ mktime E t = Ok e /\ good_epoch E e.
Definition good_head (E : env) (h : head) : Prop :=
  line_text (hd_file h) /\ (exists z, int_text (hd_epoch h) z /\ good_epoch E (NI z)) /\ date_text (hd_date h) /\ line_text (hd_comment h).
(** a scan with a number, a command, a date and a table *)
Definition good_scan (E : env) (w : written) (vals : list (list fl)) : Prop :=
  a_word (w_num w) /\ line_text (w_cmd w) /\ w_cmd w <> [] /\ tight (w_cmd w) /\ good_date E (w_date w) /\ good_table w vals.
