(** /repo/spec2nexus/utils.py (iso8601 is in Time.v) *)
From Coq Require Import String.
From Verif Require Import Py.
Import ListNotations.
Local Open Scope list_scope.

(** utils.py 41-49: clean_name.  Joining the pieces of [re.split("[^\w_]", key)] with "_"
    replaces each character that is not a word character ("_" is one). *)
Definition clean_char (c : N) : N := if is_word c || (c =? 95)%N then c else 95%N.
Definition clean_name (key : str) : res str :=
  let txt := map clean_char key in
  match txt with
  | [] => Raise IndexError                 (* txt[0] *)
  | c :: _ => Ok (if is_digit c then 95%N :: txt else txt)
  end.

(** utils.py 79-83: [line.find(" ")] is -1 if there is no blank: [line[-1:]] *)
Definition strip_first_word (line : str) : str :=
  strip (slice_from (pos_of (find_c SP line)) line).

(** utils.py 86-88 *)
Definition split_column_labels (text : str) : list str :=
  split_2sp (replace [TAB] [SP; SP] text).

(** utils.py 91-113 ([key] is a str: every caller passes a scan name).
    [str.split] never gives an empty list, so [len(parts) == 0] is dead code. *)
Definition split_scan_number_string (key : str) : res (list Z) :=
  do parts <- mapM py_int (split_c 46%N (rstrip_by (is_c 46%N) key));
  let parts := match parts with [] => [0%Z] | _ => parts end in
  Ok (match parts with [n] => [n; 0%Z] | _ => parts end).

(** utils.py 116-133 *)
Definition sanitize_name {G} (group : G) (key : str) : res str := clean_name key.

(** utils.py 136-158.  An array is its shape and its elements in row-major order;
    elements are abstract, with a distinguished NaN. *)
Record array (A : Type) := mk_array { shape : list nat; flat : list A }.
Arguments mk_array {A}. Arguments shape {A}. Arguments flat {A}.
Definition prod (sh : list nat) : nat := fold_left Nat.mul sh 1%nat.
Definition reshape_data {A} (nan : A) (scan_data : array A) (scan_shape : list nat) : array A :=
  let scan_size := prod scan_shape in
  let size := List.length (flat scan_data) in
  let data :=
    if Nat.eqb size scan_size then flat scan_data
    else if Nat.ltb size scan_size then
      (* numpy.empty + fill(nan), then assignment to the slice [0:size] *)
      flat scan_data ++ skipn size (repeat nan scan_size)
    else firstn scan_size (flat scan_data) in
  mk_array scan_shape data.
