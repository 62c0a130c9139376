(** Specification of what is read from detector lines and from the keyed lines of beamline plugins. *)
From Coq Require Import String.
From Verif Require Import Py Keys Handlers Reader SpecText SpecUtils SpecReader SpecHistory SpecKeys SpecInterp SpecMeta SpecDecimal SpecScanf Scanf.
Import ListNotations.
Local Open Scope list_scope.

(** the value of the key [k] in the dictionary [scan.MCA] is [v] *)
Definition detector (sc : scan) (k : string) (v : mcaval) : Prop := exists m, attr_is sc A_MCA m /\ dget (L k) m = Some v.
(** there is no such key, or no such dictionary *)
Definition no_detector (sc : scan) (k : string) : Prop := forall v, ~ detector sc k v.

(** a region of interest: a name, the first and the last channel, each channel after one blank *)
Definition roi_line (l nm : str) (f z : Z) : Prop :=
  exists n a b, content l (n ++ SP :: a ++ SP :: b) /\ ~ In SP a /\ ~ In SP b /\ trimmed n nm /\ py_int a = Ok f /\ py_int b = Ok z.
(** what follows the first blank of the line has two more blanks *)
Definition two_blanks (l : str) : Prop := exists x y z, content l (x ++ SP :: y ++ SP :: z).

(** [from_lines o ls key value]: [o] is a dictionary, there only if [ls] is not empty, with the values of
    the last of the lines [ls] with each key *)
Definition from_lines {V} (o : option (dict V)) (ls : list str) (key : str -> str -> Prop) (value : str -> V -> Prop) : Prop :=
  (ls = [] /\ o = None) \/
  (ls <> [] /\ exists d, o = Some d /\ NoDup (keys d) /\ forall k v, dget k d = Some v <-> exists l, last_with key k ls l /\ value l v).

(** the forms of #X lines with two temperatures *)
Inductive x_form : str -> fl -> fl -> Prop :=
| X_kohm a m e b m' e' rest : fixed_text a m e -> fixed_text b m' e' -> x_form (L "#X " ++ a ++ L "Kohm (" ++ b ++ L "C)" ++ rest) (FDec m e) (FDec m' e')
| X_two a m e b m' e' rest : fixed_text a m e -> fixed_text b m' e' -> ~ starts_with (fun c => any_digit c \/ c = 46%N) rest ->
    x_form (L "#X " ++ a ++ L " " ++ b ++ rest) (FDec m e) (FDec m' e')
| X_control a m e b m' e' rest : fixed_text a m e -> fixed_text b m' e' ->
    x_form (L "#X Control: " ++ a ++ L "K  Sample: " ++ b ++ L "K" ++ rest) (FDec m e) (FDec m' e').
