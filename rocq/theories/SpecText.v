(** Specification of lines, words and sections of a text, independent of the model's functions.
    Characters are code points; [is_space] and [is_eol] are CPython's character tables. *)
From Coq Require Import String.
From Verif Require Import Py.
Import ListNotations.
Local Open Scope list_scope.

(** [Lines nl text ls]: [ls] are the lines of [text], where a line ends at a character of the class
    [nl] (CR LF counts as one end), and the last line may lack its end. *)
Definition free_of (nl : N -> bool) (l : str) : Prop := Forall (fun c => nl c = false) l.
Inductive Lines (nl : N -> bool) : str -> list str -> Prop :=
| Lines_nil : Lines nl [] []
| Lines_last l : l <> [] -> free_of nl l -> Lines nl l [l]
| Lines_crlf l t ls : free_of nl l -> Lines nl t ls -> Lines nl (l ++ CR :: LF :: t) (l :: ls)
| Lines_one l c t ls : free_of nl l -> nl c = true -> (c = CR -> forall t', t <> LF :: t') ->
                       Lines nl t ls -> Lines nl (l ++ c :: t) (l :: ls).

(** the two notions of line in use: Python's [str.splitlines] and files opened in text mode *)
Definition py_eol : N -> bool := is_eol.
Definition file_eol (c : N) : bool := ((c =? 10) || (c =? 13))%N.

(** the first word of a line *)
Definition blank (s : str) : Prop := Forall (fun c => is_space c = true) s.
Definition a_word (s : str) : Prop := s <> [] /\ Forall (fun c => is_space c = false) s.
Definition first_word_is (l w : str) : Prop :=
  a_word w /\ exists a b, l = a ++ w ++ b /\ blank a /\ (b = [] \/ exists c t, b = c :: t /\ is_space c = true).

(** a line that starts a section: its first word is #F, #E or #S *)
Definition section_line (l : str) : Prop :=
  first_word_is l (L "#F") \/ first_word_is l (L "#E") \/ first_word_is l (L "#S").

Definition starts_with (p : string) (l : str) : Prop := exists t, l = L p ++ t.

(** a section: a section line and lines that are none *)
Definition a_section (g : list str) : Prop :=
  exists h t, g = h :: t /\ section_line h /\ Forall (fun l => ~ section_line l) t.

(** [count P l n]: exactly [n] elements of [l] have the property [P] *)
Inductive count {A} (P : A -> Prop) : list A -> nat -> Prop :=
| count_nil : count P [] 0
| count_yes x l n : P x -> count P l n -> count P (x :: l) (S n)
| count_no x l n : ~ P x -> count P l n -> count P (x :: l) n.

(** a file that begins with the four lines of a SPEC file header *)
Definition spec_header (content : str) : Prop :=
  exists l1 l2 l3 l4 rest, Lines file_eol content (l1 :: l2 :: l3 :: l4 :: rest) /\
    starts_with "#F " l1 /\ starts_with "#E " l2 /\ starts_with "#D " l3 /\ starts_with "#C " l4.
(** a file with a scan *)
Definition spec_scan_line (content : str) : Prop :=
  exists ls l, Lines file_eol content ls /\ In l ls /\ starts_with "#S " l.

(** line ends, and a text written with given line ends *)
Inductive eol := E_LF | E_CRLF | E_CR.
Definition eol_str (e : eol) : str := match e with E_LF => [LF] | E_CRLF => [CR; LF] | E_CR => [CR] end.
Fixpoint render (ls : list (str * eol)) (last : str) : str :=
  match ls with
  | [] => last
  | (l, e) :: t => l ++ eol_str e ++ render t last
  end.
(** CR followed by an empty line that ends with LF would read as one CR LF *)
Fixpoint no_cr_lf_clash (ls : list (str * eol)) : Prop :=
  match ls with
  | (_, E_CR) :: ((([], E_LF) :: _) as t) => False
  | _ :: t => no_cr_lf_clash t
  | [] => True
  end.

(** a text given by its lines, for examples *)
Definition text_of (ls : list string) : str := join [LF] (map L ls).
