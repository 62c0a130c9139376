(** Specification of scans, headers and scan names, independent of the model's functions. *)
From Coq Require Import String Sorted Permutation.
From Verif Require Import Py SpecText.
Import ListNotations.
Local Open Scope list_scope.

(** keep exactly the elements that have the property, in order *)
Inductive Keeps {A} (P : A -> Prop) : list A -> list A -> Prop :=
| Keeps_nil : Keeps P [] []
| Keeps_yes x l k : P x -> Keeps P l k -> Keeps P (x :: l) (x :: k)
| Keeps_no x l k : ~ P x -> Keeps P l k -> Keeps P (x :: l) k.

(** sections of scans and headers, by their first word *)
Definition scan_section (sec : str) : Prop := first_word_is sec (L "#S").
Definition header_section (sec : str) : Prop := first_word_is sec (L "#E").

(** the number written on the #S line: the second word of the first line of the section *)
Definition second_word_is (l n : str) : Prop :=
  a_word n /\ exists a w b c, l = a ++ w ++ b ++ n ++ c /\ blank a /\ a_word w /\ blank b /\ b <> [] /\
    (c = [] \/ exists x t, c = x :: t /\ is_space x = true).
Definition scan_number (sec n : str) : Prop :=
  exists l ls, Lines py_eol sec (l :: ls) /\ second_word_is l n.

(** decimal numerals *)
Definition decimal_value (ds : str) : N := fold_left (fun acc c => (10 * acc + (c - 48))%N) ds 0%N.
Definition numeral (ds : str) (k : nat) : Prop :=
  ds <> [] /\ Forall (fun c => (48 <= c <= 57)%N) ds /\ (hd 0%N ds = 48%N -> ds = [48%N]) /\
  decimal_value ds = N.of_nat k.

(** the name of the [k]-th repeat of the number [n]: n, n.1, n.2, ... *)
Definition repeat_name (n : str) (k : nat) (name : str) : Prop :=
  (k = 0 /\ name = n) \/ (0 < k /\ exists ds, numeral ds k /\ name = n ++ L "." ++ ds).

(** how often [x] occurs in [l] *)
Definition occurs (l : list str) (x : str) (k : nat) : Prop := count (fun y => y = x) l k.

(** [last_of d l x]: the last element of [l], [d] if it is empty *)
Definition last_of {A} (d : A) (l : list A) (x : A) : Prop :=
  (l = [] /\ x = d) \/ exists l', l = l' ++ [x].

(** equal up to surrounding white space *)
Definition padded (a b : str) : Prop := exists u v, a = u ++ b ++ v /\ blank u /\ blank v.
Definition same_text (a b : str) : Prop := exists c, padded a c /\ padded b c.
