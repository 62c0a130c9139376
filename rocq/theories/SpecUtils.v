(** Specifications for the helper functions of utils.py, independent of the model's functions. *)
From Coq Require Import String.
From Verif Require Import Py SpecText.
Import ListNotations.
Local Open Scope list_scope.

(** a valid name: word characters only ([is_word] is re [\w], which has the underscore),
    not starting with a digit *)
Definition name_char (c : N) : Prop := is_word c = true.
Definition valid_name (s : str) : Prop :=
  s <> [] /\ Forall name_char s /\ forall c t, s = c :: t -> is_digit c = false.
(** [cleaned s t]: [t] is [s] with each invalid character changed to an underscore *)
Definition cleaned (s t : str) : Prop :=
  Forall2 (fun c d => (name_char c /\ d = c) \/ (~ name_char c /\ d = 95%N)) s t.

(** no white space at either end *)
Definition tight (s : str) : Prop :=
  (forall c t, s = c :: t -> is_space c = false) /\ (forall c t, s = t ++ [c] -> is_space c = false).

(** labels and the separators between them *)
Definition good_label (l : str) : Prop :=
  l <> [] /\ (forall t, l <> SP :: t) /\ (forall t, l <> t ++ [SP]) /\ ~ In TAB l /\
  (forall a b, l <> a ++ SP :: SP :: b).
Definition good_sep (s : str) : Prop :=
  Forall (fun c => c = SP \/ c = TAB) s /\ (In TAB s \/ 2 <= List.length s).
(** labels joined by separators *)
Fixpoint joined (first : str) (more : list (str * str)) : str :=
  match more with
  | [] => first
  | (sep, l) :: t => first ++ sep ++ joined l t
  end.

(** decimal notation *)
Definition digits_of (s : str) (n : N) : Prop := s = str_of_N n.
