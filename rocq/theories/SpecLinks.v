(** Links of NeXus files: a second path to an object, and the attribute "target" that says where it is. *)
From Coq Require Import String.
From Verif Require Import Py H5 SpecH5.
Import ListNotations.
Local Open Scope list_scope.

(** /p1/p2/... as a text *)
Definition path_text (ps : list str) : str := L "/" ++ join (L "/") ps.
(** the attribute "target" of the object [j] is a path to [j] *)
Definition target_ok (f : h5) (j : nat) : Prop := exists ps, attribute f j (L "target") (AText (path_text ps)) /\ at_path f ps j.
(** [n] in the group at the path [ps], which is of the NeXus class [cls], is a link to the object [j] *)
Definition link_to (f : h5) (ps : list str) (cls : string) (n : string) (j : nat) : Prop :=
  exists g, at_path f ps g /\ nx_group f g cls /\ member f g (L n) j /\ target_ok f j.
