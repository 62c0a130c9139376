(** Cross references of mnemonics and names in an entry *)
From Coq Require Import String.
From Verif Require Import Py H5 SpecH5.
Import ListNotations.
Local Open Scope list_scope.

(** an NXnote group at the path [ps] with a description and a comment *)
Definition note_at (f : h5) (ps : list str) (descr comment : string) : Prop :=
  exists g, at_path f ps g /\ nx_group f g "NXnote" /\ attribute f g (L "description") (AText (L descr)) /\ attribute f g (L "comment") (AText (L comment)).
