(** Specification of plugin registration, independent of the model's functions. *)
From Coq Require Import String.
From Verif Require Import Py Keys SpecInterp.
Import ListNotations.
Local Open Scope list_scope.

(** [first_uses l k]: [k] has each element of [l] once, in the order of their first occurrences *)
Inductive first_uses : list str -> list str -> Prop :=
| FU_nil : first_uses [] []
| FU_old l k x : first_uses l k -> In x l -> first_uses (l ++ [x]) k
| FU_new l k x : first_uses l k -> ~ In x l -> first_uses (l ++ [x]) (k ++ [x]).
