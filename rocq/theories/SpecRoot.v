(** What the root of a NeXus file says about the SPEC data file: the user named in a comment. *)
From Coq Require Import String.
From Verif Require Import Py SpecText SpecUtils SpecMeta.
Import ListNotations.
Local Open Scope list_scope.

(** [c] mentions no user *)
Definition no_user (c : str) : Prop := forall a t, c <> a ++ L "User = " ++ t.
(** the text of [t] before its first "=" (all of it, if there is none) *)
Definition before_eq (t v : str) : Prop := ~ In 61%N v /\ (t = v \/ exists r, t = v ++ L "=" ++ r).
(** the user that [c] mentions first is [u] *)
Definition user_is (c u : str) : Prop := exists a t v, c = a ++ L "User = " ++ t /\
  (forall a' t', c = a' ++ L "User = " ++ t' -> List.length a <= List.length a') /\ before_eq t v /\ trimmed v u.
