(** Specification of Bluesky metadata lines (#MD), independent of the model's functions. *)
From Coq Require Import String.
From Verif Require Import Py Keys Handlers Reader SpecText SpecUtils SpecReader SpecKeys SpecInterp.
Import ListNotations.
Local Open Scope list_scope.

(** a text without surrounding white space *)
Definition trimmed (s t : str) : Prop := padded s t /\ tight t.
(** "#MD key = value": the first '=' of the line comes after more than five characters, the key is the second word
    of the line and the value is what follows the '=' *)
Definition md_pair (l k v : str) : Prop :=
  exists a b, l = a ++ L "=" ++ b /\ ~ In 61%N a /\ 5 < List.length a /\ second_word_is l k /\ trimmed b v.
(** lines that are not of this kind *)
Definition md_bad (l : str) : Prop := forall a b, l = a ++ L "=" ++ b -> ~ In 61%N a -> List.length a <= 5.
(** the keys made for them: MD_line_1, MD_line_2, ... *)
Definition line_key (k : str) : Prop := exists ds n, numeral ds n /\ k = L "MD_line_" ++ ds.
