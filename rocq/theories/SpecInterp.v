(** Specification of what is read from the lines of a scan, independent of the model's functions. *)
From Coq Require Import String.
From Verif Require Import Py Keys Handlers Reader SpecText SpecUtils SpecReader SpecHistory SpecKeys.
Import ListNotations.
Local Open Scope list_scope.

(** a text with continued lines put together: each backslash at the end of a line, with that end, is a blank *)
Inductive unfolded : str -> str -> Prop :=
| Unf_nil : unfolded [] []
| Unf_join t u : unfolded t u -> unfolded (BACKSLASH :: LF :: t) (SP :: u)
| Unf_char c t u : (forall t', c :: t <> BACKSLASH :: LF :: t') -> unfolded t u -> unfolded (c :: t) (c :: u).
(** the lines of a scan *)
Definition lines_of (raw : str) (ls : list str) : Prop := exists u, unfolded raw u /\ Lines py_eol u ls.

(** what follows the first blank of a line, without surrounding white space *)
Definition content (line t : str) : Prop :=
  tight t /\ exists w u v, line = w ++ SP :: u ++ t ++ v /\ ~ In SP w /\ blank u /\ blank v.

(** the words of a text *)
Inductive fields : str -> list str -> Prop :=
| F_nil a : blank a -> fields a []
| F_cons a w rest ws : blank a -> a_word w -> (rest = [] \/ exists c t, rest = c :: t /\ is_space c = true) ->
    fields rest ws -> fields (a ++ w ++ rest) (w :: ws).

(** lines that no handler knows *)
Definition unknown_line (l : str) : Prop := l <> [] /\ (no_control l \/ control H_unrec l).

(** [first_interpret E known s name sc s' sc']: in the state [s], reached in any way, the scan [sc] stored
    as [name] was not used yet; its interpretation succeeds and gives [sc'] *)
Definition first_interpret (E : env) (known : list hid) (s : sdf) (name : str) (sc : scan) (s' : sdf) (sc' : scan) : Prop :=
  history E known s /\ dget name (scans s) = Some sc /\ s_lazy sc = true /\
  interpret E known name s = (s', None) /\ dget name (scans s') = Some sc'.

(** the attribute [a] of a scan has the value [v] *)
Definition attr_is (sc : scan) (a : attr) (v : ty a) : Prop := s_obj sc a = Some v.
(** a list that is there only if it is not empty *)
Definition if_any {X} (o : option (list X)) (l : list X) : Prop := (l = [] /\ o = None) \/ (l <> [] /\ o = Some l).

(** [last_with key k ls l]: [l] is the last of [ls] with the key [k] *)
Definition last_with {A} (key : A -> str -> Prop) (k : str) (ls : list A) (l : A) : Prop :=
  exists pre post, ls = pre ++ l :: post /\ key l k /\ Forall (fun x => ~ key x k) post.

(** [last_line_of h ls l]: [l] is the last of the lines [ls] that handler [h] knows *)
Definition last_line_of (h : hid) (ls : list str) (l : str) : Prop :=
  exists pre post, ls = pre ++ l :: post /\ control h l /\ Forall (fun x => ~ control h x) post.
