(** Specification of the command line tools, independent of the model's functions. *)
From Coq Require Import String Sorting.Sorted.
From Verif Require Import Py Keys Handlers Reader Cli SpecText SpecReader SpecInterp SpecData.
Import ListNotations.
Local Open Scope list_scope.

(** ** Lists of scans *)
(** a text read by Python's int() *)
Definition whole (t : str) (z : Z) : Prop := py_int t = Ok z.
(** [parts c t ps]: [ps] are the pieces of [t] between the separators [c] *)
Definition parts (c : N) (t : str) (ps : list str) : Prop := ps <> [] /\ t = join [c] ps /\ Forall (fun p => ~ In c p) ps.
(** [names item z]: the item is the number z, or a range a-b in which it lies *)
Definition names (item : str) (z : Z) : Prop :=
  whole item z /\ ~ In 45%N item \/
  exists a b x y, item = a ++ L "-" ++ b /\ ~ In 45%N a /\ ~ In 45%N b /\ whole a x /\ whole b y /\ (x <= z <= y)%Z.
(** the item is a number or a range *)
Definition well_formed (item : str) : Prop :=
  (~ In 45%N item /\ exists z, whole item z) \/
  exists a b x y, item = a ++ L "-" ++ b /\ ~ In 45%N a /\ ~ In 45%N b /\ whole a x /\ whole b y.

(** what a user asks for: a scan or a range; how it is written in decimal; which numbers it covers *)
Inductive wanted := One (n : N) | Range (a b : N).
Definition spelled (w : wanted) : str := match w with One n => str_of_N n | Range a b => str_of_N a ++ L "-" ++ str_of_N b end.
Definition wants (w : wanted) (z : Z) : Prop := match w with One n => z = Z.of_N n | Range a b => (Z.of_N a <= z <= Z.of_N b)%Z end.

(** [expands term l] (extractSpecScan) *)
Inductive expands : str -> list str -> Prop :=
| Exp_dash t : expands (L "-" ++ t) [L "-" ++ t]
| Exp_single t : ~ In 45%N t -> expands t [t]
| Exp_range a b x y l : a <> [] -> ~ In 45%N a -> ~ In 45%N b -> whole a x -> whole b y ->
    List.length l = Z.to_nat (y + 1 - x) -> (forall i, i < List.length l -> nth_error l i = Some (str_of_Z (x + Z.of_nat i))) ->
    expands (a ++ L "-" ++ b) l.

(** ** File names *)
(** [extension_of p base ext]: the text from the last dot of the file name on; dots at the start of the file name do not count *)
Definition extension_of (p base ext : str) : Prop :=
  (exists dir dots stem e, p = dir ++ dots ++ stem ++ L "." ++ e /\ base = dir ++ dots ++ stem /\ ext = L "." ++ e /\
     (dir = [] \/ exists d, dir = d ++ L "/") /\ Forall (fun c => c = 46%N) dots /\ stem <> [] /\ (forall c t, stem = c :: t -> c <> 46%N) /\
     ~ In 47%N stem /\ ~ In 46%N e /\ ~ In 47%N e) \/
  (base = p /\ ext = [] /\ exists dir dots stem, p = dir ++ dots ++ stem /\ (dir = [] \/ exists d, dir = d ++ L "/") /\ Forall (fun c => c = 46%N) dots /\
     ~ In 46%N stem /\ ~ In 47%N stem).

(** ** The text of an extracted scan *)
(** [tab_separated cells line] *)
Definition tab_separated (cells : list str) (line : str) : Prop := line = join [9%N] cells.
(** [picked labels data i row]: the values of the columns [labels] at point i *)
Definition picked (data : dict col) (labels : list str) (i : nat) (row : list fl) : Prop :=
  Forall2 (fun l x => exists c, dget l data = Some (Col c) /\ nth_error c i = Some x) labels row.
Definition starts_with_hash (l : str) : Prop := exists t, l = 35%N :: t.
