(** Specification of the reports of a diffractometer, independent of the model's functions. *)
From Coq Require Import String.
From Verif Require Import Py GeomData Geom Handlers Reader SpecInterp SpecGeom SpecTables Report.
Import ListNotations.
Local Open Scope list_scope.

(** what a diffractometer is made of: the comments and names of the header and the #G lines of the scan
    (and the positions [p] that were known at that time) *)
Definition made_of (s' : sdf) (sc' : scan) (i : geo_in) : Prop := exists o c p g, header_is s' sc' o /\ o A_comments = Some c /\
  attr_is sc' A_G g /\ i = mk_gin c (o A_o) (o A_O) p g.

(** the number with the name [n] on the #G4 line, if that has one number for each name of the geometry *)
Definition q_value (G : dict str) (g : geometry) (n : string) (v : fl) : Prop :=
  exists vals, given G "G4" (g_Q g) vals /\ at_position (g_Q g) vals (L n) v.
(** the Miller indices that the geometry has, with the names that reports use *)
Definition index_names (g : geometry) : list (string * string) :=
  List.filter (fun nq => if in_dec (list_eq_dec N.eq_dec) (L (snd nq)) (g_Q g) then true else false) [("h", "H"); ("k", "K"); ("l", "L")]%string.
(** the report can be made: the geometry has no Miller indices, or the #G4 line has its numbers *)
Definition has_indices (G : dict str) (g : geometry) : Prop := index_names g = [] \/ exists vals, given G "G4" (g_Q g) vals.
(** #G3 has the nine numbers of the orientation matrix *)
Definition has_UB (G : dict str) (m : list fl) : Prop := numbers_on G "G3" m /\ List.length m = 9.

(** [listed G g names l]: [l] has those of the names that have a number on #G4, in order *)
Fixpoint listed (G : dict str) (g : geometry) (names : list (string * string)) (l : list (string * fl)) : Prop :=
  match names with
  | [] => l = []
  | nq :: names => (exists v l', q_value G g (snd nq) v /\ l = (fst nq, v) :: l' /\ listed G g names l') \/
                   ((forall v, ~ q_value G g (snd nq) v) /\ listed G g names l)
  end.
(** the text of the wavelength *)
Definition wavelength_text (G : dict str) (g : geometry) (t : text) : Prop :=
  (exists v, q_value G g "LAMBDA" v /\ t = [Pn v]) \/ ((forall v, ~ q_value G g "LAMBDA" v) /\ t = [Pc (L "None")]).
(** texts with [sep] between them *)
Definition between (sep : string) (l : list text) : text :=
  match l with [] => [] | t :: l => t ++ flat_map (fun u => Pc (L sep) :: u) l end.
Definition equation (nv : string * fl) : text := [Pc (L (fst nv)); Pc (L "="); Pn (snd nv)].

(** a line of the long report: the label with blanks on both sides (to [w] characters), and the value *)
Definition label_line (w : nat) (n : str) (t : text) (line : text) : Prop :=
  exists a b, a <= b <= S a /\ a + List.length n + b = w /\ line = Pc (List.repeat 32%N a ++ n ++ List.repeat 32%N b) :: Pc (L " = ") :: t.

(** *** the labels and values of the long report *)
Definition report_numbers : list (string * string) :=
  [("h", "H"); ("k", "K"); ("l", "L"); ("alpha", "ALPHA"); ("beta", "BETA"); ("azimuth", "AZIMUTH"); ("omega", "OMEGA")]%string.
Definition or_none {A} (f : A -> text) (o : option A) (t : text) : Prop :=
  (exists x, o = Some x /\ t = f x) \/ (o = None /\ t = [Pc (L "None")]).
Inductive entry (sc : scan) (G : dict str) (g : geometry) (d : diffr) : str -> text -> Prop :=
| En_file f : attr_is sc A_specFile f -> entry sc G g d (L "SPEC file") [Pc f]
| En_num : entry sc G g d (L "scan #") [Pc (s_num sc)]
| En_cmd : entry sc G g d (L "SPEC scanCmd") [Pc (s_cmd sc)]
| En_date e : attr_is sc A_epoch e -> entry sc G g d (L "date") [Pdate e]
| En_name : entry sc G g d (L "geometry") [Pc (L "'"); Pc (d_name d); Pc (L "'")]
| En_full : entry sc G g d (L "full_geometry_name") [Pc (L "'"); Pc (d_full d); Pc (L "'")]
| En_wave t : wavelength_text G g t -> entry sc G g d (L "wavelength") t
| En_mode t : or_none (fun m => [Pc m]) (d_mode d) t -> entry sc G g d (L "mode") (Pc (L "'") :: t ++ [Pc (L "'")])
| En_sector t : or_none (fun z => [Pc (str_of_Z z)]) (d_sector d) t -> entry sc G g d (L "sector") t
| En_q n q v : In (n, q) report_numbers -> q_value G g q v -> entry sc G g d (L n) [Pn v]
| En_lattice t : or_none (fun l => [Plat l]) (d_lattice d) t -> entry sc G g d (L "lattice") t
| En_UB m : has_UB G m -> entry sc G g d (L "UB") [Pmat m]
| En_refl j r : nth_error (d_refl d) j = Some r -> entry sc G g d (L "reflection " ++ str_of_nat (S j)) [Pref r].
