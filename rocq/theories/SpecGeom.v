(** Specification of diffractometer geometries, independent of the model's functions. *)
From Coq Require Import String QArith.
From Verif Require Import Py GeomData Geom SpecText SpecReader SpecNum SpecInterp SpecData.
Import ListNotations.
Local Open Scope nat_scope.
Local Open Scope list_scope.

(** ** Finding the geometry *)
(** the fields of a #G line; a single 0 means that there are none *)
Definition g_fields (t : str) (ws : list str) : Prop :=
  (fields t [L "0"] /\ ws = []) \/ (fields t ws /\ ws <> [L "0"]).
(** the number of fields of #G0: none if there is no such line *)
Definition count_G0 (i : geo_in) (n : nat) : Prop :=
  (dget (L "G0") (gi_G i) = None /\ n = 0) \/ exists t ws, dget (L "G0") (gi_G i) = Some t /\ g_fields t ws /\ n = List.length ws.
Definition count_G4 (i : geo_in) (n : nat) : Prop :=
  exists t ws, dget (L "G4") (gi_G i) = Some t /\ g_fields t ws /\ n = List.length ws.
(** the scan has what the variation [v] of the geometry [g] needs: as many numbers on #G0 (and on #G4 if there is one), its motors
    in their order at the start of the positioners, and the other motors *)
Definition fits (i : geo_in) (g : geometry) (v : variation) : Prop :=
  count_G0 i (List.length (g_G g)) /\ (forall n, count_G4 i n -> n = List.length (g_Q g)) /\
  (exists more, scan_positioners i = v_motors v ++ more) /\ Forall (fun m => In m (keys (gi_positioner i))) (v_others v).
(** "fourc User = me" on the first comment line of the header *)
Definition states (i : geo_in) (nm : str) : Prop :=
  exists c cs x y, gi_comments i = c :: cs /\ fields c [nm; L "User"; x; y].
(** the names of the catalog: a geometry, or a geometry and one of its variations *)
Definition known_geometry (db : list geometry) (nm : str) : Prop :=
  exists g, In g db /\ ((nm = g_name g /\ ~ In 46%N nm) \/ exists v, In v (g_vars g) /\ nm = g_name g ++ L "." ++ v_name v).
(** all geometries and variations in the order of the catalog *)
Definition all_variations (db : list geometry) : list (geometry * variation) := flat_map (fun g => map (fun v => (g, v)) (g_vars g)) db.
Definition first_fit (i : geo_in) (db : list geometry) (g : geometry) (v : variation) : Prop :=
  exists pre post, all_variations db = pre ++ (g, v) :: post /\ fits i g v /\ Forall (fun gv => ~ fits i (fst gv) (snd gv)) pre.

(** ** Parameters *)
(** [given G line names vals]: the line has numbers, one for each name *)
Definition numbers_on (G : dict str) (line : string) (vals : list fl) : Prop :=
  exists t ws, dget (L line) G = Some t /\ fields t ws /\ Forall2 number ws vals.
Definition given (G : dict str) (line : string) (names : list str) (vals : list fl) : Prop :=
  numbers_on G line vals /\ List.length vals = List.length names.
(** the name [k] and the value [v] are at the same position *)
Definition at_position (names : list str) (vals : list fl) (k : str) (v : fl) : Prop :=
  exists j, nth_error names j = Some k /\ nth_error vals j = Some v.
(** truncation toward zero *)
Definition integer_part (v : fl) (z : Z) : Prop :=
  match v with
  | FDec m e => let q := decQ m e in (0 <= q -> inject_Z z <= q /\ q < inject_Z (z + 1))%Q /\ (q <= 0 -> inject_Z (z - 1) < q /\ q <= inject_Z z)%Q
  | _ => False
  end.
(** the names of the numbers on #G1 *)
Definition U_names (g : geometry) : list str := match g_U g with Some u => u | None => default_U end.
