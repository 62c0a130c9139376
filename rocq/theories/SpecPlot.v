(** What the properties of specplot.py and specplot_gallery.py speak of. *)
From Coq Require Import String.
From Verif Require Import Py Time Utils SpecNum Keys Handlers Reader Writer Plot.
Import ListNotations.
Local Open Scope list_scope.

(** ** Selector *)

(** the state after the calls [ops] in a new process, and what a further call [op] gives *)
Definition after_calls (ops : list sel_op) : option selector := fold_left (fun o op => fst (sel_step o op)) ops None.
Definition answer (ops : list sel_op) (op : sel_op) : sel_out := snd (sel_step (after_calls ops) op).

(** an image maker: a subclass of ImageMaker *)
Definition image_maker (c : cls) : Prop := match c with LineP | HklP | MeshP | UserP _ => True | _ => False end.

(** [op] explicitly replaces the image maker of [m] *)
Definition replaces (m : str) (op : sel_op) : Prop := exists v d, op = OpUpdate m v d /\ image_maker v.
(** [op] sets the default *)
Definition sets_default (op : sel_op) : Prop :=
  (exists k v, op = OpAdd k v true \/ op = OpUpdate k v true) \/ (exists v d, op = OpUpdate default_key v d).

(** the name ends with [t] in upper or lower case letters *)
Definition ends_with (t : string) (m : str) : Prop := exists a b, m = a ++ b /\ lower b = L t.

(** ** Plots *)

(** the length of a list of values *)
Definition long (v : pval) (n : nat) : Prop :=
  match v with
  | PList l => List.length l = n
  | PArr a => exists t, shape a = n :: t
  | PNum _ => False
  | PSpectra d => List.length d = n
  end.
(** a table of [rows] by [cols] values *)
Definition a_grid (v : pval) (rows cols : nat) : Prop := exists a, v = PArr a /\ shape a = [rows; cols].

(** a curve can be drawn: the values of the signal and of its one axis are there, as many, and there are some *)
Definition curve_ready (p : plotter) : Prop :=
  exists sg ax x y n, p_signal p = Some sg /\ p_axes p = [ax] /\ dget sg (p_data p) = Some y /\ dget ax (p_data p) = Some x /\
    long y n /\ long x n /\ n <> 0.
(** a mesh can be drawn: as a table with a row for each value of the second axis and a column for each value of the first,
    or as a list of values with one axis *)
Definition mesh_ready (p : plotter) : Prop :=
  exists sg v, p_signal p = Some sg /\ dget sg (p_data p) = Some v /\
    ((exists ax x n, p_axes p = [ax] /\ dget ax (p_data p) = Some x /\ long x n /\ ((exists l, v = PList l /\ List.length l = n) \/ (exists a, v = PArr a /\ shape a = [n]))) \/
     (exists a b x y m n, p_axes p = [a; b] /\ dget a (p_data p) = Some x /\ dget b (p_data p) = Some y /\ long x m /\ long y n /\ a_grid v n m)).
Definition ready (k : kind) (p : plotter) : Prop := match k with KMesh => mesh_ready p | _ => curve_ready p end.

(** the data file (time [dm]) is newer than the plot file (time [pm]), or there is no plot file *)
Definition newer (dm : res Z) (pm : option Z) : Prop := exists m, dm = Ok m /\ match pm with Some t => (t < m)%Z | None => (0 < m)%Z end.

(** [usable E known s name s' sc']: the scan stored as [name] in [s] is interpreted already, as [sc'] ([s'] is [s]), or its
    interpretation succeeds and gives [sc'] in [s'] *)
Definition usable (E : env) (known : list hid) (s : sdf) (name : str) (s' : sdf) (sc' : scan) : Prop :=
  exists sc, dget name (scans s) = Some sc /\ dget name (scans s') = Some sc' /\ s_lazy sc' = false /\
    ((s_lazy sc = true /\ interpret E known name s = (s', None)) \/ (s_lazy sc = false /\ s' = s)).

(** the texts of a plot: title, subtitle, axis titles, time; linear scales *)
Definition texts (g : settings) (title subtitle xtitle ytitle time : str) : Prop :=
  g_title g = Some title /\ g_subtitle g = Some subtitle /\ g_xtitle g = Some xtitle /\ g_ytitle g = Some ytitle /\ g_time g = Some time /\
  g_xlog g = Some false /\ g_ylog g = Some false.

(** not all values are the same *)
Definition varies (vs : list fl) : Prop := exists v w, In v vs /\ In w vs /\ ~ num_eq v w.
Definition steady (vs : list fl) : Prop := vs <> [] /\ forall v w, In v vs -> In w vs -> num_eq v w.
(** the first of H, K, L that changes during a scan *)
Definition moving_axis (table : dict col) (a : str) (vs : list fl) : Prop :=
  exists pre post, map L ["H"; "K"; "L"]%string = pre ++ a :: post /\ dget a table = Some (Col vs) /\ varies vs /\
    Forall (fun b => dget b table = None \/ exists ws, dget b table = Some (Col ws) /\ steady ws) pre.
Definition a_number (v : fl) : Prop := v <> FNaN.
