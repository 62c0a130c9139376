(** What an entry of a NeXus file says about its scan. *)
From Coq Require Import String.
From Verif Require Import Py Utils Keys Handlers Reader SpecHistory SpecInterp H5 Writer SpecH5 SpecWriter.
Import ListNotations.
Local Open Scope list_scope.

(** [saved E known s0 s versions ks s' f k sc]: the scans of the keys [ks] of a data file object, with any history of readings and of saves,
    are saved successfully in the file [f]; [k] is one of the keys and [sc] its scan as it is after that *)
Definition saved (E : env) (known : list hid) (s0 s : sdf) (versions : list (str * aval)) (ks : list skey) (s' : sdf) (f : h5) (k : skey) (sc : scan) : Prop :=
  history E known s0 /\ plain_mnemonics s0 /\ saves E known s0 s /\ Forall good_key ks /\ save E known versions ks s = (s', f, None) /\
  In k ks /\ exists sc0, getScan k s = Ok (Some sc0) /\ dget (s_num sc0) (scans s') = Some sc.

(** a text without its characters that are not ASCII *)
Inductive ascii_of : str -> str -> Prop :=
| asc_nil : ascii_of [] []
| asc_keep c s t : (c < 128)%N -> ascii_of s t -> ascii_of (c :: s) (c :: t)
| asc_drop c s t : (128 <= c)%N -> ascii_of s t -> ascii_of (c :: s) t.

(** a dataset at the path [ps] with the value [v] and (among others) the attributes [l] *)
Definition field_at (f : h5) (ps : list str) (v : hval) (l : list (str * aval)) : Prop :=
  exists j, at_path f ps j /\ dataset f j v /\ Forall (fun kv => attribute f j (fst kv) (snd kv)) l.
(** the dataset is the text [t], up to characters that are not ASCII *)
Definition text_at (f : h5) (ps : list str) (t : str) (l : list (str * aval)) : Prop :=
  exists u, ascii_of t u /\ field_at f ps (HTexts [u]) l.
(** the dataset is the single number [x] *)
Definition number_at (f : h5) (ps : list str) (x : num) (l : list (str * aval)) : Prop := field_at f ps (HArr [1] [x]) l.
(** there is an object at the path [ps] without the attribute [k] *)
Definition lacks (f : h5) (ps : list str) (k : str) : Prop := exists j, at_path f ps j /\ ~ exists v, attribute f j k v.
(** a group of a NeXus class at the path [ps] *)
Definition group_at (f : h5) (ps : list str) (cls : string) : Prop := exists j, at_path f ps j /\ nx_group f j cls.
(** attributes of datasets *)
Definition att (k v : string) : str * aval := (L k, AText (L v)).

(** the key [x] of the list [l] is the last one with the dataset name [n] *)
Definition last_named {V} (l : list (str * V)) (x : str) (v : V) (n : str) : Prop :=
  exists pre post, l = pre ++ (x, v) :: post /\ ds_name x n /\ forall y, In y (map fst post) -> ~ ds_name y n.

(** two paths to one object *)
Definition same_object (f : h5) (ps qs : list str) : Prop := exists j, at_path f ps j /\ at_path f qs j.
(** the dataset is what a metadata value was read as *)
Definition value_at (f : h5) (ps : list str) (v : mdval) (l : list (str * aval)) : Prop :=
  match v with MdF x => number_at f ps (NF x) l | MdS t => text_at f ps t l end.

(** of the axes (name, start, end) those whose start and end are written differently *)
Inductive moving : list (str * str * str) -> list str -> Prop :=
| mv_nil : moving [] []
| mv_yes n a b t u : a <> b -> moving t u -> moving ((n, a, b) :: t) (n :: u)
| mv_no n a t u : moving t u -> moving ((n, a, a) :: t) u.
(** how the names of axes are written in the attribute axes *)
Definition axes_attr (axes : list str) : aval := match axes with [] => AText [] | [a] => AText a | _ => ATexts axes end.
