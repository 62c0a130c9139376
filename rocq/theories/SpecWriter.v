(** What is needed of the text of a data file to say what is written of it. *)
From Coq Require Import String.
From Verif Require Import Py Utils SpecUtils Keys Handlers Reader SpecText SpecReader SpecHistory SpecInterp H5 Writer SpecH5.
Import ListNotations.
Local Open Scope list_scope.

(** a line that lists mnemonics: #j... or #o... *)
Definition mnemonic_line (l : str) : Prop :=
  exists a t, blank a /\ (l = a ++ L "#j" ++ t \/ l = a ++ L "#o" ++ t).
(** no mnemonic of the text starts with a slash *)
Definition no_rooted_mnemonic (raw : str) : Prop :=
  forall ls l ws w, lines_of raw ls \/ Lines py_eol raw ls -> In l ls -> mnemonic_line l -> fields l ws -> In w ws ->
    forall t, w <> 47%N :: t.
(** that holds of all header and scan blocks known to a data file object *)
Definition plain_mnemonics (s : sdf) : Prop :=
  Forall (fun h => no_rooted_mnemonic (h_raw h)) (headers s) /\
  Forall (fun kv => no_rooted_mnemonic (s_raw (snd kv))) (scans s).

(** the group of a key of Writer.save's list in the root of the file *)
Definition entry_name (k : skey) : str := L "S" ++ key_str k.
(** a key of ASCII characters without a slash *)
Definition good_key (k : skey) : Prop := Forall (fun c => (c < 128)%N /\ c <> 47%N) (key_str k).

(** the name under which a column with label [s] is stored: each character that is not a letter, digit or underscore
    becomes an underscore, and a name that would start with a digit gets an underscore in front *)
Definition ds_name (s t : str) : Prop :=
  s <> [] /\ exists u, cleaned s u /\
    ((exists c r, u = c :: r /\ is_digit c = true /\ t = 95%N :: u) \/
     (exists c r, u = c :: r /\ is_digit c = false /\ t = u)).
(** the name of a dataset that belongs to the spectra of a table *)
Definition mca_name (table : dict col) (n : str) : Prop :=
  exists m k x, dget (L "_mca_") table = Some (Mca m) /\ In k (keys m) /\
    In x (map L [""; "channel_"; "channel_scaled_x"]%string) /\ ds_name (L "_" ++ k ++ L "_" ++ x) n.
(** scans other than mesh scans *)
Definition one_dim (cmd : str) : Prop := forall ws w, fields cmd ws -> hd_error ws = Some w -> w <> L "mesh" /\ w <> L "hklmesh".
(** scans along h, k or l *)
Definition hkl_scan (cmd : str) : Prop := exists ws w, fields cmd ws /\ hd_error ws = Some w /\ In w (map L ["hscan"; "kscan"; "lscan"; "hklscan"]%string).

(** an entry with a default plot *)
Definition default_plot (f : h5) (j : nat) : Prop := exists d, member f j (L "data") d /\ nx_group f d "NXdata".
(** the state of a data file object after any number of saves *)
Inductive saves (E : env) (known : list hid) (s : sdf) : sdf -> Prop :=
| saves_none : saves E known s s
| saves_more s1 versions ks : saves E known s s1 -> Forall good_key ks -> saves E known s (fst (fst (save E known versions ks s1))).
(** every path of [f] leads to the same object in [f'], which has not changed (except perhaps the root, object 0) *)
Definition kept_in (f f' : h5) : Prop :=
  forall ps j, at_path f ps j -> at_path f' ps j /\ (j <> 0 -> nth_error f' j = nth_error f j).

(** a mesh command: mesh motor1 start1 end1 intervals1 motor2 start2 end2 intervals2 time *)
Definition mesh_scan (cmd a1 i1 a2 i2 : str) : Prop :=
  exists w x1 x2 x3 x4 t, (w = L "mesh" \/ w = L "hklmesh") /\ fields cmd [w; a1; x1; x2; i1; a2; x3; x4; i2; t].
(** the column of a motor of a mesh: that of its name, or else the first (second) column *)
Definition axis_label (table : dict col) (labels : list str) (i : nat) (motor x : str) : Prop :=
  (dget motor table <> None /\ x = motor) \/ (dget motor table = None /\ nth_error labels i = Some x).
(** [n] is the name of the dataset of [x] and of no other column *)
Definition own_name (table : dict col) (labels : list str) (x n : str) : Prop :=
  ds_name x n /\ (forall y, In y (labels ++ map L ["H"; "K"; "L"]%string) -> y <> x -> ~ ds_name y n) /\ ~ mca_name table n.
(** [x] is a single name, and not the name of the dataset of another column *)
Definition no_alias (labels : list str) (x : str) : Prop := plain_name x /\ forall y, In y labels -> y <> x -> ~ ds_name y x.

(** every scan has been interpreted *)
Definition all_interpreted (s : sdf) : Prop := Forall (fun kv => s_done (snd kv) = true) (scans s).
(** the scan of a key is not a mesh *)
Definition flat_scan (s : sdf) (k : skey) : Prop :=
  forall sc0 sc, getScan k s = Ok (Some sc0) -> dget (s_num sc0) (scans s) = Some sc -> one_dim (s_cmd sc).
