(** What can be seen in an HDF5 file, independent of the functions that write it. *)
From Coq Require Import String.
From Verif Require Import Py H5.
Import ListNotations.
Local Open Scope list_scope.

(** group [i] has a member called [n]: the object [j] *)
Definition member (f : h5) (i : nat) (n : str) (j : nat) : Prop :=
  exists ms a, nth_error f i = Some (Group ms a) /\ dget n ms = Some j.
(** following the names [ps] from object [i] leads to object [j] *)
Inductive leads (f : h5) : nat -> list str -> nat -> Prop :=
| leads_here i : leads f i [] i
| leads_on i n j ps k : member f i n j -> leads f j ps k -> leads f i (n :: ps) k.
(** the object at the absolute path /p1/p2/... *)
Definition at_path (f : h5) (ps : list str) (j : nat) : Prop := leads f 0 ps j.
Definition is_group (f : h5) (i : nat) : Prop := exists ms a, nth_error f i = Some (Group ms a).
(** object [i] is a dataset with these contents *)
Definition dataset (f : h5) (i : nat) (v : hval) : Prop := exists a, nth_error f i = Some (Dset v a).
(** object [i] has the attribute [k] with the value [v] *)
Definition attribute (f : h5) (i : nat) (k : str) (v : aval) : Prop :=
  exists nd, nth_error f i = Some nd /\
             dget k (match nd with Group _ a => a | Dset _ a => a end) = Some v.
(** a group of a NeXus class *)
Definition nx_group (f : h5) (i : nat) (cls : string) : Prop :=
  is_group f i /\ attribute f i (L "NX_class") (AText (L cls)).

(** a name of a single link: not empty, not ".", no slash *)
Definition plain_name (n : str) : Prop := n <> [] /\ n <> L "." /\ ~ In 47%N n.

(** files made by any sequence of eznx calls (the result of a call that raised included) *)
Inductive eznx_file : h5 -> Prop :=
| E_new : eznx_file new_file
| E_attr f o l f' r : eznx_file f -> addAttributes o l f = (f', r) -> eznx_file f'
| E_make f o n c l f' r : eznx_file f -> makeGroup o n c l f = (f', r) -> eznx_file f'
| E_open f o n c l f' r : eznx_file f -> openGroup o n c l f = (f', r) -> eznx_file f'
| E_dset f o n d l f' r : eznx_file f -> makeDataset o n d l f = (f', r) -> eznx_file f'
| E_write f o n d l f' r : eznx_file f -> write_dataset o n d l f = (f', r) -> eznx_file f'
| E_link f o s t f' r : eznx_file f -> makeLink o s t f = (f', r) -> eznx_file f'.

(** what the given data look like in the file (eznx: texts lose their non-ASCII characters, a single
    value becomes an array of one) *)
Definition same_numbers (v : hval) (l : list num) : Prop := v = HArr [List.length l] l.
