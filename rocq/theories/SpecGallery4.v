(** The command of specplot_gallery.py: which data files its arguments are. *)
From Coq Require Import String.
From Verif Require Import Py Utils Reader Cli H5 Writer Plot Gallery SpecText SpecReader SpecGallery.
Import ListNotations.
Local Open Scope list_scope.

(** a SPEC data file: a text file that begins with the four header lines or has a scan *)
Definition spec_data (f : gfs) (n : str) : Prop := exists content m z, data_file f n content m z /\ (spec_header content \/ spec_scan_line content).
(** the data files of an argument: itself, or those directly in it *)
Definition chosen (f : gfs) (p n : str) : Prop := spec_data f n /\ (n = p \/ (dget p f = Some FDir /\ exists x, x <> [] /\ ~ In SL x /\ n = p ++ SL :: x)).
