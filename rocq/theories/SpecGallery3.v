(** First runs of specplot_gallery.py over several data files. *)
From Coq Require Import String Permutation Sorted.
From Verif Require Import Py Time Utils Keys Handlers Reader Cli H5 Writer Plot Gallery SpecText SpecReader SpecNum SpecPlot SpecTables SpecCli SpecGallery SpecLookup.
Import ListNotations.
Local Open Scope list_scope.

(** two data files have no root name in common *)
Definition other_roots (a b : str) : Prop := forall r, root_name a r -> root_name b r -> False.
(** [a] is a data file that can be read and was not yet plotted: it is not in the cache as it is, and nothing is in its directory *)
Record not_yet (E : env) (known : list hid) (plotDir : str) (f : gfs) (a content : str) (m z : Z) (sd : sdf) : Prop := mk_not_yet {
  ny_file : data_file f a content m z;
  ny_cache : outdated plotDir f a m z;
  ny_read : open_file E known a (File (Some content) m z) = Ok sd;
  ny_headers : headers sd <> [];
  ny_ge1 : all_ge1 sd;
  ny_names : no_names_in_scans sd;
  ny_numbers : Forall (fun n => ~ In 32%N n /\ no_leading_zero n) (keys (scans sd));
  ny_empty : forall d, plot_directory plotDir a content d -> nothing_in d f;
  ny_name : forall b, file_name a b -> b <> L "index.html" /\ forall y, b <> y ++ L ".svg" }.
