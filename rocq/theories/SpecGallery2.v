(** Later runs of specplot_gallery.py over a data file to which whole scans were appended. *)
From Coq Require Import String Permutation Sorted.
From Verif Require Import Py Time Utils Keys Handlers Reader Cli H5 Writer Plot Gallery SpecText SpecReader SpecNum SpecCli SpecGallery.
Import ListNotations.
Local Open Scope list_scope.

(** what follows after the first [size] characters of a data file begins with a scan *)
Definition scans_appended (content : str) (size : Z) : Prop :=
  ~ In CR content /\ exists old gap rest, content = old ++ gap ++ L "#S " ++ rest /\ Z.of_nat (List.length old) = size /\ Forall (fun c => is_space c = true) gap.
(** ... does not: the last scan has grown *)
Definition more_appended (content : str) (size : Z) : Prop :=
  ~ In CR content /\ exists old rest, content = old ++ rest /\ Z.of_nat (List.length old) = size /\ forall gap r, rest = gap ++ L "#S " ++ r -> ~ Forall (fun c => is_space c = true) gap.
(** names of plots, and the last of those in a directory *)
Definition svg_name (x : str) : Prop := ~ In SL x /\ exists y, x = y ++ L ".svg".
Definition last_plot (d : str) (f : gfs) (k : str) : Prop :=
  svg_name k /\ dget (d ++ SL :: k) f <> None /\ forall x, svg_name x -> dget (d ++ SL :: x) f <> None -> x = k \/ lex_before x k.
(** which of the files of a directory are still there: all; all but the last plot; all but the plots *)
Definition kept_all (d : str) (f f1 : gfs) : Prop := forall x, dget (d ++ SL :: x) f1 = dget (d ++ SL :: x) f.
Definition kept_but_last (d : str) (f f1 : gfs) : Prop :=
  ((forall x, svg_name x -> dget (d ++ SL :: x) f = None) /\ kept_all d f f1) \/
  exists k, last_plot d f k /\ dget (d ++ SL :: k) f1 = None /\ forall x, x <> k -> dget (d ++ SL :: x) f1 = dget (d ++ SL :: x) f.
Definition kept_no_plot (d : str) (f f1 : gfs) : Prop :=
  forall x, (svg_name x -> dget (d ++ SL :: x) f1 = None) /\ (~ svg_name x -> dget (d ++ SL :: x) f1 = dget (d ++ SL :: x) f).
(** [news f d scs l]: [l] are the scans in [scs], in the same order, that have no plot in [d] yet *)
Definition news (f : gfs) (d : str) (scs l : list scan) : Prop := Keeps (fun sc => dget (d ++ SL :: plot_name (s_num sc)) f = None) scs l.
(** the epoch of a scan at the end of a run that began with the files [f0]: scans with a plot there are not plotted *)
Definition epoch_now (E : env) (known : list hid) (draw : image -> option exn) (db : selector) (sd : sdf) (m : Z) (d : str) (f0 : gfs) (sc : scan) (x : num) : Prop :=
  (dget (d ++ SL :: plot_name (s_num sc)) f0 = None /\ epoch_is E known draw db sd m sc x) \/ (dget (d ++ SL :: plot_name (s_num sc)) f0 <> None /\ s_obj sc A_epoch = Some x).
(** what a run leaves in the directory [d] of a data file; before it the files were [f0], after it they are [f].  The scans of the
    data file are [scs], in order of their numbers *)
Record later_run (E : env) (known : list hid) (draw : image -> option exn) (reversed : bool) (db : selector) (sd : sdf) (m : Z) (d specFile : str) (content : body) (f0 f : gfs) (scs : list scan) : Prop := mk_later {
  (** plots that were there are kept *)
  lr_kept : forall x, ~ In SL x -> (forall sc, In sc scs -> x <> plot_name (s_num sc)) \/ dget (d ++ SL :: x) f0 <> None ->
    x <> L "index.html" -> ~ file_name specFile x -> dget (d ++ SL :: x) f = dget (d ++ SL :: x) f0;
  (** the others are made; index.html is new if one of them could be made, and has the problems of the others and, in order of the
      epochs, the links to all plots *)
  lr_plots : exists l os ps, news f0 d scs l /\ Forall2 (fun sc o => plot_file f (d ++ SL :: plot_name (s_num sc)) o /\ exists sc', plotting E known draw db sd sc m o sc') l os /\ problems_of l os ps /\
    (((exists i, In (Ok i) os) \/ dget (d ++ SL :: L "index.html") f0 = None) ->
       exists links t z order shown, dget (d ++ SL :: L "index.html") f = Some (FFile (BIndex links ps) t z) /\ Permutation order scs /\
         Keeps (fun sc => dget (d ++ SL :: plot_name (s_num sc)) f <> None) order shown /\ Forall2 link_to shown links /\
         ((forall sc x, In sc scs -> epoch_now E known draw db sd m d f0 sc x -> fl_of_num x <> FNaN) ->
           StronglySorted (fun a b => exists x y, epoch_now E known draw db sd m d f0 a x /\ epoch_now E known draw db sd m d f0 b y /\ in_order reversed x y) order)) /\
    ((forall i, ~ In (Ok i) os) -> dget (d ++ SL :: L "index.html") f0 <> None -> dget (d ++ SL :: L "index.html") f = dget (d ++ SL :: L "index.html") f0);
  (** the copy of the data file is made again if it is older *)
  lr_copy : forall b, file_name specFile b ->
    match dget (d ++ SL :: b) f0 with
    | None => exists t z, dget (d ++ SL :: b) f = Some (FFile content t z)
    | Some (FFile _ t0 _) => if (t0 <? m)%Z then exists t z, dget (d ++ SL :: b) f = Some (FFile content t z) else dget (d ++ SL :: b) f = dget (d ++ SL :: b) f0
    | Some FDir => dget (d ++ SL :: b) f = Some FDir
    end }.
