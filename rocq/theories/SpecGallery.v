(** What the properties of specplot_gallery.py speak of. *)
From Coq Require Import String Permutation Sorted.
From Verif Require Import Py Time Utils Keys Handlers Reader Cli H5 Writer Plot Gallery SpecText SpecReader SpecNum SpecCli.
Import ListNotations.
Local Open Scope list_scope.

(** ** Checks of files *)
Section Checks.
  Variables (now : nat -> Z) (size_of : body -> Z) (plotDir : str).
  (** [check f name b f']: with the files [f], was_file_updated(name) of a new Cache_File_Mtime(plotDir) returns [b] and
      leaves the files [f'] *)
  Definition check (f : gfs) (name : str) (b : bool) (f' : gfs) : Prop :=
    exists sel tick tr st e, was_file_updated now size_of plotDir name (mk_g f sel tick) = (tr, (st, Ok (b, e))) /\ g_fs st = f'.
  (** a file with its time and size *)
  Definition on_disk (f : gfs) (name : str) (m z : Z) : Prop := exists b, dget name f = Some (FFile b m z).
  (** what was seen at each check: the name, the time and size on disk, the answer *)
  Definition seen : Type := (str * (Z * Z) * bool)%type.
  (** [checks f0 h f]: checks [h] between which files other than the cache were written or removed *)
  Inductive checks (f0 : gfs) : list seen -> gfs -> Prop :=
  | Checks_none : checks f0 [] f0
  | Checks_check h f name m z b f' : checks f0 h f -> on_disk f name m z -> check f name b f' -> checks f0 (h ++ [(name, (m, z), b)]) f'
  | Checks_write h f name e : checks f0 h f -> name <> cache_name plotDir -> name <> plotDir -> checks f0 h (dset name e f)
  | Checks_remove h f name : checks f0 h f -> name <> cache_name plotDir -> name <> plotDir -> checks f0 h (ddel name f).
  (** the time and size with which the file was last reported as changed *)
  Inductive last_report (name : str) : list seen -> Z * Z -> Prop :=
  | Never h : (forall mz, ~ In (name, mz, true) h) -> last_report name h (0, 0)%Z
  | Last h h' mz : (forall mz', ~ In (name, mz', true) h') -> last_report name (h ++ (name, mz, true) :: h') mz.
End Checks.

(** ** Names *)
Definition SL : N := 47%N.
(** [b] is the last part of [p] *)
Definition file_name (p b : str) : Prop := ~ In SL b /\ (p = b \/ exists d, p = d ++ SL :: b).
(** ... without its extension *)
Definition root_name (p r : str) : Prop := exists b ext, file_name p b /\ extension_of b r ext.
(** a name without a slash at its end *)
Definition plain_path (d : str) : Prop := exists t c, d = t ++ [c] /\ c <> SL.
(** [plots_in plotDir specFile d]: d is plotDir/yyyy/mm/root for the root name of the data file *)
Definition plots_in (plotDir specFile d : str) : Prop :=
  exists yyyy mm root, ~ In SL yyyy /\ ~ In SL mm /\ root_name specFile root /\ d = plotDir ++ SL :: yyyy ++ SL :: mm ++ SL :: root.
(** [n] is such a directory or something directly in it *)
Definition plot_place (plotDir specFile n : str) : Prop :=
  exists d, plots_in plotDir specFile d /\ (n = d \/ exists x, ~ In SL x /\ n = d ++ SL :: x).

(** all states of the file system in a run, the last one included *)
Definition states {A} (r : list gfs * (gst * res A)) : list gfs := fst r ++ [g_fs (fst (snd r))].

(** ** Numbers *)
(** a scan number that does not begin with a needless zero *)
Definition no_leading_zero (n : str) : Prop := n <> [] /\ forall t, n = 48%N :: t -> t = [].
(** lexical order of texts *)
Definition lex_before (a b : str) : Prop :=
  (exists p x y u v, a = p ++ x :: u /\ b = p ++ y :: v /\ (x < y)%N) \/ (exists c u, b = a ++ c :: u).

(** ** Runs *)
(** [plot_directory plotDir specFile content d]: plotDir/yyyy/mm/root with the year and month of the date in the third line of
    the data file *)
Definition plot_directory (plotDir specFile content d : str) : Prop :=
  exists a b date more t root, Lines file_eol content (a :: b :: (L "#D" ++ date) :: more) /\ strptime (strip date) = Ok t /\ root_name specFile root /\
    d = plotDir ++ SL :: four_digits (year t) ++ SL :: two_digits (mon t) ++ SL :: root.
(** a data file with its content, time and size *)
Definition data_file (f : gfs) (name content : str) (m z : Z) : Prop := dget name f = Some (FFile (BText (Some content)) m z).
(** the time and size of a file in the cache *)
Definition cached (plotDir : str) (f : gfs) (name : str) (mz : Z * Z) : Prop :=
  exists c t s, dget (plotDir ++ SL :: L "mtime_cache.json") f = Some (FFile (BCache c) t s) /\ dget name c = Some mz.
(** the cache is there, or there is none yet *)
Definition sound_cache (plotDir : str) (f : gfs) : Prop :=
  dget (plotDir ++ SL :: L "mtime_cache.json") f = None \/ exists c t s, dget (plotDir ++ SL :: L "mtime_cache.json") f = Some (FFile (BCache c) t s).
(** what plotting a scan of the file just read gives ([o]), and the scan afterwards ([sc']), with the image makers of the Selector
    and without an earlier plot *)
Definition plotting (E : env) (known : list hid) (draw : image -> option exn) (db : selector) (sd : sdf) (sc : scan) (m : Z) (o : res (option image)) (sc' : option scan) : Prop :=
  match snd (sel_auto_scan (Some sc) db) with
  | Raise e => o = Raise e /\ sc' = Some sc
  | Ok c => exists k p, kind_of c = Some k /\ plot_scan E known draw k (Ok m) None sc (mk_pst sd plotter0) = (p, o) /\ sc' = dget (s_num sc) (scans (ps_sdf p))
  end.
(** the name of the plot of a scan, and the link to it *)
Definition link_to (sc : scan) (l : str) : Prop := l = L "<a href=""" ++ plot_name (s_num sc) ++ L """><img src=""" ++ plot_name (s_num sc) ++ L """ width=""150"" height=""75"" alt=""#" ++ s_num sc ++ L ": " ++ s_cmd sc ++ L """/></a>".
(** two numbers in order, or the other way round *)
Definition in_order (reversed : bool) (a b : num) : Prop := if reversed then num_le (fl_of_num b) (fl_of_num a) else num_le (fl_of_num a) (fl_of_num b).
(** [problems_of scs os ps]: the exceptions among the outcomes, with the numbers of the scans *)
Inductive problems_of : list scan -> list (res (option image)) -> list (exn * str) -> Prop :=
| Probs_nil : problems_of [] [] []
| Probs_fine sc scs o os ps : problems_of scs os ps -> problems_of (sc :: scs) (Ok o :: os) ps
| Probs_bad sc scs e os ps : problems_of scs os ps -> problems_of (sc :: scs) (Raise e :: os) ((e, s_num sc) :: ps).

(** the file [n] holds the plot, or is not there if there was none *)
Definition plot_file (f : gfs) (n : str) (o : res (option image)) : Prop :=
  match o with Ok (Some i) => exists t z, dget n f = Some (FFile (BPlot i) t z) | _ => dget n f = None end.
(** nothing is in the directory (which may be missing) *)
Definition nothing_in (d : str) (f : gfs) : Prop := forall x, dget (d ++ SL :: x) f = None.
(** time and size differ from what the cache has for the file; (0, 0) if it has nothing *)
Definition outdated (plotDir : str) (f : gfs) (name : str) (m z : Z) : Prop :=
  (forall mz, cached plotDir f name mz -> m <> fst mz /\ z <> snd mz) /\ ((forall mz, ~ cached plotDir f name mz) -> m <> 0%Z /\ z <> 0%Z).
(** the epoch of a scan after it was plotted *)
Definition epoch_is (E : env) (known : list hid) (draw : image -> option exn) (db : selector) (sd : sdf) (m : Z) (sc : scan) (x : num) : Prop :=
  exists o sc', plotting E known draw db sd sc m o (Some sc') /\ s_obj sc' A_epoch = Some x.
(** what a complete first run leaves in the directory [d] of a data file, whose scans are [scs] in order of their numbers *)
Record first_run (E : env) (known : list hid) (draw : image -> option exn) (reversed : bool) (db : selector) (sd : sdf) (m : Z) (d specFile : str) (content : body) (f : gfs) (scs : list scan) : Prop := mk_first {
  (** the plot of each scan that can be plotted, and no plots of the others; their problems in index.html; the links to the
      existing plots in order of the epochs; a copy of the data file *)
  fr_plots : exists os ps links t z order shown, Forall2 (fun sc o => plot_file f (d ++ SL :: plot_name (s_num sc)) o /\ exists sc', plotting E known draw db sd sc m o sc') scs os /\
    dget (d ++ SL :: L "index.html") f = Some (FFile (BIndex links ps) t z) /\ problems_of scs os ps /\
    Permutation order scs /\ Forall (fun sc => exists x, epoch_is E known draw db sd m sc x) order /\
    ((forall sc x, In sc scs -> epoch_is E known draw db sd m sc x -> fl_of_num x <> FNaN) ->
       StronglySorted (fun a b => exists x y, epoch_is E known draw db sd m a x /\ epoch_is E known draw db sd m b y /\ in_order reversed x y) order) /\
    Keeps (fun sc => dget (d ++ SL :: plot_name (s_num sc)) f <> None) order shown /\ Forall2 link_to shown links;
  fr_copy : forall b, file_name specFile b -> exists t z, dget (d ++ SL :: b) f = Some (FFile content t z);
  (** and nothing else *)
  fr_only : forall x, dget (d ++ SL :: x) f <> None -> x = L "index.html" \/ file_name specFile x \/ exists sc, In sc scs /\ x = plot_name (s_num sc) }.
