(** /repo/spec2nexus/specplot_gallery.py: plots of all scans of a list of data files, made anew when a
    data file changes.

    A file system is a dictionary from names to files and directories; names are plain strings without
    aliases (no symbolic links, the base directory is given as a normalised absolute name).  A program is
    run together with the list of the states of the file system after each of its changes, so that the
    program may be thought to be killed in any of them.  Opening a file for writing is one change (the
    file is then incomplete), completing it another.  Errors of the file system, the log, the text of
    index.html around the links, and other JSON texts than those this program writes are not modelled. *)
From Coq Require Import String.
From Verif Require Import Py Time Utils Keys Handlers Reader Cli H5 Writer Plot.
Import ListNotations.
Local Open Scope list_scope.

(* ------------------------------------------------------------------ *)
(** * Files *)

(** contents: text ([None] cannot be decoded), a plot, the cache (mtime and size of each file),
    index.html (the links, and the exception and number of each scan with problems), an incomplete file *)
Inductive body := BText (content : option str) | BPlot (i : image) | BCache (c : dict (Z * Z))
| BIndex (links : list str) (problems : list (exn * str)) | BPart.
Inductive entry := FDir | FFile (b : body) (mtime size : Z).
Definition gfs := dict entry.

(** the file as spec.py sees it; files made by this program are not SPEC data files *)
Definition path_of (f : gfs) (n : str) : path :=
  match dget n f with
  | None => Absent
  | Some FDir => NotFile
  | Some (FFile (BText c) m z) => File c m z
  | Some (FFile _ m z) => File (Some []) m z
  end.
Definition fexists (f : gfs) (n : str) : bool := has n f.
Definition fmtime (f : gfs) (n : str) : option Z := match dget n f with Some (FFile _ m _) => Some m | _ => None end.

(** os.path.join *)
Definition pjoin (a b : str) : str :=
  if prefixb [SLASH] b then b
  else match a with [] => b | _ => if suffixb [SLASH] a then a ++ b else a ++ SLASH :: b end.
(** os.path.basename: what is after the last slash *)
Definition basename (p : str) : str := match rev (split_c SLASH p) with x :: _ => x | [] => [] end.
(** os.listdir *)
Definition listdir (d : str) (f : gfs) : list str :=
  flat_map (fun k => if prefixb (d ++ [SLASH]) k
                     then let r := skipn (S (List.length d)) k in
                          if Nat.eqb (List.length r) 0 || existsb (N.eqb SLASH) r then [] else [r]
                     else []) (keys f).

(* ------------------------------------------------------------------ *)
(** * Programs with all their states *)

(** file system, Selector and number of files written so far *)
Record gst := mk_g { g_fs : gfs; g_sel : selector; g_tick : nat }.
Definition GM (A : Type) := gst -> list gfs * (gst * res A).
Definition gret {A} (a : A) : GM A := fun s => ([], (s, Ok a)).
Definition gfail {A} (e : exn) : GM A := fun s => ([], (s, Raise e)).
Definition glift {A} (r : res A) : GM A := fun s => ([], (s, r)).
Definition gbind {A B} (m : GM A) (k : A -> GM B) : GM B := fun s =>
  match m s with
  | (t, (s', Ok a)) => match k a s' with (t', r) => (t ++ t', r) end
  | (t, (s', Raise e)) => (t, (s', Raise e))
  end.
Notation "'let+' x := m 'in' k" := (gbind m (fun x => k))
  (at level 200, x pattern, m at level 100, k at level 200, right associativity).
Notation "m +> k" := (gbind m (fun _ => k)) (at level 199, right associativity).
Definition get_fs : GM gfs := fun s => ([], (s, Ok (g_fs s))).
Definition change (c : gfs -> gfs) : GM unit := fun s =>
  let f := c (g_fs s) in ([f], (mk_g f (g_sel s) (g_tick s), Ok tt)).
Fixpoint giter {A} (c : A -> GM unit) (l : list A) : GM unit :=
  match l with [] => gret tt | x :: t => c x +> giter c t end.

Definition CACHE_FILE : str := L "mtime_cache.json".            (* specplot_gallery.py 67 *)
Definition PLOT_TYPE : str := L ".svg".                         (* 68 *)
Definition INDEX_FILE : str := L "index.html".                  (* 69 *)

(** specplot_gallery.py 352-363: yyyy/mm *)
Definition four_digits (z : Z) : str := let t := str_of_Z z in repeat 48%N (4 - List.length t) ++ t.
Definition datePath (date : str) : res str :=
  do t <- strptime date;
  Ok (pjoin (four_digits (year t)) (two_digits (mon t))).

(** specplot_gallery.py 366-392 *)
Definition getSpecFileDate (p : path) : res (option str) :=
  match p with
  | Absent => Ok None
  | NotFile | File None _ _ => Raise NotModelled
  | File (Some content) _ _ =>
      match text_lines content with
      | a :: b :: c :: _ =>
          if prefixb (L "#F ") a && prefixb (L "#E ") b && prefixb (L "#D ") c
          then Ok (Some (strip (skipn 2 c))) else Ok None
      | _ => Ok None
      end
  end.

(** specplot_gallery.py 395-407 *)
Definition needToMakePlot (plot_mtime : option Z) (mtime_specFile : Z) : bool :=
  match plot_mtime with
  | Some m => negb (mtime_specFile <? m)%Z
  | None => true
  end.

(** specplot_gallery.py 147-150, 158: "s%05s.svg" with blanks replaced *)
Definition plot_name (num : str) : str :=
  map (fun c => if N.eqb c 32 then 48%N else c) (L "s" ++ repeat 32%N (5 - List.length num) ++ num ++ PLOT_TYPE).
(** specplot_gallery.py 272-278 *)
Definition href_format (base alt : str) : str :=
  L "<a href=""" ++ base ++ L """>" ++ L "<img src=""" ++ base ++ L """" ++ L " width=""150"" height=""75"""
  ++ L " alt=""" ++ alt ++ L """/>" ++ L "</a>".

Section Gallery.
  Variable E : env.
  Variable known : list hid.
  Variable draw : image -> option exn.
  (** the time when the n-th file is written, and the size of a file *)
  Variable now : nat -> Z.
  Variable size_of : body -> Z.
  (** PlotSpecFileScans.plotDir, reversed (99-105) *)
  Variable plotDir : str.
  Variable reversed : bool.

  (** open(name, "w"), write and close *)
  Definition write_file (name : str) (b : body) (size : Z) : GM unit := fun s =>
    let t := now (g_tick s) in
    let f1 := dset name (FFile BPart t 0%Z) (g_fs s) in
    let f2 := dset name (FFile b t size) f1 in
    ([f1; f2], (mk_g f2 (g_sel s) (S (g_tick s)), Ok tt)).
  Definition remove_file (name : str) : GM unit := change (ddel name).

  (* ---------------------------------------------------------------- *)
  (** * Cache_File_Mtime *)

  Definition cache_name : str := pjoin plotDir CACHE_FILE.
  (** specplot_gallery.py 292-306: DirectoryNotFoundError and json.JSONDecodeError are ValueErrors *)
  Definition cache_read (f : gfs) : res (dict (Z * Z)) :=
    if negb (fexists f plotDir) then Raise ValueError
    else match dget cache_name f with
         | None => Ok []
         | Some (FFile (BCache c) _ _) => Ok c
         | Some _ => Raise ValueError
         end.
  (** specplot_gallery.py 313-321 *)
  Definition cache_get (fname : str) (c : dict (Z * Z)) : Z * Z :=
    match dget fname c with Some v => v | None => (0%Z, 0%Z) end.
  (** specplot_gallery.py 323-346: with a new cache object, what was_file_updated returns and the entry
      of the file afterwards *)
  Definition was_file_updated (fname : str) : GM (bool * (Z * Z)) :=
    let+ f := get_fs in
    let+ c := glift (cache_read f) in
    let+ mz := glift (stat (path_of f fname)) in
    let '(m, z) := mz in
    let old := cache_get fname c in
    if negb (m =? fst old)%Z && negb (z =? snd old)%Z then
      let b := BCache (dset fname (m, z) c) in
      write_file cache_name b (size_of b) +> gret (true, (m, z))
    else gret (false, old).

  (** specplot_gallery.py 110-121 *)
  Definition specFileUpdated (specFile : str) : GM (option (Z * Z)) :=
    let+ f := get_fs in
    if fexists f specFile then
      let+ r := was_file_updated specFile in
      gret (if fst r then Some (snd r) else None)
    else gret None.

  (* ---------------------------------------------------------------- *)
  (** * plot_all_scans *)

  (** specplot_gallery.py 252-270 *)
  Definition getPlotDir (specFile : str) (f : gfs) : res (option str) :=
    do d <- getSpecFileDate (path_of f specFile);
    match d with
    | None => Ok None
    | Some date => do dp <- datePath date;
                   Ok (Some (pjoin (pjoin plotDir dp) (fst (splitext (basename specFile)))))
    end.

  (** specplot_gallery.py 156-163: what is known of a plot *)
  Record item := mk_item { i_base : str; i_full : str; i_href : str; i_scan : scan }.
  (** specplot_gallery.py 142-163 *)
  Definition items (plot_path : str) (sd : sdf) : res (list item) :=
    do ns <- getScanNumbers sd;
    mapM (fun n => do o <- getScan (KStr n) sd;
                   do sc <- of_opt AttributeError o;
                   let base := plot_name (s_num sc) in
                   Ok (mk_item base (pjoin plot_path base) (href_format base (L "#" ++ s_num sc ++ L ": " ++ s_cmd sc)) sc)) ns.

  Definition select (sc : scan) : GM cls := fun s =>
    let '(db, r) := sel_auto_scan (Some sc) (g_sel s) in ([], (mk_g (g_fs s) db (g_tick s), r)).

  (** specplot_gallery.py 208-211: the Selector gives one of its own image makers *)
  Definition one_plot (specFile : str) (it : item) (sd : sdf) : GM (sdf * option exn) :=
    let+ f := get_fs in
    fun s =>
      match select (i_scan it) s with
      | (t, (s, Raise e)) => (t, (s, Ok (sd, Some e)))
      | (t, (s, Ok c)) =>
          match kind_of c with
          | None => (t, (s, Raise NotModelled))
          | Some k =>
              let dm := rmap fst (stat (path_of f specFile)) in
              let pm := if fexists f (i_full it) then fmtime f (i_full it) else None in
              match plot_scan E known draw k dm pm (i_scan it) (mk_pst sd plotter0) with
              | (p, Raise NotModelled) => (t, (s, Raise NotModelled))
              | (p, Raise e) => (t, (s, Ok (ps_sdf p, Some e)))
              | (p, Ok None) => (t, (s, Ok (ps_sdf p, None)))
              | (p, Ok (Some i)) =>
                  match write_file (i_full it) (BPlot i) (size_of (BPlot i)) s with
                  | (t', (s, _)) => (t ++ t', (s, Ok (ps_sdf p, None)))
                  end
              end
          end
      end.

  (** specplot_gallery.py 198-219: whether the index is to be made again, and the problems *)
  Fixpoint plots (specFile : str) (plot_list : list str) (its : list item) (sd : sdf) (remake : bool)
      (problems : list (exn * str)) : GM (sdf * bool * list (exn * str)) :=
    match its with
    | [] => gret (sd, remake, problems)
    | it :: t =>
        if mem (i_base it) plot_list then plots specFile plot_list t sd remake problems
        else let+ r := one_plot specFile it sd in
             let '(sd, e) := r in
             match e with
             | None => plots specFile plot_list t sd true problems
             | Some e => plots specFile plot_list t sd remake (problems ++ [(e, s_num (i_scan it))])
             end
    end.

  (** specplot_gallery.py 170-196: the plots that are kept; the others are removed *)
  Definition old_plots (specFile plot_path : str) (last new : Z * Z) : GM (list str) :=
    let+ f := get_fs in
    let plot_list := isort str_leb (List.filter (suffixb PLOT_TYPE) (listdir plot_path f)) in
    let full k := pjoin plot_path k in
    if negb (Nat.eqb (List.length plot_list) 0) && (0 <? snd new)%Z && negb (snd new =? snd last)%Z then
      if (snd last <? snd new)%Z then
        match path_of f specFile with
        | File (Some content) _ _ =>
            let buf := skipn (Z.to_nat (snd last)) (universal_newlines content) in
            if prefixb (L "#S ") (lstrip buf) then gret plot_list
            else match rev plot_list with
                 | k :: r => remove_file (full k) +> gret (rev r)
                 | [] => gret plot_list
                 end
        | _ => gfail NotModelled
        end
      else giter (fun k => remove_file (full k)) plot_list +> gret []
    else gret plot_list.

  (** [scan["spec_scan"].epoch] (228): no lazy attribute *)
  Definition epoch_of (sd : sdf) (it : item) : res num :=
    match dget (s_num (i_scan it)) (scans sd) with
    | Some sc => of_opt AttributeError (s_obj sc A_epoch)
    | None => Raise KeyError
    end.

  (** specplot_gallery.py 221-240 *)
  Definition make_index (plot_path : str) (its : list item) (sd : sdf) (remake : bool) (problems : list (exn * str)) : GM unit :=
    let+ f := get_fs in
    let html := pjoin plot_path INDEX_FILE in
    if remake || negb (fexists f html) then
      let+ ts := glift (mapM (epoch_of sd) its) in
      let leb := if reversed then (fun a b => num_leb b a) else num_leb in
      let sorted := sort_by leb (combine ts its) in
      let links := map i_href (List.filter (fun it => fexists f (i_full it)) sorted) in
      let b := BIndex links problems in
      write_file html b (size_of b)
    else gret tt.

  (** specplot_gallery.py 242-247 *)
  Definition copy_data (specFile plot_path : str) : GM unit :=
    let+ f := get_fs in
    let target := pjoin plot_path (basename specFile) in
    match dget specFile f with
    | Some (FFile b m z) =>
        match fmtime f target with
        | Some t => if (t <? m)%Z then write_file target b z else gret tt
        | None => if fexists f target then gret tt else write_file target b z
        end
    | _ => gfail FileNotFoundError
    end.

  (** specplot_gallery.py 123-250.  138: os.path.exists(None) *)
  Definition plot_all_scans (specFile : str) : GM unit :=
    let+ f := get_fs in
    let p := path_of f specFile in
    if negb (is_spec_file p) then gfail NotASpecDataFile else
    let+ sd := glift (open_file E known specFile p) in
    if Nat.eqb (List.length (headers sd)) 0 then gret tt else
    let+ o := glift (getPlotDir specFile f) in
    let+ plot_path := glift (of_opt TypeError o) in
    (if fexists f plot_path then gret tt else change (dset plot_path FDir)) +>
    let+ its := glift (items plot_path sd) in
    let+ f := get_fs in
    let+ c := glift (cache_read f) in
    let last := cache_get specFile c in
    let+ u := specFileUpdated specFile in
    match u with
    | None => gret tt
    | Some new =>
        let+ plot_list := old_plots specFile plot_path last new in
        let+ r := plots specFile plot_list its sd false [] in
        let '(sd, remake, problems) := r in
        make_index plot_path its sd remake problems +>
        copy_data specFile plot_path
    end.

  (** specplot_gallery.py 107-108 *)
  Definition gallery (filelist : list str) : GM unit := giter plot_all_scans filelist.

  (** specplot_gallery.py 530-556: the data files of the arguments; the directory of -d.  Simplified: the log file
      specplot_files_processing.log that main also writes in that directory is not modelled *)
  Definition expand (paths : list str) (f : gfs) : list str :=
    flat_map (fun p => match dget p f with
                       | None => []
                       | Some FDir => List.filter (fun n => is_spec_file (path_of f n)) (map (pjoin p) (listdir p f))
                       | Some _ => if is_spec_file (path_of f p) then [p] else []
                       end) paths.
  Definition gallery_main (paths : list str) : GM unit :=
    let+ f := get_fs in
    match dget plotDir f with
    | Some FDir => gallery (expand paths f)
    | _ => gfail ValueError                        (* DirectoryNotFoundError, PathIsNotDirectoryError *)
    end.
End Gallery.
