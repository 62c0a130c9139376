(** /repo/spec2nexus/specplot.py, singletons.py and what charts.py checks: choosing an image maker for
    a scan and making its plot.  Simplifications: matplotlib itself is the parameter [draw] (the
    exception it raises, if any); image makers defined by a user are only known to the Selector. *)
From Coq Require Import String.
From Verif Require Import Py Time Utils Keys Handlers Reader H5 Writer.
Import ListNotations.
Local Open Scope list_scope.

(* ------------------------------------------------------------------ *)
(** * Selector *)

(** what can be given to Selector.add: the image makers of the module (specplot.py 484, 558, 599),
    other subclasses of ImageMaker, other classes, and objects that are no class *)
Inductive cls := LineP | HklP | MeshP | UserP (n : nat) | OtherClass (n : nat) | NoClass (n : nat).

(** issubclass(value, ImageMaker) (specplot.py 148, 169) *)
Definition issub (c : cls) : res bool :=
  match c with
  | LineP | HklP | MeshP | UserP _ => Ok true
  | OtherClass _ => Ok false
  | NoClass _ => Raise TypeError
  end.

(** [self.db] of the one Selector of the process *)
Definition selector := dict cls.
Definition default_key : str := L "__default__".            (* specplot.py 100 *)

(** specplot.py 180-198 *)
Definition sel_exists (k : str) (db : selector) : bool := has k db.
Definition sel_get (k : str) (db : selector) : option cls := dget k db.
Definition sel_default (db : selector) : option cls := sel_get default_key db.

(** the common part of add and update (specplot.py 148-157, 169-178) *)
Definition sel_store (k : str) (v : cls) (default : bool) (db : selector) : selector * res cls :=
  match issub v with
  | Raise e => (db, Raise e)
  | Ok false => (db, Raise UnexpectedObjectTypeError)
  | Ok true => let db := dset k v db in (if default then dset default_key v db else db, Ok v)
  end.
(** specplot.py 138-157 *)
Definition sel_add (k : str) (v : cls) (default : bool) (db : selector) : selector * res cls :=
  if sel_exists k db then (db, Raise KeyError) else sel_store k v default db.
(** specplot.py 159-178 *)
Definition sel_update (k : str) (v : cls) (default : bool) (db : selector) : selector * res cls :=
  if negb (sel_exists k db) then (db, Raise KeyError) else sel_store k v default db.
(** specplot.py 102-104 *)
Definition sel_init : selector := fst (sel_add default_key LineP true []).

(** specplot.py 121-136, after the macro name is known.  If the default key has no value (it always
    has one) [add] is called with None. *)
Definition sel_auto (macro : str) (db : selector) : selector * res cls :=
  match sel_get macro db with
  | Some c => (db, Ok c)
  | None =>
      let c := if seqb macro (L "hklscan") then HklP
               else if suffixb (L "scan") (lower macro) then LineP
               else if suffixb (L "mesh") (lower macro) then MeshP
               else match sel_default db with Some c => c | None => NoClass 0 end in
      sel_add macro c false db
  end.
(** specplot.py 106-136: [arg] is [None] for an object that is not a scan; spec.py 709: no macro name *)
Definition sel_auto_scan (arg : option scan) (db : selector) : selector * res cls :=
  match arg with
  | None => (db, Raise UnexpectedObjectTypeError)
  | Some sc => match get_macro_name sc with
               | Raise e => (db, Raise e)
               | Ok macro => sel_auto macro db
               end
  end.

(** singletons.py 20-25: Selector() calls the constructor only if there is no instance yet *)
Definition sel_instance (o : option selector) : selector :=
  match o with Some db => db | None => sel_init end.

(** calls of the methods of Selector() *)
Inductive sel_op := OpAdd (k : str) (v : cls) (default : bool) | OpUpdate (k : str) (v : cls) (default : bool)
| OpAuto (macro : str) | OpGet (k : str) | OpNew.
Inductive sel_out := OutCls (r : res cls) | OutOpt (o : option cls) | OutNone.
Definition sel_step (o : option selector) (op : sel_op) : option selector * sel_out :=
  let db := sel_instance o in
  match op with
  | OpAdd k v d => let '(db, r) := sel_add k v d db in (Some db, OutCls r)
  | OpUpdate k v d => let '(db, r) := sel_update k v d db in (Some db, OutCls r)
  | OpAuto m => let '(db, r) := sel_auto m db in (Some db, OutCls r)
  | OpGet k => (Some db, OutOpt (sel_get k db))
  | OpNew => (Some db, OutNone)
  end.

(* ------------------------------------------------------------------ *)
(** * Image makers *)

(** values of [self.data]: lists of numbers (a range is the list of its numbers), arrays, a number,
    the spectra of the scan *)
Inductive pval := PList (l : list num) | PArr (a : array num) | PNum (n : num) | PSpectra (d : dict (list (list num))).

(** specplot.py 399-415: [None] is None *)
Record settings := mk_set { g_title : option str; g_subtitle : option str; g_xtitle : option str; g_ytitle : option str;
  g_xlog : option bool; g_ylog : option bool; g_zlog : option bool; g_time : option str }.
Definition settings0 : settings := mk_set None None None None None None None None.

(** specplot.py 260-265 *)
Record plotter := mk_plotter { p_set : settings; p_signal : option str; p_axes : list str; p_data : dict pval }.
Definition plotter0 : plotter := mk_plotter settings0 None [] [].

(** the arguments of charts.xy_plot and charts.make_png: what is drawn *)
Inductive image := XYPlot (x y : pval) (s : settings) | MeshPlot (image : pval) (axes : list pval) (s : settings).

(** the data file object and the image maker *)
Record pst := mk_pst { ps_sdf : sdf; ps_plotter : plotter }.
Definition PM := St pst.

(** the other settings stay; [a or b] for texts and booleans *)
Definition or_text (a : option str) (b : str) : str := match a with Some (c :: t) => c :: t | _ => b end.
Definition or_bool (a : option bool) (b : bool) : bool := match a with Some true => true | _ => b end.

Definition get_p {A} (f : plotter -> A) : PM A := fun s => (s, Ok (f (ps_plotter s))).
Definition put_set (f : settings -> settings) : PM unit := fun s =>
  let p := ps_plotter s in
  (mk_pst (ps_sdf s) (mk_plotter (f (p_set p)) (p_signal p) (p_axes p) (p_data p)), Ok tt).
Definition put_signal (v : str) : PM unit := fun s =>
  let p := ps_plotter s in (mk_pst (ps_sdf s) (mk_plotter (p_set p) (Some v) (p_axes p) (p_data p)), Ok tt).
Definition put_axes (v : list str) : PM unit := fun s =>
  let p := ps_plotter s in (mk_pst (ps_sdf s) (mk_plotter (p_set p) (p_signal p) v (p_data p)), Ok tt).
Definition put_all_data (d : dict pval) : PM unit := fun s =>
  let p := ps_plotter s in (mk_pst (ps_sdf s) (mk_plotter (p_set p) (p_signal p) (p_axes p) d), Ok tt).
Definition put_data (k : str) (v : pval) : PM unit :=
  let* d := get_p p_data in put_all_data (dset k v d).

Definition set_texts (t st : str) (s : settings) : settings :=
  mk_set (Some t) (Some st) (g_xtitle s) (g_ytitle s) (g_xlog s) (g_ylog s) (g_zlog s) (g_time s).
Definition set_time (t : str) (s : settings) : settings :=
  mk_set (g_title s) (g_subtitle s) (g_xtitle s) (g_ytitle s) (g_xlog s) (g_ylog s) (g_zlog s) (Some t).
Definition set_xtitle (t : str) (s : settings) : settings :=
  mk_set (g_title s) (g_subtitle s) (Some t) (g_ytitle s) (g_xlog s) (g_ylog s) (g_zlog s) (g_time s).
Definition set_ytitle (t : str) (s : settings) : settings :=
  mk_set (g_title s) (g_subtitle s) (g_xtitle s) (Some t) (g_xlog s) (g_ylog s) (g_zlog s) (g_time s).
Definition set_subtitle (t : str) (s : settings) : settings :=
  mk_set (g_title s) (Some t) (g_xtitle s) (g_ytitle s) (g_xlog s) (g_ylog s) (g_zlog s) (g_time s).
Definition set_logs (x y z : bool) (s : settings) : settings :=
  mk_set (g_title s) (g_subtitle s) (g_xtitle s) (g_ytitle s) (Some x) (Some y) (Some z) (g_time s).

Definition ABORTED0 : str := L "Scan aborted after 0 points.".      (* specplot.py 369 *)

(** [min(l)], [max(l)] *)
Definition py_min (l : list fl) : res fl :=
  match l with [] => Raise ValueError | x :: t => Ok (fold_left (fun m y => if fl_ltb y m then y else m) t x) end.
Definition py_max (l : list fl) : res fl :=
  match l with [] => Raise ValueError | x :: t => Ok (fold_left (fun m y => if fl_ltb m y then y else m) t x) end.
(** [min(l) == max(l)] *)
Definition constant (l : list fl) : res bool := do a <- py_min l; do b <- py_max l; Ok (fl_eqb a b).

Definition col_pval (c : col) : pval := match c with Col vs => PList (nums vs) | Mca m => PSpectra m end.
(** [len(v)] *)
Definition plen (v : pval) : res nat :=
  match v with
  | PList l => Ok (List.length l)
  | PArr a => match shape a with n :: _ => Ok n | [] => Raise TypeError end
  | PNum _ => Raise TypeError
  | PSpectra d => Ok (List.length d)
  end.
(** [numpy.array(v).shape]; an array of a dict has no dimension *)
Definition pshape (v : pval) : list nat :=
  match v with PList l => [List.length l] | PArr a => shape a | PNum _ | PSpectra _ => [] end.

(** specplot.py 516-529 *)
Definition line_plottable (p : plotter) : res bool :=
  match p_signal p with
  | None => Ok false
  | Some sg =>
      match dget sg (p_data p) with
      | None => Ok false
      | Some v =>
          do n <- plen v;
          match p_axes p with
          | [axis] => if Nat.eqb n 0 then Ok false
                      else do x <- of_opt KeyError (dget axis (p_data p));
                           do m <- plen x;
                           Ok (Nat.eqb n m)
          | _ => Ok false
          end
      end
  end.

(** specplot.py 663-676: any exception means False *)
Definition mesh_plottable (p : plotter) : bool :=
  match p_signal p with
  | None => false
  | Some sg =>
      match dget sg (p_data p) with
      | None => false
      | Some v =>
          let sh := pshape v in
          (match p_axes p with [] => true | axes => Nat.eqb (List.length axes) (List.length sh) end) &&
          forallb (fun na => match dget (snd na) (p_data p) with
                             | None => false
                             | Some x => match plen x with Ok m => Nat.eqb (fst na) m | Raise _ => false end
                             end) (combine sh (rev (p_axes p)))
      end
  end.

(** specplot.py 531-539 *)
Definition line_options : PM unit :=
  let* axes := get_p p_axes in
  let* axis := slift (index 0 axes) in
  let* sg := get_p p_signal in
  put_set (fun s => set_logs (or_bool (g_xlog s) false) (or_bool (g_ylog s) false) false
                      (set_ytitle (or_text (g_ytitle s) (match sg with Some t => t | None => [] end))
                        (set_xtitle (or_text (g_xtitle s) axis) s))).
(** specplot.py 678-690 *)
Definition mesh_options : PM unit :=
  let* axes := get_p p_axes in
  let* sg := get_p p_signal in
  (match axes with
   | [a] => put_set (fun s => set_ytitle (or_text (g_ytitle s) (match sg with Some t => t | None => [] end))
                               (set_xtitle (or_text (g_xtitle s) a) s))
   | [a; b] => put_set (fun s => set_ytitle (or_text (g_ytitle s) a) (set_xtitle (or_text (g_xtitle s) b) s))
   | _ => sret tt
   end) >>>
  put_set (fun s => set_logs (or_bool (g_xlog s) false) (or_bool (g_ylog s) false) (or_bool (g_zlog s) false) s).

(** charts.py 173-186: [max(v) <= 0] *)
Definition num_leb (a b : num) : bool := fl_leb (fl_of_num a) (fl_of_num b).
Definition no_positive (v : pval) : res bool :=
  match v with
  | PList l => do m <- py_max (map fl_of_num l); Ok (fl_leb m (FDec 0 0))
  | _ => Raise NotModelled
  end.
Definition xy_check (x y : pval) (s : settings) : option exn :=
  let chk log v := match log with
                   | Some true => match no_positive v with Ok true => Some ValueError | Ok false => None | Raise e => Some e end
                   | _ => None
                   end in
  match chk (g_xlog s) x with Some e => Some e | None => chk (g_ylog s) y end.
(** charts.py 76-85: [np_arr[1]] *)
Definition png_check (axes : list pval) : option exn :=
  if Nat.eqb (List.length axes) 2
  then if forallb (fun v => match plen v with Ok n => Nat.leb 2 n | Raise _ => false end) axes then None else Some IndexError
  else None.

Section Plot.
  Variable E : env.
  Variable known : list hid.
  (** what matplotlib raises for an image *)
  Variable draw : image -> option exn.

  (** [scan.a] (spec.py 697-703) of the scan stored as [name]; [a] is called [nm] *)
  Definition attr_get (nm : string) (a : attr) (name : str) : PM (ty a) := fun s =>
    let '(d, r) := get_attr E known (L nm) a name (ps_sdf s) in (mk_pst d (ps_plotter s), r).
  (** [scan.a = v] and changes of the object [scan.a] *)
  Definition attr_put (a : attr) (v : ty a) (name : str) : PM unit := fun s =>
    match dget name (scans (ps_sdf s)) with
    | None => (s, Raise KeyError)
    | Some sc => (mk_pst (set_scans (dset name (with_obj (upd a v (s_obj sc)) sc) (scans (ps_sdf s))) (ps_sdf s)) (ps_plotter s), Ok tt)
    end.
  (** the aborted message, if the scan has one (specplot.py 368, 386): no lazy attribute *)
  Definition aborted (name : str) : PM (option str) := fun s =>
    (s, Ok (match dget name (scans (ps_sdf s)) with Some sc => s_obj sc A_aborted | None => None end)).

  (** specplot.py 541-555 *)
  Definition line_data (name : str) : PM unit :=
    let* cl := attr_get "column_last" A_column_last name in
    put_signal cl >>>
    let* d := attr_get "data" A_data name in
    if negb (has cl d) then sraise NoDataToPlot else
    let* cf := attr_get "column_first" A_column_first name in
    put_axes [cf] >>>
    let* ls := attr_get "L" A_L name in
    put_all_data (fold_left (fun acc label => match dget label d with Some c => dset label (col_pval c) acc | None => acc end) ls []).

  (** specplot.py 567-578: the loop; the last value of [data] and the axis found *)
  Fixpoint hkl_axis (names : list str) (d : dict col) : res (option (str * list fl) * option (list fl)) :=
    match names with
    | [] => Ok (None, None)
    | a :: t =>
        match dget a d with
        | None => match t with [] => Ok (None, None) | _ => hkl_axis t d end
        | Some (Mca _) => Raise NotModelled
        | Some (Col vs) =>
            do b <- constant vs;
            if negb b then Ok (Some (a, vs), Some vs)
            else match t with [] => Ok (None, Some vs) | _ => hkl_axis t d end
        end
    end.
  Definition POINT : str := L "data point number".

  (** specplot.py 563-596 *)
  Definition hkl_data (name : str) : PM unit :=
    let* d := attr_get "data" A_data name in
    let* r := slift (hkl_axis (map L ["H"; "K"; "L"]%string) d) in
    (match fst r with Some (a, _) => put_axes [a] | None => sret tt end) >>>
    match snd r with
    | None => sraise NotPlottable
    | Some last =>
        let* axes := get_p p_axes in
        let* ax := (match axes with
                    | [] =>
                        let* h := slift (of_opt KeyError (dget (L "H") d)) in
                        let* n := slift (plen (col_pval h)) in
                        let vs := map (fun i => FDec (Z.of_nat i) 0) (seq 1 n) in
                        attr_put A_data (dset POINT (Col vs) d) name >>>
                        put_set (set_xtitle (POINT ++ L " (hkl all held constant)")) >>>
                        put_axes [POINT] >>>
                        sret (POINT, vs)
                    | _ => match fst r with
                           | Some av => sret av
                           | None => sret (L "L", last)
                           end
                    end) in
        attr_put A_column_first (fst ax) name >>>
        put_data (fst ax) (PList (nums (snd ax))) >>>
        let* cl := attr_get "column_last" A_column_last name in
        put_signal cl >>>
        let* d := attr_get "data" A_data name in
        let* y := slift (of_opt KeyError (dget cl d)) in
        put_data cl (col_pval y)
    end.

  (** specplot.py 759-772: the spectra; [shape] grows with each detector *)
  Fixpoint mesh_spectra (sh : list nat) (l : list (str * list (list num))) : PM unit :=
    match l with
    | [] => sret tt
    | (key, spectrum) :: t =>
        let* first := slift (index 0 spectrum) in
        let n := List.length first in
        let sh := sh ++ [n] in
        let* v := slift (to_hval (DRows spectrum)) in
        let mca := match v with HArr s vs => mk_array s vs | HTexts _ => mk_array [] [] end in
        let ds := L "_" ++ key ++ L "_" in
        put_data ds (PArr (reshape_data NAN mca sh)) >>>
        put_data (ds ++ L "channel_") (PList (map (fun i => NI (Z.of_nat i)) (seq 1 n))) >>>
        mesh_spectra sh t
    end.

  (** specplot.py 727-772: the columns of a mesh with enough points.  A negative number of intervals is
      not modelled, nor a label without column. *)
  Definition mesh_columns (label1 label2 : str) (n1 : Z) (cmd : str) (d : dict col) (name : str) : PM unit :=
    let* axis1 := slift (get_col label1 d) in
    let* axis2 := slift (get_col label2 d) in
    if (n1 + 1 <=? 0)%Z then sraise NotModelled else
    let n := Z.to_nat (n1 + 1) in
    let axis1 := firstn n axis1 in
    put_data label1 (PList (nums axis1)) >>>
    let axis2 := every n axis2 in
    put_data label2 (PList (nums axis2)) >>>
    let* ls := attr_get "L" A_L name in
    let* ls := slift (remove1 label1 ls) in
    attr_put A_L ls name >>>
    let* ls := slift (remove1 label2 ls) in
    attr_put A_L ls name >>>
    (if prefixb (L "hkl") cmd then
       let* label3 := slift (index 0 (List.filter (fun k => mem k ls) (map L ["H"; "K"; "L"]%string))) in
       let* axis3 := slift (get_col label3 d) in
       let* v := slift (index 0 axis3) in
       put_data label3 (PNum (NF v))
     else sret tt) >>>
    let data_shape := [List.length axis2; List.length axis1] in
    siter (fun label =>
             let* pd := get_p p_data in
             if has label pd then sret tt
             else let* v := slift (get_col label d) in
                  put_data label (PArr (reshape_data NAN (flat_array (nums v)) data_shape))) ls >>>
    let* cl := attr_get "column_last" A_column_last name in
    let* sg := slift (clean_name cl) in
    put_signal sg >>>
    put_axes [label1; label2] >>>
    match dget (L "_mca_") d with
    | None => sret tt
    | Some (Col _) => sraise AttributeError
    | Some (Mca m) => mesh_spectra data_shape (sorted_items m)
    end.

  (** specplot.py 692-772 *)
  Definition mesh_data (cmd name : str) : PM unit :=
    match skipn 1 (words cmd) with
    | [label1; _; _; intervals1; label2; _; _; intervals2; _] =>
        let* d := attr_get "data" A_data name in
        let* ls := attr_get "L" A_L name in
        let* label1 := slift (if has label1 d then Ok label1 else index 0 ls) in
        let* label2 := slift (if has label2 d then Ok label2 else index 1 ls) in
        let* n1 := slift (py_int intervals1) in
        let* n2 := slift (py_int intervals2) in
        let* axis1 := slift (get_col label1 d) in
        let* short := (if (len axis1 <? n1)%Z
                       then let* axis2 := slift (get_col label2 d) in slift (constant axis2)
                       else sret false) in
        if short then
          put_axes [label1] >>>
          let* cl := attr_get "column_last" A_column_last name in
          put_signal cl >>>
          put_data label1 (PList (nums axis1)) >>>
          let* y := slift (of_opt KeyError (dget cl d)) in
          put_data cl (col_pval y)
        else mesh_columns label1 label2 n1 cmd d name
    | _ => sraise ValueError
    end.

  (** specplot.py 489-514 *)
  Definition line_image : PM image :=
    let* p := get_p (fun p => p) in
    match p_signal p, p_axes p with
    | Some sg, [axis] =>
        match dget sg (p_data p), dget axis (p_data p) with
        | Some y, Some x => sret (XYPlot x y (p_set p))
        | _, _ => sraise NotModelled                    (* AssertionError *)
        end
    | _, _ => sraise NotModelled
    end.
  (** specplot.py 621-661; with neither one nor two axes nothing is done *)
  Definition mesh_image (raw : str) : PM (option image) :=
    let* p := get_p (fun p => p) in
    let* sg := slift (of_opt KeyError (p_signal p)) in
    match p_axes p with
    | [a; b] =>
        let* v := slift (of_opt KeyError (dget sg (p_data p))) in
        let* first := slift (index 0 (splitlines raw)) in
        put_set (set_subtitle (sg ++ L ",  " ++ first)) >>>
        put_set (set_xtitle a) >>>
        put_set (set_ytitle b) >>>
        let* x := slift (of_opt KeyError (dget a (p_data p))) in
        let* y := slift (of_opt KeyError (dget b (p_data p))) in
        let* s := get_p p_set in
        sret (Some (MeshPlot v [x; y] s))
    | [a] =>
        let* y := slift (of_opt KeyError (dget sg (p_data p))) in
        let* x := slift (of_opt KeyError (dget a (p_data p))) in
        sret (Some (XYPlot x y (p_set p)))
    | _ => sret None
    end.

  (** charts.py: the exception raised instead of writing the file *)
  Definition chart (i : image) : option exn :=
    match (match i with XYPlot x y s => xy_check x y s | MeshPlot _ axes _ => png_check axes end) with
    | Some e => Some e
    | None => draw i
    end.

  (** specplot.py 347-355: [dm] is the modification time of the data file or the exception of getmtime,
      [pm] that of the plot file if it exists *)
  Definition data_is_newer_than_plot (dm : res Z) (pm : option Z) : res bool :=
    do m <- dm; Ok (match pm with Some t => t | None => 0%Z end <? m)%Z.

  Inductive kind := KLine | KHkl | KMesh.
  Definition retrieve (k : kind) (cmd name : str) : PM unit :=
    match k with KLine => line_data name | KHkl => hkl_data name | KMesh => mesh_data cmd name end.
  Definition plottable (k : kind) (p : plotter) : res bool :=
    match k with KMesh => Ok (mesh_plottable p) | _ => line_plottable p end.
  Definition plot_options (k : kind) : PM unit := match k with KMesh => mesh_options | _ => line_options end.
  Definition make_image (k : kind) (raw : str) : PM (option image) :=
    let* i := (match k with KMesh => mesh_image raw | _ => let* i := line_image in sret (Some i) end) in
    match i with
    | None => sret None
    | Some i => match chart i with Some e => sraise e | None => sret (Some i) end
    end.

  (** specplot.py 383-390: the handling of KeyError *)
  Definition catch_key (name : str) (m : PM unit) : PM unit := fun s =>
    match m s with
    | (s', Raise KeyError) =>
        match aborted name s' with
        | (s', Ok (Some _)) => (s', Raise ScanAborted)
        | (s', _) => (s', Raise KeyError)
        end
    | r => r
    end.

  (** specplot.py 357-395: [sc] is the scan object (its number, command and raw text never change);
      the image that was written to the plot file, if one was *)
  Definition plot_scan (k : kind) (dm : res Z) (pm : option Z) (sc : scan) : PM (option image) :=
    let name := s_num sc in
    let* ab := aborted name in
    if match ab with Some t => seqb t ABORTED0 | None => false end then sraise ScanAborted else
    (fun s => put_set (fun g => set_texts (or_text (g_title g) (fileName (ps_sdf s)))
                                  (or_text (g_subtitle g) (L "#" ++ s_num sc ++ L ": " ++ s_cmd sc)) g) s) >>>
    let* date := attr_get "date" A_date name in
    put_set (fun g => set_time (or_text (g_time g) date) g) >>>
    catch_key name (retrieve k (s_cmd sc) name) >>>
    plot_options k >>>
    let* p := get_p (fun p => p) in
    let* b := slift (plottable k p) in
    if negb b then sret None else
    let* newer := slift (data_is_newer_than_plot dm pm) in
    if newer then make_image k (s_raw sc) else sret None.

  Definition kind_of (c : cls) : option kind :=
    match c with LineP => Some KLine | HklP => Some KHkl | MeshP => Some KMesh | _ => None end.
End Plot.
