(** /repo/spec2nexus/diffractometers.py: the reports of a diffractometer ([str], [print_brief], [print_all]) *)
From Coq Require Import String.
From Verif Require Import Py Utils GeomData Geom MillerData Handlers Reader.
Import ListNotations.
Local Open Scope list_scope.

(** What is printed, as pieces: characters, and values in the form that Python prints them in (the printed form of a
    float, a named tuple, an array and a time is left out). *)
Inductive piece := Pc (s : str) | Pn (f : fl) | Plat (l : lattice) | Pref (r : reflection) | Pmat (m : list fl) | Pdate (t : num).
Definition text := list piece.
Definition tx (s : string) : text := [Pc (L s)].

(** [f"{value}"] for a geometry parameter (the value of a parameter is a text, number or array) *)
Definition gval_text (v : gval) : text := match v with GStr s => [Pc s] | GNum f => [Pn f] | GMat m => [Pmat m] end.

(** ["Miller index" in q_term[1]] (200) *)
Fixpoint has_text (needle hay : str) : bool :=
  prefixb needle hay || match hay with [] => false | _ :: t => has_text needle t end.
(** diffractometers.py 191-201: [_Q_names]; the geometry is [None] (TypeError) if the catalog does not have it *)
Definition q_names (d : diffr) : res (list str) :=
  do g <- of_opt TypeError (cat_get catalog (d_full d));
  Ok (map (fun q => lower (fst q)) (List.filter (fun q => has_text (L "Miller index") (snd q))
       (match dget (g_name g) q_table with Some l => l | None => [] end))).
(** [str.upper], on ASCII *)
Definition upper_c (c : N) : N := if in_range (97, 122)%N c then (c - 32)%N else c.
Definition upper (s : str) : str := map upper_c s.

(** [gpars[key.upper()].value] (160, 166) *)
Definition gpar (d : diffr) (k : str) : res gval := of_opt KeyError (dget (upper k) (d_gpar d)).
(** the loop of 159-160 *)
Definition add_q (d : diffr) (info : dict text) (k : str) : res (dict text) :=
  do v <- gpar d k; Ok (dset k (gval_text v) info).
(** the loop of 164-166 *)
Definition add_angle (d : diffr) (info : dict text) (k : str) : dict text :=
  match dget (upper k) (d_gpar d) with Some v => dset k (gval_text v) info | None => info end.
(** text of [None] or a value *)
Definition opt_text {A} (f : A -> text) (o : option A) : text := match o with Some x => f x | None => tx "None" end.
Definition quoted (t : text) : text := tx "'" ++ t ++ tx "'".
Inductive level := Lstr | Lwh | Lpa.
(** diffractometers.py 143-182 *)
Definition info_dict (lv : level) (d : diffr) : res (dict text) :=
  let info := [(L "geometry", quoted [Pc (d_name d)]); (L "wavelength", opt_text (fun f => [Pn f]) (d_wavelength d));
               (L "mode", quoted (opt_text (fun m => [Pc m]) (d_mode d))); (L "sector", opt_text (fun z => [Pc (str_of_Z z)]) (d_sector d))] in
  do qs <- q_names d;
  do info <- foldM (add_q d) qs info;
  match lv with
  | Lstr => Ok info
  | _ =>
      let info := dset (L "lattice") (opt_text (fun l => [Plat l]) (d_lattice d)) info in
      let info := fold_left (add_angle d) (map L ["alpha"; "beta"; "azimuth"; "omega"]%string) info in
      match lv with
      | Lpa =>
          let info := dset (L "full_geometry_name") (quoted [Pc (d_full d)]) info in
          let info := match d_lattice d with Some l => dset (L "lattice") [Plat l] info | None => info end in
          let info := match d_UB d with Some m => dset (L "UB") [Pmat m] info | None => info end in
          let info := fold_left (fun i nr => dset (L "reflection " ++ str_of_nat (fst nr)) [Pref (snd nr)] i) (combine (seq 1 (List.length (d_refl d))) (d_refl d)) info in
          do m <- of_opt AttributeError (d_UB d);
          Ok (dset (L "UB") [Pmat m] info)
      | _ => Ok info
      end
  end.

(** [sep.join(...)] *)
Fixpoint joined (sep : string) (l : list text) : text :=
  match l with
  | [] => []
  | [t] => t
  | t :: l => t ++ tx sep ++ joined sep l
  end.
(** diffractometers.py 184-189 *)
Definition print_str (d : diffr) : res text :=
  do info <- info_dict Lstr d;
  Ok (tx "Diffractometer(" ++ joined ", " (map (fun kv => Pc (fst kv) :: tx "=" ++ snd kv) info) ++ tx ")").

(** diffractometers.py 203-217: the first positioners of the scan, as many as the geometry has motors *)
Definition positioners_dict (d : diffr) (p : dict fl) : res (dict text) :=
  do g <- of_opt TypeError (cat_get catalog (d_full d));
  Ok (map (fun kv => (fst kv, [Pn (snd kv)])) (firstn (g_numgeo g) p)).

(** [_compose_row_] (385-392) *)
Definition compose_row (info : dict text) (labels : list string) : text :=
  joined "  " (flat_map (fun k => match dget (L k) info with Some v => [Pc (L k) :: tx "=" ++ v] | None => [] end) labels).
(** diffractometers.py 364-400: the lines of the report; [p] is the dictionary of positioners of the scan.
    [strip] of the quotes around the name is taken as not quoting it (no name of the catalog has a quote). *)
Definition print_brief (d : diffr) (p : dict fl) : res (list text) :=
  do info <- info_dict Lwh d;
  do qs <- q_names d;
  do qv <- mapM (fun k => of_opt KeyError (dget k info)) qs;
  do pos <- positioners_dict d p;
  Ok ([[Pc (d_name d)]] ++
      (match qs with [] => [] | _ => [joined " " (map (fun k => [Pc k]) qs) ++ tx " = " ++ joined "  " qv] end) ++
      [compose_row info ["alpha"; "beta"; "azimuth"]%string; compose_row info ["omega"; "wavelength"]%string] ++
      map (fun kv => Pc (fst kv) :: tx " = " ++ snd kv) pos).

(** diffractometers.py 341-362.  [f"{k:^{width}}"] centers the label: the larger half of the blanks is on the right.
    [sc] is a scan that has been interpreted; [datetime.fromtimestamp] is taken not to fail. *)
Definition centered (width : nat) (k : str) : str :=
  let n := width - List.length k in
  List.repeat 32%N (Nat.div2 n) ++ k ++ List.repeat 32%N (n - Nat.div2 n).
Definition report_dict (d : diffr) (sc : scan) : res (dict text) :=
  do f <- of_opt AttributeError (s_obj sc A_specFile);
  let s := [(L "SPEC file", [Pc f]); (L "scan #", [Pc (s_num sc)]); (L "SPEC scanCmd", [Pc (s_cmd sc)])] in
  let s := match s_obj sc A_epoch with Some e => dset (L "date") [Pdate e] s | None => s end in
  do info <- info_dict Lpa d;
  do p <- of_opt AttributeError (s_obj sc A_positioner);
  do pos <- positioners_dict d p;
  Ok (dupdate pos (dupdate info s)).
Definition print_all (d : diffr) (sc : scan) : res (list text) :=
  do s <- report_dict d sc;
  let width := fold_left Nat.max (map (fun kv => List.length (fst kv)) s) 0 in
  Ok (map (fun kv => Pc (centered width (fst kv)) :: tx " = " ++ snd kv) s).
