(** /repo/spec2nexus/writer.py and the [writer] methods of /repo/spec2nexus/plugins/*.py: what is
    written to the NeXus file. *)
From Coq Require Import String.
From Verif Require Import Py Time Utils Keys Scanf GeomData Geom Handlers Reader H5.
Import ListNotations.
Local Open Scope list_scope.

(* ------------------------------------------------------------------ *)
(** * State *)

(** what a writer function can reach: the scan, its header and the open file *)
Record wst := mk_ws { w_scan : obj; w_hdr : obj; w_h5 : h5 }.
Definition WM := St wst.
(** h5writers get the header (writer.py 126) or the scan (129) *)
Inductive who := Hdr | Scn.
Definition obj_of (o : who) (w : wst) : obj := match o with Hdr => w_hdr w | Scn => w_scan w end.

(** [x.a] and [hasattr(x, "a")] after interpretation (spec.py 697-703 has no effect any more) *)
Definition rd (o : who) (a : attr) : WM (ty a) := fun w =>
  (w, match obj_of o w a with Some v => Ok v | None => Raise AttributeError end).
Definition hasW (o : who) (a : attr) : WM bool := fun w =>
  (w, Ok (match obj_of o w a with Some _ => true | None => false end)).
(** [x.a = v] *)
Definition wr (o : who) (a : attr) (v : ty a) : WM unit := fun w =>
  (match o with
   | Hdr => mk_ws (w_scan w) (upd a v (w_hdr w)) (w_h5 w)
   | Scn => mk_ws (upd a v (w_scan w)) (w_hdr w) (w_h5 w)
   end, Ok tt).
(** an operation on the file *)
Definition hdf {A} (m : HM A) : WM A := fun w =>
  let '(f, r) := m (w_h5 w) in (mk_ws (w_scan w) (w_hdr w) f, r).
Definition unit_of {S A} (m : St S A) : St S unit := m >>> sret tt.

Definition t_ (s : string) : aval := AText (L s).
Definition NOTE : str := L "NXnote".              (* writer.py 23: CONTAINER_CLASS *)

(** write_dataset, result not used *)
Definition wds (g : handle) (name : str) (d : pydata) (l : attrs_t) : WM unit :=
  hdf (unit_of (write_dataset g name d l)).
(** writer.py 394-399 *)
Definition write_ds (g : handle) (label : str) (d : pydata) (l : attrs_t) : WM unit :=
  let* c := slift (clean_name label) in
  wds g c d ((L "spec_name", AText label) :: l).
(** writer.py 163-166 *)
Definition save_dict (g : handle) (d : list (str * pydata)) : WM unit :=
  siter (fun kv => write_ds g (fst kv) (snd kv) []) d.

Definition nums (l : list fl) : list num := map NF l.

(* ------------------------------------------------------------------ *)
(** * writer.py: scan data *)

(** [scan.data[column]] as data to be written; a dict cannot be stored *)
Definition col_data (c : col) : pydata := match c with Col vs => DNums (nums vs) | Mca _ => DOther end.

(** [a + n * (b + n * c)] for a channel number n >= 1, on exact decimals *)
Definition fl_add (a b : fl) : fl :=
  match a, b with
  | FNaN, _ | _, FNaN => FNaN
  | FInf x, FInf y => if Bool.eqb x y then FInf x else FNaN
  | FInf x, _ | _, FInf x => FInf x
  | FDec m e, FDec m' e' => let k := Z.min e e' in FDec (m * p10 (e - k) + m' * p10 (e' - k))%Z k
  end.
Definition fl_scale (n : Z) (a : fl) : fl :=
  match a with FDec m e => FDec (n * m)%Z e | _ => a end.
Definition num_add (a b : num) : num :=
  match a, b with
  | NI x, NI y => NI (x + y)
  | _, _ => NF (fl_add (fl_of_num a) (fl_of_num b))
  end.
Definition num_scale (n : Z) (a : num) : num :=
  match a with NI x => NI (n * x) | NF f => NF (fl_scale n f) end.
Definition scaled (a b c : num) (n : Z) : num := num_add a (num_scale n (num_add b (num_scale n c))).
Definition num_eqb (a b : num) : bool := fl_eqb (fl_of_num a) (fl_of_num b).

(** writer.py 241-251: the calibration of all spectra *)
Definition calibration (mca : option (dict mcaval)) : num * num * num :=
  let d := match mca with
           | Some m => match dget (L "CALIB") m with Some (MCalib d) => d | _ => [] end
           | None => []
           end in
  let get k := match dget (L k) d with Some v => v | None => NI 0 end in
  let '(a, b, c) := (get "a", get "b", get "c")%string in
  if num_eqb a b && num_eqb b c && num_eqb a (NI 0) then (NI 1, NI 0, NI 0) else (a, b, c).

(** [sorted(d.items())] of a dictionary: the keys are distinct *)
Definition sorted_items {V} (d : dict V) : list (str * V) := isort (fun a b => str_leb (fst a) (fst b)) d.

(** writer.py 254-279: one detector; [spectrum[0]] *)
Definition mca_oneD (nxdata : handle) (axis : str) (cal : num * num * num)
    (ks : str * list (list num)) : WM unit :=
  let '(a, b, c) := cal in
  let ds := L "_" ++ fst ks ++ L "_" in
  write_ds nxdata ds (DRows (snd ks))
    [(L "axes", AText (axis ++ L ":" ++ ds ++ L "channel_")); (L "units", t_ "counts")] >>>
  let* first := slift (index 0 (snd ks)) in
  let channels := map Z.of_nat (seq 1 (List.length first)) in
  write_ds nxdata (ds ++ L "channel_") (DNums (map NI channels)) [(L "units", t_ "channel")] >>>
  write_ds nxdata (ds ++ L "channel_scaled_x") (DNums (map (scaled a b c) channels)) [(L "units", t_ "")].
(** writer.py 238-279; [scan.data["_mca_"]] that is a column has no [items] *)
Definition mca_spectra (nxdata : handle) (axis : str) : WM unit :=
  let* d := rd Scn A_data in
  match dget (L "_mca_") d with
  | None => sret tt
  | Some (Col _) => sraise AttributeError
  | Some (Mca m) => fun w =>
      siter (mca_oneD nxdata axis (calibration (w_scan w A_MCA))) (sorted_items m) w
  end.

(** writer.py 228-236 *)
Definition oneD (nxdata : handle) : WM (str * str) :=
  let* ls := rd Scn A_L in
  siter (fun c => let* d := rd Scn A_data in
                  let* v := slift (of_opt KeyError (dget c d)) in
                  write_ds nxdata c (col_data v) []) ls >>>
  let* cl := rd Scn A_column_last in
  let* signal := slift (clean_name cl) in
  let* cf := rd Scn A_column_first in
  let* axis := slift (clean_name cf) in
  mca_spectra nxdata axis >>>
  sret (signal, axis).

(** [l.remove(x)] *)
Fixpoint remove1 (x : str) (l : list str) : res (list str) :=
  match l with
  | [] => Raise ValueError
  | y :: t => if seqb x y then Ok t else do r <- remove1 x t; Ok (y :: r)
  end.

(** [scan.data.get(label)] as a list of numbers.  A label of the spectra (a dict) is not modelled. *)
Definition get_col (label : str) (d : dict col) : res (list fl) :=
  match dget label d with
  | Some (Col vs) => Ok vs
  | Some (Mca _) => Raise NotModelled
  | None => Raise TypeError
  end.

(** [[axis[row] for row in range(len(axis)) if row % n == 0]] *)
Definition every {A} (n : nat) (l : list A) : list A :=
  map snd (List.filter (fun ix => Nat.eqb (Nat.modulo (fst ix) n) 0) (combine (seq 0 (List.length l)) l)).

(** the argument of utils.reshape_data *)
Definition flat_array (l : list num) : array num := mk_array [List.length l] l.
Definition NAN : num := NF FNaN.

(** writer.py 370-390: the spectra of one detector; [shape] is the list that grows with each of them.
    [numpy.array(spectrum)] refuses rows of different lengths. *)
Fixpoint mca_mesh (nxdata : handle) (axes : str) (shape : list nat)
    (l : list (str * list (list num))) : WM unit :=
  match l with
  | [] => sret tt
  | (key, spectrum) :: t =>
      let* first := slift (index 0 spectrum) in
      let n := List.length first in
      let shape := shape ++ [n] in
      let* v := slift (to_hval (DRows spectrum)) in
      let mca := match v with HArr sh vs => mk_array sh vs | HTexts _ => mk_array [] [] end in
      let ds := L "_" ++ key ++ L "_" in
      write_ds nxdata ds (DArr (reshape_data NAN mca shape))
        [(L "axes", AText (axes ++ L ":" ++ ds ++ L "channel_")); (L "units", t_ "counts")] >>>
      write_ds nxdata (ds ++ L "channel_") (DRange n) [(L "units", t_ "channel")] >>>
      mca_mesh nxdata axes shape t
  end.

(** writer.py 344-346 *)
Definition label3_of (label1 label2 : str) : str :=
  match List.filter (fun k => negb (seqb k label1 || seqb k label2)) (map L ["H"; "K"; "L"]%string) with
  | k :: _ => k
  | [] => []
  end.

(** writer.py 327-365: the columns of a mesh with enough points.  [scan.L] itself loses the labels of
    the axes.  A negative number of intervals is not modelled. *)
Definition mesh_grid (nxdata : handle) (cmd : str) (label1 label2 : str) (intervals1 : Z) :
    WM (str * str * list nat) :=
  let* d := rd Scn A_data in
  let* axis1 := slift (get_col label1 d) in
  let* axis2 := slift (get_col label2 d) in
  if (intervals1 + 1 <=? 0)%Z then sraise NotModelled else
  let n := Z.to_nat (intervals1 + 1) in
  let axis1 := firstn n axis1 in
  let axis2 := every n axis2 in
  let* ls := rd Scn A_L in
  let* ls := slift (remove1 label1 ls) in
  wr Scn A_L ls >>>
  let* ls := slift (remove1 label2 ls) in
  wr Scn A_L ls >>>
  (if prefixb (L "hkl") cmd then
     let label3 := label3_of label1 label2 in
     let* axis3 := slift (get_col label3 d) in
     let* v := slift (index 0 axis3) in
     write_ds nxdata label3 (DNum (NF v)) []
   else sret tt) >>>
  write_ds nxdata label1 (DNums (nums axis1)) [] >>>
  write_ds nxdata label2 (DNums (nums axis2)) [] >>>
  let data_shape := [List.length axis1; List.length axis2] in
  siter (fun label =>
           let* b := hdf (hin nxdata label) in
           if b then sret tt
           else let* v := slift (get_col label d) in
                write_ds nxdata label (DArr (reshape_data NAN (flat_array (nums v)) data_shape)) []) ls >>>
  let* cl := rd Scn A_column_last in
  let* signal := slift (clean_name cl) in
  sret (signal, label1 ++ L ":" ++ label2, data_shape).

(** writer.py 281-392.  In the fallback [data_shape] is never assigned: NameError if there are spectra. *)
Definition mesh (nxdata : handle) (cmd : str) : WM (str * str) :=
  match skipn 1 (words cmd) with
  | [label1; _; _; intervals1; label2; _; _; intervals2; _] =>
      let* d := rd Scn A_data in
      let* ls := rd Scn A_L in
      let* label1 := slift (if has label1 d then Ok label1 else index 0 ls) in
      let* label2 := slift (if has label2 d then Ok label2 else index 1 ls) in
      let* n1 := slift (py_int intervals1) in
      let* n2 := slift (py_int intervals2) in
      let* axis1 := slift (get_col label1 d) in
      let* r := (if (len axis1 <? n1)%Z then
                   let* sa := oneD nxdata in sret (fst sa, snd sa, None)
                 else
                   let* r := mesh_grid nxdata cmd label1 label2 n1 in
                   let '(s, a, sh) := r in sret (s, a, Some sh)) in
      let '(signal, axes, shape) := r in
      (match dget (L "_mca_") d with
       | None => sret tt
       | Some (Col _) => sraise AttributeError
       | Some (Mca m) => match shape with
                         | None => match m with [] => sret tt | _ => sraise NameError end
                         | Some sh => mca_mesh nxdata axes sh (sorted_items m)
                         end
       end) >>>
      sret (signal, axes)
  | _ => sraise ValueError
  end.

(** writer.py 178-187 *)
Definition hkl_axes (cmd : str) : res str :=
  match firstn 6 (skipn 1 (words cmd)) with
  | [h0; hN; k0; kN; l0; lN] =>
      Ok (join (L ":") ((if seqb h0 hN then [] else [L "H"]) ++ (if seqb k0 kN then [] else [L "K"])
                        ++ (if seqb l0 lN then [] else [L "L"])))
  | _ => Raise ValueError
  end.

(** writer.py 168-226 *)
Definition save_data (nxdata : handle) (cmd : str) : WM unit :=
  let* scan_type := slift (index 0 (words cmd)) in
  let* sa := (if mem scan_type (map L ["mesh"; "hklmesh"]%string) then mesh nxdata cmd
              else if mem scan_type (map L ["hscan"; "kscan"; "lscan"; "hklscan"]%string) then
                let* sa := oneD nxdata in
                let* axes := slift (hkl_axes cmd) in
                sret (fst sa, axes)
              else oneD nxdata) in
  let '(signal, axes) := sa in
  let zero := ANums [0%Z] in
  match find_c 58%N axes with
  | Some _ =>
      let axes := map ascii (split_c 58%N axes) in
      hdf (addAttributes nxdata [(L "signal", AText signal); (L "axes", ATexts axes)]) >>>
      siter (fun a => hdf (addAttributes nxdata [(a ++ L "_indices", zero)])) axes
  | None =>
      hdf (addAttributes nxdata [(L "signal", AText signal); (L "axes", AText axes)]) >>>
      hdf (addAttributes nxdata [(axes ++ L "_indices", zero)])
  end.

(* ------------------------------------------------------------------ *)
(** * The writer functions of the plugins; [e] is the NXentry group *)

Definition enum {A} (l : list A) : list (nat * A) := combine (seq 0 (List.length l)) l.
Definition desc (s : string) : str * aval := (L "description", t_ s).

(** spec_common.py 156-158 *)
Definition w_D (e : handle) (o : who) : WM unit :=
  let* d := rd o A_date in
  let* t := slift (iso8601 d) in
  wds e (L "date") (DText t) [].
(** spec_common.py 191-195 *)
Definition w_C (e : handle) (o : who) : WM unit :=
  let* c := rd o A_comments in
  wds e (L "comments") (DText (join [LF] c)) [].

(** spec_common.py 364-392 *)
Definition lat_fields2 : list (str * str) :=
  [(L "unit_cell_a", L "angstrom"); (L "unit_cell_b", L "angstrom"); (L "unit_cell_gamma", L "degrees")].
Definition w_lattice (e : handle) (l : lattice) : WM unit :=
  let* s := hdf (openGroup e (L "sample") (L "NXsample") []) in
  match l with
  | Lat3 v =>
      wds s (L "unit_cell_abc") (DNums (nums (firstn 3 v))) [(L "units", t_ "angstrom")] >>>
      wds s (L "unit_cell_alphabetagamma") (DNums (nums (skipn 3 v))) [(L "units", t_ "degrees")] >>>
      wds s (L "unit_cell") (DNums (nums v)) []
  | Lat2 v =>
      siter (fun kv => wds s (fst (fst kv)) (DNum (NF (snd kv))) [(L "units", AText (snd (fst kv)))])
            (combine lat_fields2 v)
  end.
(** spec_common.py 412-442: one orientation reflection *)
Definition w_refl (s : handle) (ir : nat * reflection) : WM unit :=
  let nm := L "or" ++ str_of_nat (fst ir) in
  let* n := hdf (openGroup s nm NOTE [(L "description", AText (nm ++ L ": orientation reflection"))]) in
  let '(names, vs, angles) := match snd ir with
                              | Ref2 v a => (map L ["h"; "k"; "wavelength"]%string, v, a)
                              | Ref3 v a => (map L ["h"; "k"; "l"; "wavelength"]%string, v, a)
                              end in
  siter (fun kv => wds n (fst kv) (DNum (NF (snd kv)))
                     (if seqb (fst kv) (L "wavelength") then [(L "units", t_ "Angstrom")] else []))
        (combine names vs) >>>
  siter (fun kv => wds n (fst kv) (DNum (NF (snd kv)))
                     [(L "units", t_ "degrees"); desc "diffractometer angle"]) angles.
Definition gval_data (v : gval) : pydata :=
  match v with
  | GStr s => DText s
  | GNum f => DNum (NF f)
  | GMat m => DArr (mk_array [3%nat; 3%nat] (nums m))
  end.
(** spec_common.py 354-475 (the descriptions of the parameters are left out) *)
Definition w_diffr (e : handle) (d : diffr) : WM unit :=
  match d_gpar d with
  | [] => sret tt
  | gpar =>
      let sample := hdf (openGroup e (L "sample") (L "NXsample") []) in
      let* ins := hdf (openGroup e (L "instrument") (L "NXinstrument") []) in
      wds ins (L "name") (DText (d_full d)) [] >>>
      (match d_lattice d with Some l => w_lattice e l | None => sret tt end) >>>
      (match dget (L "ub_matrix") gpar with
       | Some ub => let* s := sample in wds s (L "ub_matrix") (gval_data ub) []
       | None => sret tt
       end) >>>
      (match d_mode d with
       | Some m => let* s := sample in wds s (L "diffractometer_mode") (DText m) []
       | None => sret tt
       end) >>>
      (match d_sector d with
       | Some z => let* s := sample in wds s (L "diffractometer_sector") (DNum (NI z)) []
       | None => sret tt
       end) >>>
      (match d_refl d with
       | [] => sret tt
       | rs => let* s := sample in siter (w_refl s) (enum rs)
       end) >>>
      (match d_wavelength d with
       | Some wl =>
           let* m := hdf (openGroup ins (L "monochromator") (L "NXmonochromator") []) in
           let* ds := hdf (write_dataset m (L "wavelength") (DNum (NF wl)) [(L "units", t_ "angstrom")]) in
           let* s := sample in
           let* b := hdf (openGroup s (L "beam") (L "NXbeam") []) in
           hdf (makeLink s ds (h_name b ++ L "/incident_wavelength"))
       | None => sret tt
       end) >>>
      let* n := hdf (openGroup ins (L "geometry_parameters") NOTE
                       [desc "SPEC geometry arrays, interpreted"]) in
      siter (fun kv => wds n (fst kv) (gval_data (snd kv)) []) gpar
  end.
(** spec_common.py 343-475 *)
Definition w_G (e : handle) (o : who) : WM unit :=
  let* g := hdf (makeGroup e (L "G") NOTE
                   [desc "SPEC geometry arrays, meanings defined by SPEC diffractometer support"]) in
  let* G := rd o A_G in
  let* vs := slift (mapM (fun kv => do v <- floats (snd kv); Ok (fst kv, DNums (nums v))) G) in
  save_dict g vs >>>
  let* d := rd o A_diffractometer in
  w_diffr e d.

(** spec_common.py 532-549, 584-600, 787-805: the group of a cross reference *)
Definition xref_attrs (s1 s2 : string) : attrs_t := [desc s1; (L "comment", t_ s2)].
Definition xref_counters : attrs_t :=
  xref_attrs "cross-reference SPEC counter mnemonics and names"
             "keys are SPEC counter mnemonics, values are SPEC counter names".
Definition ensureW (o : who) (a : attr) (init : ty a) : WM unit :=
  let* b := hasW o a in if b then sret tt else wr o a init.
Definition w_counters (e : handle) (x : dict str) : WM unit :=
  let* g := hdf (makeGroup e (L "counter_cross_reference") NOTE xref_counters) in
  siter (fun kv => wds g (fst kv) (DText (snd kv)) []) (sorted_items x).
Definition w_J (e : handle) (o : who) : WM unit :=
  ensureW o A_counter_xref [] >>>
  let* x := rd o A_counter_xref in
  match x with [] => sret tt | _ => w_counters e x end.
Definition w_j (e : handle) (o : who) : WM unit :=
  ensureW o A_counter_xref [] >>>
  let* x := rd o A_counter_xref in
  w_counters e x.
(** spec_common.py 787-805 *)
Definition w_o (e : handle) (o : who) : WM unit :=
  ensureW o A_positioner_xref [] >>>
  let* x := rd o A_positioner_xref in
  match x with
  | [] => sret tt
  | _ =>
      let* g := hdf (makeGroup e (L "positioner_cross_reference") NOTE
                       (xref_attrs "cross-reference SPEC positioner mnemonics and names"
                          "keys are SPEC positioner mnemonics, values are SPEC positioner names")) in
      siter (fun kv => let* c := slift (clean_name (snd kv)) in
                       wds g (fst kv) (DText (snd kv))
                         [(L "mne", AText (fst kv)); (L "field_name", AText c)]) (sorted_items x)
  end.

(** spec_common.py 680-686, 1003-1009 *)
Definition w_M (e : handle) (o : who) : WM unit :=
  let ds := "SPEC scan with constant monitor count"%string in
  wds e (L "counting_basis") (DText (L ds)) [] >>>
  let* m := rd o A_M in
  let* f := slift (py_float m) in
  wds e (L "M") (DNum (NF f)) [(L "units", t_ "counts"); desc ds].
Definition w_T (e : handle) (o : who) : WM unit :=
  let ds := "SPEC scan with constant counting time"%string in
  wds e (L "counting_basis") (DText (L ds)) [] >>>
  let* m := rd o A_T in
  let* f := slift (py_float m) in
  wds e (L "T") (DNum (NF f)) [(L "units", t_ "s"); desc ds].

(** spec_common.py 883-895: one positioner; [scan.header]: a header has no header *)
Definition w_positioner (g : handle) (iv : nat * (str * fl)) : WM unit :=
  let '(i, (spec_name, value)) := iv in
  let* field_name := slift (clean_name spec_name) in
  let* pg := hdf (openGroup g field_name (L "NXpositioner") []) in
  let* b := hasW Hdr A_positioner_xref in
  let* mne := (if b then let* x := rd Hdr A_positioner_xref in
                         let* m := slift (index (Z.of_nat i) (keys x)) in
                         sret [(L "spec_mne", AText m)]
               else sret []) in
  let attrs := (L "spec_name", AText spec_name) :: mne in
  wds pg (L "name") (DText field_name) attrs >>>
  wds pg (L "value") (DNum (NF value)) attrs.
(** spec_common.py 876-897 *)
Definition w_P (e : handle) (o : who) : WM unit :=
  let* g := hdf (makeGroup e (L "positioners") NOTE [desc "SPEC positioners (#P & #O lines)"]) in
  let* p := rd o A_positioner in
  (match o with
   | Scn => siter (w_positioner g) (enum p)
   | Hdr => sraise NotModelled                    (* #P in a header block, see Handlers.process_P *)
   end) >>>
  let* ins := hdf (openGroup e (L "instrument") (L "NXinstrument") []) in
  hdf (makeLink e g (h_name ins ++ L "/positioners")).

(** spec_common.py 923-926; the initial value of Q is the empty text *)
Definition w_Q (e : handle) (o : who) : WM unit :=
  let* q := rd o A_Q in
  wds e (L "Q") (match q with Some l => DNums (nums l) | None => DText [] end) [desc "hkl at start of scan"].

(** spec_common.py 958-972, 1041-1055 *)
Definition w_user (e : handle) (o : who) (name : string) (ds : string) (line : string) (l : list str) : WM unit :=
  let* g := hdf (openGroup e (L name) (L "NXnote") [desc ds]) in
  let tag := match o with Hdr => L "header" | Scn => L "item" end in
  siter (fun it => wds g (tag ++ L "_" ++ str_of_nat (fst it + 1)) (DText (snd it))
                     [(L "description", AText (L line ++ str_of_nat (fst it + 1)))]) (enum l).
Definition w_R (e : handle) (o : who) : WM unit :=
  let* l := rd o A_R in
  w_user e o "UserResults" "SPEC control line ""#R: Reserved for user results""" "#R line " l.
Definition w_U (e : handle) (o : who) : WM unit :=
  let* l := rd o A_U in
  w_user e o "UserReserved" "SPEC control line ""#U: Reserved for user""" "#U line " l.

(** spec_common.py 1109-1126 *)
Definition w_X (e : handle) (o : who) : WM unit :=
  let* b := hasW o A_TEMP_SP in
  (if b then let* v := rd o A_TEMP_SP in wds e (L "TEMP_SP") (DNum (NF v)) [desc "temperature set point"]
   else sret tt) >>>
  let* b := hasW o A_DEGC_SP in
  if b then let* v := rd o A_DEGC_SP in
            wds e (L "DEGC_SP") (DNum (NF v)) [(L "units", t_ "C"); desc "temperature set point (C)"]
  else sret tt.

(** spec_common.py 1314, 1368, 1430 *)
Definition mca_group (e : handle) : WM handle := hdf (openGroup e (L "MCA") NOTE [desc "MCA metadata"]).
(** spec_common.py 1310-1322 *)
Definition w_CALIB (e : handle) (o : who) : WM unit :=
  let* b := hasW o A_MCA in
  if b then
    let* m := rd o A_MCA in
    match dget (L "CALIB") m with
    | Some (MCalib d) =>
        let* g := mca_group e in
        siter (fun k => match dget k d with
                        | Some v => wds g (L "calib_" ++ k) (DNum v) []
                        | None => sret tt
                        end) (map L ["a"; "b"; "c"]%string)
    | _ => sret tt
    end
  else sret tt.
Definition w_mca_nums (g : handle) (m : dict mcaval) (l : attrs_t) (ks : list string) : WM unit :=
  siter (fun k => match dget k m with
                  | Some (MNum v) => wds g k (DNum v) l
                  | _ => sret tt
                  end) (map L ks).
(** spec_common.py 1378-1383, 1442-1447 *)
Definition link_mca (e g : handle) : WM handle :=
  let* ins := hdf (openGroup e (L "instrument") (L "NXinstrument") []) in
  let* b := hdf (hin ins (L "MCA")) in
  (if b then sret tt else hdf (makeLink e g (h_name ins ++ L "/MCA"))) >>>
  sret ins.
(** spec_common.py 1365-1386 *)
Definition w_CHANN (e : handle) (o : who) : WM unit :=
  let* b := hasW o A_MCA in
  if b then
    let* g := mca_group e in
    let* m := rd o A_MCA in
    w_mca_nums g m [] ["number_saved"; "first_saved"; "last_saved"; "reduction_coef"]%string >>>
    let* ins := link_mca e g in
    let* t := hdf (hget ins (L "MCA")) in
    hdf (set_attr (h_id t) (L "target") (AText (h_name t)))
  else sret tt.
(** spec_common.py 1427-1447 *)
Definition w_CTIME (e : handle) (o : who) : WM unit :=
  let* b := hasW o A_MCA in
  if b then
    let* g := mca_group e in
    let* m := rd o A_MCA in
    w_mca_nums g m [(L "units", t_ "s")] ["preset_time"; "elapsed_live_time"; "elapsed_real_time"]%string >>>
    unit_of (link_mca e g)
  else sret tt.

(** XPCS.py 33-40, 58-65, 83-90 *)
Definition w_V_ (e : handle) (name ds : string) (d : dict str) : WM unit :=
  let* g := hdf (makeGroup e (L name) NOTE [desc ds]) in
  save_dict g (map (fun kv => (fst kv, DTexts (words (snd kv)))) d).
Definition w_VA (e : handle) (o : who) : WM unit :=
  let* d := rd o A_VA in w_V_ e "VA" "XPCS VA parameters" d.
Definition w_VD (e : handle) (o : who) : WM unit :=
  let* d := rd o A_VD in w_V_ e "VD" "XPCS VD parameters" d.
Definition w_VE (e : handle) (o : who) : WM unit :=
  let* d := rd o A_VE in w_V_ e "VE" "XPCS VE parameters" d.

(** apstools_specwriter.py 50-58 *)
Definition w_MD (e : handle) (o : who) : WM unit :=
  let* b := hasW o A_MD in
  if b then
    let* d := rd o A_MD in
    match d with
    | [] => sret tt
    | _ => let* g := hdf (makeGroup e (L "bluesky_metadata") (L "NXcollection")
                            [desc "Bluesky metadata (as written by apstools.SpecWriterCallback)"]) in
           save_dict g (map (fun kv => (fst kv, DText (snd kv))) d)
    end
  else sret tt.

(** fallback.py 28-41: the first free name; as many names as there are members plus one are enough *)
Definition free_unrec (e : handle) : HM str := fun f =>
  let ms := match nth_error f (h_id e) with Some (Group ms _) => ms | _ => [] end in
  let nm i := L "unrecognized_" ++ str_of_nat i in
  (f, match List.find (fun i => negb (has (nm i) ms)) (seq 1 (S (List.length ms))) with
      | Some i => Ok (nm i)
      | None => Raise NotModelled
      end).
Definition w_unrec (e : handle) (o : who) : WM unit :=
  let* nm := hdf (free_unrec e) in
  let* g := hdf (makeGroup e nm (L "NXnote")
                   [desc "SPEC data file control lines not otherwise recognized"]) in
  let* u := rd o A_unrec in
  save_dict g (map (fun it => (L "u" ++ str_of_nat (fst it), DText (snd it))) (enum u)).

(** unicat.py 126-139 *)
Definition md_data (v : mdval) : pydata := match v with MdF f => DNum (NF f) | MdS s => DText s end.
Definition w_V (e : handle) (o : who) : WM unit :=
  let* b := hasW o A_metadata in
  if b then
    let* d := rd o A_metadata in
    match d with
    | [] => sret tt
    | _ => let* g := hdf (makeGroup e (L "metadata") NOTE
                            [desc "SPEC metadata (UNICAT-style #H & #V lines)"]) in
           save_dict g (map (fun kv => (fst kv, md_data (snd kv))) d) >>>
           let* ins := hdf (openGroup e (L "instrument") (L "NXinstrument") []) in
           hdf (makeLink e g (h_name ins ++ L "/metadata"))
    end
  else sret tt.

(** spec_common.py 1641-1645 *)
Definition w_data (e : handle) (cmd : str) : WM unit :=
  let* g := hdf (makeGroup e (L "data") (L "NXdata") [desc "SPEC scan data"]) in
  save_data g cmd.

(* ------------------------------------------------------------------ *)
(** ** uxml.py *)

(** uxml.py 65-66: [self.unique_id] and [self.target_id] *)
Record uids := mk_uids { u_unique : dict handle; u_target : dict (handle * str) }.
Definition ux_attrs (l : list (str * str)) : attrs_t := map (fun kv => (fst kv, AText (snd kv))) l.
(** uxml.py 162-163, 180-181 *)
Definition ux_unique (uid : option str) (o : handle) (d : uids) : uids :=
  match uid with Some i => mk_uids (dset i o (u_unique d)) (u_target d) | None => d end.
(** uxml.py 68, 153-158: int(None) and float(None) are TypeErrors, str(None) is "None" *)
Definition ux_value (typ text : option str) : res pydata :=
  let t := match typ with Some t => t | None => L "str" end in
  if seqb t (L "int") then do x <- of_opt TypeError text; do z <- py_int x; Ok (DNum (NI z))
  else if seqb t (L "float") then do x <- of_opt TypeError text; do f <- py_float x; Ok (DNum (NF f))
  else if seqb t (L "str") then Ok (DText (match text with Some x => x | None => L "None" end))
  else Raise UXMLError.
(** uxml.py 127-131, 145-194: one node; the tag of a comment is no key of [selector] *)
Fixpoint ux_item (g : handle) (x : xnode) (d : uids) {struct x} : HM uids :=
  match x with
  | XComment => sraise KeyError
  | XData n typ uid l text =>
      let* v := slift (ux_value typ text) in
      let* ds := makeDataset g n v (ux_attrs l) in
      sret (ux_unique uid ds d)
  | XGroup n cls uid l body =>
      let* o := makeGroup g n cls (ux_attrs l) in
      (fix items (b : list xnode) (d : uids) : HM uids :=
         match b with
         | [] => sret d
         | y :: b => let* d := ux_item o y d in items b d
         end) body (ux_unique uid o d)
  | XLink n t => sret (mk_uids (u_unique d) (dset t (g, n) (u_target d)))
  end.
(** uxml.py 127-131 *)
Fixpoint ux_items (g : handle) (b : list xnode) (d : uids) : HM uids :=
  match b with
  | [] => sret d
  | y :: b => let* d := ux_item g y d in ux_items g b d
  end.
(** uxml.py 133-139 *)
Definition ux_links (d : uids) : HM unit :=
  siter (fun kt => match dget (fst kt) (u_unique d) with
                   | Some source => makeLink (fst (snd kt)) source (snd (snd kt))
                   | None => sret tt
                   end) (u_target d).
(** uxml.py 111-125.  The writer is registered after the schema has accepted the tree (uxml.py 100-109), so that the
    other branch is never taken. *)
Definition w_UXML (e : handle) (o : who) : WM unit :=
  let* root := rd o A_UXML_root in
  if forallb xvalid root then
    hdf (let* g := makeGroup e (L "UXML") (L "NXnote") [(L "desc", t_ "UXML metadata")] in
         let* d := ux_items g root (mk_uids [] []) in
         ux_links d)
  else sraise NotModelled.

(** the function that each handler puts into [h5writers]; the handlers that add no writer (NotModelled here) never get
    to this point. *)
Definition writer_of (cmd : str) (h : hid) (e : handle) (o : who) : WM unit :=
  match h with
  | H_D => w_D e o | H_C => w_C e o | H_G => w_G e o | H_J => w_J e o | H_j => w_j e o
  | H_o => w_o e o | H_M => w_M e o | H_T => w_T e o | H_P => w_P e o | H_Q => w_Q e o
  | H_R => w_R e o | H_U => w_U e o | H_X => w_X e o
  | H_data => match o with Scn => w_data e cmd | Hdr => sraise NotModelled end
  | H_CALIB => w_CALIB e o | H_CHANN => w_CHANN e o | H_CTIME => w_CTIME e o
  | H_VA => w_VA e o | H_VD => w_VD e o | H_VE => w_VE e o
  | H_XPCS | H_CCD => sret tt (* XPCS.py 107-108, 125-126 *)
  | H_MD => w_MD e o | H_unrec => w_unrec e o | H_V => w_V e o | H_UXML => w_UXML e o
  | _ => sraise NotModelled
  end.

(* ------------------------------------------------------------------ *)
(** * writer.py: one scan, one file *)

(** writer.py 132-161 *)
Definition link_diffractometer (e : handle) : HM unit :=
  let* b := hin e (L "instrument/geometry_parameters") in
  if b then
    let* ins := hget e (L "instrument") in
    let* g := hget ins (L "geometry_parameters") in
    link_at (h_id ins) (L "diffractometer") (h_id g) >>>
    let* t := hget ins (L "diffractometer") in
    set_attr (h_id t) (L "target") (AText (h_name t))
  else sret tt.
Definition link_positioners (e : handle) : HM unit :=
  let* b1 := hin e (L "positioners") in
  let* b2 := hin e (L "instrument/positioners") in
  if b1 && b2 then
    let* t := hget e (L "instrument/positioners") in
    set_attr (h_id t) (L "target") (AText (h_name t))
  else sret tt.
(** make the link [g[name] = target] and turn it around *)
Definition link_in (g : handle) (name : str) (t : handle) : HM unit :=
  link_at (h_id g) name (h_id t) >>>
  let* p := hget g name in
  set_attr (h_id t) (L "target") (AText (h_name p)).
Definition link_monitor (e : handle) : HM unit :=
  let* m := hin e (L "M") in
  let* t := hin e (L "T") in
  if m || t then
    let* t := (if m then hget e (L "M") else hget e (L "T")) in
    let* g := makeGroup e (L "monitor") (L "NXmonitor") [] in
    link_in g (L "preset") t
  else sret tt.
Definition link_temperature (e : handle) : HM unit :=
  let* t := hin e (L "TEMP_SP") in
  let* d := hin e (L "DEGC_SP") in
  if t || d then
    let* s := hget e (L "sample") in
    let* g := makeGroup s (L "temperature") (L "NXlog") [] in
    (if t then let* x := hget e (L "TEMP_SP") in link_in g (L "target_value") x else sret tt) >>>
    (if d then let* x := hget e (L "DEGC_SP") in link_in g (L "value") x else sret tt)
  else sret tt.
Definition final_links (e : handle) : HM unit :=
  link_diffractometer e >>> link_positioners e >>> link_monitor e >>> link_temperature e.

(** writer.py 111-131: [str(scan)] is scan.S (spec.py 694-695) *)
Definition entry_fields (e : handle) (S num cmd : str) : HM unit :=
  addAttributes e [(L "default", t_ "data")] >>>
  unit_of (write_dataset e (L "title") (DText S) []) >>>
  let* p := slift (split_scan_number_string num) in
  match p with
  | n :: r :: _ =>
      let* ds := write_dataset e (L "scan_number") (DNum (NI n)) [] in
      addAttributes ds [(L "spec_name", t_ "SCAN_N")] >>>
      (if (0 <? r)%Z then addAttributes ds [(L "repeat", ANum (NI r))] else sret tt) >>>
      unit_of (write_dataset e (L "command") (DText cmd) [])
  | _ => sraise IndexError
  end.
Definition save_objs (e : handle) (sc : scan) : WM unit :=
  hdf (entry_fields e (s_S sc) (s_num sc) (s_cmd sc)) >>>
  let* hw := rd Hdr A_h5 in
  siter (fun h => writer_of (s_cmd sc) h e Hdr) (values hw) >>>
  let* sw := rd Scn A_h5 in
  siter (fun h => writer_of (s_cmd sc) h e Scn) (values sw) >>>
  hdf (final_links e).

(** writer.py 81-102: an entry without data gets an empty default plot *)
Definition ensure_data (e : handle) : HM unit :=
  let* b := hin e (L "data") in
  if b then sret tt
  else
    let* g := makeGroup e (L "data") (L "NXdata")
                [(L "signal", t_ "no_y_data"); (L "axes", t_ "no_x_data");
                 (L "no_x_data_indices", ANums [0%Z])] in
    let d := DNums [NI 0; NI 1] in
    let l := [(L "units", t_ "none"); (L "long_name", t_ "no data points in this scan")] in
    makeDataset g (L "no_x_data") d l >>>
    unit_of (makeDataset g (L "no_y_data") d l).

Section Save.
  Context (E : env) (known : list hid).

  (** writer.py 109-161 on the scan stored under [name]; the header is the one the scan belongs to *)
  Definition save_scan (e : handle) (name : str) (s : sdf) (f : h5) : sdf * h5 * option exn :=
    match interpret E known name s with
    | (s, Some x) => (s, f, Some x)
    | (s, None) =>
        match dget name (scans s) with
        | None => (s, f, Some AttributeError)
        | Some sc =>
            match nth_error (headers s) (s_hdr sc) with
            | None => (s, f, Some NotModelled)
            | Some h =>
                let '(w, r) := save_objs e sc (mk_ws (s_obj sc) (h_obj h) f) in
                (set_headers (set_nth (s_hdr sc) (mk_header (h_raw h) (w_hdr w)) (headers s))
                   (set_scans (dset name (with_obj (w_scan w) sc) (scans s)) s),
                 w_h5 w, match r with Ok _ => None | Raise x => Some x end)
            end
        end
    end.

  (** writer.py 64-102: one key of the list.  The scan that getScan returns is stored under its name. *)
  Definition save_key (first : bool) (k : skey) (s : sdf) (f : h5) : sdf * h5 * option exn :=
    match (let* e := makeGroup root (L "S" ++ key_str k) (L "NXentry") [] in
           makeDataset e (L "experiment_description") (DText (L "SPEC scan")) [desc "SPEC data file scan"] >>>
           sret e) f with
    | (f, Raise x) => (s, f, Some x)
    | (f, Ok e) =>
        match getScan k s with
        | Raise x => (s, f, Some x)
        | Ok None => (s, f, Some AttributeError)
        | Ok (Some sc) =>
            match save_scan e (s_num sc) s f with
            | (s, f, Some x) => (s, f, Some x)
            | (s, f, None) =>
                match ((if first then addAttributes root [(L "default", AText (L "S" ++ key_str k))]
                        else sret tt) >>> ensure_data e) f with
                | (f, Raise x) => (s, f, Some x)
                | (f, Ok _) => (s, f, None)
                end
            end
        end
    end.
  Fixpoint save_keys (first : bool) (ks : list skey) (s : sdf) (f : h5) : sdf * h5 * option exn :=
    match ks with
    | [] => (s, f, None)
    | k :: t => match save_key first k s f with
                | (s, f, None) => save_keys false t s f
                | r => r
                end
    end.

  (** writer.py 104-132: the attributes of the root; [versions] are those of the software *)
  Definition user_of (c : str) : res str :=
    do t <- index 1 (split_c 61%N (slice_from (pos_of (find (L "User = ") c)) c));
    Ok (strip t).
  Definition root_attributes (versions : attrs_t) (s : sdf) : res attrs_t :=
    do h <- index 0 (headers s);
    do ep <- of_opt AttributeError (h_obj h A_epoch);
    do dt <- of_opt AttributeError (h_obj h A_date);
    do iso <- iso8601 dt;
    do cs <- of_opt AttributeError (h_obj h A_comments);
    let user := match (do c <- index 0 cs; user_of c) with
                | Ok u => [(L "SPEC_user", AText u)]
                | Raise _ => []
                end in
    Ok (versions ++
        [(L "SPEC_file", AText (match specFile s with Some t => t | None => [] end));
         (L "SPEC_epoch", ANum ep); (L "SPEC_date", AText iso);
         (L "SPEC_comments", AText (join [LF] cs));
         (L "SPEC_num_headers", ANum (NI (len (headers s))))] ++ user).

  (** writer.py 50-102: the file is made before the attributes are computed *)
  Definition save (versions : attrs_t) (ks : list skey) (s : sdf) : sdf * h5 * option exn :=
    match root_attributes versions s with
    | Raise x => (s, new_file, Some x)
    | Ok l => match addAttributes root l new_file with
              | (f, Raise x) => (s, f, Some x)
              | (f, Ok _) => save_keys true ks s f
              end
    end.
End Save.
