(** /repo/spec2nexus/diffractometers.py: the geometry catalog and the interpretation of #G lines *)
From Coq Require Import String.
From Verif Require Import Py GeomData.
Import ListNotations.
Local Open Scope list_scope.

(** diffractometers.py 93-102: exactly one dot gives (name, variant), else (geo_name, None) *)
Definition split_name_variation (geo_name : str) : str * option str :=
  match split_c 46%N geo_name with
  | [nm; v] => (nm, Some v)
  | _ => (geo_name, None)
  end.

(** diffractometers.py 455-482: [geometries()] and [geometries(True)] *)
Definition dot (a b : str) : str := a ++ 46%N :: b.
Definition geometries_simple (db : list geometry) : list str := map g_name db.
Definition geometries_full (db : list geometry) : list str :=
  flat_map (fun g => map (fun v => dot (g_name g) (v_name v)) (g_vars g)) db.

(** diffractometers.py 484-492: [get] ([geometries.index] is the first position) *)
Definition cat_get (db : list geometry) (geo_name : str) : option geometry :=
  let nm := fst (split_name_variation geo_name) in
  List.find (fun g => seqb nm (g_name g)) db.

(** diffractometers.py 498-503: [get_variant]; IndexError if there is no variation at all *)
Definition get_variant (g : geometry) (variant_name : option str) : res variation :=
  match variant_name with
  | Some n => match List.find (fun v => seqb (v_name v) n) (g_vars g) with
              | Some v => Ok v
              | None => index 0 (g_vars g)
              end
  | None => index 0 (g_vars g)
  end.

(** diffractometers.py 505-513 *)
Definition has_geometry (db : list geometry) (geo_name : str) : bool :=
  match split_name_variation geo_name with
  | (nm, None) => mem nm (geometries_simple db)
  | (_, Some _) => mem geo_name (geometries_full db)
  end.

(** what [match] and [parse] look at: header.comments, header.o, header.O, scan.positioner, scan.G *)
Record geo_in := mk_gin {
  gi_comments : list str; gi_o : option (list (list str)); gi_O : option (list (list str));
  gi_positioner : dict fl; gi_G : dict str }.

(** diffractometers.py 526-535: alternative spellings of positioner names *)
Definition norm_positioner (k : str) : str :=
  if seqb k (L "2-theta") || seqb k (L "two theta") || suffixb (L "tth") k then L "tth"
  else if seqb k (L "theta") then L "th"
  else if seqb k (L "delta") then L "del"
  else if seqb k (L "gamma") then L "gam"
  else k.

(** diffractometers.py 515-539.  [str.lower] is ASCII lower case here. *)
Definition scan_positioners (i : geo_in) : list str :=
  let l := match gi_o i with
           | Some o => List.concat o
           | None => match gi_O i with
                     | Some rows => List.concat (map (map lower) rows)
                     | None => map lower (keys (gi_positioner i))
                     end
           end in
  map norm_positioner l.

(** diffractometers.py 552-560: the geometry named on the first comment line of the header *)
Definition stated (db : list geometry) (i : geo_in) : list str :=
  match gi_comments i with
  | [] => []
  | c :: _ =>
      match words c with
      | [nm; u; _; _] =>
          if seqb u (L "User") && has_geometry db nm then [dot nm (L "default")] else []
      | _ => []
      end
  end.

(** diffractometers.py 564-577: the fields of #G0 and #G4; a single "0" counts as none *)
Fixpoint strs_eqb (a b : list str) : bool :=
  match a, b with
  | [], [] => true
  | x :: a', y :: b' => seqb x y && strs_eqb a' b'
  | _, _ => false
  end.
Definition drop0 (l : list str) : list str := if strs_eqb l [L "0"] then [] else l.
Definition scan_G0 (i : geo_in) : list str :=
  drop0 (words (match dget (L "G0") (gi_G i) with Some t => t | None => L "0" end)).
Definition scan_G4 (i : geo_in) : option (list str) :=
  match dget (L "G4") (gi_G i) with
  | Some t => Some (drop0 (words t))
  | None => None
  end.

(** diffractometers.py 584-606 *)
Definition var_match (i : geo_in) (v : variation) : bool :=
  strs_eqb (firstn (List.length (v_motors v)) (scan_positioners i)) (v_motors v)
  && forallb (fun mne => has mne (gi_positioner i)) (v_others v).
Definition geo_match (i : geo_in) (g : geometry) : list str :=
  if negb (Nat.eqb (List.length (scan_G0 i)) (List.length (g_G g))) then []
  else if (match scan_G4 i with
           | Some q => negb (Nat.eqb (List.length q) (List.length (g_Q g)))
           | None => false end) then []
  else map (fun v => dot (g_name g) (v_name v)) (List.filter (var_match i) (g_vars g)).

(** diffractometers.py 541-622.  [db[0]] is the default geometry (446). *)
Definition geo_name_of (db : list geometry) (i : geo_in) : res str :=
  match stated db i ++ flat_map (geo_match i) db with
  | m :: _ => Ok m
  | [] => rmap g_name (index 0 db)
  end.

(* ------------------------------------------------------------------ *)

(** values of [geometry_parameters]: text, number or matrix (descriptions are left out) *)
Inductive gval := GStr (s : str) | GNum (f : fl) | GMat (m : list fl).
(** diffractometers.py 37-49: the named tuples as their values in order *)
Inductive lattice := Lat2 (v : list fl) | Lat3 (v : list fl).
Inductive reflection := Ref2 (v : list fl) (angles : dict fl) | Ref3 (v : list fl) (angles : dict fl).

(** diffractometers.py 116-124 *)
Record diffr := mk_diffr {
  d_full : str; d_name : str; d_variant : option str; d_gpar : dict gval;
  d_lattice : option lattice; d_mode : option str; d_refl : list reflection;
  d_sector : option Z; d_wavelength : option fl; d_UB : option (list fl) }.

(** diffractometers.py 116-141 *)
Definition new_diffr (geo_name : str) : diffr :=
  let '(nm, v) := split_name_variation geo_name in
  mk_diffr geo_name nm v
    [(L "diffractometer_full", GStr geo_name); (L "diffractometer_simple", GStr nm);
     (L "diffractometer_variant", GStr (match v with Some x => x | None => [] end))]
    None None [] None None None.

(** [OrderedDict({kd[0]: ... for v, kd in zip(values, names)})] (244-249, 277-283, 331-336) *)
Definition zip_dict {V} (names : list str) (values : list V) : dict V :=
  fold_left (fun d kv => dset (fst kv) (snd kv) d) (combine names values) [].
(** [d.update(e)] (268, 317, 337) *)
Definition dupdate {V} (e d : dict V) : dict V :=
  fold_left (fun d kv => dset (fst kv) (snd kv) d) e d.

(** [list(map(float, text.split()))] (241, 271, 320, 328) *)
Definition floats (t : str) : res (list fl) := mapM py_float (words t).

(** diffractometers.py 250-263: scan over G: the sector, and the mode names to add *)
Definition g0_step (modes : list str) (acc : option Z * dict str) (kv : str * fl) :
  res (option Z * dict str) :=
  let '(sect, adds) := acc in
  let '(k, v) := kv in
  if prefixb (L "g_sect") k then do z <- int_of_fl v; Ok (Some z, adds)
  else if negb (prefixb (L "g_mode") k) then Ok acc
  else do z <- int_of_fl v;
       if ((0 <=? z)%Z && (z <? len modes)%Z)%bool
       then match nth_error modes (Z.to_nat z) with
            | Some m => Ok (sect, adds ++ [(k ++ L "_name", m)])
            | None => Ok acc
            end
       else Ok acc.
Fixpoint foldM {A B} (f : A -> B -> res A) (l : list B) (a : A) : res A :=
  match l with
  | [] => Ok a
  | x :: t => do a' <- f a x; foldM f t a'
  end.

(** diffractometers.py 239-268: #G0 *)
Definition parse_G0 (gonio : geometry) (G : dict str) (d : diffr) : res diffr :=
  match dget (L "G0") G with
  | None => Ok d
  | Some t =>
      do g0 <- floats t;
      if negb (Nat.eqb (List.length g0) (List.length (g_G gonio))) then Ok d
      else
        let Gd := zip_dict (g_G gonio) g0 in
        do (sect, adds) <- foldM (g0_step (g_modes gonio)) Gd (d_sector d, []);
        let mode := fold_left (fun m kv => if seqb (fst kv) (L "g_mode_name") then Some (snd kv) else m)
                              adds (d_mode d) in
        let Gall := dupdate (map (fun kv => (fst kv, GStr (snd kv))) adds)
                            (map (fun kv => (fst kv, GNum (snd kv))) Gd) in
        Ok (mk_diffr (d_full d) (d_name d) (d_variant d) (dupdate Gall (d_gpar d))
              (d_lattice d) mode (d_refl d) sect (d_wavelength d) (d_UB d))
  end.

(** [U["g_" + key].value] (286, 289, 304, 311): KeyError if it is missing *)
Definition uget (U : dict fl) (k : str) : res fl := of_opt KeyError (dget (L "g_" ++ k) U).

(** diffractometers.py 296-300: the angles of one reflection *)
Definition angles_of (U : dict fl) (refnum : str) (motors : list str) : dict fl :=
  fold_left (fun d im => match dget (L "g_u" ++ refnum ++ str_of_nat (fst im)) U with
                         | Some v => dset (snd im) v d
                         | None => d
                         end)
            (combine (seq 0 (List.length motors)) motors) [].

(** diffractometers.py 302-315: one reflection *)
Definition refl3 (U : dict fl) (refnum : str) (motors : list str) : res reflection :=
  do v <- mapM (fun k => uget U (k ++ refnum)) (map L ["h"; "k"; "l"; "lambda"]%string);
  Ok (Ref3 v (angles_of U refnum motors)).

(** diffractometers.py 270-317: #G1 *)
Definition parse_G1 (gonio : geometry) (G : dict str) (d : diffr) : res diffr :=
  match dget (L "G1") G with
  | None => Ok d
  | Some t =>
      do g1 <- floats t;
      if negb (1 <? len g1)%Z then Ok d
      else
        let U := zip_dict (match g_U gonio with Some u => u | None => default_U end) g1 in
        do lat <- (if has (L "g_cc") U && has (L "g_al") U && has (L "g_be") U
                   then do p <- mapM (uget U) (map L ["aa"; "bb"; "cc"; "al"; "be"; "ga"]%string); Ok (Lat3 p)
                   else do p <- mapM (uget U) (map L ["aa"; "bb"; "ga"]%string); Ok (Lat2 p));
        do v <- get_variant gonio (d_variant d);
        do refl <- (if negb (has (L "g_lambda") U)
                    then do r0 <- refl3 U (L "0") (v_motors v);
                         do r1 <- refl3 U (L "1") (v_motors v); Ok [r0; r1]
                    else do p <- mapM (uget U) (map L ["h0"; "k0"]%string);
                         do l <- uget U (L "lambda");
                         Ok [Ref2 (p ++ [l]) (angles_of U (L "0") (v_motors v))]);
        Ok (mk_diffr (d_full d) (d_name d) (d_variant d)
              (dupdate (map (fun kv => (fst kv, GNum (snd kv))) U) (d_gpar d))
              (Some lat) (d_mode d) (d_refl d ++ refl) (d_sector d) (d_wavelength d) (d_UB d))
  end.

(** diffractometers.py 319-326: #G3 *)
Definition parse_G3 (G : dict str) (d : diffr) : res diffr :=
  match dget (L "G3") G with
  | None => Ok d
  | Some t =>
      do g3 <- floats t;
      if negb (Nat.eqb (List.length g3) 9) then Ok d
      else Ok (mk_diffr (d_full d) (d_name d) (d_variant d) (dset (L "ub_matrix") (GMat g3) (d_gpar d))
                 (d_lattice d) (d_mode d) (d_refl d) (d_sector d) (d_wavelength d) (Some g3))
  end.

(** diffractometers.py 328-339: #G4 *)
Definition parse_G4 (gonio : geometry) (G : dict str) (d : diffr) : res diffr :=
  match dget (L "G4") G with
  | None => Ok d
  | Some t =>
      do g4 <- floats t;
      if negb (Nat.eqb (List.length g4) (List.length (g_Q gonio))) then Ok d
      else
        let Q := zip_dict (g_Q gonio) g4 in
        Ok (mk_diffr (d_full d) (d_name d) (d_variant d)
              (dupdate (map (fun kv => (fst kv, GNum (snd kv))) Q) (d_gpar d))
              (d_lattice d) (d_mode d) (d_refl d) (d_sector d)
              (match dget (L "LAMBDA") Q with Some v => Some v | None => d_wavelength d end) (d_UB d))
  end.

(** diffractometers.py 230-339 *)
Definition parse_diffr (db : list geometry) (G : dict str) (d : diffr) : res diffr :=
  do gonio <- of_opt RuntimeError (cat_get db (d_full d));
  do d <- parse_G0 gonio G d;
  do d <- parse_G1 gonio G d;
  do d <- parse_G3 G d;
  parse_G4 gonio G d.

(** spec_common.py 334-341: the diffractometer of a scan
    (a Diffractometer object is never None; the [RuntimeError] of 436-441 does not arise
    because [get_geometry_catalog] makes the catalog first) *)
Definition diffr_of (db : list geometry) (i : geo_in) : res diffr :=
  do nm <- geo_name_of db i;
  parse_diffr db (gi_G i) (new_diffr nm).
