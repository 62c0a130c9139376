(** /repo/spec2nexus/nexus.py and /repo/spec2nexus/extractSpecScan.py: the command line tools. *)
From Coq Require Import String.
From Verif Require Import Py Time Utils Keys GeomData Geom Handlers Reader.
Import ListNotations.
Local Open Scope list_scope.

Definition COMMA : N := 44%N.
Definition DASH : N := 45%N.
Definition DOT : N := 46%N.
Definition SLASH : N := 47%N.

(** os.path.splitext (nexus.py 190, extractSpecScan.py 61) on POSIX: the last dot, if it is after the last slash
    and not only dots come before it in the name *)
Definition splitext (p : str) : str * str :=
  match rfind_c DOT p with
  | None => (p, [])
  | Some d =>
      let first := match rfind_c SLASH p with Some s => S s | None => 0 end in
      if Nat.ltb d first then (p, [])
      else if forallb (fun c => (c =? DOT)%N) (firstn (d - first) (skipn first p)) then (p, [])
      else (firstn d p, skipn d p)
  end.

(** [range(a, b + 1)] (nexus.py 130, extractSpecScan.py 79) *)
Definition range_incl (a b : Z) : list Z := map (fun i => (a + Z.of_nat i)%Z) (seq 0 (Z.to_nat (b + 1 - a))).

(* ------------------------------------------------------------------ *)
(** * nexus.py *)

(** nexus.py 125-132: one item.  133 concatenates a str and a list: TypeError *)
Definition scan_item (item : str) : res (list Z) :=
  match split_c DASH item with
  | [a] => do z <- py_int a; Ok [z]
  | [a; b] => do x <- py_int a; do y <- py_int b; Ok (range_incl x y)
  | _ => Raise TypeError
  end.
(** nexus.py 134-137: [sl] is the list without repetitions *)
Fixpoint dedup (acc : list Z) (l : list Z) : list Z :=
  match l with
  | [] => acc
  | x :: t => dedup (if existsb (Z.eqb x) acc then acc else acc ++ [x]) t
  end.
(** nexus.py 119-139 *)
Definition parse_scan_list_spec (spec : list str) : res (list Z) :=
  do s <- index 0 spec;
  do ls <- mapM scan_item (split_c COMMA s);
  Ok (dedup [] (isort Z.leb (List.concat ls))).

(** nexus.py 142-158; [None] is "all" *)
Definition pick_scans (all_scans : list str) (request : option (list Z)) : list str :=
  match request with
  | None => all_scans
  | Some l => List.filter (fun item => mem item all_scans) (map str_of_Z l)
  end.

(** nexus.py 34-116: what main uses of the options; [o_scan] is the argument of -s if it is given *)
Record options := mk_opt { o_infile : list str; o_ext : str; o_force : bool; o_scan : option str; o_output : option str }.

Section Nexus.
  (** [B]: what a name in the file system stands for; [S]: SpecDataFile objects.
      [open_spec]: spec.SpecDataFile(name); [numbers]: getScanNumbers; [save]: Writer(sdf).save(name, list), as the contents the output
      file has one after the other, from truncation on, and the exception if it fails *)
  Context {B S : Type} (open_spec : str -> B -> res S) (numbers : S -> res (list str)) (save : S -> list str -> list B * option exn).

  Definition fs := str -> option B.
  Definition fs_set (n : str) (b : B) (f : fs) : fs := fun m => if seqb m n then Some b else f m.

  (** nexus.py 168-169: without -s the default "all" is not parsed *)
  Definition scan_selection (o : options) : res (option (list Z)) :=
    match o_scan o with
    | None => Ok None
    | Some t => do l <- parse_scan_list_spec [t]; Ok (Some l)
    end.
  (** nexus.py 171-172 *)
  Definition extension (o : options) : str := if prefixb [DOT] (o_ext o) then o_ext o else DOT :: o_ext o.
  (** nexus.py 190-194 *)
  Definition output_name (o : options) (f : str) : str :=
    match o_output o with
    | None => fst (splitext f) ++ extension o
    | Some n => n
    end.

  (** nexus.py 174-199: one input.  The states of the file system one after the other, and the exception *)
  Definition convert (o : options) (sel : option (list Z)) (f : str) (st : fs) : list fs * option exn :=
    match st f with
    | None => ([], None)
    | Some b =>
        match open_spec f b with
        | Raise e => ([], Some e)
        | Ok s =>
            match numbers s with
            | Raise e => ([], Some e)
            | Ok all =>
                let out := output_name o f in
                if o_force o || match st out with None => true | Some _ => false end then
                  let '(bs, e) := save s (pick_scans all sel) in
                  (map (fun b => fs_set out b st) bs, e)
                else ([], None)
            end
        end
    end.
  Fixpoint convert_all (o : options) (sel : option (list Z)) (fs_ : list str) (st : fs) : list fs * option exn :=
    match fs_ with
    | [] => ([], None)
    | f :: t =>
        let '(sts, e) := convert o sel f st in
        match e with
        | Some e => (sts, Some e)
        | None => let '(sts', e') := convert_all o sel t (last sts st) in (sts ++ sts', e')
        end
    end.
  (** nexus.py 161-199: all states of the file system, the initial one first, and the exception *)
  Definition nexus_main (o : options) (st : fs) : list fs * option exn :=
    match scan_selection o with
    | Raise e => ([st], Some e)
    | Ok sel => let '(sts, e) := convert_all o sel (o_infile o) st in (st :: sts, e)
    end.
End Nexus.

(* ------------------------------------------------------------------ *)
(** * extractSpecScan.py *)

(** extractSpecScan.py 38-64 *)
Definition makeOutputFileName (specFile scanNum : str) : str :=
  let '(base, ext) := splitext specFile in
  base ++ L "_" ++ replace [DOT] (L "_") scanNum ++ ext.

(** extractSpecScan.py 70-82 *)
Definition expand_term (item : str) : res (list str) :=
  if prefixb [DASH] item then Ok [item]
  else match split_c DASH item with
       | [_] => Ok [item]
       | [a; b] => do x <- py_int a; do y <- py_int b; Ok (map str_of_Z (range_incl x y))
       | _ => Raise ValueError
       end.
(** extractSpecScan.py 67-83 *)
Definition expand_scan_range_terms (scans : list str) : res (list str) :=
  do ls <- mapM expand_term scans; Ok (List.concat ls).

(** extractSpecScan.py 86-180 *)
Record xoptions := mk_xopt { x_file : str; x_scan : list str; x_column : list str; x_labels : bool;
  x_G : bool; x_P : bool; x_Q : bool; x_V : bool }.

Section Extract.
  (** [show]: str() of a float (242, 257, 262, 267) *)
  Context (E : env) (known : list hid) (show : fl -> str).

  (** [zip( *data)] (241): row by row up to the shortest *)
  Fixpoint zip_rows {A} (n : nat) (cols : list (list A)) : list (list A) :=
    match n with
    | O => []
    | S m => match mapM (fun c => match c with x :: t => Ok (x, t) | [] => Raise IndexError end) cols with
             | Ok l => map fst l :: zip_rows m (map snd l)
             | Raise _ => []
             end
    end.
  (** no row is longer than the first column; [zip()] of nothing is empty *)
  Definition zip_all {A} (cols : list (list A)) : list (list A) :=
    match cols with [] => [] | c :: _ => zip_rows (List.length c) cols end.

  (** sorted(d.items()) (249, 255, 266): keys differ, so only they are compared *)
  Definition sorted_items {V} (d : dict V) : list (str * V) := isort (fun a b => str_leb (fst a) (fst b)) d.
  Definition tabbed (l : list str) : str := join [TAB] l.
  Definition hash_line (letter : string) (l : list str) : str := tabbed (L letter :: l).

  (** attribute of the interpreted scan: AttributeError if it has none *)
  Definition attribute (sc : scan) (a : attr) : res (ty a) := of_opt AttributeError (s_obj sc a).

  (** 240: KeyError for a label that is no column.  The spectra are no column: not modelled as one. *)
  Definition column (data : dict col) (label : str) : res (list fl) :=
    do c <- of_opt KeyError (dget label data);
    match c with Col v => Ok v | Mca _ => Raise NotModelled end.

  (** 236-245 *)
  Definition data_text (o : xoptions) (sc : scan) : res (list str) :=
    do data <- attribute sc A_data;
    let labels := if x_labels o then [L "# " ++ tabbed (x_column o)] else [] in
    match data with
    | [] => Ok (labels ++ [L "# <no SPEC data points in this scan>"])
    | _ => do cols <- mapM (column data) (x_column o);
           Ok (labels ++ map (fun r => tabbed (map show r)) (zip_all cols))
    end.
  Definition md_text (v : mdval) : str := match v with MdF f => show f | MdS s => s end.
  (** 247-279 *)
  Definition header_text (o : xoptions) (scanNum : str) (sc : scan) : res (list str) :=
    do g <- (if x_G o then do G <- attribute sc A_G;
                           Ok (map (fun kv => hash_line "#G" [fst kv; tabbed (split_c SP (snd kv))]) (sorted_items G))
             else Ok []);
    do p <- (if x_P o then do P <- attribute sc A_positioner;
                           Ok (map (fun kv => hash_line "#P" [fst kv; show (snd kv)]) (sorted_items P))
             else Ok []);
    do q <- (if x_Q o then do Q <- attribute sc A_Q;
                           Ok (match Q with
                               | None | Some [] => []
                               | Some l => [hash_line "#Q" [tabbed (map show l)]]
                               end)
             else Ok []);
    let v := if x_V o then match s_obj sc A_metadata with
                           | Some md => map (fun kv => hash_line "#V" [fst kv; md_text (snd kv)]) (sorted_items md)
                           | None => []
                           end
             else [] in
    let h := g ++ p ++ q ++ v in
    let h := match h with [] => [] | _ => map L ["#"; "# data from scan heading"]%string ++ h ++ map L ["#"; "# scan data:"; "#"]%string end in
    Ok ((L "# file: " ++ x_file o) :: (L "# scan: " ++ scanNum) :: h).

  (** 220-231: [label in scan.L] for each label *)
  Definition all_labels (o : xoptions) (sc : scan) : res bool :=
    do lab <- attribute sc A_L; Ok (forallb (fun l => mem l lab) (x_column o)).

  (** 215-284: one scan: the new state of the data file object, and the name and text of the file written, if one is written *)
  Definition extract (o : xoptions) (s : sdf) (scanNum : str) : sdf * res (option (str * str)) :=
    match getScan (KStr scanNum) s with
    | Raise e => (s, Raise e)
    | Ok None => (s, Raise AttributeError)
    | Ok (Some sc0) =>
        match interpret E known (s_num sc0) s with
        | (s', Some e) => (s', Raise e)
        | (s', None) =>
            (s', do sc <- of_opt KeyError (dget (s_num sc0) (scans s'));
                 do ok <- all_labels o sc;
                 if ok then
                   do txt <- data_text o sc;
                   do hdr <- header_text o scanNum sc;
                   Ok (Some (makeOutputFileName (x_file o) scanNum, join [LF] hdr ++ [LF] ++ join [LF] txt))
                 else Ok None)
        end
    end.
  (** 214-284: the files written one after the other, and the exception *)
  Fixpoint extract_all (o : xoptions) (s : sdf) (nums : list str) : list (str * str) * option exn :=
    match nums with
    | [] => ([], None)
    | n :: t =>
        match extract o s n with
        | (s', Raise e) => ([], Some e)
        | (s', Ok w) => let '(ws, e) := extract_all o s' t in (match w with Some x => [x] | None => [] end ++ ws, e)
        end
    end.
  (** 175, 205-284 *)
  Definition extract_main (o : xoptions) (p : path) : list (str * str) * option exn :=
    match expand_scan_range_terms (x_scan o) with
    | Raise e => ([], Some e)
    | Ok nums =>
        match open_file E known (x_file o) p with
        | Raise e => ([], Some e)
        | Ok s => extract_all o s nums
        end
    end.
End Extract.
