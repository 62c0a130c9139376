(** /repo/spec2nexus/spec.py: reading a SPEC data file, and the handlers of #F, #E, #S
    (/repo/spec2nexus/plugins/spec_common.py 47-108, 203-298) that act on the data file object. *)
From Coq Require Import String.
From Verif Require Import Py Time Utils Keys Handlers.
Import ListNotations.
Local Open Scope list_scope.

(* ------------------------------------------------------------------ *)
(** * Files *)

(** what a path names; [content] is the decoded text ([None]: it cannot be decoded);
    modification time and size are those of os.path.getmtime and getsize *)
Inductive path :=
| Absent
| NotFile                       (* a directory, say *)
| File (content : option str) (mtime : Z) (size : Z).

(** spec.py 144-146, 187-188: os.path.exists, os.path.isfile *)
Definition exists_p (p : path) : bool := match p with Absent => false | _ => true end.
Definition isfile (p : path) : bool := match p with File _ _ _ => true | _ => false end.

(** spec.py 191, 156-157: the lines of a text file opened in text mode *)
Definition text_lines (content : str) : list str := readlines (universal_newlines content).

(** spec.py 166-201 *)
Definition is_spec_file_with_header (p : path) : bool :=
  match p with
  | File (Some content) _ _ =>
      let expected := map L ["#F "; "#E "; "#D "; "#C "]%string in
      let lines := firstn (List.length expected) (text_lines content) in
      if negb (Nat.eqb (List.length lines) (List.length expected)) then false
      else forallb (fun el => prefixb (fst el) (snd el)) (combine expected lines)
  | _ => false
  end.

(** spec.py 144-163 *)
Definition is_spec_file (p : path) : bool :=
  if negb (exists_p p) || negb (isfile p) then false
  else if is_spec_file_with_header p then true
  else match p with
       | File (Some content) _ _ => existsb (prefixb (L "#S ")) (text_lines content)
       | _ => false
       end.

(** spec.py 375-399 *)
Definition read_file (p : path) : res str :=
  match p with
  | Absent => Raise SpecDataFileNotFound
  | NotFile => Raise SpecDataFileCouldNotOpen
  | File None _ _ => Raise ValueError                    (* UnicodeDecodeError *)
  | File (Some content) _ _ =>
      let buf := universal_newlines content in
      if negb (existsb (prefixb (L "#S ")) (splitlines buf)) && negb (is_spec_file_with_header p)
      then Raise NotASpecDataFile
      else Ok (replace [CR] [LF] (replace [CR; LF] [LF] buf))
  end.

(** spec.py 414-424 *)
Definition section_keys : list str := map L ["#E"; "#F"; "#S"]%string.
Definition is_section_start (text : str) : bool :=
  match words text with
  | [] => false                                          (* text.strip() is empty *)
  | f :: _ => if negb (Nat.eqb (List.length f) 2) then false else mem f section_keys
  end.

(** spec.py 426-430: the numbers of the lines that start a section *)
Fixpoint boundaries_from (n : nat) (lines : list str) : list nat :=
  match lines with
  | [] => []
  | l :: t => if is_section_start l then n :: boundaries_from (S n) t else boundaries_from (S n) t
  end.

(** spec.py 416, 426-444 *)
Definition dissect_text (buf : str) : res (list str) :=
  let file_lines := splitlines buf in
  let b := boundaries_from 0 file_lines in
  match b with
  | [] => Raise NotASpecDataFile
  | _ =>
      let b := b ++ [List.length file_lines] in
      Ok (map (fun sf => join [LF] (firstn (snd sf - fst sf) (skipn (fst sf) file_lines)))
              (combine (removelast b) (tl b)))
  end.
Definition dissect (p : path) : res (list str) := do buf <- read_file p; dissect_text buf.

(* ------------------------------------------------------------------ *)
(** * Objects *)

(** spec.py 648-692: [s_hdr] is the position of the scan's header in [headers];
    [s_lazy] and [s_done] are __lazy_interpret__ and __interpreted__ *)
Record scan := mk_scan {
  s_raw : str; s_S : str; s_num : str; s_cmd : str; s_hdr : nat;
  s_obj : obj; s_lazy : bool; s_done : bool }.
(** spec.py 562-576 *)
Record header := mk_header { h_raw : str; h_obj : obj }.

(** what may be passed as a scan number: a str, an int, or a float with the text it prints as *)
Inductive skey := KStr (s : str) | KInt (z : Z) | KFloat (f : fl) (printed : str).

(** spec.py 235-242, 465-471 *)
Record sdf := mk_sdf {
  fileName : str; headers : list header; scans : dict scan; last_scan : option skey;
  sd_mtime : Z; sd_size : Z; specFile : option str }.

(** spec.py 235-242 *)
Definition sdf_init (name : str) : sdf := mk_sdf name [] [] None 0 0 None.

Definition set_headers h (s : sdf) := mk_sdf (fileName s) h (scans s) (last_scan s) (sd_mtime s) (sd_size s) (specFile s).
Definition set_scans c (s : sdf) := mk_sdf (fileName s) (headers s) c (last_scan s) (sd_mtime s) (sd_size s) (specFile s).
Definition set_last l (s : sdf) := mk_sdf (fileName s) (headers s) (scans s) l (sd_mtime s) (sd_size s) (specFile s).
Definition set_specFile f (s : sdf) := mk_sdf (fileName s) (headers s) (scans s) (last_scan s) (sd_mtime s) (sd_size s) f.
Definition set_stat m z (s : sdf) := mk_sdf (fileName s) (headers s) (scans s) (last_scan s) m z (specFile s).

Definition with_obj (o : obj) (sc : scan) : scan :=
  mk_scan (s_raw sc) (s_S sc) (s_num sc) (s_cmd sc) (s_hdr sc) o (s_lazy sc) (s_done sc).
Definition with_flags (lz dn : bool) (sc : scan) : scan :=
  mk_scan (s_raw sc) (s_S sc) (s_num sc) (s_cmd sc) (s_hdr sc) (s_obj sc) lz dn.

(** assignment to one element of a list *)
Fixpoint set_nth {A} (n : nat) (x : A) (l : list A) : list A :=
  match l, n with
  | [], _ => []
  | _ :: t, O => x :: t
  | y :: t, S m => y :: set_nth m x t
  end.

(* ------------------------------------------------------------------ *)
(** * Look-up *)

(** [sorted(l, key=...)] with the keys already computed *)
Definition sort_by {K A} (leb : K -> K -> bool) (l : list (K * A)) : list A :=
  map snd (isort (fun a b => leb (fst a) (fst b)) l).

(** spec.py 489-496.  Simplification: NaN as a scan number is not modelled faithfully. *)
Definition getScanNumbers (s : sdf) : res (list str) :=
  let ks := keys (scans s) in
  match mapM py_int ks with
  | Ok zs => Ok (sort_by Z.leb (combine zs ks))
  | Raise ValueError => do fs <- mapM py_float ks; Ok (sort_by fl_leb (combine fs ks))
  | Raise e => Raise e
  end.

(** [scan.date]: the attribute is set by the constructor (spec.py 653) *)
Definition date_of (sc : scan) : res str := of_opt AttributeError (s_obj sc A_date).

(** spec.py 498-505 *)
Definition getScanNumbersChronological (s : sdf) : res (list str) :=
  do ts <- mapM (fun sc => do d <- date_of sc; strptime d) (values (scans s));
  Ok (map s_num (sort_by tm_leb (combine ts (values (scans s))))).

(** spec.py 507-519 *)
Definition getMinScanNumber (s : sdf) : res skey :=
  do l <- getScanNumbers s;
  Ok (match l with [] => KInt 0 | x :: _ => KStr x end).
Definition getMaxScanNumber (s : sdf) : res skey :=
  do l <- getScanNumbers s;
  Ok (match rev l with [] => KInt 0 | x :: _ => KStr x end).
(** spec.py 521-533 *)
Definition getFirstScanNumber (s : sdf) : res skey :=
  do l <- getScanNumbersChronological s;
  Ok (match l with [] => KInt 0 | x :: _ => KStr x end).
Definition getLastScanNumber (s : sdf) : res skey :=
  do l <- getScanNumbersChronological s;
  Ok (match rev l with [] => KInt 0 | x :: _ => KStr x end).

(** spec.py 478: [float(k)]; 483: [int(k)]; 484: [str(k)] *)
Definition key_float (k : skey) : res fl :=
  match k with KStr s => py_float s | KInt z => Ok (fl_of_Z z) | KFloat f _ => Ok f end.
Definition key_int (k : skey) : res Z :=
  match k with KStr s => py_int s | KInt z => Ok z | KFloat f _ => int_of_fl f end.
Definition key_str (k : skey) : str :=
  match k with KStr s => s | KInt z => str_of_Z z | KFloat _ p => p end.

(** spec.py 476-487 *)
Definition getScan (k : skey) (s : sdf) : res (option scan) :=
  do f <- key_float k;
  do z <- int_of_fl f;
  if (z <? 1)%Z then
    do l <- getScanNumbers s;
    match l with
    | [] => Ok None
    | _ => do i <- key_int k;
           do n <- index i l;
           Ok (dget n (scans s))
    end
  else Ok (dget (key_str k) (scans s)).

(** spec.py 535-543 *)
Definition getScanCommands (scan_list : list skey) (s : sdf) : res (list str) :=
  do ks <- match scan_list with
           | [] => do l <- getScanNumbers s; Ok (map KStr l)
           | _ => Ok scan_list
           end;
  do cs <- mapM (fun k => do r <- getScan k s;
                          Ok (match r with
                              | Some sc => [L "#S " ++ key_str k ++ L " " ++ s_cmd sc]
                              | None => []
                              end)) ks;
  Ok (List.concat cs).

(* -- slicing, spec.py 256-312 -- *)

(** spec.py 280-291: select repeats of scan numbers; kd maps str(s) to the list of its scans *)
Definition kd_step (acc : res (dict (list str))) (k : str) : res (dict (list str)) :=
  do kd <- acc;
  do p <- split_scan_number_string k;
  match p with
  | [n; w] =>
      if (w =? 0)%Z then Ok (dset (str_of_Z n) [k] kd)
      else do l <- of_opt KeyError (dget (str_of_Z n) kd);
           Ok (dset (str_of_Z n) (l ++ [k]) kd)
  | _ => Raise ValueError
  end.
Definition select_step (step : Z) (ks : list str) : res (list str) :=
  if (step <? 0)%Z then
    do kd <- fold_left kd_step ks (Ok []);
    mapM (fun l => index step l) (values kd)
  else
    do ps <- mapM split_scan_number_string ks;
    do ws <- mapM (index 1) ps;
    Ok (map snd (List.filter (fun wk => (fst wk =? step)%Z) (combine ws ks))).

Definition is_neg (o : option Z) : bool := match o with Some z => (z <? 0)%Z | None => false end.
Definition is_none {A} (o : option A) : bool := match o with Some _ => false | None => true end.
(** Python slice [l[start:stop]] with optional bounds *)
Definition pslice {A} (start stop : option Z) (l : list A) : list A :=
  slice (match start with Some z => z | None => 0%Z end)
        (match stop with Some z => z | None => len l end) l.

(** spec.py 258-295 with int bounds; [given.start or scanlist[0]]: 0 counts as not given *)
Definition bound (o : option Z) (default : res str) : res fl :=
  match o with
  | Some z => if (z =? 0)%Z then do d <- default; py_float d else Ok (fl_of_Z z)
  | None => do d <- default; py_float d
  end.
Definition get_slice (start stop step : option Z) (s : sdf) : res (list (option scan)) :=
  do scanlist <- getScanNumbersChronological s;
  do fstart <- bound start (index 0 scanlist);
  do fstop <- bound stop (index (-1) scanlist);
  do ks <-
    (if (is_none start && (is_none stop || is_neg stop))
        || (is_none stop && (is_none start || is_neg start))
        || (fl_ltb fstart (fl_of_Z 0) && fl_ltb fstop (fl_of_Z 0))
     then Ok (pslice start stop scanlist)
     else if fl_leb (fl_of_Z 0) fstart && fl_leb (fl_of_Z 0) fstop
     then do fs <- mapM py_float scanlist;
          Ok (map snd (List.filter (fun fk => fl_leb fstart (fst fk) && fl_ltb (fst fk) fstop)
                                   (combine fs scanlist)))
     else Raise IndexError);
  do ks <- match step with None => Ok ks | Some st => select_step st ks end;
  mapM (fun k => getScan (KStr k) s) ks.

(** spec.py 307-318: a plain index; [None] as an index is a TypeError *)
Definition get_plain (k : skey) (s : sdf) : res (option scan) :=
  do absolute <- match k with
                 | KStr _ => Ok true
                 | _ => do f <- key_float k; Ok (fl_leb (fl_of_Z 0) f)
                 end;
  if absolute then getScan k s
  else do l <- getScanNumbersChronological s;
       match k with
       | KInt z => do n <- index z l; getScan (KStr n) s
       | _ => Raise TypeError                            (* a float is no list index *)
       end.

(** spec.py 296-306: a tuple of indices and slices *)
Inductive gitem := GIdx (k : skey) | GSlice (start stop step : option Z).
Fixpoint get_tuple (items : list gitem) (s : sdf) : res (list (option scan)) :=
  match items with
  | [] => Ok []
  | it :: t =>
      do r <- match it with
              | GIdx k => do o <- get_plain k s;
                          match o with Some sc => Ok [Some sc] | None => Raise TypeError end
              | GSlice a b c => get_slice a b c s
              end;
      do rs <- get_tuple t s;
      Ok (r ++ rs)
  end.

(* ------------------------------------------------------------------ *)
(** * Reading *)

Section Read.
  Context (E : env) (known : list hid).

  (** [block.splitlines()[0]] (spec.py 454; spec_common.py 102, 275) *)
  Definition first_line (buf : str) : res str := index 0 (splitlines buf).

  (** spec_common.py 67-71 for the data file object *)
  Definition process_file (block : str) (s : sdf) : sdf :=
    match specFile s with
    | None | Some [] => set_specFile (Some (strip_first_word block)) s
    | Some _ => s
    end.

  (** spec_common.py 103-106 *)
  Definition parse_epoch (buf : str) : res num :=
    do l <- first_line buf;
    let line := strip l in
    match find_c 46%N line with
    | Some _ => rmap NF (py_float (strip_first_word line))
    | None => rmap NI (py_int (strip_first_word line))
    end.

  (** the object of the latest scan (spec.py 626-627) *)
  Definition latest (s : sdf) : option obj :=
    match rev (scans s) with [] => None | kv :: _ => Some (s_obj (snd kv)) end.

  (** spec_common.py 94-108 *)
  Definition process_epoch (buf : str) (s : sdf) : sdf * option exn :=
    if existsb (fun h => seqb (strip (h_raw h)) (strip buf)) (headers s) then (s, None)
    else match parse_epoch buf with
         | Raise e => (s, Some e)
         | Ok ep =>
             let '(w, r) := interpret_header E known buf
                              (mk_w false (upd A_epoch ep header_init) (latest s)) in
             (set_headers (headers s ++ [mk_header buf (me w)]) s,
              match r with Ok _ => None | Raise e => Some e end)
         end.

  (** spec_common.py 257-266 *)
  Definition beginning (buf : str) : str :=
    join [LF] (List.filter (prefixb (L "#")) (firstn 5 (splitlines (strip buf)))).

  (** spec_common.py 290-294: the lowest free name num.1, num.2, ... *)
  Definition dup_name (n : str) (i : nat) : str := n ++ 46%N :: str_of_nat i.
  Definition free_name (n : str) (s : sdf) : str :=
    match List.find (fun i => negb (has (dup_name n i) (scans s)))
                    (seq 1 (List.length (scans s))) with
    | Some i => dup_name n i
    | None => n
    end.

  (** [sdf.getScan(sdf.last_scan).raw] (spec_common.py 247, 270) *)
  Definition last_raw (k : skey) (s : sdf) : res str :=
    do o <- getScan k s;
    match o with Some sc => Ok (s_raw sc) | None => Raise AttributeError end.

  (** spec_common.py 274-298: name the new scan and store it *)
  Definition store_scan (part : str) (hdr : nat) (s : sdf) : sdf * option exn :=
    match first_line part with
    | Raise e => (s, Some e)
    | Ok l =>
        let S := strip_first_word (strip l) in
        match index 0 (words S) with
        | Raise e => (s, Some e)
        | Ok n =>
            let n := if has n (scans s) then free_name n s else n in
            if has n (scans s) then (s, Some DuplicateSpecScanNumber)
            else
              let sc := mk_scan part S n (strip_first_word S) hdr (scan_init (fileName s)) true false in
              (set_scans (dset n sc (scans s)) s, None)
        end
    end.

  (** spec_common.py 233-298 *)
  Definition process_scan (part : str) (s : sdf) : sdf * option exn :=
    (* 234-240 *)
    let s := match headers s with
             | [] => set_headers [mk_header [] header_init] s
             | _ => s
             end in
    let hdr := List.length (headers s) - 1 in
    (* 242-248 *)
    let matches := existsb (fun kv => seqb (strip (s_raw (snd kv))) (strip part)) (scans s) in
    match last_scan s with
    | None => store_scan part hdr s
    | Some k =>
        match (if matches then do r <- last_raw k s; Ok (negb (seqb r part)) else Ok false) with
        | Raise e => (s, Some e)
        | Ok true => (s, None)
        | Ok false =>
            (* 250-272 *)
            match last_raw k s with
            | Raise e => (s, Some e)
            | Ok r =>
                if seqb (beginning part) (beginning r) then
                  match k with
                  | KStr n =>
                      if has n (scans s) then
                        store_scan part hdr (set_last None (set_scans (ddel n (scans s)) s))
                      else (s, Some KeyError)
                  | _ => (s, Some KeyError)
                  end
                else store_scan part hdr s
            end
        end
    end.

  (** spec.py 461-467: the #D line of a scan; IndexError for a line of white space before it *)
  Fixpoint find_D (lines : list str) : res (option str) :=
    match lines with
    | [] => Ok None
    | l :: t =>
        match l with
        | [] => find_D t
        | _ => do k <- index 0 (words l);
               if seqb k (L "#D") then Ok (Some l) else find_D t
        end
    end.

  (** run a handler on a scan of the file: its header is the peer *)
  Definition run_on_scan (m : M unit) (name : str) (sc : scan) (s : sdf) : sdf * scan * option exn :=
    let '(w, r) := m (mk_w true (s_obj sc) (option_map h_obj (nth_error (headers s) (s_hdr sc)))) in
    let sc' := with_obj (me w) sc in
    let hs := match peer w, nth_error (headers s) (s_hdr sc) with
              | Some p, Some h => set_nth (s_hdr sc) (mk_header (h_raw h) p) (headers s)
              | _, _ => headers s
              end in
    (set_headers hs (set_scans (dset name sc' (scans s)) s), sc',
     match r with Ok _ => None | Raise e => Some e end).

  (** spec.py 459-467 *)
  Definition date_scan (s : sdf) : sdf * option exn :=
    match rev (scans s) with
    | [] => (s, Some IndexError)
    | (name, sc) :: _ =>
        match find_D (tl (splitlines (s_raw sc))) with
        | Raise e => (s, Some e)
        | Ok None => (s, None)
        | Ok (Some l) => let '(s', _, r) := run_on_scan (process_D E l) name sc s in (s', r)
        end
    end.

  (** spec.py 450-467: one section *)
  Definition read_block (block : str) (s : sdf) : sdf * option exn :=
    match block with
    | [] => (s, None)
    | _ =>
        match (do l <- first_line block; get_control_key known l) with
        | Raise e => (s, Some e)
        | Ok None => (s, Some AttributeError)              (* None.startswith *)
        | Ok (Some h) =>
            if negb (prefixb (L "#") (key_of h)) then (s, None)
            else match h with
                 | H_F => (process_file block s, None)
                 | H_E => process_epoch block s
                 | H_S => match process_scan block s with
                          | (s', Some e) => (s', Some e)
                          | (s', None) => date_scan s'
                          end
                 | _ => (s, Some NotModelled)              (* cannot start a section *)
                 end
        end
    end.
  Fixpoint read_blocks (blocks : list str) (s : sdf) : sdf * option exn :=
    match blocks with
    | [] => (s, None)
    | b :: t => match read_block b s with
                | (s', None) => read_blocks t s'
                | (s', Some e) => (s', Some e)
                end
    end.

  (** os.path.getsize, getmtime (spec.py 473-474, 335-336) *)
  Definition stat (p : path) : res (Z * Z) :=
    match p with
    | Absent => Raise FileNotFoundError
    | NotFile => Raise NotModelled
    | File _ m z => Ok (m, z)
    end.

  (** spec.py 446-474 *)
  Definition read (p : path) (s : sdf) : sdf * option exn :=
    match dissect p with
    | Raise e => (s, Some e)
    | Ok sections =>
        match read_blocks sections s with
        | (s, Some e) => (s, Some e)
        | (s, None) =>
            let s := match specFile s with
                     | None => set_specFile (Some (fileName s)) s
                     | Some _ => s
                     end in
            match getLastScanNumber s with
            | Raise e => (s, Some e)
            | Ok k =>
                let s := set_last (Some k) s in
                match stat p with
                | Raise e => (s, Some e)
                | Ok (m, z) => (set_stat m z s, None)
                end
            end
        end
    end.

  (** spec.py 235-251: SpecDataFile(filename) *)
  Definition open_file (name : str) (p : path) : res sdf :=
    if negb (exists_p p) then Raise SpecDataFileNotFound
    else if negb (is_spec_file p) then Raise NotASpecDataFile
    else match read p (sdf_init name) with
         | (s, None) => Ok s
         | (_, Some e) => Raise e
         end.

  (** spec.py 317-346 *)
  Definition update_available (p : path) (s : sdf) : res bool :=
    do (m, z) <- stat p;
    Ok (negb ((sd_mtime s =? m)%Z && (sd_size s =? z)%Z)).

  (** spec.py 348-373: the new state and the returned value *)
  Definition refresh (p : path) (s : sdf) : sdf * res (option skey) :=
    match update_available p s with
    | Raise e => (s, Raise e)
    | Ok false => (s, Ok None)
    | Ok true =>
        let previous := last_scan s in
        match read p s with
        | (s', None) => (s', Ok previous)
        | (s', Some e) => (s', Raise e)
        end
    end.

  (* ---------------------------------------------------------------- *)
  (** * Interpretation on demand *)

  (** spec.py 711-739: interpret() of the scan stored under [name] *)
  Definition interpret (name : str) (s : sdf) : sdf * option exn :=
    match dget name (scans s) with
    | None => (s, Some KeyError)
    | Some sc =>
        if s_done sc then (s, None)
        else
          let sc := with_flags false (s_done sc) sc in
          match run_on_scan (interpret_scan E known (s_raw sc)) name sc s with
          | (s', sc', Some e) => (s', Some e)
          | (s', sc', None) =>
              (set_scans (dset name (with_flags false true sc') (scans s')) s', None)
          end
    end.

  (** plugin_core.py 91-93: the lazy attributes (union over the handlers) *)
  Definition lazy_attributes : list str :=
    fold_left (fun l h => fold_left add_lazy (attrs_of h) l) known [].

  (** spec.py 697-703: reading the attribute called [nm], held in field [a] of the object *)
  Definition get_attr (nm : str) (a : attr) (name : str) (s : sdf) : sdf * res (ty a) :=
    match dget name (scans s) with
    | None => (s, Raise KeyError)
    | Some sc =>
        match (if mem nm lazy_attributes && s_lazy sc then interpret name s else (s, None)) with
        | (s', Some e) => (s', Raise e)
        | (s', None) =>
            match dget name (scans s') with
            | None => (s', Raise KeyError)
            | Some sc' => (s', of_opt AttributeError (s_obj sc' a))
            end
        end
    end.

  (** spec.py 705-709 *)
  Definition get_macro_name (sc : scan) : res str := index 0 (words (s_cmd sc)).
End Read.
