(** /repo/spec2nexus/plugins/*.py: what the supplied handlers do to header and scan objects,
    and the [interpret] loops of /repo/spec2nexus/spec.py. *)
From Coq Require Import String.
From Verif Require Import Py Time Utils Keys Scanf GeomData Geom.
Import ListNotations.
Local Open Scope list_scope.

(* ------------------------------------------------------------------ *)
(** * Objects *)

(** attributes of SpecDataFileHeader (spec.py 562-576) and SpecDataFileScan (spec.py 648-692)
    objects that the handlers read or write.  [raw], [S], [scanNum], [scanCmd], [header],
    [parent] are never written by a handler and are kept in Reader.v. *)
Inductive attr :=
| A_comments | A_aborted | A_date | A_epoch | A_H | A_O | A_posts | A_h5 | A_specFile
| A_R | A_U | A_J | A_j | A_o | A_counter_xref | A_positioner_xref | A_unrec
| A_VA | A_VD | A_VE | A_XPCS | A_CCD | A_MD | A_UIM | A_UXML | A_UXML_root
| A_data | A_data_lines | A_G | A_L | A_M | A_monitor_name | A_T | A_time_name
| A_positioner | A_N | A_P | A_Q | A_icomments | A_V | A_column_first | A_column_last
| A_I | A_TEMP_SP | A_DEGC_SP | A_MCA | A_metadata | A_diffractometer.

(** spec_common.py 1585-1637: a column of [scan.data], or the MCA spectra *)
Inductive col := Col (values : list fl) | Mca (spectra : dict (list (list num))).
(** spec_common.py 1301-1311, 1356-1363, 1419-1426, 1485-1492: values of [scan.MCA] *)
Inductive mcaval := MNum (n : num) | MCalib (d : dict num) | MRoi (d : dict (Z * Z)).
(** unicat.py 122-126: values of [scan.metadata] *)
Inductive mdval := MdF (f : fl) | MdS (s : str).
(** the postprocess functions: spec_common.py 328, 524-530, 576-582, 779-785, 849-851, 1175-1178,
    1260-1263; unicat.py 92-94; uxml.py 75-77 *)
Inductive pp := PP_geo | PP_counter (h : hid) | PP_posx | PP_motor | PP_data | PP_unicat | PP_uxml.

(** uxml.py 77-109: the nodes below the root of a tree that uxml.xsd accepts.  Of an element the attributes that the
    writer looks at are separate; [at_] are the others, in their order.  [text] is lxml's text (None if there is none).
    A comment or processing instruction is a node as well. *)
Inductive xnode :=
| XComment
| XData (name : str) (typ uid : option str) (at_ : list (str * str)) (text : option str)
| XGroup (name cls : str) (uid : option str) (at_ : list (str * str)) (body : list xnode)
| XLink (name target_id : str).
(** uxml.xsd 36, 53, 73: an NCName has no slash, colon or blank and does not begin with a point or minus sign (the
    other conditions are left out, so that more names pass than do in the code) *)
Definition ncname (s : str) : bool :=
  match s with
  | [] => false
  | c :: _ => negb ((c =? 46)%N || (c =? 45)%N) && forallb (fun c => negb ((c =? 47)%N || (c =? 58)%N || (c =? 32)%N)) s
  end.
(** uxml.xsd 38-45 and 54-67: the other attributes that are allowed *)
Definition data_attrs : list str := map L ["array_port"; "input_port"; "number"; "stats_prefix"; "units"; "value_description"]%string.
Definition group_attrs : list str :=
  map L ["_exists_"; "array_port"; "description"; "input_port"; "number"; "prefix"; "pv_prefix"; "roi_prefix"]%string.
(** uxml.py 96-107: the conditions of the schema that matter for the writer (of the others the parser is free to say
    that they do not hold) *)
Fixpoint xvalid (x : xnode) : bool :=
  match x with
  | XComment => true
  | XData n _ _ l _ => ncname n && forallb (fun kv => mem (fst kv) data_attrs) l
  | XGroup n _ _ l b => ncname n && forallb (fun kv => mem (fst kv) group_attrs) l && forallb xvalid b
  | XLink n _ => ncname n
  end.

Definition ty (a : attr) : Type :=
  match a with
  | A_comments | A_R | A_U | A_unrec | A_UIM | A_UXML | A_data_lines | A_L | A_icomments => list str
  | A_aborted | A_date | A_specFile | A_M | A_monitor_name | A_T | A_time_name
  | A_column_first | A_column_last => str
  | A_UXML_root => list xnode
  | A_epoch => num
  | A_H | A_O | A_J | A_j | A_o | A_P | A_V => list (list str)
  | A_posts => dict pp
  | A_h5 => dict hid
  | A_counter_xref | A_positioner_xref | A_VA | A_VD | A_VE | A_MD | A_G => dict str
  | A_XPCS | A_CCD => dict (list str)
  | A_data => dict col
  | A_positioner => dict fl
  | A_N => option (list Z)           (* None: the initial value -1 *)
  | A_Q => option (list fl)          (* None: the initial value "" *)
  | A_I | A_TEMP_SP | A_DEGC_SP => fl
  | A_MCA => dict mcaval
  | A_metadata => dict mdval
  | A_diffractometer => diffr
  end.

Definition attr_eq_dec (a b : attr) : {a = b} + {a <> b}.
Proof. decide equality. Defined.

(** a Python object: each attribute has a value or is missing (AttributeError) *)
Definition obj := forall a : attr, option (ty a).
Definition upd (a : attr) (v : ty a) (o : obj) : obj :=
  fun b => match attr_eq_dec a b with
           | left e => match e in _ = b return option (ty b) with eq_refl => Some v end
           | right _ => o b
           end.
Definition empty_obj : obj := fun _ => None.

(** spec.py 562-576 *)
Definition header_init : obj :=
  upd A_comments [] (upd A_date [] (upd A_epoch (NI 0) (upd A_H [] (upd A_O []
  (upd A_posts [] (upd A_h5 [] empty_obj)))))).

(** spec.py 648-692 (always called with the data file as [parent], spec_common.py 250) *)
Definition scan_init (fileName : str) : obj :=
  upd A_comments [] (upd A_data [] (upd A_data_lines [] (upd A_date [] (upd A_G []
  (upd A_L [] (upd A_M [] (upd A_positioner [] (upd A_N None (upd A_P []
  (upd A_Q None (upd A_icomments [] (upd A_specFile fileName (upd A_T [] (upd A_V []
  (upd A_column_first [] (upd A_column_last [] (upd A_posts [] (upd A_h5 []
  empty_obj)))))))))))))))))).

(** What a handler can reach: the object itself, whether it is a scan, and the object it refers to:
    for a scan its header, for a header the latest scan of the file (None if there is none yet). *)
Record world := mk_w { is_scan : bool; me : obj; peer : option obj }.

(** library functions that depend on the time zone or on lxml *)
Record env := mk_env {
  mktime : tm -> res num;             (* spec_common.py 141: time.mktime *)
  fromtimestamp : fl -> res str;      (* 133-134, 152-153: datetime.fromtimestamp(x), as "%c" *)
  uxml_parse : str -> res (list xnode) }.   (* uxml.py 92: etree.fromstring; the nodes below the root *)

(* ------------------------------------------------------------------ *)
(** * A state and exception monad *)

Definition M (A : Type) := world -> world * res A.
Definition ret {A} (a : A) : M A := fun w => (w, Ok a).
Definition raise {A} (e : exn) : M A := fun w => (w, Raise e).
Definition lift {A} (r : res A) : M A := fun w => (w, r).
Definition mbind {A B} (m : M A) (k : A -> M B) : M B := fun w =>
  match m w with
  | (w', Ok a) => k a w'
  | (w', Raise e) => (w', Raise e)
  end.
Notation "'let!' x := m 'in' k" := (mbind m (fun x => k))
  (at level 200, x pattern, m at level 100, k at level 200, right associativity).
Notation "m ;; k" := (mbind m (fun _ => k)) (at level 199, right associativity).

(** attribute access *)
Definition getA (a : attr) : M (ty a) := fun w =>
  (w, match me w a with Some v => Ok v | None => Raise AttributeError end).
Definition setA (a : attr) (v : ty a) : M unit := fun w =>
  (mk_w (is_scan w) (upd a v (me w)) (peer w), Ok tt).
Definition hasA (a : attr) : M bool := fun w =>
  (w, Ok (match me w a with Some _ => true | None => false end)).
(** [self.header.a]: only scans have a header *)
Definition getP (a : attr) : M (ty a) := fun w =>
  (w, match peer w with
      | Some p => if is_scan w then match p a with Some v => Ok v | None => Raise AttributeError end
                  else Raise AttributeError
      | None => Raise AttributeError
      end).
Definition setP (a : attr) (v : ty a) : M unit := fun w =>
  match peer w with
  | Some p => if is_scan w then (mk_w (is_scan w) (me w) (Some (upd a v p)), Ok tt)
              else (w, Raise AttributeError)
  | None => (w, Raise AttributeError)
  end.
Definition askScan : M bool := fun w => (w, Ok (is_scan w)).
Fixpoint iterM {A} (f : A -> M unit) (l : list A) : M unit :=
  match l with
  | [] => ret tt
  | x :: t => f x ;; iterM f t
  end.
(** [if not hasattr(obj, a): obj.a = init] *)
Definition ensure (a : attr) (init : ty a) : M unit :=
  let! b := hasA a in if b then ret tt else setA a init.

(** spec.py 757-779, 602-624 *)
Definition addPost (label : string) (f : pp) : M unit :=
  let! d := getA A_posts in setA A_posts (dadd (L label) f d).
Definition addH5 (label : str) (h : hid) : M unit :=
  let! d := getA A_h5 in setA A_h5 (dadd label h d).
Definition whenScan (m : M unit) : M unit := let! b := askScan in if b then m else ret tt.
Definition whenHeader (m : M unit) : M unit := let! b := askScan in if b then ret tt else m.

Section WithEnv.
  Context (E : env).

(* ------------------------------------------------------------------ *)
(** * spec_common.py: process *)

(** 67-71 (on a header or scan object) *)
Definition process_F (text : str) : M unit :=
  let! b := hasA A_specFile in
  if b then let! f := getA A_specFile in
            match f with [] => setA A_specFile (strip_first_word text) | _ => ret tt end
  else setA A_specFile (strip_first_word text).

(** 151-154: the warning formats both epochs *)
Definition check_ts (n : num) : M unit :=
  let! _ := lift (fromtimestamp E (fl_of_num n)) in ret tt.

(** 128-154 *)
Definition process_D (text : str) : M unit :=
  let text := strip_first_word text in
  let! text := (match split_c SP text with
                | [_] => let! f := lift (py_float text) in
                         let! z := lift (int_of_fl f) in
                         setA A_epoch (NI z) ;; lift (fromtimestamp E f)
                | _ => ret text
                end) in
  setA A_date text ;;
  let! b := hasA A_epoch in
  (if b then ret tt
   else let! ts := lift (strptime text) in
        let! e := lift (mktime E ts) in setA A_epoch e) ;;
  whenScan (
    addH5 (key_of H_D) H_D ;;
    let! hd := getP A_date in
    match strip hd with
    | [] => setP A_date text ;; let! e := getA A_epoch in setP A_epoch e
    | _ => let! he := getP A_epoch in
           let! se := getA A_epoch in
           let! hz := lift (int_of_num he) in
           let! sz := lift (int_of_num se) in
           if (hz =? sz)%Z then check_ts he ;; check_ts se else ret tt
    end).

(** 183-189 *)
Definition process_C (text : str) : M unit :=
  let! c := getA A_comments in
  setA A_comments (c ++ [strip_first_word text]) ;;
  (match find (L "Scan aborted after ") text with
   | Some (S n) => setA A_aborted (skipn (S n) text)
   | _ => ret tt
   end) ;;
  whenScan (addH5 (key_of H_C) H_C).

(** [text.split()[0]] (326, 739; XPCS.py 26, 50, 75) *)
Definition first_word (text : str) : res str := index 0 (words text).

(** 325-328 *)
Definition process_G (text : str) : M unit :=
  let! w := lift (first_word text) in
  let! g := getA A_G in
  setA A_G (dset (lstrip_by (is_c 35%N) w) (strip_first_word text) g) ;;
  addPost "diffractometer geometry" PP_geo.

(** 491-492 *)
Definition process_I (text : str) : M unit :=
  let! f := lift (py_float (strip_first_word text)) in setA A_I f.

(** 520-526 *)
Definition process_J (text : str) : M unit :=
  ensure A_J [] ;;
  let! j := getA A_J in
  setA A_J (j ++ [words (strip_first_word text)]) ;;
  addPost "counter cross-referencing" (PP_counter H_J).
(** 572-578 *)
Definition process_j (text : str) : M unit :=
  ensure A_j [] ;;
  let! j := getA A_j in
  setA A_j (j ++ [words (strip_first_word text)]) ;;
  addPost "counter cross-referencing" (PP_counter H_j).

(** [scan.N[0]]: the initial value -1 cannot be indexed *)
Definition N0 (n : option (list Z)) : res Z :=
  match n with
  | None => Raise TypeError
  | Some l => index 0 l
  end.

(** 636-649 *)
Definition process_L (text : str) : M unit :=
  let ls := split_column_labels (strip_first_word text) in
  setA A_L ls ;;
  let! b := hasA A_N in
  (if (List.length ls =? 1)%nat && b then
     let! n := getA A_N in
     let! n0 := lift (N0 n) in
     if (1 <? n0)%Z then
       let labels := words (strip_first_word text) in
       if (len labels =? n0)%Z then setA A_L labels else ret tt
     else ret tt
   else ret tt) ;;
  let! ls := getA A_L in
  let! f := lift (index 0 ls) in
  setA A_column_first f ;;
  let! l := lift (index (-1) ls) in
  setA A_column_last l.

(** 672-678, 995-1001: value and name of #M and #T lines *)
Definition value_name (text : str) : str * str :=
  let text := strip_first_word text in
  let pos := pos_of (find_c SP text) in
  (slice_to pos text,
   rstrip_by (is_c 41%N) (lstrip_by (is_c 40%N) (strip (slice_from pos text)))).
Definition process_M (text : str) : M unit :=
  let '(v, n) := value_name text in
  setA A_M v ;; setA A_monitor_name n ;; addH5 (key_of H_M) H_M.
Definition process_T (text : str) : M unit :=
  let '(v, n) := value_name text in
  setA A_T v ;; setA A_time_name n ;; addH5 (key_of H_T) H_T.

(** 707-708 *)
Definition process_N (text : str) : M unit :=
  let! l := lift (mapM py_int (words (strip_first_word text))) in setA A_N (Some l).

(** 736-747: for a scan the names are stored in its header *)
Definition process_O (text : str) : M unit :=
  let! sc := askScan in
  let! key := lift (first_word text) in
  let content := strip (strip_first_word text) in
  let content := match content with [] => [] | _ => split_column_labels content end in
  if sc then
    (if seqb key (L "#O0") then setP A_O [] else ret tt) ;;
    let! o := getP A_O in setP A_O (o ++ [content])
  else
    (if seqb key (L "#O0") then setA A_O [] else ret tt) ;;
    let! o := getA A_O in setA A_O (o ++ [content]).

(** 770-781 *)
Definition process_o (text : str) : M unit :=
  ensure A_o [] ;;
  let content := words (strip (strip_first_word text)) in
  let! o := getA A_o in
  setA A_o (o ++ [content]) ;;
  addPost "positioner cross-referencing" PP_posx.

(** 840-849.  In a header block the line goes to the latest scan of the file:
    IndexError if there is none (spec.py 627); otherwise that scan would be interpreted first,
    which is not modelled. *)
Definition process_P (text : str) : M unit :=
  let! sc := askScan in
  if sc then
    let! p := getA A_P in
    setA A_P (p ++ [words (strip_first_word text)]) ;;
    addPost "motor_positions" PP_motor
  else fun w => (w, Raise (match peer w with None => IndexError | Some _ => NotModelled end)).

(** 917-921 *)
Definition process_Q (text : str) : M unit :=
  match strip_first_word text with
  | [] => ret tt
  | s => let! q := lift (mapM py_float (words s)) in
         setA A_Q (Some q) ;; addH5 (key_of H_Q) H_Q
  end.

(** 950-956 *)
Definition process_R (text : str) : M unit :=
  ensure A_R [] ;;
  let! r := getA A_R in
  setA A_R (r ++ [strip (strip_first_word text)]) ;; addH5 (key_of H_R) H_R.
(** 1033-1039 *)
Definition process_U (text : str) : M unit :=
  ensure A_U [] ;;
  let! r := getA A_U in
  setA A_U (r ++ [strip (strip_first_word text)]) ;; addH5 (key_of H_U) H_U.

(** 1090-1107: the first format that matches *)
Definition X_formats : list str :=
  map L ["#X %fKohm (%fC)"; "#X %f %f"; "#X Control: %fK  Sample: %fK"]%string.
Fixpoint process_X_fmts (fmts : list str) (text : str) : M unit :=
  match fmts with
  | [] => ret tt
  | f :: t =>
      let! r := lift (snd (scanf [] f text)) in
      match r with
      | Some [VFloat a; VFloat b] =>
          setA A_TEMP_SP a ;; setA A_DEGC_SP b ;; addH5 (key_of H_X) H_X
      | Some _ => raise ValueError
      | None => process_X_fmts t text
      end
  end.
Definition process_X (text : str) : M unit := process_X_fmts X_formats text.

(** 1170-1175, 1257-1260 *)
Definition process_data (text : str) : M unit :=
  let! d := getA A_data_lines in
  setA A_data_lines (d ++ [text]) ;; addPost "scan_data" PP_data.

(** 1294-1309 *)
Definition process_CALIB (text : str) : M unit :=
  let s := words (strip_first_word text) in
  let! v := lift (mapM py_float (firstn 3 s)) in
  match v with
  | [a; b; c] =>
      ensure A_MCA [] ;;
      let! m := getA A_MCA in
      let d := match dget (L "CALIB") m with Some (MCalib d) => d | _ => [] end in
      setA A_MCA (dset (L "CALIB") (MCalib (dset (L "c") (NF c) (dset (L "b") (NF b) (dset (L "a") (NF a) d)))) m) ;;
      addH5 (key_of H_CALIB) H_CALIB
  | _ => raise ValueError
  end.

(** 1350-1363 *)
Definition process_CHANN (text : str) : M unit :=
  let s := words (strip_first_word text) in
  let! v := lift (mapM py_int (firstn 3 s)) in
  match v with
  | [a; b; c] =>
      let! lst := lift (index (-1) s) in
      let! r := lift (py_float lst) in
      ensure A_MCA [] ;;
      let! m := getA A_MCA in
      setA A_MCA (dset (L "reduction_coef") (MNum (NF r)) (dset (L "last_saved") (MNum (NI c))
                 (dset (L "first_saved") (MNum (NI b)) (dset (L "number_saved") (MNum (NI a)) m)))) ;;
      addH5 (key_of H_CHANN) H_CHANN
  | _ => raise ValueError
  end.

(** 1413-1426 *)
Definition process_CTIME (text : str) : M unit :=
  let s := words (strip_first_word text) in
  let! v := lift (mapM py_float s) in
  match v with
  | [a; b; c] =>
      ensure A_MCA [] ;;
      let! m := getA A_MCA in
      setA A_MCA (dset (L "elapsed_real_time") (MNum (NF c)) (dset (L "elapsed_live_time") (MNum (NF b))
                 (dset (L "preset_time") (MNum (NF a)) m))) ;;
      addH5 (key_of H_CTIME) H_CTIME
  | _ => raise ValueError
  end.

(** 1474-1492: no writer is added *)
Definition process_ROI (text : str) : M unit :=
  let text := strip_first_word text in
  let pos := pos_of (rfind_c SP text) in
  let! last_chan := lift (py_int (slice_from pos text)) in
  let text := slice_to pos text in
  let pos := pos_of (rfind_c SP text) in
  let! first_chan := lift (py_int (slice_from pos text)) in
  let name := strip (slice_to pos text) in
  ensure A_MCA [] ;;
  let! m := getA A_MCA in
  let d := match dget (L "ROI") m with Some (MRoi d) => d | _ => [] end in
  setA A_MCA (dset (L "ROI") (MRoi (dset name (first_chan, last_chan) d)) m).

(* ------------------------------------------------------------------ *)
(** * The other plugin files: process *)

(** XPCS.py 25-31, 49-56, 74-81 *)
Definition process_VA (text : str) : M unit :=
  let! w := lift (first_word text) in
  ensure A_VA [] ;;
  let! d := getA A_VA in
  setA A_VA (dset (lstrip_by (is_c 35%N) w) (strip_first_word text) d) ;;
  whenHeader (addH5 (key_of H_VA) H_VA).
Definition process_VD (text : str) : M unit :=
  let! w := lift (first_word text) in
  ensure A_VD [] ;;
  let! d := getA A_VD in
  setA A_VD (dset (lstrip_by (is_c 35%N) w) (strip_first_word text) d) ;;
  whenHeader (addH5 (key_of H_VD) H_VD).
Definition process_VE (text : str) : M unit :=
  let! w := lift (first_word text) in
  ensure A_VE [] ;;
  let! d := getA A_VE in
  setA A_VE (dset (lstrip_by (is_c 35%N) w) (strip_first_word text) d) ;;
  whenHeader (addH5 (key_of H_VE) H_VE).
(** XPCS.py 99-105 *)
Definition process_XPCS (text : str) : M unit :=
  ensure A_XPCS [] ;;
  let ws := words (strip_first_word text) in
  let! k := lift (index 0 ws) in
  let! d := getA A_XPCS in
  setA A_XPCS (dset k (skipn 1 ws) d) ;; whenScan (addH5 (key_of H_XPCS) H_XPCS).
(** XPCS.py 117-123 *)
Definition process_CCD (text : str) : M unit :=
  ensure A_CCD [] ;;
  let ws := words (strip_first_word text) in
  let! k := lift (index 0 ws) in
  let! d := getA A_CCD in
  setA A_CCD (dset k (skipn 1 ws) d) ;; whenScan (addH5 (key_of H_CCD) H_CCD).

(** apstools_specwriter.py 33-48 *)
Definition process_MD (text : str) : M unit :=
  ensure A_MD [] ;;
  let! d := getA A_MD in
  let p := pos_of (find_c 61%N text) in
  let! kv := (if (5 <? p)%Z then
                let! k := lift (index 1 (words text)) in
                ret (k, strip (slice_from (p + 1) text))
              else ret (L "MD_line_" ++ str_of_nat (List.length d + 1), strip text)) in
  setA A_MD (dset (fst kv) (snd kv) d) ;;
  addH5 (key_of H_MD) H_MD.

(** fallback.py 20-26 *)
Definition process_unrec (text : str) : M unit :=
  ensure A_unrec [] ;;
  let! u := getA A_unrec in
  setA A_unrec (u ++ [text]) ;; addH5 (key_of H_unrec) H_unrec.

(** uim.py 44-48 *)
Definition process_UIM (text : str) : M unit :=
  ensure A_UIM [] ;;
  let! u := getA A_UIM in setA A_UIM (u ++ [text]).

(** unicat.py 45-48: a scan has no attribute H *)
Definition process_H (text : str) : M unit :=
  let labels := split_2sp (strip_first_word text) in
  let! h := getA A_H in setA A_H (h ++ [labels]).

(** unicat.py 83-92: values separated by two blanks, else by one *)
Definition process_V (text : str) : M unit :=
  let! v := getA A_V in
  let row := strip_first_word text in
  let! h := getP A_H in
  let! hr := lift (index (len v) h) in
  let v2 := split_sub [SP; SP] row in
  let values := if (List.length hr =? List.length v2)%nat then v2 else split_c SP row in
  setA A_V (v ++ [values]) ;;
  addPost "unicat_metadata" PP_unicat.

(** uxml.py 68-75 *)
Definition process_UXML (text : str) : M unit :=
  ensure A_UXML [] ;;
  let! u := getA A_UXML in
  setA A_UXML (u ++ [strip_first_word text]) ;; addPost "UXML_metadata" PP_uxml.

(** control_lines.py 80-84: the handler's process method.  For #E and #S (94-95, 233-234) the object
    has no [headers]. *)
Definition process (h : hid) (text : str) : M unit :=
  match h with
  | H_F => process_F text | H_E => raise AttributeError | H_S => raise AttributeError
  | H_D => process_D text | H_C => process_C text
  | H_G => process_G text | H_I => process_I text | H_J => process_J text | H_j => process_j text
  | H_L => process_L text | H_M => process_M text | H_N => process_N text | H_O => process_O text
  | H_o => process_o text | H_P => process_P text | H_Q => process_Q text | H_R => process_R text
  | H_T => process_T text | H_U => process_U text | H_X => process_X text
  | H_data => process_data text | H_atMCA => ret tt (* 1215-1218 *) | H_atA => process_data text
  | H_CALIB => process_CALIB text | H_CHANN => process_CHANN text | H_CTIME => process_CTIME text
  | H_ROI => process_ROI text
  | H_VA => process_VA text | H_VD => process_VD text | H_VE => process_VE text
  | H_XPCS => process_XPCS text | H_CCD => process_CCD text | H_MD => process_MD text
  | H_unrec => process_unrec text | H_UIM => process_UIM text | H_H => process_H text
  | H_V => process_V text | H_UXML => process_UXML text
  end.

(* ------------------------------------------------------------------ *)
(** * postprocess *)

(** spec_common.py 330-341 *)
Definition post_geo : M unit :=
  let! g := getA A_G in
  (match g with [] => ret tt | _ => addH5 (L "diffractometer geometry") H_G end) ;;
  let! c := getP A_comments in
  let! p := getA A_positioner in
  fun w =>
    let gi := mk_gin c (match peer w with Some h => h A_o | None => None end)
                       (match peer w with Some h => h A_O | None => None end) p g in
    (let! d := lift (diffr_of catalog gi) in setA A_diffractometer d) w.

(** spec_common.py 607-611, 812-816: pair the rows and columns of two tables *)
Definition xref_row (name_row : list str) (mnes : list str) (x : dict str) : dict str * res unit :=
  fold_left (fun acc im =>
               match acc with
               | (x, Ok _) => match index (Z.of_nat (fst im)) name_row with
                              | Ok nm => (dset (snd im) nm x, Ok tt)
                              | Raise e => (x, Raise e)
                              end
               | _ => acc
               end) (combine (seq 0 (List.length mnes)) mnes) (x, Ok tt).
Definition xref_table (names mnes : list (list str)) (x : dict str) : dict str * res unit :=
  fold_left (fun acc im =>
               match acc with
               | (x, Ok _) => match index (Z.of_nat (fst im)) names with
                              | Ok row => xref_row row (snd im) x
                              | Raise e => (x, Raise e)
                              end
               | _ => acc
               end) (combine (seq 0 (List.length mnes)) mnes) (x, Ok tt).

(** spec_common.py 603-611, 528-530, 580-582 *)
Definition post_counter (h : hid) : M unit :=
  let! b1 := hasA A_j in
  let! b2 := hasA A_J in
  (if b1 && b2 then
     ensure A_counter_xref [] ;;
     let! mnes := getA A_j in
     let! names := getA A_J in
     let! x := getA A_counter_xref in
     let '(x', r) := xref_table names mnes x in
     setA A_counter_xref x' ;; lift r
   else ret tt) ;;
  addH5 (L "counter cross-referencing") h.

(** spec_common.py 808-816, 783-785 *)
Definition post_posx : M unit :=
  let! b1 := hasA A_o in
  let! b2 := hasA A_O in
  (if b1 && b2 then
     ensure A_positioner_xref [] ;;
     let! mnes := getA A_o in
     let! names := getA A_O in
     let! x := getA A_positioner_xref in
     let '(x', r) := xref_table names mnes x in
     setA A_positioner_xref x' ;; lift r
   else ret tt) ;;
  addH5 (L "positioner cross-referencing") H_o.

(** spec.py 741-747 *)
Definition add_icomment (c : str) : M unit :=
  let! l := getA A_icomments in setA A_icomments (l ++ [c]).

(** spec_common.py 860-863 and 866-870 *)
Definition msg_row (row : nat) : str :=
  L "#P" ++ str_of_nat row ++ L " found without #O" ++ str_of_nat row.
Definition msg_col (row column : nat) : str :=
  L "extra value in #P" ++ str_of_nat row ++ L " position " ++ str_of_nat (column + 1)
  ++ L ", no matching label in #O" ++ str_of_nat row.

(** spec_common.py 864-873 *)
Definition motor_cell (row : nat) (labels : list str) (cv : nat * str) : M unit :=
  match nth_error labels (fst cv) with
  | None => add_icomment (msg_col row (fst cv))
  | Some mne =>
      let! f := lift (py_float (snd cv)) in
      let! p := getA A_positioner in
      setA A_positioner (dset mne f p)
  end.
(** spec_common.py 858-873 *)
Definition motor_row (rv : nat * list str) : M unit :=
  let! o := getP A_O in
  match nth_error o (fst rv) with
  | None => add_icomment (msg_row (fst rv))
  | Some labels =>
      iterM (motor_cell (fst rv) labels) (combine (seq 0 (List.length (snd rv))) (snd rv))
  end.
(** spec_common.py 851-875 *)
Definition post_motor : M unit :=
  setA A_positioner [] ;;
  let! p := getA A_P in
  iterM motor_row (combine (seq 0 (List.length p)) p) ;;
  let! pos := getA A_positioner in
  match pos with [] => ret tt | _ => addH5 (key_of H_P) H_P end.

(** unicat.py 113-126; [scanNum] is a str, so formatting the message with %d gives TypeError *)
Definition unicat_cell (labels : list str) (cv : nat * str) : M unit :=
  match nth_error labels (fst cv) with
  | None => raise TypeError
  | Some label =>
      let v := match py_float (snd cv) with Ok f => MdF f | Raise _ => MdS (snd cv) end in
      let! m := getA A_metadata in setA A_metadata (dset label v m)
  end.
(** unicat.py 105-126 *)
Definition unicat_row (rv : nat * list str) : M unit :=
  let! h := getP A_H in
  match nth_error h (fst rv) with
  | None => raise TypeError
  | Some labels => iterM (unicat_cell labels) (combine (seq 0 (List.length (snd rv))) (snd rv))
  end.
(** unicat.py 94-127; a header always has the attribute H *)
Definition post_unicat : M unit :=
  setA A_metadata [] ;;
  let! v := getA A_V in
  iterM unicat_row (combine (seq 0 (List.length v)) v) ;;
  addH5 (key_of H_V) H_V.

(** uxml.py 77-109 *)
Definition post_uxml : M unit :=
  let! u := getA A_UXML in
  let text := L "<UXML>" ++ [LF] ++ join [LF] u ++ [LF] ++ L "</UXML>" in
  let! root := lift (uxml_parse E text) in
  setA A_UXML_root root ;;
  if forallb xvalid root then addH5 (L "UXML_metadata") H_UXML else raise XMLError.

(* -- data lines -- *)

(** spec.py 787-799: label, label_1, ... label_1000; RuntimeError at 1000 *)
Fixpoint unique_key_from (fuel : nat) (i : nat) (label : str) (keylist : list str) : res str :=
  let key := match i with O => label | _ => label ++ L "_" ++ str_of_nat i end in
  match fuel with
  | O => Raise RuntimeError                   (* i == 1000 *)
  | S f => if mem key keylist then unique_key_from f (S i) label keylist else Ok key
  end.
Definition unique_key (label : str) (keylist : list str) : res str :=
  unique_key_from 1000 0 label keylist.

(** spec_common.py 1586-1593: the loop over the columns; [done] are the keys made so far.
    Result: [scan.L], the keys of [scan.data], and whether the loop ended normally. *)
Fixpoint unique_labels (done : list str) (ls : list str) : list str * list str * res unit :=
  match ls with
  | [] => ([], done, Ok tt)
  | l :: t => match unique_key l done with
              | Ok k => let '(t', ks, r) := unique_labels (done ++ [k]) t in (k :: t', ks, r)
              | Raise e => (ls, done, Raise e)
              end
  end.

(** spec_common.py 1530-1560.  After an @A line [buf] is the list [[]]; a data line then makes it a
    list of characters, which has no [split]. *)
Inductive nmbuf := BStr (s : str) | BList.
Fixpoint combine_nm (N : Z) (buf : nmbuf) (lines : list str) : res (list str) :=
  match lines with
  | [] => Ok []
  | line :: t =>
      if prefixb (L "@A") line then
        do dl <- combine_nm N BList t;
        Ok (match buf with
            | BStr (c :: s) => (c :: s) :: line :: dl
            | _ => line :: dl
            end)
      else
        match buf with
        | BList => Raise AttributeError
        | BStr b =>
            let b := match rev b with
                     | [] => b
                     | c :: _ => if (c =? SP)%N then b else b ++ [SP]
                     end ++ line in
            if (len (words b) =? N)%Z then
              do dl <- combine_nm N (BStr []) t; Ok (b :: dl)
            else combine_nm N (BStr b) t
        end
  end.
Definition combine_split_NM_lines (nm : list Z) (data_lines : list str) : res (list str) :=
  match nm with
  | [_] => Ok data_lines
  | [N; _] => combine_nm N (BStr []) data_lines
  | _ => Raise ValueError
  end.

(** spec.py 781-785: [float(val)] is evaluated before [self.L[col]] *)
Fixpoint interpret_row_from (ls : list str) (column : nat) (vals : list str) (buf : dict fl) : res (dict fl) :=
  match vals with
  | [] => Ok buf
  | v :: t =>
      do f <- py_float v;
      do l <- index (Z.of_nat column) ls;
      interpret_row_from ls (S column) t (dset l f buf)
  end.
Definition interpret_data_row (ls : list str) (row_text : str) : res (dict fl) :=
  interpret_row_from ls 0 (words row_text) [].

(** spec_common.py 1634-1635: [scan.data[label].append(val)] *)
Definition append_val (d : dict col) (lv : str * fl) : res (dict col) :=
  match dget (fst lv) d with
  | Some (Col vs) => Ok (dset (fst lv) (Col (vs ++ [snd lv])) d)
  | Some (Mca _) => Raise AttributeError
  | None => Raise KeyError
  end.

(** spec_common.py 1612-1628: one @A line *)
Definition mca_line (values : str) (d : dict col) : res (dict col) :=
  let parts := words values in
  do p0 <- index 0 parts;
  let key := if seqb p0 (L "@A") then L "mca" else L "mca" ++ skipn 2 p0 in
  do m <- match dget (L "_mca_") d with
          | Some (Mca m) => Ok m
          | Some (Col _) => Raise TypeError
          | None => Raise KeyError
          end;
  let spectra := match dget key m with Some l => l | None => [] end in
  do spectrum <- (if mem [46%N] (map (fun c => [c]) values)
                  then mapM (fun t => rmap NF (py_float t)) (skipn 1 parts)
                  else mapM (fun t => rmap NI (py_int t)) (skipn 1 parts));
  Ok (dset (L "_mca_") (Mca (dset key (spectra ++ [spectrum]) m)) d).

(** spec_common.py 1611-1637: one line.  Simplification: a line that raises leaves [scan.data] as it
    was before that line (the code may leave an empty entry for the detector of a failed @A line, or a
    part of the row). *)
Definition data_line (ls : list str) (ncols : nat) (values : str) (d : dict col) : res (dict col) :=
  if prefixb (L "@A") values then mca_line values d
  else match interpret_data_row ls values with
       | Ok buf => if (List.length buf =? ncols)%nat then foldM append_val buf d else Ok d
       | Raise ValueError => Ok d
       | Raise e => Raise e
       end.

(** spec_common.py 1598: is there an MCA line? *)
Definition has_mca (data_lines : list str) : bool :=
  existsb (fun l => (2 <? List.length l)%nat && seqb (firstn 2 l) (L "@A")) data_lines.

(** spec_common.py 1569-1577: a single label with blanks in it *)
Definition one_space_labels (ls : list str) : bool :=
  match ls with
  | [l] => negb (strs_eqb (split_c SP l) (split_sub [SP; SP] l))
  | _ => false
  end.

(** spec_common.py 1563-1638 (the warning of 1579-1592 is not modelled, only its reading of N[0]) *)
Definition post_data : M unit :=
  let! ls := getA A_L in
  if one_space_labels ls then raise ValueError else
  let! n := getA A_N in
  let! _ := lift (N0 n) in
  let '(ls', ks, r) := unique_labels [] ls in
  setA A_L ls' ;;
  setA A_data (map (fun l => (l, Col [])) ks) ;;
  lift r ;;
  let ncols := List.length ls' in
  let! dl := getA A_data_lines in
  let! d := getA A_data in
  (if has_mca dl then setA A_data (dset (L "_mca_") (Mca []) d) else ret tt) ;;
  let! n := lift (match n with Some l => Ok l | None => Raise TypeError end) in
  let! lines := lift (combine_split_NM_lines n dl) in
  iterM (fun v => let! d := getA A_data in
                  let! d := lift (data_line ls' ncols v d) in setA A_data d) lines ;;
  addH5 (L "scan_data") H_data.

Definition run_post (p : pp) : M unit :=
  match p with
  | PP_geo => post_geo
  | PP_counter h => post_counter h
  | PP_posx => post_posx
  | PP_motor => post_motor
  | PP_data => post_data
  | PP_unicat => post_unicat
  | PP_uxml => post_uxml
  end.

(* ------------------------------------------------------------------ *)
(** * interpret *)

Section WithRegistry.
  Context (known : list hid).   (* control_lines.py 34-36: the handlers in the order of known_keys *)

  (** spec.py 719-735: one line of a scan *)
  Definition scan_line (line : str) : M unit :=
    match line with
    | [] => ret tt
    | _ =>
        let! k := lift (get_control_key known (lstrip line)) in
        match k with
        | None => process H_unrec line
        | Some H_S => ret tt
        | Some h => process h line
        end
    end.
  (** spec.py 718: continued lines are joined *)
  Definition scan_lines (raw : str) : list str :=
    splitlines (replace [BACKSLASH; LF] [SP] raw).

  (** spec.py 582-596: one line of a header *)
  Definition header_line (line : str) : M unit :=
    match line with
    | [] => ret tt
    | _ =>
        let! k := lift (get_control_key known line) in
        match k with
        | None => process H_unrec line
        | Some H_E => ret tt
        | Some h => process h line
        end
    end.

  (** spec.py 737-739, 598-600 *)
  Definition run_posts : M unit :=
    let! d := getA A_posts in iterM run_post (values d).

  (** spec.py 711-739 without the flags; 578-600 *)
  Definition interpret_scan (raw : str) : M unit := iterM scan_line (scan_lines raw) ;; run_posts.
  Definition interpret_header (raw : str) : M unit := iterM header_line (splitlines raw) ;; run_posts.
End WithRegistry.
End WithEnv.
