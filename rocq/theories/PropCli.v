(** C40-C44, C62, C68, C69: the command line tools.  Theorems only; proofs are in CliFacts*.v. *)
From Coq Require Import String Lia Sorting.Sorted.
From Verif Require Import Uni Py PyFacts NumFacts Time Utils Keys Handlers Reader Cli SpecText SpecReader SpecHistory SpecKeys SpecInterp SpecData SpecCli
  ReaderFacts5 InterpFacts ExampleFacts CliFacts CliFacts2 CliFacts3 CliFacts4 PropData.
Import ListNotations.
Local Open Scope nat_scope.
Local Open Scope list_scope.

(* ------------------------------------------------------------------ *)
(** * C40 *)
(** a list of scans and ranges as written by a user gives exactly these numbers, increasing *)
Theorem C40_numbers_and_ranges : forall ws, ws <> [] ->
  exists l, parse_scan_list_spec [join (L ",") (map spelled ws)] = Ok l /\ StronglySorted Z.lt l /\ forall z, In z l <-> exists w, In w ws /\ wants w z.
Proof. exact C40_written. Qed.
Print Assumptions C40_numbers_and_ranges.
(** whatever text is accepted, it consists of numbers and ranges, and they are exactly what is returned *)
Theorem C40_nothing_else : forall t l, parse_scan_list_spec [t] = Ok l -> forall items, parts 44%N t items ->
  Forall well_formed items /\ StronglySorted Z.lt l /\ forall z, In z l <-> exists item, In item items /\ names item z.
Proof. exact C40_lemma. Qed.
Print Assumptions C40_nothing_else.
(** a text is accepted if and only if all items are numbers or ranges *)
Theorem C40_accepted : forall t items, parts 44%N t items -> (Forall well_formed items <-> exists l, parse_scan_list_spec [t] = Ok l).
Proof. intros t items H. split; [exact (C40_total t items H)|intros (l & Q); exact (proj1 (C40_lemma t l Q items H))]. Qed.
Print Assumptions C40_accepted.
Example C40_applies : parse_scan_list_spec [join (L ",") (map spelled [Range 7 9; One 3; Range 8 10; Range 5 4; One 12; One 3])] = Ok [3; 7; 8; 9; 10; 12]%Z /\
  join (L ",") (map spelled [Range 7 9; One 3; Range 8 10; Range 5 4; One 12; One 3]) = L "7-9,3,8-10,5-4,12,3".
Proof. split; vm_compute; reflexivity. Qed.
Example C40_bad_item : parse_scan_list_spec [L "1,2-3-4"] = Raise TypeError /\ parse_scan_list_spec [L "1,x"] = Raise ValueError /\ parse_scan_list_spec [L "-1"] = Raise ValueError.
Proof. repeat split; vm_compute; reflexivity. Qed.

(* ------------------------------------------------------------------ *)
(** * C41 *)
Theorem C41_existing_scans_in_order : forall all request, Keeps (fun n => In n all) (map str_of_Z request) (pick_scans all (Some request)).
Proof. exact C41_order. Qed.
Print Assumptions C41_existing_scans_in_order.
Theorem C41_exactly : forall all request n, In n (pick_scans all (Some request)) <-> In n all /\ exists z, In z request /\ n = str_of_Z z.
Proof. exact C41_lemma. Qed.
Print Assumptions C41_exactly.
Theorem C41_all : forall all, pick_scans all None = all.
Proof. reflexivity. Qed.
Example C41_applies : pick_scans (map L ["1"; "2"; "5"; "7.1"; "9"]%string) (Some [9; 3; 1; 7]%Z) = map L ["9"; "1"]%string.
Proof. reflexivity. Qed.

(* ------------------------------------------------------------------ *)
(** * C42 *)
(** in every state of the file system during and after a run (crashes at any time included), whatever reading and writing of files do:
    no file vanishes, and a file that is not as before is the output of an input, and did not exist or -f is given *)
Theorem C42_existing_files_kept : forall (B S : Type) (open_spec : str -> B -> res S) numbers save o (st st' : str -> option B),
  In st' (fst (nexus_main open_spec numbers save o st)) ->
  (forall n, st n <> None -> st' n <> None) /\
  (forall n, st' n = st n \/ ((exists f, In f (o_infile o) /\ n = output_name o f /\ st' f <> None) /\ (o_force o = true \/ st n = None))).
Proof. intros B S open_spec numbers save o st st'. exact (C42_lemma open_spec numbers save o st st'). Qed.
Print Assumptions C42_existing_files_kept.
(** the output is named after the input unless -o is given *)
Theorem C42_output_name : forall o f, (exists n, o_output o = Some n /\ output_name o f = n) \/
  (o_output o = None /\ exists base ext, extension_of f base ext /\ f = base ++ ext /\
    ((exists t, o_ext o = L "." ++ t /\ output_name o f = base ++ o_ext o) \/ ((forall t, o_ext o <> L "." ++ t) /\ output_name o f = base ++ L "." ++ o_ext o))).
Proof. exact output_name_lemma. Qed.
Print Assumptions C42_output_name.
(** two inputs with one output: the second finds the file there and leaves it *)
Definition toy_open (f : str) (b : str) : res str := Ok b.
Definition toy_numbers (s : str) : res (list str) := Ok (map L ["1"; "2"]%string).
Definition toy_save (s : str) (l : list str) : list str * option exn := ([[]; s ++ join (L ",") l], None).
Definition disk : str -> option str := fun n => if seqb n (L "a.dat") then Some (L "A") else if seqb n (L "a.spec") then Some (L "B") else None.
Example C42_applies : let '(sts, e) := nexus_main toy_open toy_numbers toy_save (mk_opt (map L ["a.dat"; "b.dat"; "a.spec"]%string) (L "hdf5") false None None) disk in
  List.length sts = 3 /\ e = None /\ map (fun st => st (L "a.hdf5")) sts = [None; Some []; Some (L "A1,2")] /\ map (fun st => st (L "a.dat")) sts = repeat (Some (L "A")) 3.
Proof. vm_compute. repeat split. Qed.
Example C42_names : map (output_name (mk_opt [] (L "hdf5") false None None)) (map L ["data/run.5/CeCoIn5"; "x.y.spec"; ".spec"; "d/.cfg.dat"]%string) =
  map L ["data/run.5/CeCoIn5.hdf5"; "x.y.hdf5"; ".spec.hdf5"; "d/.cfg.hdf5"]%string.
Proof. vm_compute. reflexivity. Qed.

(** * C69 *)
(** an input is not changed if -f is not given or it is not the name of an output *)
Theorem C69_input_kept_partial : forall (B S : Type) (open_spec : str -> B -> res S) numbers save o (st st' : str -> option B) g,
  In st' (fst (nexus_main open_spec numbers save o st)) -> In g (o_infile o) -> st g <> None ->
  o_force o = false \/ (forall f, In f (o_infile o) -> output_name o f <> g) -> st' g = st g.
Proof.
  intros B S open_spec numbers save o st st' g H _ Hg Hor. destruct (proj2 (C42_lemma open_spec numbers save o st st' H) g) as [Q|[(f & F1 & F2 & _) Q]]; [exact Q|exfalso].
  destruct Hor as [Hor|Hor]; [destruct Q as [Q|Q]; [rewrite Hor in Q; discriminate|contradiction]|exact (Hor f F1 (eq_sym F2))].
Qed.
Print Assumptions C69_input_kept_partial.
(** with -f and the extension of the data file as output extension, the data file is destroyed, however files are read and written *)
Theorem C69_input_overwritten_refuted : forall (B S : Type) (open_spec : str -> B -> res S) numbers save st b s l b' bs e,
  let o := mk_opt [L "run.spec"] (L "spec") true None None in
  st (L "run.spec") = Some b -> open_spec (L "run.spec") b = Ok s -> numbers s = Ok l -> save s l = (b' :: bs, e) ->
  exists st', In st' (fst (nexus_main open_spec numbers save o st)) /\ st' (L "run.spec") = Some b'.
Proof.
  intros B S open_spec numbers save st b s l b' bs e o H1 H2 H3 H4. exists (fs_set (L "run.spec") b' st). split; [|reflexivity].
  unfold nexus_main, o. cbn [scan_selection o_scan o_infile convert_all]. unfold convert. rewrite H1, H2, H3. cbv zeta. cbn [o_force orb pick_scans].
  rewrite H4. change (output_name _ (L "run.spec")) with (L "run.spec"). destruct e as [e|]; right; left; reflexivity.
Qed.
Print Assumptions C69_input_overwritten_refuted.

(** * C68 *)
(** -s all, as the help text has it, ends the program with ValueError before any file is looked at *)
Theorem C68_all_refuted : forall (B S : Type) (open_spec : str -> B -> res S) numbers save o st, o_scan o = Some (L "all") ->
  nexus_main open_spec numbers save o st = ([st], Some ValueError).
Proof. intros B S open_spec numbers save o st H. unfold nexus_main, scan_selection. rewrite H. reflexivity. Qed.
Print Assumptions C68_all_refuted.
(** without -s all scans of every input that exists are given to the writer; with -s the scans asked for that exist *)
Theorem C68_scans_given_to_writer_partial : forall (B S : Type) (open_spec : str -> B -> res S) numbers save o (st : str -> option B) f b s all,
  o_infile o = [f] -> st f = Some b -> open_spec f b = Ok s -> numbers s = Ok all -> st (output_name o f) = None ->
  (o_scan o = None -> nexus_main open_spec numbers save o st = (st :: map (fun b => fs_set (output_name o f) b st) (fst (save s all)), snd (save s all))) /\
  (forall t l, o_scan o = Some t -> parse_scan_list_spec [t] = Ok l ->
     exists sel, Keeps (fun n => In n all) (map str_of_Z l) sel /\
       nexus_main open_spec numbers save o st = (st :: map (fun b => fs_set (output_name o f) b st) (fst (save s sel)), snd (save s sel))).
Proof. exact C68_lemma. Qed.
Print Assumptions C68_scans_given_to_writer_partial.
Example C68_applies : snd (nexus_main toy_open toy_numbers toy_save (mk_opt [L "a.dat"] (L "hdf5") false (Some (L "2-5")) None) disk) = None /\
  map (fun st => st (L "a.hdf5")) (fst (nexus_main toy_open toy_numbers toy_save (mk_opt [L "a.dat"] (L "hdf5") false (Some (L "2-5")) None) disk)) = [None; Some []; Some (L "A2")].
Proof. split; vm_compute; reflexivity. Qed.

(* ------------------------------------------------------------------ *)
(** * C43 *)
Theorem C43_ranges_expanded : forall ts l, expand_scan_range_terms ts = Ok l <-> exists ls, Forall2 expands ts ls /\ l = List.concat ls.
Proof. exact C43_lemma. Qed.
Print Assumptions C43_ranges_expanded.
Theorem C43_other_terms_raise : forall ts e, expand_scan_range_terms ts = Raise e -> e = ValueError.
Proof. exact C43_raise. Qed.
Print Assumptions C43_other_terms_raise.
Example C43_applies : expand_scan_range_terms (map L ["1"; "3-5"; "-2"; "7-6"; "9.1"]%string) = Ok (map L ["1"; "3"; "4"; "5"; "-2"; "9.1"]%string) /\
  expand_scan_range_terms (map L ["1"; "2-3-4"]%string) = Raise ValueError.
Proof. split; vm_compute; reflexivity. Qed.

(* ------------------------------------------------------------------ *)
(** * C44 *)
(** the rows written are the rows of the scan in the file, with the columns asked for in the order asked for *)
Theorem C44_rows : forall E known, incl all_hids known -> forall show o s n s' nm text sc ls dl k,
  history E known s -> getScan (KStr n) s = Ok (Some sc) -> s_lazy sc = true -> lines_of (s_raw sc) ls -> Keeps data_line_of ls dl ->
  (forall l, In l dl -> ~ control H_atA l) -> dl <> [] -> x_column o <> [] -> extract E known show o s n = (s', Ok (Some (nm, text))) ->
  (forall sc', dget (s_num sc) (scans s') = Some sc' -> attr_is sc' A_N (Some [k])) ->
  exists lab rows tbl hdr lines, incl (x_column o) lab /\ Keeps (is_row (List.length lab)) dl rows /\ Forall2 (a_row (List.length lab)) rows tbl /\
    text = join ([10%N]) hdr ++ [10%N] ++ join ([10%N]) ((if x_labels o then [L "# " ++ join [9%N] (x_column o)] else []) ++ lines) /\ Forall starts_with_hash hdr /\
    Forall2 (fun vals line => exists cells, Forall2 (fun l x => exists j, nth_error lab j = Some l /\ nth_error vals j = Some x) (x_column o) cells /\
                                            tab_separated (map show cells) line) tbl lines.
Proof. intros E known Hk show o s n s' nm text sc ls dl k. exact (C44_rows_lemma E known Hk show o s n s' nm text sc ls dl k). Qed.
Print Assumptions C44_rows.
(** nothing is written exactly if a label is missing *)
Theorem C44_missing_label : forall E known show o s n s' w, extract E known show o s n = (s', Ok w) ->
  exists sc0 sc lab, getScan (KStr n) s = Ok (Some sc0) /\ dget (s_num sc0) (scans s') = Some sc /\ attr_is sc A_L lab /\
    (w = None <-> exists l, In l (x_column o) /\ ~ In l lab).
Proof. exact missing_lemma. Qed.
Print Assumptions C44_missing_label.
(** a scan without data gives one line that says so *)
Theorem C44_no_data : forall E known show o s n s' nm text, extract E known show o s n = (s', Ok (Some (nm, text))) ->
  (forall sc0 sc, getScan (KStr n) s = Ok (Some sc0) -> dget (s_num sc0) (scans s') = Some sc -> attr_is sc A_data []) ->
  exists hdr, Forall starts_with_hash hdr /\
    text = join ([10%N]) hdr ++ [10%N] ++ join ([10%N]) ((if x_labels o then [L "# " ++ join [9%N] (x_column o)] else []) ++ [L "# <no SPEC data points in this scan>"]).
Proof. exact no_data_lemma. Qed.
Print Assumptions C44_no_data.
(** each file written is the file of a scan asked for *)
Theorem C44_names : forall E known show o p ws e nm text, extract_main E known show o p = (ws, e) -> In (nm, text) ws ->
  exists nums n, expand_scan_range_terms (x_scan o) = Ok nums /\ In n nums /\ nm = makeOutputFileName (x_file o) n.
Proof.
  intros E known show o p ws e nm text H Hi. unfold extract_main in H. destruct (expand_scan_range_terms (x_scan o)) as [nums|]; [|injection H as <- _; destruct Hi].
  destruct (open_file E known (x_file o) p) as [s|]; [|injection H as <- _; destruct Hi]. destruct (extract_all_names E known show o s nums ws e nm text H Hi) as (n & H1 & H2). exists nums, n. auto.
Qed.
Print Assumptions C44_names.
Definition show0 (f : fl) : str := match f with FDec m e => str_of_Z m ++ L "e" ++ str_of_Z e | _ => L "nan" end.
Definition asked (cols : list string) (labels : bool) : xoptions := mk_xopt (L "f") [L "1"] (map L cols) labels false false false false.
Lemma plain_scan : getScan (KStr (L "1")) (opened plain) = Ok (Some (before plain)).
Proof.
  destruct plain_good as (_ & H2 & _). unfold getScan. replace (key_float (KStr (L "1"))) with (Ok (FDec 1 0)) by (vm_compute; reflexivity). cbn [bind].
  replace (int_of_fl (FDec 1 0)) with (Ok 1%Z) by (vm_compute; reflexivity). cbn [bind]. change (1 <? 1)%Z with false. cbn iota. change (key_str (KStr (L "1"))) with (L "1"). rewrite H2. reflexivity.
Qed.
Lemma plain_num : s_num (before plain) = L "1".
Proof. vm_compute. reflexivity. Qed.
Example C44_applies : exists s' nm text (lab : list str) rows tbl hdr lines, extract E0 all_hids show0 (asked ["det"; "Two Theta"]%string true) (opened plain) (L "1") = (s', Ok (Some (nm, text))) /\
  Keeps (is_row (List.length lab)) (its_data plain) rows /\ Forall2 (a_row (List.length lab)) rows tbl /\
  text = join ([10%N]) hdr ++ [10%N] ++ join ([10%N]) ([L "# " ++ join [9%N] (map L ["det"; "Two Theta"]%string)] ++ lines).
Proof.
  destruct (extract E0 all_hids show0 (asked ["det"; "Two Theta"]%string true) (opened plain) (L "1")) as [s' r] eqn:Ex.
  assert (Er : match snd (extract E0 all_hids show0 (asked ["det"; "Two Theta"]%string true) (opened plain) (L "1")) with Ok (Some _) => true | _ => false end = true) by (vm_compute; reflexivity).
  rewrite Ex in Er. cbn [snd] in Er. destruct r as [[[nm text]|]|]; try discriminate Er. clear Er.
  destruct plain_good as (H1 & H2 & H3 & H4 & H5).
  destruct (C44_rows E0 all_hids (incl_refl _) show0 (asked ["det"; "Two Theta"]%string true) (opened plain) (L "1") s' nm text (before plain) (its_lines plain) (its_data plain) 3%Z
    H1 plain_scan H3 (its_lines_ok _) (its_data_ok _)) as (lab & rows & tbl & hdr & lines & R1 & R2 & R3 & R4 & _).
  - intros l Hl. vm_compute in Hl. each_line Hl; not_control.
  - vm_compute. discriminate.
  - discriminate.
  - exact Ex.
  - apply (extract_state E0 all_hids show0 _ _ _ _ _ (before plain) (L "1") _ (after plain) (fun sc => attr_is sc A_N (Some [3%Z])) Ex plain_scan plain_num H4 H5). vm_compute. reflexivity.
  - exists s', nm, text, lab, rows, tbl, hdr, lines. split; [reflexivity|]. split; [exact R2|]. split; [exact R3|exact R4].
Qed.
Example C44_text : match snd (extract E0 all_hids show0 (asked ["det"; "Two Theta"]%string true) (opened plain) (L "1")) with Ok (Some (nm, text)) => (nm, split_c 10%N text) | _ => ([], []) end =
  (L "f_1", [L "# file: f"; L "# scan: 1"; L "# det" ++ [9%N] ++ L "Two Theta"; L "100e0" ++ [9%N] ++ L "15e-1"; L "300e0" ++ [9%N] ++ L "-3e0"]).
Proof. vm_compute. reflexivity. Qed.

(* ------------------------------------------------------------------ *)
(** * C62 *)
(** for one file, different scan numbers (they have no underscore) give different names, none of them that of the file *)
Theorem C62_distinct_names_partial : forall f n m, ~ In 95%N n -> ~ In 95%N m -> makeOutputFileName f n = makeOutputFileName f m -> n = m.
Proof. exact C62_inj. Qed.
Print Assumptions C62_distinct_names_partial.
Theorem C62_not_the_data_file : forall f n, makeOutputFileName f n <> f.
Proof. exact C62_not_file. Qed.
Print Assumptions C62_not_the_data_file.
(** the name: the number, dots replaced, is put before the extension *)
Theorem C62_name : forall f n, exists base ext, extension_of f base ext /\ f = base ++ ext /\
  exists u, makeOutputFileName f n = base ++ L "_" ++ u ++ ext /\ Forall2 (fun c d => d = if (c =? 46)%N then 95%N else c) n u.
Proof. exact C62_name_lemma. Qed.
Print Assumptions C62_name.
(** an underscore in a number asked for is not told from a dot, and there is no .dat *)
Theorem C62_names_refuted : makeOutputFileName (L "a.dat") (L "5.1") = makeOutputFileName (L "a.dat") (L "5_1") /\ makeOutputFileName (L "CeCoIn5") (L "5") = L "CeCoIn5_5".
Proof. split; vm_compute; reflexivity. Qed.
Print Assumptions C62_names_refuted.
Example C62_applies : makeOutputFileName (L "data/x.y.spec") (L "5.1") = L "data/x.y_5_1.spec".
Proof. vm_compute. reflexivity. Qed.
