(** C82: two runs of the gallery, while the data file is written: in between whole scans were appended, or the last scan has grown.
    Theorems only; proofs are in AppendFacts.v, GrownFacts.v, GalleryFacts10.v and GalleryFacts11.v. *)
From Coq Require Import String Lia Permutation Sorted.
From Verif Require Import Uni Py PyFacts NumFacts Time Utils Keys Handlers Reader Cli Writer Plot Gallery SpecText SpecReader SpecNum SpecLookup SpecHistory SpecTables SpecCli SpecPlot SpecGallery SpecGallery2
  TextFacts ReaderFacts5 ExampleFacts GalleryFacts GalleryFacts2 GalleryFacts3 GalleryFacts4 GalleryFacts5 GalleryFacts6 GalleryFacts7 GalleryFacts8 GalleryFacts9 AppendFacts GrownFacts GalleryFacts10 GalleryFacts11 UseFacts PropPlot PropGallery PropGallery2.
Import ListNotations.
Local Open Scope list_scope.

(** the first run finds nothing in the directory of the data file; then more is written after the end of the data file, where the reader
    finds the same sections, the last of which is a scan, and more scans; time and size are new.  After the second run there is
    the plot of each scan of the data file that can be plotted, as it would be made now, and no other plot *)
Theorem C82_two_runs_partial : forall E known draw now size_of plotDir reversed specFile s t s1 content m z sd more m' z' sd' secs l extra tick t' s', incl all_hids known -> plain_path plotDir -> plain_path specFile ->
  data_file (g_fs s) specFile content m z -> outdated plotDir (g_fs s) specFile m z -> open_file E known specFile (File (Some content) m z) = Ok sd -> headers sd <> [] ->
  all_ge1 sd -> no_names_in_scans sd -> Forall (fun n => ~ In 32%N n /\ no_leading_zero n) (keys (scans sd)) -> dget default_key (g_sel s) <> None ->
  ~ place plotDir specFile specFile -> (forall d, plot_directory plotDir specFile content d -> nothing_in d (g_fs s)) -> (forall b, file_name specFile b -> b <> L "index.html" /\ forall y, b <> y ++ L ".svg") ->
  plot_all_scans E known draw now size_of plotDir reversed specFile s = (t, (s1, Ok tt)) ->
  (0 < m)%Z -> (0 < m')%Z -> m' <> m -> (z < z')%Z -> scans_appended (content ++ more) z -> (exists a b c e rest, Lines file_eol content (a :: b :: c :: e :: rest)) ->
  open_file E known specFile (File (Some (content ++ more)) m' z') = Ok sd' -> all_ge1 sd' -> no_names_in_scans sd' -> Forall (fun n => ~ In 32%N n /\ no_leading_zero n) (keys (scans sd')) ->
  dissect (File (Some content) m z) = Ok (secs ++ [l]) -> dissect (File (Some (content ++ more)) m' z') = Ok ((secs ++ [l]) ++ extra) -> scan_section l -> Forall scan_section extra -> NoDup (keys (g_fs s1)) ->
  plot_all_scans E known draw now size_of plotDir reversed specFile (mk_g (dset specFile (FFile (BText (Some (content ++ more))) m' z') (g_fs s1)) (g_sel s) tick) = (t', (s', Ok tt)) ->
  exists d, plot_directory plotDir specFile (content ++ more) d /\
    (forall sc, In sc (values (scans sd')) -> exists o sc', plotting E known draw (g_sel s) sd' sc m' o sc' /\ plot_file (g_fs s') (d ++ SL :: plot_name (s_num sc)) o) /\
    (forall x, svg_name x -> dget (d ++ SL :: x) (g_fs s') <> None -> exists sc, In sc (values (scans sd')) /\ x = plot_name (s_num sc)).
Proof.
  intros E known draw now size_of plotDir reversed specFile s t s1 content m z sd more m' z' sd' secs l extra tick t' s' Hk Hd.
  exact (two_runs_lemma E known draw now size_of plotDir reversed Hk Hd specFile s t s1 content m z sd more m' z' sd' secs l extra tick t' s').
Qed.
Print Assumptions C82_two_runs_partial.

(** scans 5 and 3; then scans 4 (without data) and 7 are appended *)
Definition more_scans : str := skipn (List.length (text_of two_scans)) (text_of four_scans).
Definition old_sections : list str := sections (File (Some (text_of two_scans)) 5 (length_of two_scans)).
Definition new_sections : list str := skipn (List.length old_sections) (sections (File (Some (text_of two_scans ++ more_scans)) 9 (length_of four_scans))).
Definition seen9 : sdf := got (sdf_init []) (open_file E0 all_hids (L "/d/run.dat") (File (Some (text_of two_scans ++ more_scans)) 9 (length_of four_scans))).
Example C82_two_runs_example : let f2 := dset (L "/d/run.dat") (FFile (BText (Some (text_of two_scans ++ more_scans))) 9 (length_of four_scans)) (final first) in
  let secs := removelast old_sections in let l := last old_sections [] in
  (length_of two_scans < length_of four_scans)%Z /\ scans_appended (text_of two_scans ++ more_scans) (length_of two_scans) /\
  (exists a b c e rest, Lines file_eol (text_of two_scans) (a :: b :: c :: e :: rest)) /\
  open_file E0 all_hids (L "/d/run.dat") (File (Some (text_of two_scans ++ more_scans)) 9 (length_of four_scans)) = Ok seen9 /\
  all_ge1 seen9 /\ no_names_in_scans seen9 /\ Forall (fun n => ~ In 32%N n /\ no_leading_zero n) (keys (scans seen9)) /\
  dissect (File (Some (text_of two_scans)) 5 (length_of two_scans)) = Ok (secs ++ [l]) /\ dissect (File (Some (text_of two_scans ++ more_scans)) 9 (length_of four_scans)) = Ok ((secs ++ [l]) ++ new_sections) /\
  scan_section l /\ List.length new_sections = 2 /\ Forall scan_section new_sections /\ NoDup (keys (final first)) /\
  let r := plot_all_scans E0 all_hids draws clock size0 P0 false (L "/d/run.dat") (mk_g f2 sel_init 0) in snd (snd r) = Ok tt /\
  keys (scans seen9) = map L ["5"; "3"; "4"; "7"]%string /\ curve_in svg3 (final r) = Some (nfs [0; 1]%Z, nfs [1; 2]%Z) /\ curve_in svg7 (final r) = Some (nfs [0; 1]%Z, nfs [4; 1]%Z).
Proof.
  cbv zeta. split; [vm_compute; reflexivity|].
  assert (Em : text_of two_scans ++ more_scans = text_of four_scans) by (vm_compute; reflexivity). rewrite Em. fold (length_of two_scans) (length_of four_scans).
  split; [apply appended_ok; vm_compute; reflexivity|]. split. { exists (nth 0 (text_lines (text_of two_scans)) []), (nth 1 (text_lines (text_of two_scans)) []), (nth 2 (text_lines (text_of two_scans)) []), (nth 3 (text_lines (text_of two_scans)) []), (skipn 4 (text_lines (text_of two_scans))). apply Lines_text_lines. vm_compute. reflexivity. }
  split; [unfold seen9; rewrite Em; apply got_ok; vm_compute; reflexivity|].
  split. { unfold all_ge1. set (ks := keys _). vm_compute in ks. subst ks. repeat (constructor; [apply one_b_ok; vm_compute; reflexivity|]). constructor. }
  split; [exact (fun name sc ls l => no_names_by (scans seen9) name sc ls l ltac:(vm_compute; reflexivity))|].
  split. { set (ks := keys _). vm_compute in ks. subst ks. repeat (constructor; [split; [cbn [In]; intuition discriminate|]; split; [discriminate|intros t Q; discriminate Q]|]). constructor. }
  split; [vm_compute; reflexivity|]. split; [vm_compute; reflexivity|]. split; [apply scanb_spec; vm_compute; reflexivity|]. split; [vm_compute; reflexivity|].
  split. { set (ks := new_sections). vm_compute in ks. subst ks. repeat (constructor; [apply scanb_spec; vm_compute; reflexivity|]). constructor. }
  split; [set (ks := keys _); vm_compute in ks; subst ks; repeat (constructor; [cbn [In]; intuition discriminate|]); constructor|].
  repeat split; vm_compute; reflexivity.
Qed.

(** the same when the last scan has grown (and other scans may follow it), if the last scan of the data file is also the last one in the
    order of the names of the plots *)
Theorem C82_two_runs_grown_partial : forall E known draw now size_of plotDir reversed specFile s t s1 content m z sd more m' z' sd' secs l rest ks nl tick t' s', incl all_hids known -> plain_path plotDir -> plain_path specFile ->
  data_file (g_fs s) specFile content m z -> outdated plotDir (g_fs s) specFile m z -> open_file E known specFile (File (Some content) m z) = Ok sd -> headers sd <> [] ->
  all_ge1 sd -> no_names_in_scans sd -> Forall (fun n => ~ In 32%N n /\ no_leading_zero n) (keys (scans sd)) -> dget default_key (g_sel s) <> None ->
  ~ place plotDir specFile specFile -> (forall d, plot_directory plotDir specFile content d -> nothing_in d (g_fs s)) -> (forall b, file_name specFile b -> b <> L "index.html" /\ forall y, b <> y ++ L ".svg") ->
  plot_all_scans E known draw now size_of plotDir reversed specFile s = (t, (s1, Ok tt)) ->
  (0 < m)%Z -> (0 < m')%Z -> m' <> m -> (0 <= z < z')%Z -> more_appended (content ++ more) z -> (exists a b c e rest, Lines file_eol content (a :: b :: c :: e :: rest)) ->
  headers sd' = headers sd -> keys (scans sd) = ks ++ [nl] -> (forall n, In n ks -> lex_before (plot_name n) (plot_name nl)) ->
  open_file E known specFile (File (Some (content ++ more)) m' z') = Ok sd' -> all_ge1 sd' -> no_names_in_scans sd' -> Forall (fun n => ~ In 32%N n /\ no_leading_zero n) (keys (scans sd')) ->
  dissect (File (Some content) m z) = Ok (secs ++ [l]) -> dissect (File (Some (content ++ more)) m' z') = Ok (secs ++ rest) -> scan_section l -> Forall scan_section rest -> NoDup (keys (g_fs s1)) ->
  plot_all_scans E known draw now size_of plotDir reversed specFile (mk_g (dset specFile (FFile (BText (Some (content ++ more))) m' z') (g_fs s1)) (g_sel s) tick) = (t', (s', Ok tt)) ->
  exists d, plot_directory plotDir specFile (content ++ more) d /\
    (forall sc, In sc (values (scans sd')) -> exists o sc', plotting E known draw (g_sel s) sd' sc m' o sc' /\ plot_file (g_fs s') (d ++ SL :: plot_name (s_num sc)) o) /\
    (forall x, svg_name x -> dget (d ++ SL :: x) (g_fs s') <> None -> exists sc, In sc (values (scans sd')) /\ x = plot_name (s_num sc)).
Proof.
  intros E known draw now size_of plotDir reversed specFile s t s1 content m z sd more m' z' sd' secs l rest ks nl tick t' s' Hk Hd.
  exact (two_grown_lemma E known draw now size_of plotDir reversed Hk Hd specFile s t s1 content m z sd more m' z' sd' secs l rest ks nl tick t' s').
Qed.
Print Assumptions C82_two_runs_grown_partial.


(** scans 3 and 5; then scan 5 grows by a row *)
Definition more_rows : str := skipn (List.length (text_of up_scans)) (text_of up_grown).
Definition up_sections : list str := sections (File (Some (text_of up_scans)) 5 (length_of up_scans)).
Definition up_rest : list str := skipn (List.length up_sections - 1) (sections (File (Some (text_of up_scans ++ more_rows)) 9 (length_of up_grown))).
Definition up_seen (ls : list string) (m : Z) : sdf := got (sdf_init []) (open_file E0 all_hids (L "/d/run.dat") (File (Some (text_of ls)) m (length_of ls))).
Definition up_three : list string := head ++ curve_lines "3" ["0 1"; "1 2"]%string.
Lemma up_headers : headers (up_seen up_grown 9) = headers (up_seen up_scans 5).
Proof.
  assert (K : forall ls m l, is_ok (open_file E0 all_hids (L "/d/run.dat") (File (Some (text_of ls)) m (length_of ls))) = true ->
    dissect (File (Some (text_of ls)) m (length_of ls)) = Ok ((removelast (removelast up_sections) ++ [last (removelast up_sections) []]) ++ [l]) -> scan_section l -> headers (up_seen ls m) = headers (up_seen up_three 1)).
  { intros ls m l H1 H2 H3. refine (proj1 (appended_lemma E0 all_hids (incl_refl _) (L "/d/run.dat") (File (Some (text_of up_three)) 1 (length_of up_three)) _ (up_seen up_three 1) (up_seen ls m) (removelast (removelast up_sections)) (last (removelast up_sections) []) [l] _ (got_ok _ _ H1) _ H2 _ _)).
    - apply got_ok. vm_compute. reflexivity.
    - vm_compute. reflexivity.
    - apply scanb_spec. vm_compute. reflexivity.
    - constructor; [exact H3|constructor]. }
  assert (A1 : is_ok (open_file E0 all_hids (L "/d/run.dat") (File (Some (text_of up_grown)) 9 (length_of up_grown))) = true) by (vm_compute; reflexivity).
  assert (A2 : dissect (File (Some (text_of up_grown)) 9 (length_of up_grown)) = Ok ((removelast (removelast up_sections) ++ [last (removelast up_sections) []]) ++ [last up_rest []])) by (vm_compute; reflexivity).
  assert (A3 : scan_section (last up_rest [])) by (apply scanb_spec; vm_compute; reflexivity).
  assert (B1 : is_ok (open_file E0 all_hids (L "/d/run.dat") (File (Some (text_of up_scans)) 5 (length_of up_scans))) = true) by (vm_compute; reflexivity).
  assert (B2 : dissect (File (Some (text_of up_scans)) 5 (length_of up_scans)) = Ok ((removelast (removelast up_sections) ++ [last (removelast up_sections) []]) ++ [last up_sections []])) by (vm_compute; reflexivity).
  assert (B3 : scan_section (last up_sections [])) by (apply scanb_spec; vm_compute; reflexivity).
  exact (eq_trans (K up_grown 9%Z (last up_rest []) A1 A2 A3) (eq_sym (K up_scans 5%Z (last up_sections []) B1 B2 B3))).
Qed.
Example C82_two_runs_grown_example : let f2 := dset (L "/d/run.dat") (FFile (BText (Some (text_of up_scans ++ more_rows))) 9 (length_of up_grown)) (final up_first) in
  let secs := removelast up_sections in let l := last up_sections [] in let sd' := up_seen up_grown 9 in let sd := up_seen up_scans 5 in
  snd (snd up_first) = Ok tt /\ (0 <= length_of up_scans < length_of up_grown)%Z /\ text_of up_scans ++ more_rows = text_of up_grown /\ more_appended (text_of up_scans ++ more_rows) (length_of up_scans) /\
  (exists a b c e rest, Lines file_eol (text_of up_scans) (a :: b :: c :: e :: rest)) /\
  headers sd' = headers sd /\ keys (scans sd) = [L "3"] ++ [L "5"] /\ (forall n, In n [L "3"] -> lex_before (plot_name n) (plot_name (L "5"))) /\
  open_file E0 all_hids (L "/d/run.dat") (File (Some (text_of up_scans ++ more_rows)) 9 (length_of up_grown)) = Ok sd' /\
  dissect (File (Some (text_of up_scans)) 5 (length_of up_scans)) = Ok (secs ++ [l]) /\ dissect (File (Some (text_of up_scans ++ more_rows)) 9 (length_of up_grown)) = Ok (secs ++ up_rest) /\
  scan_section l /\ List.length up_rest = 1 /\ Forall scan_section up_rest /\ NoDup (keys (final up_first)) /\
  let r := plot_all_scans E0 all_hids draws clock size0 P0 false (L "/d/run.dat") (mk_g f2 sel_init 0) in snd (snd r) = Ok tt /\
  curve_in svg3 (final r) = Some (nfs [0; 1]%Z, nfs [1; 2]%Z) /\ curve_in svg5 (final r) = Some (nfs [0; 1; 2]%Z, nfs [7; 9; 4]%Z).
Proof.
  cbv zeta. split; [vm_compute; reflexivity|]. split; [vm_compute; split; [discriminate|reflexivity]|].
  assert (Em : text_of up_scans ++ more_rows = text_of up_grown) by (vm_compute; reflexivity). rewrite Em. split; [reflexivity|].
  split; [apply grown_ok; vm_compute; reflexivity|]. split. { exists (nth 0 (text_lines (text_of up_scans)) []), (nth 1 (text_lines (text_of up_scans)) []), (nth 2 (text_lines (text_of up_scans)) []), (nth 3 (text_lines (text_of up_scans)) []), (skipn 4 (text_lines (text_of up_scans))). apply Lines_text_lines. vm_compute. reflexivity. }
  split; [exact up_headers|]. split; [vm_compute; reflexivity|]. split. { intros n [<-|[]]. left. exists (L "s0000"), 51%N, 53%N, (L ".svg"), (L ".svg"). split; [vm_compute; reflexivity|]. split; [vm_compute; reflexivity|reflexivity]. }
  split; [unfold up_seen; apply got_ok; vm_compute; reflexivity|].
  split; [vm_compute; reflexivity|]. split; [vm_compute; reflexivity|]. split; [apply scanb_spec; vm_compute; reflexivity|]. split; [vm_compute; reflexivity|].
  split. { set (ks := up_rest). vm_compute in ks. subst ks. repeat (constructor; [apply scanb_spec; vm_compute; reflexivity|]). constructor. }
  split; [set (ks := keys _); vm_compute in ks; subst ks; repeat (constructor; [cbn [In]; intuition discriminate|]); constructor|].
  repeat split; vm_compute; reflexivity.
Qed.
