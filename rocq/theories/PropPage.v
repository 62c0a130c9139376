(** C114: the page of the plots of a data file.
    Theorems only; proofs are in PageFacts*.v. *)
From Coq Require Import String Lia Permutation Sorted.
From Verif Require Import Uni Py PyFacts NumFacts Time Utils Keys Handlers Reader Cli Writer Plot Gallery IndexPage SpecText SpecReader SpecNum SpecLookup SpecHistory SpecTables SpecCli SpecPlot SpecGallery
  TextFacts ReaderFacts5 ExampleFacts GalleryFacts GalleryFacts2 GalleryFacts3 GalleryFacts4 GalleryFacts5 GalleryFacts6 GalleryFacts7 UseFacts PropPlot PropGallery SpecHtml SpecPage PageFacts PageFacts2.
Import ListNotations.
Local Open Scope list_scope.

(** whatever was plotted: a reader of HTML sees the name of the data file, each problem, and one picture for each plot in the list,
    in the same order and with number and command of its scan, if commands and numbers have no quotes, and names no "<" or "'" *)
Theorem C114_page_partial : forall exn_name o specFile name links scs ps, file_name specFile name -> file_shown specFile -> outside_fits o ->
  Forall quotable scs -> Forall (problem_fits exn_name) ps -> Forall2 link_to scs links ->
  read_html (buildIndexHtml o specFile links (map (problem_text exn_name) ps)) = page_shown exn_name (o_now o) specFile name scs ps.
Proof. exact page_lemma. Qed.
Print Assumptions C114_page_partial.
(** the page that a first run (as in C83) writes *)
Lemma problems_from scs os ps p : problems_of scs os ps -> In p ps -> exists sc, In sc scs /\ snd p = s_num sc.
Proof.
  induction 1 as [|sc scs a os ps _ IH|sc scs e os ps _ IH]; [intros []| |].
  - intros H. destruct (IH H) as (x & Hx & E). exists x. split; [right; exact Hx|exact E].
  - intros [<-|H]; [exists sc; split; [left; reflexivity|reflexivity]|]. destruct (IH H) as (x & Hx & E). exists x. split; [right; exact Hx|exact E].
Qed.
Lemma keeps_in {A} (P : A -> Prop) l l' : Keeps P l l' -> forall x, In x l' -> In x l.
Proof.
  induction 1 as [|x0 l l' _ _ IH|x0 l l' _ _ IH]; intros x Hx; [destruct Hx| |].
  - destruct Hx as [->|Hx]; [left; reflexivity|right; exact (IH x Hx)].
  - right. exact (IH x Hx).
Qed.
Theorem C114_page_of_a_first_run_partial : forall exn_name o E known draw now size_of plotDir reversed specFile name s t s' content m z sd, incl all_hids known -> plain_path plotDir -> plain_path specFile ->
  data_file (g_fs s) specFile content m z -> outdated plotDir (g_fs s) specFile m z -> open_file E known specFile (File (Some content) m z) = Ok sd -> headers sd <> [] ->
  all_ge1 sd -> no_names_in_scans sd -> Forall (fun n => ~ In 32%N n /\ no_leading_zero n) (keys (scans sd)) -> dget default_key (g_sel s) <> None ->
  ~ place plotDir specFile specFile -> (forall d, plot_directory plotDir specFile content d -> nothing_in d (g_fs s)) ->
  (forall b, file_name specFile b -> b <> L "index.html" /\ forall y, b <> y ++ L ".svg") ->
  plot_all_scans E known draw now size_of plotDir reversed specFile s = (t, (s', Ok tt)) ->
  file_name specFile name -> file_shown specFile -> outside_fits o -> (forall e, text_safe (exn_name e) /\ visible (exn_name e)) ->
  Forall (fun sc => quotable sc /\ text_safe (s_num sc)) (values (scans sd)) ->
  let html links ps := buildIndexHtml o specFile links (map (problem_text exn_name) ps) in
  exists d links ps t' z' order plotted scs os, plot_directory plotDir specFile content d /\ dget (d ++ SL :: L "index.html") (g_fs s') = Some (FFile (BIndex links ps) t' z') /\
    read_html (html links ps) = page_shown exn_name (o_now o) specFile name plotted ps /\
    Permutation order (values (scans sd)) /\ Keeps (fun sc => dget (d ++ SL :: plot_name (s_num sc)) (g_fs s') <> None) order plotted /\
    Permutation scs (values (scans sd)) /\ Forall2 (fun sc r => exists sc', plotting E known draw (g_sel s) sd sc m r sc') scs os /\ problems_of scs os ps.
Proof.
  intros nm o E known draw now size_of plotDir reversed specFile name s t s' content m z sd Hk Hp H1 H2 H3 H4 H5 H6 H7 H8 H9 H10 H11 H12 H13 Hn Hf Ho He Hq html.
  destruct (C83_index_partial E known draw now size_of plotDir reversed specFile s t s' content m z sd Hk Hp H1 H2 H3 H4 H5 H6 H7 H8 H9 H10 H11 H12 H13)
    as (d & links & ps & t' & z' & order & sh & scs & os & Hd & F1 & F2 & F3 & F4 & _ & F6 & F7 & F8).
  exists d, links, ps, t', z', order, sh, scs, os. split; [exact Hd|]. split; [exact F1|]. split; [|split; [exact F2|split; [exact F3|split; [exact F6|split; [exact F7|exact F8]]]]].
  rewrite Forall_forall in Hq. unfold html. apply page_lemma; [exact Hn|exact Hf|exact Ho| | |exact F4].
  - apply Forall_forall. intros sc Hsc. apply Hq. exact (Permutation_in _ F2 (keeps_in _ _ _ F3 sc Hsc)).
  - apply Forall_forall. intros p Hin. destruct (problems_from _ _ _ p F8 Hin) as (sc & Hsc & Q). destruct (He (fst p)) as [He1 He2]. split; [exact He1|]. split; [exact He2|].
    rewrite Q. apply Hq. exact (Permutation_in _ F6 Hsc).
Qed.
Print Assumptions C114_page_of_a_first_run_partial.

(** names of the classes of exceptions *)
Definition class_name (e : exn) : str :=
  match e with
  | ValueError => L "ValueError" | IndexError => L "IndexError" | KeyError => L "KeyError" | TypeError => L "TypeError"
  | AttributeError => L "AttributeError" | NoDataToPlot => L "NoDataToPlot" | NotPlottable => L "NotPlottable" | ScanAborted => L "ScanAborted"
  | _ => L "Exception"
  end.
Lemma class_name_fits e : text_safe (class_name e) /\ visible (class_name e).
Proof.
  split.
  - intros H. destruct e; vm_compute in H; intuition discriminate.
  - unfold visible. destruct e; (eexists; split; [left; reflexivity|split; [discriminate|split; discriminate]]).
Qed.
Definition here : outside := mk_outside (L "specplot_gallery") (L "2026-11-18 18:00:00") (L "host") (L "user") (L "2021.2.0") (L "1") (L "2026-11-18 18:00:00").
Definition page_in (f : gfs) : list token :=
  match index_in f with Some (links, ps) => read_html (buildIndexHtml here (L "/d/run.dat") links (map (problem_text class_name) ps)) | None => [] end.
Definition images (l : list token) : list (list (str * str)) := flat_map (fun t => match t with Open n a => if seqb n (L "img") then [a] else [] | _ => [] end) l.
Definition texts (l : list token) : list str := flat_map (fun t => match t with Text s => [s] | _ => [] end) l.
(** scan 1 is plotted and scan 2 has no data *)
Example C114_example : let run := run_in (in_place one_more 5 empty) "/d/run.dat" in
  images (page_in (final run)) = [[(L "src", L "s00001.svg"); (L "width", L "150"); (L "height", L "75"); (L "alt", L "#1: ascan th 0 1 2 1")]] /\
  texts (page_in (final run)) = map L ["SPEC scans from run.dat"; "SPEC scans from: run.dat"; "spec file: "; "/d/run.dat"; "1 scan(s) with plotting problems"; "NoDataToPlot"; ": "; "#S 2"; "1 plotted scan(s)";
    "page created: 2026-11-18 18:00:00, specplot_gallery documentation: "; "https://prjemian.github.io/spec2nexus/specplot_gallery.html"]%string /\
  file_name (L "/d/run.dat") (L "run.dat") /\ file_shown (L "/d/run.dat") /\ outside_fits here /\ Forall (fun sc => quotable sc /\ text_safe (s_num sc)) (values (scans (read one_more))).
Proof.
  split; [vm_compute; reflexivity|]. split; [vm_compute; reflexivity|]. split; [split; [vm_compute; intuition discriminate|right; exists (L "/d"); reflexivity]|].
  split. { split; [intros H; vm_compute in H; intuition discriminate|]. split; [|intros H; vm_compute in H; intuition discriminate]. exists 47%N. split; [left; reflexivity|repeat split; discriminate]. }
  split. { split; [repeat constructor; intros H; vm_compute in H; intuition discriminate|intros H; vm_compute in H; intuition discriminate]. }
  assert (Q : map (fun sc => (s_num sc, s_cmd sc)) (values (scans (read one_more))) = [(L "1", L "ascan th 0 1 2 1"); (L "2", L "ascan th 0 1 2 1")]) by (vm_compute; reflexivity).
  revert Q. generalize (values (scans (read one_more))). intros l. destruct l as [|a [|b [|c l]]]; intros Q; try discriminate Q. 
  assert (Qa : s_num a = L "1" /\ s_cmd a = L "ascan th 0 1 2 1" /\ s_num b = L "2" /\ s_cmd b = L "ascan th 0 1 2 1").
  { pose proof (f_equal (fun l => nth 0 l ([], [])) Q) as Q0. pose proof (f_equal (fun l => nth 1 l ([], [])) Q) as Q1. cbn [map nth] in Q0, Q1.
    split; [exact (f_equal fst Q0)|]. split; [exact (f_equal snd Q0)|]. split; [exact (f_equal fst Q1)|exact (f_equal snd Q1)]. }
  destruct Qa as (A1 & A2 & A3 & A4). repeat constructor; rewrite ?A1, ?A2, ?A3, ?A4; intros H; vm_compute in H; intuition discriminate.
Qed.
(** a quote in the command of a scan ends the description of the picture: what comes after it becomes part of the page *)
Definition quoting : list string := head ++
  ["#S 1 ascan th 0 1 2 1 ""><script>alert(1)</script>"; "#D Wed Nov 03 13:48:09 2010"; "#N 2"; "#L th  det"; "0 7"; "1 9"]%string.
Theorem C114_commands_refuted : let run := run_in (in_place quoting 5 empty) "/d/run.dat" in
  snd (snd run) = Ok tt /\ images (page_in (final run)) = [[(L "src", L "s00001.svg"); (L "width", L "150"); (L "height", L "75"); (L "alt", L "#1: ascan th 0 1 2 1 ")]] /\
  In (Open (L "script") []) (page_in (final run)) /\ In (L "alert(1)") (texts (page_in (final run))).
Proof.
  cbv zeta. split; [vm_compute; reflexivity|]. split; [vm_compute; reflexivity|]. 
  set (l := page_in _). assert (Q : existsb (fun t => match t with Open n [] => seqb n (L "script") | _ => false end) l = true) by (vm_compute; reflexivity).
  split.
  - apply existsb_exists in Q. destruct Q as (x & Hx & Qx). destruct x as [n [|? ?]| | |]; try discriminate Qx. apply seqb_eq in Qx. rewrite <- Qx. exact Hx.
  - apply (proj1 (mem_In _ _)). vm_compute. reflexivity.
Qed.
Print Assumptions C114_commands_refuted.
