(** C51-C54, C80-C85: the gallery of plots.
    Theorems only; proofs are in GalleryFacts*.v. *)
From Coq Require Import String Lia Permutation Sorted.
From Verif Require Import Uni Py PyFacts NumFacts Time Utils Keys Handlers Reader Cli Writer Plot Gallery SpecText SpecReader SpecNum SpecLookup SpecHistory SpecTables SpecCli SpecPlot SpecGallery
  TextFacts ReaderFacts5 ExampleFacts GalleryFacts GalleryFacts2 GalleryFacts3 GalleryFacts4 GalleryFacts5 GalleryFacts6 GalleryFacts7 UseFacts PropPlot.
Import ListNotations.
Local Open Scope list_scope.

(** ** Tools for the examples *)
Definition clock (n : nat) : Z := (100 + Z.of_nat n)%Z.
Definition size0 (b : body) : Z := 7%Z.
Definition P0 : str := L "/p".
Definition data (ls : list string) (m z : Z) : entry := FFile (BText (Some (text_of ls))) m z.
Definition run_in (f : gfs) (name : string) := plot_all_scans E0 all_hids draws clock size0 P0 false (L name) (mk_g f sel_init 0).
Definition fs_of (ls : list string) : gfs := [(P0, FDir); (L "/d/run.dat", data ls 5 400)].
Definition curve_lines (n : string) (rows : list string) : list string :=
  (("#S " ++ n ++ " ascan th 0 1 2 1")%string :: "#D Wed Nov 03 13:48:09 2010"%string :: "#N 2"%string :: "#L th  det"%string :: rows).
Definition two_scans : list string := head ++ curve_lines "5" ["0 7"; "1 9"; "2 4"]%string ++ curve_lines "3" ["0 1"; "1 2"]%string.
Definition final {A} (r : list gfs * (gst * res A)) : gfs := g_fs (fst (snd r)).
(** what a plot in the file system shows *)
Definition curve_in (n : string) (f : gfs) : option (pval * pval) :=
  match dget (L n) f with Some (FFile (BPlot i) _ _) => shown (Ok (Some i)) | _ => None end.
Lemma P0_plain : plain_path P0.
Proof. exists (L "/"), 112%N. split; [reflexivity|discriminate]. Qed.

(* ------------------------------------------------------------------ *)
(** * C51, C52 *)

(** starting from a directory without cache, after any checks and file changes a check answers *)
Theorem C51_check_answers : forall now size_of plotDir f0 h f name m z, fexists f0 plotDir = true -> dget (cache_name plotDir) f0 = None ->
  checks now size_of plotDir f0 h f -> on_disk f name m z -> exists b f', check now size_of plotDir f name b f'.
Proof. exact C51_lemma. Qed.
Print Assumptions C51_check_answers.
(** a change that was reported is not reported again until time and size have changed, whatever was checked or written between *)
Theorem C51_reported_once : forall now size_of plotDir f0 h mz mid f name m z b f', fexists f0 plotDir = true -> dget (cache_name plotDir) f0 = None ->
  checks now size_of plotDir f0 (h ++ (name, mz, true) :: mid) f -> (forall mz', ~ In (name, mz', true) mid) -> on_disk f name m z -> m = fst mz \/ z = snd mz ->
  check now size_of plotDir f name b f' -> b = false.
Proof.
  intros now size_of plotDir f0 h mz mid f name m z b f' Hd Hc H Hn Ho Hmz Hk. destruct b; [exfalso|reflexivity].
  destruct (C52_lemma now size_of plotDir f0 _ f name m z mz true f' Hd Hc H Ho (Last name h mid mz Hn) Hk) as [X _]. destruct (X eq_refl) as [X1 X2]. destruct Hmz as [Q|Q]; [exact (X1 Q)|exact (X2 Q)].
Qed.
Print Assumptions C51_reported_once.
(** a change of time and size is reported, and only that: the answer depends on the last report of this file alone *)
Theorem C52_exact_partial : forall now size_of plotDir f0 h f name m z mz b f', fexists f0 plotDir = true -> dget (cache_name plotDir) f0 = None ->
  checks now size_of plotDir f0 h f -> on_disk f name m z -> last_report name h mz -> check now size_of plotDir f name b f' ->
  (b = true <-> m <> fst mz /\ z <> snd mz).
Proof. exact C52_lemma. Qed.
Print Assumptions C52_exact_partial.
Definition one_file (m z : Z) : gfs := [(P0, FDir); (L "/d/run.dat", data ["x"%string] m z)].
Definition checked (f : gfs) : list gfs * (gst * res (bool * (Z * Z))) := was_file_updated clock size0 P0 (L "/d/run.dat") (mk_g f sel_init 0).
Lemma checked_ok f b mz : snd (snd (checked f)) = Ok (b, mz) -> check clock size0 P0 f (L "/d/run.dat") b (final (checked f)).
Proof.
  intros H. unfold check, final. destruct (checked f) as [tr [st r]] eqn:Q. cbn [fst snd] in *. subst r. unfold checked in Q. exists sel_init, 0, tr, st, mz. split; [exact Q|reflexivity].
Qed.
(** the file was rewritten with another time and the same size *)
Definition rewritten : gfs := dset (L "/d/run.dat") (data ["y"%string] 6 2) (final (checked (one_file 5 2))).
Lemma history : checks clock size0 P0 (one_file 5 2) [(L "/d/run.dat", (5, 2)%Z, true)] rewritten.
Proof.
  apply Checks_write; [|apply seqb_neq; reflexivity|apply seqb_neq; reflexivity].
  refine (Checks_check clock size0 P0 (one_file 5 2) [] (one_file 5 2) _ 5 2 true _ (Checks_none _ _ _ _) _ _); [eexists; reflexivity|]. exact (checked_ok (one_file 5 2) true (5, 2)%Z eq_refl).
Qed.
Example C51_example : exists h f b f', checks clock size0 P0 (one_file 5 2) h f /\ on_disk f (L "/d/run.dat") 6 2 /\ last_report (L "/d/run.dat") h (5, 2)%Z /\ check clock size0 P0 f (L "/d/run.dat") b f' /\ b = false.
Proof.
  exists [(L "/d/run.dat", (5, 2)%Z, true)], rewritten, false, (final (checked rewritten)). split; [exact history|]. split; [eexists; vm_compute; reflexivity|].
  split; [exact (Last _ [] [] _ (fun _ H => H))|]. split; [exact (checked_ok rewritten false (5, 2)%Z eq_refl)|reflexivity].
Qed.
Example C52_example : exists b f', check clock size0 P0 (one_file 5 2) (L "/d/run.dat") b f' /\ b = true.
Proof. exists true, (final (checked (one_file 5 2))). split; [exact (checked_ok (one_file 5 2) true (5, 2)%Z eq_refl)|reflexivity]. Qed.
(** not every change is noticed: only the time differs *)
Theorem C52_every_change_refuted : ~ forall now size_of plotDir f0 h f name m z mz b f', fexists f0 plotDir = true -> dget (cache_name plotDir) f0 = None ->
  checks now size_of plotDir f0 h f -> on_disk f name m z -> last_report name h mz -> check now size_of plotDir f name b f' -> m <> fst mz \/ z <> snd mz -> b = true.
Proof.
  intros H. assert (X : false = true); [|discriminate X].
  refine (H clock size0 P0 (one_file 5 2) [(L "/d/run.dat", (5, 2)%Z, true)] rewritten (L "/d/run.dat") 6%Z 2%Z (5, 2)%Z false (final (checked rewritten)) eq_refl eq_refl history _ (Last _ [] [] _ (fun _ H => H)) (checked_ok rewritten false (5, 2)%Z eq_refl) _);
    [eexists; vm_compute; reflexivity|left; discriminate].
Qed.
Print Assumptions C52_every_change_refuted.

(* ------------------------------------------------------------------ *)
(** * C53 *)

(** killed before the cache is written: the next run leaves the same files *)
Theorem C53_killed_early_partial : forall E known draw now size_of plotDir reversed specFile f0 sel tick f, plain_path plotDir -> plain_path specFile -> dget plotDir f0 <> None ->
  let run f := plot_all_scans E known draw now size_of plotDir reversed specFile (mk_g f sel tick) in
  In f (states (run f0)) -> dget (plotDir ++ SL :: L "mtime_cache.json") f = dget (plotDir ++ SL :: L "mtime_cache.json") f0 -> snd (run f) = snd (run f0) \/ f = final (run f0).
Proof.
  intros E known draw now size_of plotDir reversed specFile f0 sel tick f Hp Hs Hd run H Hc. unfold states in H. apply in_app_or in H. destruct H as [H|[H|[]]]; [left|right; symmetry; exact H].
  refine (killed_lemma E known draw now size_of plotDir reversed Hp specFile (mk_g f0 sel tick) f Hs Hd H _). rewrite (cache_path plotDir Hp). exact Hc.
Qed.
Print Assumptions C53_killed_early_partial.
(** killed while the cache is written: from then on no run writes anything but its directory, and none succeeds unless the data
    file has no header *)
Theorem C53_killed_while_writing_the_cache : forall E known draw now size_of plotDir reversed specFile s t z, plain_path plotDir -> plain_path specFile ->
  dget (plotDir ++ SL :: L "mtime_cache.json") (g_fs s) = Some (FFile BPart t z) ->
  exists f r, snd (plot_all_scans E known draw now size_of plotDir reversed specFile s) = (mk_g f (g_sel s) (g_tick s), r) /\
    (f = g_fs s \/ exists d, plots_in plotDir specFile d /\ dget d (g_fs s) = None /\ f = dset d FDir (g_fs s)) /\
    (r = Ok tt -> exists sd, open_file E known specFile (path_of (g_fs s) specFile) = Ok sd /\ headers sd = []).
Proof.
  intros E known draw now size_of plotDir reversed specFile s t z Hp Hs H0. assert (H : dget (cache_name plotDir) (g_fs s) = Some (FFile BPart t z)) by (rewrite (cache_path plotDir Hp); exact H0).
  destruct (broken_lemma E known draw now size_of plotDir reversed Hp specFile s t z Hs H) as (r & [Q|(d & H1 & H2 & Q)] & Hr); rewrite Q; cbn [snd].
  - exists (g_fs s), r. split; [destruct s; reflexivity|]. split; [left; reflexivity|exact Hr].
  - exists (dset d FDir (g_fs s)), r. split; [reflexivity|]. split; [right; exists d; repeat split; assumption|exact Hr].
Qed.
Print Assumptions C53_killed_while_writing_the_cache.
(** killed after the cache was written: what is missing stays missing until the data file changes *)
Theorem C53_killed_late : forall E known draw now size_of plotDir reversed specFile s m z mz, plain_path plotDir -> plain_path specFile -> dget plotDir (g_fs s) <> None ->
  on_disk (g_fs s) specFile m z -> cached plotDir (g_fs s) specFile mz -> m = fst mz \/ z = snd mz ->
  exists f r, snd (plot_all_scans E known draw now size_of plotDir reversed specFile s) = (mk_g f (g_sel s) (g_tick s), r) /\
    (f = g_fs s \/ exists d, plots_in plotDir specFile d /\ dget d (g_fs s) = None /\ f = dset d FDir (g_fs s)).
Proof.
  intros E known draw now size_of plotDir reversed specFile s m z mz Hp Hs Hd Ho Hc Hmz.
  destruct (unchanged_lemma E known draw now size_of plotDir reversed Hp specFile s m z mz Hs Hd Ho Hc Hmz) as (r & [Q|(d & H1 & H2 & Q)]); rewrite Q; cbn [snd].
  - exists (g_fs s), r. split; [destruct s; reflexivity|left; reflexivity].
  - exists (dset d FDir (g_fs s)), r. split; [reflexivity|]. right. exists d. repeat split; assumption.
Qed.
Print Assumptions C53_killed_late.
Definition run1 := run_in (fs_of two_scans) "/d/run.dat".
Definition killed (n : nat) : gfs := nth n (fst run1) [].
Lemma killed_in n : Nat.ltb n (List.length (fst run1)) = true -> In (killed n) (fst run1).
Proof. intros H. apply Nat.ltb_lt in H. exact (nth_In (fst run1) [] H). Qed.
Definition svg5 : string := "/p/2010/11/run/s00005.svg".
Example C53_example : In (killed 0) (fst run1) /\ dget (P0 ++ SL :: L "mtime_cache.json") (killed 0) = dget (P0 ++ SL :: L "mtime_cache.json") (fs_of two_scans) /\ killed 0 <> fs_of two_scans /\
  curve_in svg5 (final run1) = Some (nfs [0; 1; 2]%Z, nfs [7; 9; 4]%Z) /\ curve_in svg5 (final (run_in (killed 0) "/d/run.dat")) = Some (nfs [0; 1; 2]%Z, nfs [7; 9; 4]%Z).
Proof.
  split; [apply killed_in; vm_compute; reflexivity|]. split; [vm_compute; reflexivity|]. split; [|split; vm_compute; reflexivity].
  intros Q. apply (f_equal (@List.length _)) in Q. vm_compute in Q. discriminate Q.
Qed.
(** a run killed after the cache was written, followed by a complete run: the plot of scan 5 is missing *)
Theorem C53_made_up_refuted : exists f, In f (states run1) /\ snd (snd (run_in f "/d/run.dat")) = Ok tt /\
  curve_in svg5 (final run1) <> None /\ dget (L svg5) (final (run_in f "/d/run.dat")) = None.
Proof.
  exists (killed 2). split; [unfold states; apply in_or_app; left; apply killed_in; vm_compute; reflexivity|]. split; [vm_compute; reflexivity|]. split; [vm_compute; discriminate|vm_compute; reflexivity].
Qed.
Print Assumptions C53_made_up_refuted.
(** a run killed while the cache was written: the next runs fail *)
Theorem C53_broken_cache_refuted : exists f, In f (states run1) /\ snd (snd (run_in f "/d/run.dat")) = Raise ValueError /\ dget (L svg5) (final (run_in f "/d/run.dat")) = None.
Proof.
  exists (killed 1). split; [unfold states; apply in_or_app; left; apply killed_in; vm_compute; reflexivity|]. split; vm_compute; reflexivity.
Qed.
Print Assumptions C53_broken_cache_refuted.

(* ------------------------------------------------------------------ *)
(** * C54 *)

(** scan numbers without blanks and needless zeros give different names *)
Theorem C54_distinct_partial : forall a b, ~ In 32%N a -> ~ In 32%N b -> no_leading_zero a -> no_leading_zero b -> plot_name a = plot_name b -> a = b.
Proof. exact C54_distinct_lemma. Qed.
Print Assumptions C54_distinct_partial.
(** ... such as the decimal digits of different integers *)
Theorem C54_integers : forall a b : N, plot_name (str_of_N a) = plot_name (str_of_N b) -> str_of_N a = str_of_N b.
Proof. intros a b. destruct (decimal_plain a), (decimal_plain b). apply C54_distinct_lemma; assumption. Qed.
Print Assumptions C54_integers.
(** the names of numbers below 100000 are in the order of the numbers *)
Theorem C54_order_partial : forall a b : N, (a < b)%N -> (b < 100000)%N -> lex_before (plot_name (str_of_N a)) (plot_name (str_of_N b)).
Proof. exact C54_order_lemma. Qed.
Print Assumptions C54_order_partial.
Example C54_example : plot_name (L "7") = L "s00007.svg" /\ plot_name (L "1234567") = L "s1234567.svg" /\ lex_before (plot_name (L "9")) (plot_name (L "10")).
Proof. split; [reflexivity|]. split; [reflexivity|]. exact (C54_order_lemma 9 10 eq_refl eq_refl). Qed.
(** 1 and 01 are different scans of a file with one name *)
Theorem C54_distinct_refuted : exists a b, a <> b /\ py_float a = py_float b /\ plot_name a = plot_name b.
Proof. exists (L "1"), (L "01"). split; [discriminate|]. split; reflexivity. Qed.
Print Assumptions C54_distinct_refuted.
Lemma lex_asym : forall a b, lex_before a b -> lex_before b a -> False.
Proof.
  induction a as [|x a IH]; intros b H1 H2.
  - destruct H2 as [(p & u & v & k & l & _ & Q & _)|(c & u & Q)]; [destruct p; discriminate Q|destruct b; discriminate Q].
  - assert (Hx : exists y b', b = y :: b' /\ ((x < y)%N \/ x = y /\ lex_before a b')).
    { destruct H1 as [(p & u & v & k & l & Q1 & Q2 & H)|(c & u & Q)].
      - destruct p as [|w p]; cbn [app] in *.
        + injection Q1 as -> ->. exists v, l. split; [exact Q2|left; exact H].
        + injection Q1 as -> ->. exists w, (p ++ v :: l). split; [exact Q2|right]. split; [reflexivity|]. left. exists p, u, v, k, l. repeat split; assumption.
      - exists x, (a ++ c :: u). split; [exact Q|right]. split; [reflexivity|]. right. exists c, u. reflexivity. }
    destruct Hx as (y & b' & -> & Hx).
    assert (Hy : (y < x)%N \/ y = x /\ lex_before b' a).
    { destruct H2 as [(p & u & v & k & l & Q1 & Q2 & H)|(c & u & Q)].
      - destruct p as [|w p]; cbn [app] in *.
        + injection Q1 as -> ->. injection Q2 as -> ->. left; exact H.
        + injection Q1 as -> ->. injection Q2 as -> ->. right. split; [reflexivity|]. left. exists p, u, v, k, l. repeat split; assumption.
      - injection Q as -> ->. right. split; [reflexivity|]. right. exists c, u. reflexivity. }
    destruct Hx as [Hx|[Qx Hx]], Hy as [Hy|[Qy Hy]]; [lia|lia|lia|]. exact (IH b' Hx Hy).
Qed.
(** 100000 comes before 99999 *)
Theorem C54_order_refuted : ~ forall a b : N, (a < b)%N -> lex_before (plot_name (str_of_N a)) (plot_name (str_of_N b)).
Proof.
  intros H. apply (lex_asym _ _ (H 99999%N 100000%N eq_refl)). left. exists (L "s"), 49%N, 57%N, (L "00000.svg"), (L "9999.svg"). repeat split.
Qed.
Print Assumptions C54_order_refuted.

(* ------------------------------------------------------------------ *)
(** * C80 *)

(** whatever happens with later data files, exceptions included, the plots made for the earlier ones stay *)
Lemma giter_app {A} (c : A -> GM unit) l l' s : giter c (l ++ l') s = gbind (giter c l) (fun _ => giter c l') s.
Proof.
  revert s. induction l as [|x l IH]; intros s; cbn [app giter].
  - unfold gbind, gret. destruct (giter c l' s). reflexivity.
  - unfold gbind at 1. unfold gbind at 1. unfold gbind at 1. destruct (c x s) as [t [s1 [[]|e]]]; [|reflexivity]. rewrite IH. unfold gbind. destruct (giter c l s1) as [t2 [s2 [[]|e]]]; [|reflexivity].
    destruct (giter c l' s2) as [t3 r]. rewrite app_assoc. reflexivity.
Qed.
Theorem C80_earlier_files_partial : forall E known draw now size_of plotDir reversed before after s t s1 n, plain_path plotDir -> Forall plain_path after ->
  gallery E known draw now size_of plotDir reversed before s = (t, (s1, Ok tt)) ->
  n <> plotDir ++ SL :: L "mtime_cache.json" -> (forall a, In a after -> ~ plot_place plotDir a n) ->
  dget n (final (gallery E known draw now size_of plotDir reversed (before ++ after) s)) = dget n (g_fs s1).
Proof.
  intros E known draw now size_of plotDir reversed before after s t s1 n Hp Hf H Hc Hn. unfold gallery in *. rewrite giter_app. unfold gbind, final. rewrite H.
  destruct (giter (plot_all_scans E known draw now size_of plotDir reversed) after s1) as [t2 [s2 r]] eqn:Q. cbn [fst snd].
  refine (C84_lemma E known draw now size_of plotDir reversed Hp after s1 (g_fs s2) n Hf _ _).
  - intros [X|(a & Ha & X)]; [apply Hc; rewrite X; exact (cache_path plotDir Hp)|exact (Hn a Ha X)].
  - unfold gallery. rewrite Q. unfold states. apply in_or_app. right. left. reflexivity.
Qed.
Print Assumptions C80_earlier_files_partial.
(** an exception from a scan is listed and keeps no other scan from being plotted: see C83; for data files this is false:
    after a data file without a date in its third line, the next one is not plotted *)
Definition undated : list string := ["#F x"; "#E 1"; "#C Wed Nov 03 13:48:06 2010"]%string ++ curve_lines "1" ["0 7"; "1 9"]%string.
Definition two_files : gfs := [(P0, FDir); (L "/d/bad.dat", data undated 5 300); (L "/d/run.dat", data two_scans 5 400)].
Definition gallery_in (f : gfs) (names : list string) := gallery E0 all_hids draws clock size0 P0 false (map L names) (mk_g f sel_init 0).
Theorem C80_other_files_refuted : snd (snd (gallery_in two_files ["/d/bad.dat"; "/d/run.dat"]%string)) = Raise TypeError /\
  dget (L svg5) (final (gallery_in two_files ["/d/bad.dat"; "/d/run.dat"]%string)) = None /\
  snd (snd (gallery_in two_files ["/d/run.dat"]%string)) = Ok tt /\ curve_in svg5 (final (gallery_in two_files ["/d/run.dat"]%string)) = Some (nfs [0; 1; 2]%Z, nfs [7; 9; 4]%Z).
Proof. repeat split; vm_compute; reflexivity. Qed.
Print Assumptions C80_other_files_refuted.

(* ------------------------------------------------------------------ *)
(** * C81 *)

(** while one data file is worked on, nothing changes in the directories of the others *)
Theorem C81_files_do_not_mix_partial : forall E known draw now size_of plotDir reversed a b s f n, plain_path plotDir -> plain_path a -> plain_path b ->
  (forall r, root_name a r -> root_name b r -> False) -> plot_place plotDir a n ->
  In f (states (plot_all_scans E known draw now size_of plotDir reversed b s)) -> dget n f = dget n (g_fs s).
Proof. intros E known draw now size_of plotDir reversed a b s f n Hp. exact (C81_lemma E known draw now size_of plotDir reversed Hp a b s f n). Qed.
Print Assumptions C81_files_do_not_mix_partial.
Lemma root_starts p b c t : file_name p b -> b = c :: t -> forall r, root_name p r -> exists u, r = c :: u.
Proof.
  intros Hb Qb r (b' & e & Hb' & He). rewrite (file_name_one p b' b Hb' Hb), Qb in He. destruct He as [(dir & dots & stem & e' & Q & -> & _ & _ & _ & Hs & _)|(-> & _)]; [|exists t; reflexivity].
  destruct dir as [|x dir]; [|cbn [app] in Q |- *; injection Q as -> _; eexists; reflexivity]. destruct dots as [|x dots]; [|cbn [app] in Q |- *; injection Q as -> _; eexists; reflexivity].
  destruct stem as [|x stem]; [destruct (Hs eq_refl)|]. cbn [app] in Q |- *. injection Q as -> _. eexists; reflexivity.
Qed.
Example C81_example : plain_path (L "/d/run.dat") /\ plain_path (L "/d/a.spec") /\ (forall r, root_name (L "/d/run.dat") r -> root_name (L "/d/a.spec") r -> False) /\
  plot_place P0 (L "/d/run.dat") (L svg5).
Proof.
  split; [exists (L "/d/run.da"), 116%N; split; [reflexivity|discriminate]|]. split; [exists (L "/d/a.spe"), 99%N; split; [reflexivity|discriminate]|].
  assert (N1 : file_name (L "/d/run.dat") (L "run.dat")). { split; [|right; exists (L "/d"); reflexivity]. unfold SL. vm_compute. intuition discriminate. }
  assert (N2 : file_name (L "/d/a.spec") (L "a.spec")). { split; [|right; exists (L "/d"); reflexivity]. unfold SL. vm_compute. intuition discriminate. }
  split.
  - intros r H1 H2. destruct (root_starts _ _ _ _ N1 eq_refl r H1) as [u1 Q1]. destruct (root_starts _ _ _ _ N2 eq_refl r H2) as [u2 Q2]. rewrite Q1 in Q2. discriminate Q2.
  - exists (L "/p/2010/11/run"). split; [|right; exists (L "s00005.svg"); split; [vm_compute; intuition discriminate|reflexivity]].
    exists (L "2010"), (L "11"), (L "run"). split; [vm_compute; intuition discriminate|]. split; [vm_compute; intuition discriminate|]. split; [|reflexivity]. exact (root_ok (L "/d/run.dat")).
Qed.
(** two data files of one name in different directories, of the same month: afterwards one plot of the directory shows a scan of the
    first file and the other one a scan of the second *)
Definition same_names : gfs := [(P0, FDir); (L "/d/run.dat", data two_scans 5 400); (L "/e/run.dat", data (head ++ curve_lines "5" ["0 1"; "1 1"]%string) 9 222)].
Definition svg3 : string := "/p/2010/11/run/s00003.svg".
Theorem C81_same_name_refuted : let r := gallery_in same_names ["/d/run.dat"; "/e/run.dat"]%string in
  snd (snd r) = Ok tt /\ curve_in svg5 (final r) = Some (nfs [0; 1]%Z, nfs [1; 1]%Z) /\ curve_in svg3 (final r) = Some (nfs [0; 1]%Z, nfs [1; 2]%Z) /\
  curve_in svg5 (final (gallery_in same_names ["/d/run.dat"]%string)) = Some (nfs [0; 1; 2]%Z, nfs [7; 9; 4]%Z).
Proof. repeat split; vm_compute; reflexivity. Qed.
Print Assumptions C81_same_name_refuted.

(* ------------------------------------------------------------------ *)
(** * C82, C83 *)

(** a complete first run over a data file with header, of which the directory holds nothing yet: each scan that can be plotted has
    its plot, of what plot_scan shows (C76-C78), the others have none; index.html has the links to the plots that exist in
    order of the epochs, and the exceptions of the scans that could not be plotted; the data file is copied *)
Theorem C82_first_run_partial : forall E known draw now size_of plotDir reversed specFile s t s' content m z sd, incl all_hids known -> plain_path plotDir -> plain_path specFile ->
  data_file (g_fs s) specFile content m z -> outdated plotDir (g_fs s) specFile m z -> open_file E known specFile (File (Some content) m z) = Ok sd -> headers sd <> [] ->
  all_ge1 sd -> no_names_in_scans sd -> Forall (fun n => ~ In 32%N n /\ no_leading_zero n) (keys (scans sd)) -> dget default_key (g_sel s) <> None ->
  ~ place plotDir specFile specFile -> (forall d, plot_directory plotDir specFile content d -> nothing_in d (g_fs s)) ->
  (forall b, file_name specFile b -> b <> L "index.html" /\ forall y, b <> y ++ L ".svg") ->
  plot_all_scans E known draw now size_of plotDir reversed specFile s = (t, (s', Ok tt)) ->
  exists d scs, plot_directory plotDir specFile content d /\ Permutation scs (values (scans sd)) /\
    StronglySorted (fun a b => exists x y, py_float (s_num a) = Ok x /\ py_float (s_num b) = Ok y /\ num_le x y) scs /\
    first_run E known draw reversed (g_sel s) sd m d specFile (BText (Some content)) (g_fs s') scs.
Proof.
  intros E known draw now size_of plotDir reversed specFile s t s' content m z sd Hk Hp.
  exact (first_run_lemma E known draw now size_of plotDir reversed Hk Hp specFile s t s' content m z sd).
Qed.
Print Assumptions C82_first_run_partial.
(** the files of the examples: scans 5 and 3, then a row is added to the last one *)
Definition length_of (ls : list string) : Z := Z.of_nat (List.length (text_of ls)).
Definition in_place (ls : list string) (m : Z) (f : gfs) : gfs := dset (L "/d/run.dat") (data ls m (length_of ls)) f.
Definition empty : gfs := [(P0, FDir)].
Definition grown : list string := two_scans ++ ["2 3"%string].
Definition first : list gfs * (gst * res unit) := run_in (in_place two_scans 5 empty) "/d/run.dat".
Definition read (ls : list string) : sdf := got (sdf_init []) (open_file E0 all_hids (L "/d/run.dat") (File (Some (text_of ls)) 5 (length_of ls))).
Lemma read_ok ls : is_ok (open_file E0 all_hids (L "/d/run.dat") (File (Some (text_of ls)) 5 (length_of ls))) = true -> open_file E0 all_hids (L "/d/run.dat") (File (Some (text_of ls)) 5 (length_of ls)) = Ok (read ls).
Proof. apply got_ok. Qed.
Lemma under_P0 d : plots_in P0 (L "/d/run.dat") d -> exists u, d = 47%N :: 112%N :: 47%N :: u.
Proof. intros (y & mm & r & _ & _ & _ & ->). eexists. reflexivity. Qed.
Lemma run_dat b : file_name (L "/d/run.dat") b -> b = L "run.dat".
Proof. intros H. apply (file_name_one (L "/d/run.dat") b (L "run.dat") H). split; [vm_compute; intuition discriminate|right; exists (L "/d"); reflexivity]. Qed.
Lemma run_place : ~ place P0 (L "/d/run.dat") (L "/d/run.dat").
Proof. intros [Q|(d & Hd & Q)]; [discriminate Q|]. destruct (under_P0 d Hd) as [u ->]. destruct Q as [Q|(x & _ & Q)]; discriminate Q. Qed.
Lemma nothing_at_first ls d : plot_directory P0 (L "/d/run.dat") (text_of ls) d -> nothing_in d (in_place ls 5 empty).
Proof.
  intros (a & b & date & more & t & r & _ & _ & _ & ->) x. unfold in_place. rewrite dget_dset_other by (intros Q; discriminate Q). reflexivity.
Qed.
Example C82_example : let s := mk_g (in_place two_scans 5 empty) sel_init 0 in let sd := read two_scans in
  plain_path P0 /\ plain_path (L "/d/run.dat") /\ data_file (g_fs s) (L "/d/run.dat") (text_of two_scans) 5 (length_of two_scans) /\
  outdated P0 (g_fs s) (L "/d/run.dat") 5 (length_of two_scans) /\ open_file E0 all_hids (L "/d/run.dat") (File (Some (text_of two_scans)) 5 (length_of two_scans)) = Ok sd /\ headers sd <> [] /\
  all_ge1 sd /\ no_names_in_scans sd /\ Forall (fun n => ~ In 32%N n /\ no_leading_zero n) (keys (scans sd)) /\ dget default_key (g_sel s) <> None /\
  ~ place P0 (L "/d/run.dat") (L "/d/run.dat") /\ (forall d, plot_directory P0 (L "/d/run.dat") (text_of two_scans) d -> nothing_in d (g_fs s)) /\
  (forall b, file_name (L "/d/run.dat") b -> b <> L "index.html" /\ forall y, b <> y ++ L ".svg") /\ snd (snd first) = Ok tt /\
  curve_in svg3 (final first) = Some (nfs [0; 1]%Z, nfs [1; 2]%Z) /\ curve_in svg5 (final first) = Some (nfs [0; 1; 2]%Z, nfs [7; 9; 4]%Z).
Proof.
  cbv zeta. split; [exact P0_plain|]. split; [exists (L "/d/run.da"), 116%N; split; [reflexivity|discriminate]|]. split; [vm_compute; reflexivity|].
  split. { split; [intros mz (c & t & z & Q & _); vm_compute in Q; discriminate Q|]. intros _. split; [discriminate|vm_compute; discriminate]. }
  split; [apply read_ok; vm_compute; reflexivity|]. split; [set (h := headers _); intros Q; apply (f_equal (@List.length _)) in Q; vm_compute in Q; discriminate Q|].
  split. { unfold all_ge1. set (ks := keys _). vm_compute in ks. subst ks. repeat (constructor; [apply one_b_ok; vm_compute; reflexivity|]). constructor. }
  split; [exact (fun name sc ls l => no_names_by (scans (read two_scans)) name sc ls l ltac:(vm_compute; reflexivity))|].
  split. { set (ks := keys _). vm_compute in ks. subst ks. repeat (constructor; [split; [cbn [In]; intuition discriminate|]; split; [discriminate|intros t Q; discriminate Q]|]). constructor. }
  split; [vm_compute; discriminate|]. split; [exact run_place|]. split; [exact (nothing_at_first two_scans)|].
  split. { intros b Hb. rewrite (run_dat b Hb). split; [apply seqb_neq; reflexivity|]. intros y Q. apply (f_equal (@rev N)) in Q. rewrite rev_app_distr in Q. discriminate Q. }
  split; [vm_compute; reflexivity|]. split; vm_compute; reflexivity.
Qed.
(** the second run is a complete one, and the plot of scan 3 is still without the new row *)
Theorem C82_later_run_refuted : let second := run_in (in_place grown 9 (final first)) "/d/run.dat" in
  snd (snd first) = Ok tt /\ snd (snd second) = Ok tt /\ curve_in svg3 (final second) = Some (nfs [0; 1]%Z, nfs [1; 2]%Z) /\
  curve_in svg3 (final (run_in (in_place grown 9 empty) "/d/run.dat")) = Some (nfs [0; 1; 2]%Z, nfs [1; 2; 3]%Z).
Proof. repeat split; vm_compute; reflexivity. Qed.
Print Assumptions C82_later_run_refuted.
(** the index of a first run *)
Theorem C83_index_partial : forall E known draw now size_of plotDir reversed specFile s t s' content m z sd, incl all_hids known -> plain_path plotDir -> plain_path specFile ->
  data_file (g_fs s) specFile content m z -> outdated plotDir (g_fs s) specFile m z -> open_file E known specFile (File (Some content) m z) = Ok sd -> headers sd <> [] ->
  all_ge1 sd -> no_names_in_scans sd -> Forall (fun n => ~ In 32%N n /\ no_leading_zero n) (keys (scans sd)) -> dget default_key (g_sel s) <> None ->
  ~ place plotDir specFile specFile -> (forall d, plot_directory plotDir specFile content d -> nothing_in d (g_fs s)) ->
  (forall b, file_name specFile b -> b <> L "index.html" /\ forall y, b <> y ++ L ".svg") ->
  plot_all_scans E known draw now size_of plotDir reversed specFile s = (t, (s', Ok tt)) ->
  let epoch := epoch_is E known draw (g_sel s) sd m in
  exists d links ps t' z' order shown scs os, plot_directory plotDir specFile content d /\ dget (d ++ SL :: L "index.html") (g_fs s') = Some (FFile (BIndex links ps) t' z') /\
    Permutation order (values (scans sd)) /\ Keeps (fun sc => dget (d ++ SL :: plot_name (s_num sc)) (g_fs s') <> None) order shown /\ Forall2 link_to shown links /\
    ((forall sc x, In sc order -> epoch sc x -> fl_of_num x <> FNaN) -> StronglySorted (fun a b => exists x y, epoch a x /\ epoch b y /\ in_order reversed x y) order) /\
    Permutation scs (values (scans sd)) /\ Forall2 (fun sc o => exists sc', plotting E known draw (g_sel s) sd sc m o sc') scs os /\ problems_of scs os ps.
Proof.
  intros E known draw now size_of plotDir reversed specFile s t s' content m z sd Hk Hp H1 H2 H3 H4 H5 H6 H7 H8 H9 H10 H11 H12 H13 epoch.
  destruct (first_run_lemma E known draw now size_of plotDir reversed Hk Hp specFile s t s' content m z sd H1 H2 H3 H4 H5 H6 H7 H8 H9 H10 H11 H12 H13) as (d & scs & Hd & Hscs & _ & [Hf _ _]).
  destruct Hf as (os & ps & links & t' & z' & order & sh & F1 & F2 & F3 & F4 & _ & F5 & F6 & F7).
  exists d, links, ps, t', z', order, sh, scs, os. split; [exact Hd|]. split; [exact F2|]. split; [exact (Permutation_trans F4 Hscs)|]. split; [exact F6|]. split; [exact F7|].
  split; [intros Hn; apply F5; intros sc x Hin; apply Hn; exact (Permutation_in _ (Permutation_sym F4) Hin)|]. split; [exact Hscs|]. split; [|exact F3].
  clear - F1. induction F1 as [|sc o l l' [_ Hx] _ IH]; constructor; [exact Hx|exact IH].
Qed.
Print Assumptions C83_index_partial.
Definition index_in (f : gfs) : option (list str * list (exn * str)) :=
  match dget (L "/p/2010/11/run/index.html") f with Some (FFile (BIndex l p) _ _) => Some (l, p) | _ => None end.
Definition links_of (o : option (list str * list (exn * str))) : option nat := option_map (fun p => List.length (fst p)) o.
(** scan 2 has no data *)
Definition one_more : list string := head ++ curve_lines "1" ["0 7"; "1 9"]%string ++ curve_lines "2" [].
Example C83_example : links_of (index_in (final first)) = Some 2 /\
  option_map snd (index_in (final (run_in (in_place one_more 5 empty) "/d/run.dat"))) = Some [(NoDataToPlot, L "2")] /\ links_of (index_in (final (run_in (in_place one_more 5 empty) "/d/run.dat"))) = Some 1.
Proof. repeat split; vm_compute; reflexivity. Qed.
(** scan 2 comes later: it is not listed as a problem *)
Theorem C83_later_problem_refuted : let one := run_in (in_place (head ++ curve_lines "1" ["0 7"; "1 9"]%string) 5 empty) "/d/run.dat" in
  let two := run_in (in_place one_more 9 (final one)) "/d/run.dat" in
  snd (snd two) = Ok tt /\ option_map snd (index_in (final two)) = Some [] /\ option_map snd (index_in (final (run_in (in_place one_more 9 empty) "/d/run.dat"))) = Some [(NoDataToPlot, L "2")].
Proof. repeat split; vm_compute; reflexivity. Qed.
Print Assumptions C83_later_problem_refuted.

(* ------------------------------------------------------------------ *)
(** * C84, C85 *)

(** in no state of a run is anything changed but the cache and the files in the directories of the data files; so the data files
    themselves are never changed *)
Theorem C84_nothing_else_changed : forall E known draw now size_of plotDir reversed files s f n, plain_path plotDir -> Forall plain_path files ->
  n <> plotDir ++ SL :: L "mtime_cache.json" -> (forall a, In a files -> ~ plot_place plotDir a n) ->
  In f (states (gallery E known draw now size_of plotDir reversed files s)) -> dget n f = dget n (g_fs s).
Proof.
  intros E known draw now size_of plotDir reversed files s f n Hp Hf Hc Hn. refine (C84_lemma E known draw now size_of plotDir reversed Hp files s f n Hf _).
  intros [Q|(a & Ha & Q)]; [apply Hc; rewrite Q; exact (cache_path plotDir Hp)|exact (Hn a Ha Q)].
Qed.
Print Assumptions C84_nothing_else_changed.
Example C84_example : plain_path P0 /\ Forall plain_path [L "/d/run.dat"] /\ L "/d/run.dat" <> P0 ++ SL :: L "mtime_cache.json" /\ (forall a, In a [L "/d/run.dat"] -> ~ plot_place P0 a (L "/d/run.dat")) /\
  List.length (states (gallery_in (in_place two_scans 5 empty) ["/d/run.dat"%string])) = 12.
Proof.
  split; [exact P0_plain|]. split; [constructor; [exists (L "/d/run.da"), 116%N; split; [reflexivity|discriminate]|constructor]|]. split; [discriminate|].
  split; [|vm_compute; reflexivity]. intros a [<-|[]] H. apply run_place. right. exact H.
Qed.
(** when nothing has changed, a second complete run changes nothing *)
Theorem C85_second_run : forall E known draw now size_of plotDir reversed files s t s', plain_path plotDir -> Forall plain_path files ->
  (forall a, In a files -> a <> plotDir ++ SL :: L "mtime_cache.json" /\ forall b, In b files -> ~ plot_place plotDir b a) ->
  gallery E known draw now size_of plotDir reversed files s = (t, (s', Ok tt)) ->
  gallery E known draw now size_of plotDir reversed files s' = ([], (s', Ok tt)).
Proof.
  intros E known draw now size_of plotDir reversed files s t s' Hp Hf Hn. refine (C85_lemma E known draw now size_of plotDir reversed Hp files s t s' Hf _).
  intros a Ha [Q|(b & Hb & Q)]; [apply (proj1 (Hn a Ha)); rewrite Q; exact (cache_path plotDir Hp)|exact (proj2 (Hn a Ha) b Hb Q)].
Qed.
Print Assumptions C85_second_run.
Example C85_example : (forall a, In a [L "/d/run.dat"] -> a <> P0 ++ SL :: L "mtime_cache.json" /\ forall b, In b [L "/d/run.dat"] -> ~ plot_place P0 b a) /\
  snd (snd (gallery_in (in_place two_scans 5 empty) ["/d/run.dat"%string])) = Ok tt.
Proof.
  split; [|vm_compute; reflexivity]. intros a [<-|[]]. split; [discriminate|]. intros b [<-|[]] H. apply run_place. right. exact H.
Qed.
