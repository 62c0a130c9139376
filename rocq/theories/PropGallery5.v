(** C83: index.html after later runs of the gallery, when the last scan has grown or the data file has become smaller.
    Theorems only; the proofs rest on those of PropGallery2.v. *)
From Coq Require Import String Lia Permutation Sorted.
From Verif Require Import Uni Py PyFacts NumFacts Time Utils Keys Handlers Reader Cli Writer Plot Gallery SpecText SpecReader SpecNum SpecLookup SpecHistory SpecTables SpecCli SpecPlot SpecGallery SpecGallery2
  TextFacts ReaderFacts ReaderFacts2 ReaderFacts4 ReaderFacts5 ReaderFacts6 ReaderFacts8 ExampleFacts GalleryFacts GalleryFacts2 GalleryFacts3 GalleryFacts4 GalleryFacts5 GalleryFacts6 GalleryFacts7 GalleryFacts8 GalleryFacts9 UseFacts PropPlot PropGallery PropGallery2.
Import ListNotations.
Local Open Scope list_scope.

(** the last scan has grown: the last plot in the order of the names is removed and made again with those of new scans; if one of these could
    be plotted, index.html has a link to each plot there is, in order of the epochs, and the problems of these scans *)
Theorem C83_grown_partial : forall E known draw now size_of plotDir reversed specFile s t s' content m z sd m0 z0, incl all_hids known -> plain_path plotDir -> plain_path specFile ->
  NoDup (keys (g_fs s)) -> data_file (g_fs s) specFile content m z -> cached plotDir (g_fs s) specFile (m0, z0) -> m <> m0 -> (0 <= z0 < z)%Z -> more_appended content z0 ->
  open_file E known specFile (File (Some content) m z) = Ok sd -> headers sd <> [] ->
  all_ge1 sd -> no_names_in_scans sd -> Forall (fun n => ~ In 32%N n /\ no_leading_zero n) (keys (scans sd)) -> dget default_key (g_sel s) <> None ->
  ~ place plotDir specFile specFile -> (forall b, file_name specFile b -> b <> L "index.html" /\ forall y, b <> y ++ L ".svg") ->
  plot_all_scans E known draw now size_of plotDir reversed specFile s = (t, (s', Ok tt)) ->
  exists d scs f1 l os ps, plot_directory plotDir specFile content d /\ Permutation scs (values (scans sd)) /\ kept_but_last d (g_fs s) f1 /\ news f1 d scs l /\
    Forall2 (fun sc o => exists sc', plotting E known draw (g_sel s) sd sc m o sc') l os /\ problems_of l os ps /\
    ((exists i, In (Ok i) os) -> exists links t z order shown, dget (d ++ SL :: L "index.html") (g_fs s') = Some (FFile (BIndex links ps) t z) /\ Permutation order (values (scans sd)) /\
       Keeps (fun sc => dget (d ++ SL :: plot_name (s_num sc)) (g_fs s') <> None) order shown /\ Forall2 link_to shown links /\
       ((forall sc x, In sc order -> epoch_now E known draw (g_sel s) sd m d f1 sc x -> fl_of_num x <> FNaN) ->
         StronglySorted (fun a b => exists x y, epoch_now E known draw (g_sel s) sd m d f1 a x /\ epoch_now E known draw (g_sel s) sd m d f1 b y /\ in_order reversed x y) order)).
Proof.
  intros E known draw now size_of plotDir reversed specFile s t s' content m z sd m0 z0 Hk Hp H1 H2 H3 H4 H5 H6 H7 H8 H9 H10 H11 H12 H13 H14 H15 H16.
  destruct (C82_grown_partial E known draw now size_of plotDir reversed specFile s t s' content m z sd m0 z0 Hk Hp H1 H2 H3 H4 H5 H6 H7 H8 H9 H10 H11 H12 H13 H14 H15 H16) as (d & scs & f1 & Hd & Hscs & _ & Hf1 & [_ Hl _]).
  destruct Hl as (l & os & ps & A1 & A2 & A3 & A4 & _). exists d, scs, f1, l, os, ps. split; [exact Hd|]. split; [exact Hscs|]. split; [exact Hf1|]. split; [exact A1|]. split; [|split; [exact A3|]].
  - clear - A2. induction A2 as [|sc o l l' [_ Hx] _ IH]; constructor; [exact Hx|exact IH].
  - intros Hi. destruct (A4 (or_introl Hi)) as (links & t' & z' & order & sh & B1 & B2 & B3 & B4 & B5). exists links, t', z', order, sh. split; [exact B1|]. split; [exact (Permutation_trans B2 Hscs)|]. split; [exact B3|]. split; [exact B4|].
    intros Hn. apply B5. intros sc x Hin. apply Hn. exact (Permutation_in _ (Permutation_sym B2) Hin).
Qed.
Print Assumptions C83_grown_partial.

(** the data file has become smaller: all plots are made again, and if one could be made index.html is that of a first run: a link to each plot
    there is, in order of the epochs, and the problems of all others *)
Theorem C83_shrunk_partial : forall E known draw now size_of plotDir reversed specFile s t s' content m z sd m0 z0, incl all_hids known -> plain_path plotDir -> plain_path specFile ->
  NoDup (keys (g_fs s)) -> data_file (g_fs s) specFile content m z -> cached plotDir (g_fs s) specFile (m0, z0) -> m <> m0 -> (0 < z < z0)%Z ->
  open_file E known specFile (File (Some content) m z) = Ok sd -> headers sd <> [] ->
  all_ge1 sd -> no_names_in_scans sd -> Forall (fun n => ~ In 32%N n /\ no_leading_zero n) (keys (scans sd)) -> dget default_key (g_sel s) <> None ->
  ~ place plotDir specFile specFile -> (forall b, file_name specFile b -> b <> L "index.html" /\ forall y, b <> y ++ L ".svg") ->
  plot_all_scans E known draw now size_of plotDir reversed specFile s = (t, (s', Ok tt)) ->
  exists d scs os ps, plot_directory plotDir specFile content d /\ Permutation scs (values (scans sd)) /\
    Forall2 (fun sc o => plot_file (g_fs s') (d ++ SL :: plot_name (s_num sc)) o /\ exists sc', plotting E known draw (g_sel s) sd sc m o sc') scs os /\ problems_of scs os ps /\
    (forall x, svg_name x -> dget (d ++ SL :: x) (g_fs s') <> None -> exists sc, In sc scs /\ x = plot_name (s_num sc)) /\
    ((exists i, In (Ok i) os) -> exists links t z order shown, dget (d ++ SL :: L "index.html") (g_fs s') = Some (FFile (BIndex links ps) t z) /\ Permutation order (values (scans sd)) /\
       Keeps (fun sc => dget (d ++ SL :: plot_name (s_num sc)) (g_fs s') <> None) order shown /\ Forall2 link_to shown links /\
       ((forall sc x, In sc order -> epoch_is E known draw (g_sel s) sd m sc x -> fl_of_num x <> FNaN) ->
         StronglySorted (fun a b => exists x y, epoch_is E known draw (g_sel s) sd m a x /\ epoch_is E known draw (g_sel s) sd m b y /\ in_order reversed x y) order)).
Proof.
  intros E known draw now size_of plotDir reversed specFile s t s' content m z sd m0 z0 Hk Hp H1 H2 H3 H4 H5 H6 H7 H8 H9 H10 H11 H12 H13 H14 H15.
  destruct (C82_shrunk_partial E known draw now size_of plotDir reversed specFile s t s' content m z sd m0 z0 Hk Hp H1 H2 H3 H4 H5 H6 H7 H8 H9 H10 H11 H12 H13 H14 H15) as (d & scs & f1 & Hd & Hscs & _ & Hf1 & [Hkept Hl _]).
  destruct Hl as (l & os & ps & A1 & A2 & A3 & A4 & _).
  assert (Pn : forall sc, In sc scs -> svg_name (plot_name (s_num sc))).
  { intros sc Hsc. apply plot_svg. assert (Hn : In (s_num sc) (keys (scans sd))).
    { destruct (hist_inv _ _ _ (open_history _ _ _ _ _ H7)) as [_ I2]. rewrite I2. apply in_map. exact (Permutation_in _ Hscs Hsc). }
    unfold all_ge1 in H9. rewrite Forall_forall in H9. destruct (H9 _ Hn) as (x & Hx & _). exact (number_no_slash _ _ Hx). }
  assert (Nn : forall sc, In sc scs -> dget (d ++ SL :: plot_name (s_num sc)) f1 = None) by (intros sc Hsc; exact (proj1 (Hf1 _) (Pn sc Hsc))).
  assert (El : l = scs).
  { clear - A1 Nn. unfold news in A1. induction A1 as [|x a b Hx _ IH|x a b Hx _ IH]; [reflexivity| |].
    - f_equal. apply IH. intros sc Hsc. apply Nn. right. exact Hsc.
    - destruct (Hx (Nn x (or_introl eq_refl))). }
  subst l. exists d, scs, os, ps. split; [exact Hd|]. split; [exact Hscs|]. split; [exact A2|]. split; [exact A3|]. split.
  - intros x Hx Hin. destruct (in_dec (list_eq_dec N.eq_dec) x (map (fun sc => plot_name (s_num sc)) scs)) as [Hi|Hi]; [apply in_map_iff in Hi; destruct Hi as (sc & <- & Hsc); exists sc; split; [exact Hsc|reflexivity]|].
    exfalso. apply Hin. rewrite (Hkept x (proj1 Hx)).
    + exact (proj1 (Hf1 x) Hx).
    + left. intros sc Hsc ->. apply Hi. apply in_map_iff. exists sc. split; [reflexivity|exact Hsc].
    + intros ->. destruct Hx as [_ [y Hy]]. apply (f_equal (@rev N)) in Hy. rewrite rev_app_distr in Hy. discriminate Hy.
    + intros Hb. destruct (H14 x Hb) as [_ Q]. destruct Hx as [_ [y Hy]]. exact (Q y Hy).
  - intros Hi. destruct (A4 (or_introl Hi)) as (links & t' & z' & order & sh & B1 & B2 & B3 & B4 & B5). exists links, t', z', order, sh. split; [exact B1|]. split; [exact (Permutation_trans B2 Hscs)|]. split; [exact B3|]. split; [exact B4|].
    assert (Ep : forall sc x, In sc scs -> epoch_now E known draw (g_sel s) sd m d f1 sc x -> epoch_is E known draw (g_sel s) sd m sc x).
    { intros sc x Hsc [[_ Q]|[Q _]]; [exact Q|destruct (Q (Nn sc Hsc))]. }
    intros Hn. assert (S0 : StronglySorted (fun a b => exists x y, epoch_now E known draw (g_sel s) sd m d f1 a x /\ epoch_now E known draw (g_sel s) sd m d f1 b y /\ in_order reversed x y) order).
    { apply B5. intros sc x Hsc Hx. exact (Hn sc x (Permutation_in _ (Permutation_sym B2) Hsc) (Ep sc x Hsc Hx)). }
    assert (Ho : forall sc, In sc order -> In sc scs) by (intros sc Hsc; exact (Permutation_in _ B2 Hsc)).
    clear - S0 Ho Ep. induction S0 as [|a o _ IH Hf]; constructor; [apply IH; intros sc Hsc; apply Ho; right; exact Hsc|].
    rewrite Forall_forall in *. intros b Hb. destruct (Hf b Hb) as (x & y & Q1 & Q2 & Q3). exists x, y. split; [exact (Ep a x (Ho a (or_introl eq_refl)) Q1)|]. split; [exact (Ep b y (Ho b (or_intror Hb)) Q2)|exact Q3].
Qed.
Print Assumptions C83_shrunk_partial.

(** the data file has become smaller and no scan in it can be plotted: the plots are removed, and index.html still has the links to them *)
Definition no_data : list string := head ++ curve_lines "2" [].
Theorem C83_stale_links_refuted : let two := run_in (in_place no_data 9 (final first)) "/d/run.dat" in
  snd (snd first) = Ok tt /\ links_of (index_in (final first)) = Some 2 /\ snd (snd two) = Ok tt /\ dget (L svg5) (final two) = None /\ dget (L svg3) (final two) = None /\
  links_of (index_in (final two)) = Some 2 /\ option_map snd (index_in (final two)) = Some [] /\
  links_of (index_in (final (run_in (in_place no_data 9 empty) "/d/run.dat"))) = Some 0.
Proof. repeat split; vm_compute; reflexivity. Qed.
Print Assumptions C83_stale_links_refuted.

(** the last scan grows by a row: its plot is made again, and the index has both links; the hypotheses are those of C82_grown_partial, met by
    C82_grown_example *)
Example C83_grown_example : let r := run_in (in_place up_grown 9 (final up_first)) "/d/run.dat" in snd (snd r) = Ok tt /\ links_of (index_in (final r)) = Some 2 /\ option_map snd (index_in (final r)) = Some [] /\
  curve_in svg5 (final r) = Some (nfs [0; 1; 2]%Z, nfs [7; 9; 4]%Z).
Proof. repeat split; vm_compute; reflexivity. Qed.
(** the data file becomes smaller: the hypotheses are those of C82_shrunk_partial, met by C82_shrunk_example *)
Example C83_shrunk_example : let r := run_in (in_place one_scan 9 (final first)) "/d/run.dat" in snd (snd r) = Ok tt /\ links_of (index_in (final r)) = Some 1 /\ option_map snd (index_in (final r)) = Some [] /\
  curve_in svg5 (final r) = Some (nfs [0; 1]%Z, nfs [8; 3]%Z).
Proof. repeat split; vm_compute; reflexivity. Qed.
