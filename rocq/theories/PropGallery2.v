(** C82, C83: later runs of the gallery: whole scans were appended, the last scan has grown, or the file has become smaller.
    Theorems only; proofs are in GalleryFacts8.v and GalleryFacts9.v. *)
From Coq Require Import String Lia Permutation Sorted.
From Verif Require Import Uni Py PyFacts NumFacts Time Utils Keys Handlers Reader Cli Writer Plot Gallery SpecText SpecReader SpecNum SpecLookup SpecHistory SpecTables SpecCli SpecPlot SpecGallery SpecGallery2
  TextFacts ReaderFacts5 ExampleFacts GalleryFacts GalleryFacts2 GalleryFacts3 GalleryFacts4 GalleryFacts5 GalleryFacts6 GalleryFacts7 GalleryFacts8 GalleryFacts9 UseFacts PropPlot PropGallery.
Import ListNotations.
Local Open Scope list_scope.

(** a complete run over a data file that had the time m0 and size z0 when it was last reported as changed, and to which whole scans were
    appended since: whatever plots are there are kept, and every other scan that can be plotted gets its plot *)
Theorem C82_appended_partial : forall E known draw now size_of plotDir reversed specFile s t s' content m z sd m0 z0, incl all_hids known -> plain_path plotDir -> plain_path specFile ->
  NoDup (keys (g_fs s)) -> data_file (g_fs s) specFile content m z -> cached plotDir (g_fs s) specFile (m0, z0) -> m <> m0 -> (z0 < z)%Z -> scans_appended content z0 ->
  open_file E known specFile (File (Some content) m z) = Ok sd -> headers sd <> [] ->
  all_ge1 sd -> no_names_in_scans sd -> Forall (fun n => ~ In 32%N n /\ no_leading_zero n) (keys (scans sd)) -> dget default_key (g_sel s) <> None ->
  ~ place plotDir specFile specFile -> (forall b, file_name specFile b -> b <> L "index.html" /\ forall y, b <> y ++ L ".svg") ->
  plot_all_scans E known draw now size_of plotDir reversed specFile s = (t, (s', Ok tt)) ->
  exists d scs, plot_directory plotDir specFile content d /\ Permutation scs (values (scans sd)) /\
    StronglySorted (fun a b => exists x y, py_float (s_num a) = Ok x /\ py_float (s_num b) = Ok y /\ num_le x y) scs /\
    later_run E known draw reversed (g_sel s) sd m d specFile (BText (Some content)) (g_fs s) (g_fs s') scs.
Proof.
  intros E known draw now size_of plotDir reversed specFile s t s' content m z sd m0 z0 Hk Hp H1 H2 H3 H4 H5 H6 H7 H8 H9 H10 H11 H12 H13 H14 H15 H16.
  destruct (later_run_lemma E known draw now size_of plotDir reversed Hk Hp specFile kept_all m z m0 z0 content) with (s := s) (t := t) (s' := s') (sd := sd) as (d & scs & f1 & A1 & A2 & A3 & A4 & A5); try assumption.
  - intros d f f' f1 Hs Hr x. rewrite <- Hs. apply Hr.
  - intros d f sel tick _ _ Hf. exact (old_appended specFile m z m0 z0 content d f sel tick H6 H7 Hf).
  - lia.
  - exists d, scs. split; [exact A1|]. split; [exact A2|]. split; [exact A3|]. exact (later_ext E known draw reversed _ _ _ _ _ _ _ _ _ _ A4 A5).
Qed.
Print Assumptions C82_appended_partial.
(** ... when the last scan has grown: the last plot of the directory in the order of the names is not kept *)
Theorem C82_grown_partial : forall E known draw now size_of plotDir reversed specFile s t s' content m z sd m0 z0, incl all_hids known -> plain_path plotDir -> plain_path specFile ->
  NoDup (keys (g_fs s)) -> data_file (g_fs s) specFile content m z -> cached plotDir (g_fs s) specFile (m0, z0) -> m <> m0 -> (0 <= z0 < z)%Z -> more_appended content z0 ->
  open_file E known specFile (File (Some content) m z) = Ok sd -> headers sd <> [] ->
  all_ge1 sd -> no_names_in_scans sd -> Forall (fun n => ~ In 32%N n /\ no_leading_zero n) (keys (scans sd)) -> dget default_key (g_sel s) <> None ->
  ~ place plotDir specFile specFile -> (forall b, file_name specFile b -> b <> L "index.html" /\ forall y, b <> y ++ L ".svg") ->
  plot_all_scans E known draw now size_of plotDir reversed specFile s = (t, (s', Ok tt)) ->
  exists d scs f1, plot_directory plotDir specFile content d /\ Permutation scs (values (scans sd)) /\
    StronglySorted (fun a b => exists x y, py_float (s_num a) = Ok x /\ py_float (s_num b) = Ok y /\ num_le x y) scs /\ kept_but_last d (g_fs s) f1 /\
    later_run E known draw reversed (g_sel s) sd m d specFile (BText (Some content)) f1 (g_fs s') scs.
Proof.
  intros E known draw now size_of plotDir reversed specFile s t s' content m z sd m0 z0 Hk Hp H1 H2 H3 H4 H5 H6 H7 H8 H9 H10 H11 H12 H13 H14 H15 H16.
  apply (later_run_lemma E known draw now size_of plotDir reversed Hk Hp specFile kept_but_last m z m0 z0 content) with (s := s) (t := t) (s' := s') (sd := sd); try assumption.
  - intros d f f' f1 Hs [[Q1 Q2]|(k & (Q1 & Q2 & Q3) & Q4 & Q5)].
    + left. split; [intros x Hx; rewrite <- Hs; exact (Q1 x Hx)|]. intros x. rewrite <- Hs. apply Q2.
    + right. exists k. split; [split; [exact Q1|split; [rewrite <- Hs; exact Q2|intros x Hx; rewrite <- Hs; exact (Q3 x Hx)]]|]. split; [exact Q4|]. intros x Hx. rewrite <- Hs. exact (Q5 x Hx).
  - intros d f sel tick Hd Hn Hf. exact (old_grown specFile m z m0 z0 content d f sel tick Hd Hn H6 H7 Hf).
  - lia.
Qed.
Print Assumptions C82_grown_partial.
(** ... when the file has become smaller: no plot is kept, so all are made again *)
Theorem C82_shrunk_partial : forall E known draw now size_of plotDir reversed specFile s t s' content m z sd m0 z0, incl all_hids known -> plain_path plotDir -> plain_path specFile ->
  NoDup (keys (g_fs s)) -> data_file (g_fs s) specFile content m z -> cached plotDir (g_fs s) specFile (m0, z0) -> m <> m0 -> (0 < z < z0)%Z ->
  open_file E known specFile (File (Some content) m z) = Ok sd -> headers sd <> [] ->
  all_ge1 sd -> no_names_in_scans sd -> Forall (fun n => ~ In 32%N n /\ no_leading_zero n) (keys (scans sd)) -> dget default_key (g_sel s) <> None ->
  ~ place plotDir specFile specFile -> (forall b, file_name specFile b -> b <> L "index.html" /\ forall y, b <> y ++ L ".svg") ->
  plot_all_scans E known draw now size_of plotDir reversed specFile s = (t, (s', Ok tt)) ->
  exists d scs f1, plot_directory plotDir specFile content d /\ Permutation scs (values (scans sd)) /\
    StronglySorted (fun a b => exists x y, py_float (s_num a) = Ok x /\ py_float (s_num b) = Ok y /\ num_le x y) scs /\ kept_no_plot d (g_fs s) f1 /\
    later_run E known draw reversed (g_sel s) sd m d specFile (BText (Some content)) f1 (g_fs s') scs.
Proof.
  intros E known draw now size_of plotDir reversed specFile s t s' content m z sd m0 z0 Hk Hp H1 H2 H3 H4 H5 H6 H7 H8 H9 H10 H11 H12 H13 H14 H15.
  apply (later_run_lemma E known draw now size_of plotDir reversed Hk Hp specFile kept_no_plot m z m0 z0 content) with (s := s) (t := t) (s' := s') (sd := sd); try assumption.
  - intros d f f' f1 Hs Q x. destruct (Q x) as [Q1 Q2]. split; [exact Q1|]. intros Hx. rewrite <- Hs. exact (Q2 Hx).
  - intros d f sel tick Hd Hn _. exact (old_shrunk specFile m z m0 z0 d f sel tick Hd Hn H6).
  - lia.
Qed.
Print Assumptions C82_shrunk_partial.

(** ... and if one of the new scans could be plotted, index.html has a link to each plot there is in order of the epochs, and the problems of the new scans *)
Theorem C83_appended_partial : forall E known draw now size_of plotDir reversed specFile s t s' content m z sd m0 z0, incl all_hids known -> plain_path plotDir -> plain_path specFile ->
  NoDup (keys (g_fs s)) -> data_file (g_fs s) specFile content m z -> cached plotDir (g_fs s) specFile (m0, z0) -> m <> m0 -> (z0 < z)%Z -> scans_appended content z0 ->
  open_file E known specFile (File (Some content) m z) = Ok sd -> headers sd <> [] ->
  all_ge1 sd -> no_names_in_scans sd -> Forall (fun n => ~ In 32%N n /\ no_leading_zero n) (keys (scans sd)) -> dget default_key (g_sel s) <> None ->
  ~ place plotDir specFile specFile -> (forall b, file_name specFile b -> b <> L "index.html" /\ forall y, b <> y ++ L ".svg") ->
  plot_all_scans E known draw now size_of plotDir reversed specFile s = (t, (s', Ok tt)) ->
  exists d scs l os ps, plot_directory plotDir specFile content d /\ Permutation scs (values (scans sd)) /\ news (g_fs s) d scs l /\
    Forall2 (fun sc o => exists sc', plotting E known draw (g_sel s) sd sc m o sc') l os /\ problems_of l os ps /\
    ((exists i, In (Ok i) os) -> exists links t z order shown, dget (d ++ SL :: L "index.html") (g_fs s') = Some (FFile (BIndex links ps) t z) /\ Permutation order (values (scans sd)) /\
       Keeps (fun sc => dget (d ++ SL :: plot_name (s_num sc)) (g_fs s') <> None) order shown /\ Forall2 link_to shown links /\
       ((forall sc x, In sc order -> epoch_now E known draw (g_sel s) sd m d (g_fs s) sc x -> fl_of_num x <> FNaN) ->
         StronglySorted (fun a b => exists x y, epoch_now E known draw (g_sel s) sd m d (g_fs s) a x /\ epoch_now E known draw (g_sel s) sd m d (g_fs s) b y /\ in_order reversed x y) order)).
Proof.
  intros E known draw now size_of plotDir reversed specFile s t s' content m z sd m0 z0 Hk Hp H1 H2 H3 H4 H5 H6 H7 H8 H9 H10 H11 H12 H13 H14 H15 H16.
  destruct (C82_appended_partial E known draw now size_of plotDir reversed specFile s t s' content m z sd m0 z0 Hk Hp H1 H2 H3 H4 H5 H6 H7 H8 H9 H10 H11 H12 H13 H14 H15 H16) as (d & scs & Hd & Hscs & _ & [_ Hl _]).
  destruct Hl as (l & os & ps & A1 & A2 & A3 & A4 & _). exists d, scs, l, os, ps. split; [exact Hd|]. split; [exact Hscs|]. split; [exact A1|]. split; [|split; [exact A3|]].
  - clear - A2. induction A2 as [|sc o l l' [_ Hx] _ IH]; constructor; [exact Hx|exact IH].
  - intros Hi. destruct (A4 (or_introl Hi)) as (links & t' & z' & order & sh & B1 & B2 & B3 & B4 & B5). exists links, t', z', order, sh. split; [exact B1|]. split; [exact (Permutation_trans B2 Hscs)|]. split; [exact B3|]. split; [exact B4|].
    intros Hn. apply B5. intros sc x Hin. apply Hn. exact (Permutation_in _ (Permutation_sym B2) Hin).
Qed.
Print Assumptions C83_appended_partial.

(** scans 4 (without data) and 7 are appended to the data file of the examples of the first run *)
Definition four_scans : list string := two_scans ++ curve_lines "4" [] ++ curve_lines "7" ["0 4"; "1 1"]%string.
Definition then_four : gst := mk_g (in_place four_scans 9 (final first)) sel_init 0.
Definition svg7 : string := "/p/2010/11/run/s00007.svg".
Definition read9 (ls : list string) : sdf := got (sdf_init []) (open_file E0 all_hids (L "/d/run.dat") (File (Some (text_of ls)) 9 (length_of ls))).
Lemma appended_ok a b : existsb (N.eqb CR) (text_of (a ++ b)) = false -> text_of (a ++ b) = text_of a ++ [10%N] ++ text_of b -> prefixb (L "#S ") (text_of b) = true -> scans_appended (text_of (a ++ b)) (length_of a).
Proof.
  intros H1 H2 H3. split.
  - intros Q. assert (X : existsb (N.eqb CR) (text_of (a ++ b)) = true) by (apply existsb_exists; exists CR; split; [exact Q|reflexivity]). congruence.
  - apply prefixb_spec in H3. destruct H3 as [y Hy]. exists (text_of a), [10%N], y. split; [rewrite H2, Hy; reflexivity|]. split; [reflexivity|repeat constructor].
Qed.
Example C82_appended_example : let s := then_four in let sd := read9 four_scans in
  NoDup (keys (g_fs s)) /\ data_file (g_fs s) (L "/d/run.dat") (text_of four_scans) 9 (length_of four_scans) /\ cached P0 (g_fs s) (L "/d/run.dat") (5%Z, length_of two_scans) /\ (length_of two_scans < length_of four_scans)%Z /\
  scans_appended (text_of four_scans) (length_of two_scans) /\ open_file E0 all_hids (L "/d/run.dat") (File (Some (text_of four_scans)) 9 (length_of four_scans)) = Ok sd /\ headers sd <> [] /\
  all_ge1 sd /\ no_names_in_scans sd /\ Forall (fun n => ~ In 32%N n /\ no_leading_zero n) (keys (scans sd)) /\ dget default_key (g_sel s) <> None /\
  let r := run_in (in_place four_scans 9 (final first)) "/d/run.dat" in snd (snd r) = Ok tt /\
  curve_in svg3 (final r) = Some (nfs [0; 1]%Z, nfs [1; 2]%Z) /\ curve_in svg7 (final r) = Some (nfs [0; 1]%Z, nfs [4; 1]%Z) /\ option_map snd (index_in (final r)) = Some [(NoDataToPlot, L "4")] /\ links_of (index_in (final r)) = Some 3.
Proof.
  cbv zeta. split; [set (ks := keys _); vm_compute in ks; subst ks; repeat (constructor; [cbn [In]; intuition discriminate|]); constructor|]. split; [vm_compute; reflexivity|].
  split. { unfold cached. set (e := dget _ _). vm_compute in e. subst e. eexists _, _, _. split; [reflexivity|]. vm_compute. reflexivity. }
  split; [vm_compute; reflexivity|]. split; [apply appended_ok; vm_compute; reflexivity|]. split; [apply got_ok; vm_compute; reflexivity|].
  split; [set (h := headers _); intros Q; apply (f_equal (@List.length _)) in Q; vm_compute in Q; discriminate Q|].
  split. { unfold all_ge1. set (ks := keys _). vm_compute in ks. subst ks. repeat (constructor; [apply one_b_ok; vm_compute; reflexivity|]). constructor. }
  split; [exact (fun name sc ls l => no_names_by (scans (read9 four_scans)) name sc ls l ltac:(vm_compute; reflexivity))|].
  split. { set (ks := keys _). vm_compute in ks. subst ks. repeat (constructor; [split; [cbn [In]; intuition discriminate|]; split; [discriminate|intros t Q; discriminate Q]|]). constructor. }
  split; [vm_compute; discriminate|]. repeat split; vm_compute; reflexivity.
Qed.
(** the last scan grows by a row *)
Definition up_scans : list string := head ++ curve_lines "3" ["0 1"; "1 2"]%string ++ curve_lines "5" ["0 7"; "1 9"]%string.
Definition up_first : list gfs * (gst * res unit) := run_in (in_place up_scans 5 empty) "/d/run.dat".
Definition up_grown : list string := up_scans ++ ["2 4"]%string.
Lemma grown_ok a b : existsb (N.eqb CR) (text_of (a ++ b)) = false -> text_of (a ++ b) = text_of a ++ [10%N] ++ text_of b -> prefixb (L "#S ") (lstrip (text_of b)) = false -> more_appended (text_of (a ++ b)) (length_of a).
Proof.
  intros H1 H2 H3. split.
  - intros Q. assert (X : existsb (N.eqb CR) (text_of (a ++ b)) = true) by (apply existsb_exists; exists CR; split; [exact Q|reflexivity]). congruence.
  - exists (text_of a), ([10%N] ++ text_of b). split; [exact H2|]. split; [reflexivity|]. intros gap r Q Hg. assert (X : lstrip ([10%N] ++ text_of b) = L "#S " ++ r) by (rewrite Q; apply lstrip_gap; [exact Hg|reflexivity|discriminate]).
    assert (Y : lstrip ([10%N] ++ text_of b) = lstrip (text_of b)) by reflexivity. rewrite Y in X. rewrite X in H3. discriminate H3.
Qed.
Example C82_grown_example : let s := mk_g (in_place up_grown 9 (final up_first)) sel_init 0 in let sd := read9 up_grown in
  NoDup (keys (g_fs s)) /\ data_file (g_fs s) (L "/d/run.dat") (text_of up_grown) 9 (length_of up_grown) /\ cached P0 (g_fs s) (L "/d/run.dat") (5%Z, length_of up_scans) /\ (0 <= length_of up_scans < length_of up_grown)%Z /\
  more_appended (text_of up_grown) (length_of up_scans) /\ open_file E0 all_hids (L "/d/run.dat") (File (Some (text_of up_grown)) 9 (length_of up_grown)) = Ok sd /\ headers sd <> [] /\
  all_ge1 sd /\ no_names_in_scans sd /\ Forall (fun n => ~ In 32%N n /\ no_leading_zero n) (keys (scans sd)) /\ dget default_key (g_sel s) <> None /\
  let r := run_in (in_place up_grown 9 (final up_first)) "/d/run.dat" in snd (snd r) = Ok tt /\
  curve_in svg5 (final up_first) = Some (nfs [0; 1]%Z, nfs [7; 9]%Z) /\ curve_in svg3 (final r) = Some (nfs [0; 1]%Z, nfs [1; 2]%Z) /\ curve_in svg5 (final r) = Some (nfs [0; 1; 2]%Z, nfs [7; 9; 4]%Z).
Proof.
  cbv zeta. split; [set (ks := keys _); vm_compute in ks; subst ks; repeat (constructor; [cbn [In]; intuition discriminate|]); constructor|]. split; [vm_compute; reflexivity|].
  split. { unfold cached. set (e := dget _ _). vm_compute in e. subst e. eexists _, _, _. split; [reflexivity|]. vm_compute. reflexivity. }
  split; [vm_compute; split; [discriminate|reflexivity]|]. split; [apply grown_ok; vm_compute; reflexivity|]. split; [apply got_ok; vm_compute; reflexivity|].
  split; [set (h := headers _); intros Q; apply (f_equal (@List.length _)) in Q; vm_compute in Q; discriminate Q|].
  split. { unfold all_ge1. set (ks := keys _). vm_compute in ks. subst ks. repeat (constructor; [apply one_b_ok; vm_compute; reflexivity|]). constructor. }
  split; [exact (fun name sc ls l => no_names_by (scans (read9 up_grown)) name sc ls l ltac:(vm_compute; reflexivity))|].
  split. { set (ks := keys _). vm_compute in ks. subst ks. repeat (constructor; [split; [cbn [In]; intuition discriminate|]; split; [discriminate|intros t Q; discriminate Q]|]). constructor. }
  split; [vm_compute; discriminate|]. repeat split; vm_compute; reflexivity.
Qed.
(** the file is made anew, and smaller: the plot of scan 3 is gone *)
Definition one_scan : list string := head ++ curve_lines "5" ["0 8"; "1 3"]%string.
Example C82_shrunk_example : let s := mk_g (in_place one_scan 9 (final first)) sel_init 0 in
  NoDup (keys (g_fs s)) /\ data_file (g_fs s) (L "/d/run.dat") (text_of one_scan) 9 (length_of one_scan) /\ cached P0 (g_fs s) (L "/d/run.dat") (5%Z, length_of two_scans) /\ (0 < length_of one_scan < length_of two_scans)%Z /\
  let r := run_in (in_place one_scan 9 (final first)) "/d/run.dat" in snd (snd r) = Ok tt /\
  curve_in svg3 (final first) = Some (nfs [0; 1]%Z, nfs [1; 2]%Z) /\ curve_in svg3 (final r) = None /\ curve_in svg5 (final r) = Some (nfs [0; 1]%Z, nfs [8; 3]%Z).
Proof.
  cbv zeta. split; [set (ks := keys _); vm_compute in ks; subst ks; repeat (constructor; [cbn [In]; intuition discriminate|]); constructor|]. split; [vm_compute; reflexivity|].
  split. { unfold cached. set (e := dget _ _). vm_compute in e. subst e. eexists _, _, _. split; [reflexivity|]. vm_compute. reflexivity. }
  split; [vm_compute; split; reflexivity|]. repeat split; vm_compute; reflexivity.
Qed.
