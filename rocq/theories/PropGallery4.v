(** C82: a first run of the gallery over several data files.
    Theorems only; proofs are in GalleryFacts12.v. *)
From Coq Require Import String Lia Permutation Sorted.
From Verif Require Import Uni Py PyFacts NumFacts Time Utils Keys Handlers Reader Cli Writer Plot Gallery SpecText SpecReader SpecNum SpecLookup SpecHistory SpecTables SpecCli SpecPlot SpecGallery SpecGallery3
  TextFacts ReaderFacts5 ExampleFacts GalleryFacts GalleryFacts2 GalleryFacts3 GalleryFacts4 GalleryFacts5 GalleryFacts6 GalleryFacts7 GalleryFacts12 UseFacts PropPlot PropGallery.
Import ListNotations.
Local Open Scope list_scope.

(** none of the data files was plotted before, and no two of them have a root name in common: after a complete run over all of them each
    has in its own directory what a first run over it alone leaves there, whatever the other data files are *)
Theorem C82_all_files_partial : forall E known draw now size_of plotDir reversed files s t s', incl all_hids known -> plain_path plotDir -> dget default_key (g_sel s) <> None ->
  Forall plain_path files -> ForallOrdPairs other_roots files -> (forall a b, In a files -> In b files -> ~ place plotDir b a) ->
  (forall a, In a files -> exists content m z sd, not_yet E known plotDir (g_fs s) a content m z sd) ->
  gallery E known draw now size_of plotDir reversed files s = (t, (s', Ok tt)) ->
  forall a content m z sd, In a files -> not_yet E known plotDir (g_fs s) a content m z sd ->
  exists d scs, plot_directory plotDir a content d /\ Permutation scs (values (scans sd)) /\
    StronglySorted (fun a b => exists x y, py_float (s_num a) = Ok x /\ py_float (s_num b) = Ok y /\ num_le x y) scs /\
    first_run E known draw reversed (g_sel s) sd m d a (BText (Some content)) (g_fs s') scs.
Proof.
  intros E known draw now size_of plotDir reversed files s t s' Hk Hd Hdb Hp Hr Hpl Hn H.
  exact (all_files_lemma E known draw now size_of plotDir reversed Hk Hd (g_sel s) Hdb files Hp Hr Hpl s t s' (answers_refl (g_sel s)) Hn H).
Qed.
Print Assumptions C82_all_files_partial.

(** run.dat with scans 5 and 3, a.spec with scan 3 *)
Definition spec_lines : list string := head ++ curve_lines "3" ["0 4"; "1 8"; "2 6"]%string.
Definition two_new : gfs := [(P0, FDir); (L "/d/run.dat", data two_scans 5 (length_of two_scans)); (L "/d/a.spec", data spec_lines 6 (length_of spec_lines))].
Definition read_of (name : string) (ls : list string) (m : Z) : sdf := got (sdf_init []) (open_file E0 all_hids (L name) (File (Some (text_of ls)) m (length_of ls))).
Definition both : list gfs * (gst * res unit) := gallery_in two_new ["/d/run.dat"; "/d/a.spec"]%string.
Lemma a_spec b : file_name (L "/d/a.spec") b -> b = L "a.spec".
Proof. intros H. apply (file_name_one (L "/d/a.spec") b (L "a.spec") H). split; [vm_compute; intuition discriminate|right; exists (L "/d"); reflexivity]. Qed.
Lemma below_P0 p d : plots_in P0 p d -> exists u, d = 47%N :: 112%N :: 47%N :: u.
Proof. intros (y & mm & r & _ & _ & _ & ->). eexists. reflexivity. Qed.
Lemma in_d p u : ~ place P0 p (47%N :: 100%N :: u).
Proof. intros [Q|(d & Hd & Q)]; [discriminate Q|]. destruct (below_P0 p d Hd) as [w ->]. destruct Q as [Q|(x & _ & Q)]; discriminate Q. Qed.
Lemma no_svg (n y : str) : List.last n 0%N <> 103%N -> n <> y ++ L ".svg".
Proof. intros H ->. apply H. change (L ".svg") with (L ".sv" ++ [103%N]). rewrite app_assoc, last_last. reflexivity. Qed.
Lemma new_run : not_yet E0 all_hids P0 two_new (L "/d/run.dat") (text_of two_scans) 5 (length_of two_scans) (read_of "/d/run.dat" two_scans 5).
Proof.
  split.
  - vm_compute. reflexivity.
  - split; [intros mz (c & t & z & Q & _); vm_compute in Q; discriminate Q|]. intros _. split; [discriminate|vm_compute; discriminate].
  - unfold read_of. apply got_ok. vm_compute. reflexivity.
  - set (h := headers _). intros Q. apply (f_equal (@List.length _)) in Q. vm_compute in Q. discriminate Q.
  - unfold all_ge1. set (ks := keys _). vm_compute in ks. subst ks. repeat (constructor; [apply one_b_ok; vm_compute; reflexivity|]). constructor.
  - exact (fun name sc ls l => no_names_by (scans (read_of "/d/run.dat" two_scans 5)) name sc ls l ltac:(vm_compute; reflexivity)).
  - set (ks := keys _). vm_compute in ks. subst ks. repeat (constructor; [split; [cbn [In]; intuition discriminate|]; split; [discriminate|intros t Q; discriminate Q]|]). constructor.
  - intros d (a & b & date & more & t & r & _ & _ & _ & ->) x. unfold two_new. cbn [dget]. rewrite !(proj2 (seqb_neq _ _)) by (intros Q; discriminate Q). reflexivity.
  - intros b Hb. rewrite (run_dat b Hb). split; [apply seqb_neq; reflexivity|]. intros y. apply no_svg. vm_compute. discriminate.
Qed.
Lemma new_spec : not_yet E0 all_hids P0 two_new (L "/d/a.spec") (text_of spec_lines) 6 (length_of spec_lines) (read_of "/d/a.spec" spec_lines 6).
Proof.
  split.
  - vm_compute. reflexivity.
  - split; [intros mz (c & t & z & Q & _); vm_compute in Q; discriminate Q|]. intros _. split; [discriminate|vm_compute; discriminate].
  - unfold read_of. apply got_ok. vm_compute. reflexivity.
  - set (h := headers _). intros Q. apply (f_equal (@List.length _)) in Q. vm_compute in Q. discriminate Q.
  - unfold all_ge1. set (ks := keys _). vm_compute in ks. subst ks. repeat (constructor; [apply one_b_ok; vm_compute; reflexivity|]). constructor.
  - exact (fun name sc ls l => no_names_by (scans (read_of "/d/a.spec" spec_lines 6)) name sc ls l ltac:(vm_compute; reflexivity)).
  - set (ks := keys _). vm_compute in ks. subst ks. repeat (constructor; [split; [cbn [In]; intuition discriminate|]; split; [discriminate|intros t Q; discriminate Q]|]). constructor.
  - intros d (a & b & date & more & t & r & _ & _ & _ & ->) x. unfold two_new. cbn [dget]. rewrite !(proj2 (seqb_neq _ _)) by (intros Q; discriminate Q). reflexivity.
  - intros b Hb. rewrite (a_spec b Hb). split; [apply seqb_neq; reflexivity|]. intros y. apply no_svg. vm_compute. discriminate.
Qed.
Example C82_all_files_example : let files := [L "/d/run.dat"; L "/d/a.spec"] in
  dget default_key sel_init <> None /\ Forall plain_path files /\ ForallOrdPairs other_roots files /\ (forall a b, In a files -> In b files -> ~ place P0 b a) /\
  (forall a, In a files -> exists content m z sd, not_yet E0 all_hids P0 two_new a content m z sd) /\ snd (snd both) = Ok tt /\
  curve_in "/p/2010/11/run/s00005.svg" (final both) = Some (nfs [0; 1; 2]%Z, nfs [7; 9; 4]%Z) /\ curve_in "/p/2010/11/run/s00003.svg" (final both) = Some (nfs [0; 1]%Z, nfs [1; 2]%Z) /\
  curve_in "/p/2010/11/a/s00003.svg" (final both) = Some (nfs [0; 1; 2]%Z, nfs [4; 8; 6]%Z).
Proof.
  cbv zeta. split; [vm_compute; discriminate|]. destruct C81_example as (P1 & P2 & R & _). split; [constructor; [exact P1|constructor; [exact P2|constructor]]|].
  split; [constructor; [constructor; [exact R|constructor]|constructor; [constructor|constructor]]|].
  split. { intros a b [<-|[<-|[]]] _; apply in_d. }
  split. { intros a [<-|[<-|[]]]; [exists (text_of two_scans), 5%Z, (length_of two_scans), (read_of "/d/run.dat" two_scans 5); exact new_run|exists (text_of spec_lines), 6%Z, (length_of spec_lines), (read_of "/d/a.spec" spec_lines 6); exact new_spec]. }
  split; [vm_compute; reflexivity|]. repeat split; vm_compute; reflexivity.
Qed.
