(** C115, C82: the command of specplot_gallery.py, with files and directories as arguments.
    Theorems only; proofs are in GalleryFacts12.v and GalleryFacts13.v. *)
From Coq Require Import String Lia Permutation Sorted.
From Verif Require Import Uni Py PyFacts NumFacts Time Utils Keys Handlers Reader Cli Writer Plot Gallery SpecText SpecReader SpecNum SpecLookup SpecHistory SpecTables SpecCli SpecPlot SpecGallery SpecGallery3 SpecGallery4
  TextFacts ReaderFacts5 ExampleFacts GalleryFacts GalleryFacts2 GalleryFacts3 GalleryFacts4 GalleryFacts5 GalleryFacts6 GalleryFacts7 GalleryFacts12 GalleryFacts13 UseFacts PropPlot PropGallery PropGallery4.
Import ListNotations.
Local Open Scope list_scope.

(** the command works on the SPEC data files that are its arguments or directly in the directories that are, and on no others: in the order
    of the arguments, and on each file once for each argument *)
Theorem C115_data_files : forall E known draw now size_of plotDir reversed paths s, Forall plain_path paths -> NoDup (keys (g_fs s)) -> dget plotDir (g_fs s) = Some FDir ->
  exists lists, Forall2 (fun p l => NoDup l /\ forall n, In n l <-> chosen (g_fs s) p n) paths lists /\
    gallery_main E known draw now size_of plotDir reversed paths s = gallery E known draw now size_of plotDir reversed (concat lists) s.
Proof.
  intros E known draw now size_of plotDir reversed paths s Hp Hn Hd. exists (map (arg_files (g_fs s)) paths). split; [|exact (main_eq E known draw now size_of plotDir reversed paths s Hd)].
  induction Hp as [|p paths Pp _ IH]; constructor; [|exact IH]. split; [exact (arg_files_NoDup (g_fs s) p Pp Hn)|]. intros n. exact (arg_files_iff (g_fs s) p n Pp).
Qed.
Print Assumptions C115_data_files.
(** if the directory of the plots is not there (or is no directory) nothing is done *)
Theorem C115_no_directory : forall E known draw now size_of plotDir reversed paths s, dget plotDir (g_fs s) <> Some FDir ->
  gallery_main E known draw now size_of plotDir reversed paths s = ([], (s, Raise ValueError)).
Proof. intros E known draw now size_of plotDir reversed paths s. exact (main_refused E known draw now size_of plotDir reversed paths s). Qed.
Print Assumptions C115_no_directory.
(** at no time, also if the command is killed or fails, is anything changed but the cache and the directories of the plots of these data files:
    not the data files, nor the directories of other ones *)
Theorem C115_nothing_else_changed : forall E known draw now size_of plotDir reversed paths s f n, plain_path plotDir -> Forall plain_path paths ->
  n <> plotDir ++ SL :: L "mtime_cache.json" -> (forall p a, In p paths -> chosen (g_fs s) p a -> ~ plot_place plotDir a n) ->
  In f (states (gallery_main E known draw now size_of plotDir reversed paths s)) -> dget n f = dget n (g_fs s).
Proof.
  intros E known draw now size_of plotDir reversed paths s f n Hd Hp Hc Hn Hf. assert (Dec : dget plotDir (g_fs s) = Some FDir \/ dget plotDir (g_fs s) <> Some FDir) by (destruct (dget plotDir (g_fs s)) as [[|b m z]|]; [left; reflexivity|right; discriminate|right; discriminate]).
  destruct Dec as [Q|Q].
  - rewrite (main_eq E known draw now size_of plotDir reversed paths s Q) in Hf. refine (C84_nothing_else_changed E known draw now size_of plotDir reversed _ s f n Hd _ Hc _ Hf).
    + apply Forall_forall. intros a Ha. apply (in_files (g_fs s) paths a Hp) in Ha. destruct Ha as (p & Hin & Ha). rewrite Forall_forall in Hp. exact (chosen_plain (g_fs s) p a (Hp p Hin) Ha).
    + intros a Ha. apply (in_files (g_fs s) paths a Hp) in Ha. destruct Ha as (p & Hin & Ha). exact (Hn p a Hin Ha).
  - rewrite (main_refused E known draw now size_of plotDir reversed paths s Q) in Hf. cbn [states fst snd app] in Hf. destruct Hf as [<-|[]]. reflexivity.
Qed.
Print Assumptions C115_nothing_else_changed.
(** a complete first run of the command, no file being named by two arguments, and no two files having a root name in common: each of the data files
    has in its own directory what a first run over it alone leaves there *)
Theorem C82_command_partial : forall E known draw now size_of plotDir reversed paths s t s', incl all_hids known -> plain_path plotDir -> dget default_key (g_sel s) <> None ->
  Forall plain_path paths -> NoDup (keys (g_fs s)) -> ForallOrdPairs (fun p q => forall n, chosen (g_fs s) p n -> chosen (g_fs s) q n -> False) paths ->
  (forall p q a b, In p paths -> In q paths -> chosen (g_fs s) p a -> chosen (g_fs s) q b -> a <> b -> other_roots a b) ->
  (forall p q a b, In p paths -> In q paths -> chosen (g_fs s) p a -> chosen (g_fs s) q b -> ~ place plotDir b a) ->
  (forall p a, In p paths -> chosen (g_fs s) p a -> exists content m z sd, not_yet E known plotDir (g_fs s) a content m z sd) ->
  gallery_main E known draw now size_of plotDir reversed paths s = (t, (s', Ok tt)) ->
  forall p a content m z sd, In p paths -> chosen (g_fs s) p a -> not_yet E known plotDir (g_fs s) a content m z sd ->
  exists d scs, plot_directory plotDir a content d /\ Permutation scs (values (scans sd)) /\
    StronglySorted (fun a b => exists x y, py_float (s_num a) = Ok x /\ py_float (s_num b) = Ok y /\ num_le x y) scs /\
    first_run E known draw reversed (g_sel s) sd m d a (BText (Some content)) (g_fs s') scs.
Proof.
  intros E known draw now size_of plotDir reversed paths s t s' Hk Hd Hdb Hp Hn Hdis Hr Hpl Hnew H p a content m z sd Hin Hc Ha.
  assert (Q : dget plotDir (g_fs s) = Some FDir). { destruct (dget plotDir (g_fs s)) as [[|b m0 z0]|] eqn:Q; [reflexivity| |]; rewrite (main_refused E known draw now size_of plotDir reversed paths s) in H by (rewrite Q; discriminate); discriminate H. }
  rewrite (main_eq E known draw now size_of plotDir reversed paths s Q) in H. pose proof (in_files (g_fs s) paths) as In_f.
  refine (C82_all_files_partial E known draw now size_of plotDir reversed _ s t s' Hk Hd Hdb _ _ _ _ H a content m z sd _ Ha).
  - apply Forall_forall. intros x Hx. apply (In_f x Hp) in Hx. destruct Hx as (p0 & Hp0 & Hx). rewrite Forall_forall in Hp. exact (chosen_plain (g_fs s) p0 x (Hp p0 Hp0) Hx).
  - exact (files_pairs other_roots (g_fs s) paths Hn Hp Hdis Hr).
  - intros x y Hx Hy. apply (In_f x Hp) in Hx. apply (In_f y Hp) in Hy. destruct Hx as (p0 & Hp0 & Hx). destruct Hy as (q0 & Hq0 & Hy). exact (Hpl p0 q0 x y Hp0 Hq0 Hx Hy).
  - intros x Hx. apply (In_f x Hp) in Hx. destruct Hx as (p0 & Hp0 & Hx). exact (Hnew p0 x Hp0 Hx).
  - apply (In_f a Hp). exists p. split; [exact Hin|exact Hc].
Qed.
Print Assumptions C82_command_partial.

(** a directory with run.dat, a.spec and a text that is no SPEC data file, and in it another one with a data file, which is left alone *)
Definition in_dir : gfs := [(P0, FDir); (L "/d", FDir); (L "/d/run.dat", data two_scans 5 (length_of two_scans)); (L "/d/notes.txt", data ["see run.dat"]%string 4 12); (L "/d/a.spec", data spec_lines 6 (length_of spec_lines));
  (L "/d/e", FDir); (L "/d/e/b.dat", data spec_lines 6 (length_of spec_lines))].
Definition command (paths : list string) := gallery_main E0 all_hids draws clock size0 P0 false (map L paths) (mk_g in_dir sel_init 0).
Lemma in_dir_spec n : spec_data in_dir n -> n = L "/d/run.dat" \/ n = L "/d/a.spec" \/ n = L "/d/e/b.dat".
Proof.
  intros H. apply spec_data_iff in H. assert (X : In n (keys in_dir)).
  { destruct (in_dec (list_eq_dec N.eq_dec) n (keys in_dir)) as [Q|Q]; [exact Q|]. apply dget_none in Q. unfold path_of in H. rewrite Q in H. discriminate H. }
  set (ks := keys in_dir) in X. vm_compute in ks. subst ks. cbn [In] in X. destruct X as [<-|[<-|[<-|[<-|[<-|[<-|[<-|[]]]]]]]]; vm_compute in H; try discriminate H; [left; vm_compute; reflexivity|right; left; vm_compute; reflexivity|right; right; vm_compute; reflexivity].
Qed.
Lemma in_dir_chosen n : chosen in_dir (L "/d") n -> n = L "/d/run.dat" \/ n = L "/d/a.spec".
Proof.
  intros [Hs [->|[_ (x & X1 & X2 & Q)]]].
  - destruct (in_dir_spec _ Hs) as [Q|[Q|Q]]; discriminate Q.
  - destruct (in_dir_spec _ Hs) as [Q2|[Q2|Q2]]; [left; exact Q2|right; exact Q2|]. exfalso. rewrite Q2 in Q. change (L "/d/e/b.dat") with (L "/d" ++ SL :: L "e/b.dat") in Q. apply app_inv_head in Q. injection Q as <-. apply X2. vm_compute. right. left. reflexivity.
Qed.
Example C115_example : plain_path (L "/d") /\ NoDup (keys in_dir) /\ dget P0 in_dir = Some FDir /\ chosen in_dir (L "/d") (L "/d/run.dat") /\ chosen in_dir (L "/d") (L "/d/a.spec") /\ ~ chosen in_dir (L "/d") (L "/d/notes.txt") /\
  ~ chosen in_dir (L "/d") (L "/d/e/b.dat") /\ chosen in_dir (L "/d/e") (L "/d/e/b.dat") /\ chosen in_dir (L "/d/a.spec") (L "/d/a.spec") /\
  snd (snd (command ["/d"]%string)) = Ok tt /\ dget (L "/p/2010/11/b/s00003.svg") (final (command ["/d"]%string)) = None /\ dget (L "/p/2010/11/b/s00003.svg") (final (command ["/d"; "/d/e"]%string)) <> None.
Proof.
  split; [exists (L "/"), 100%N; split; [reflexivity|discriminate]|]. split; [set (ks := keys _); vm_compute in ks; subst ks; repeat (constructor; [cbn [In]; intuition discriminate|]); constructor|]. split; [vm_compute; reflexivity|].
  split. { split; [apply spec_data_iff; vm_compute; reflexivity|]. right. split; [vm_compute; reflexivity|]. exists (L "run.dat"). split; [discriminate|]. split; [vm_compute; intuition discriminate|reflexivity]. }
  split. { split; [apply spec_data_iff; vm_compute; reflexivity|]. right. split; [vm_compute; reflexivity|]. exists (L "a.spec"). split; [discriminate|]. split; [vm_compute; intuition discriminate|reflexivity]. }
  split. { intros H. destruct (in_dir_chosen _ H) as [Q|Q]; discriminate Q. }
  split. { intros H. destruct (in_dir_chosen _ H) as [Q|Q]; discriminate Q. }
  split. { split; [apply spec_data_iff; vm_compute; reflexivity|]. right. split; [vm_compute; reflexivity|]. exists (L "b.dat"). split; [discriminate|]. split; [vm_compute; intuition discriminate|reflexivity]. }
  split. { split; [apply spec_data_iff; vm_compute; reflexivity|]. left. reflexivity. }
  split; [vm_compute; reflexivity|]. split; [vm_compute; reflexivity|]. vm_compute. discriminate.
Qed.
(** the hypotheses of C82_command_partial for the directory *)
Example C82_command_example : NoDup (keys in_dir) /\ ForallOrdPairs (fun p q => forall n, chosen in_dir p n -> chosen in_dir q n -> False) [L "/d"] /\
  (forall a b, chosen in_dir (L "/d") a -> chosen in_dir (L "/d") b -> a <> b -> other_roots a b) /\ (forall a b, chosen in_dir (L "/d") a -> chosen in_dir (L "/d") b -> ~ place P0 b a) /\
  (forall a, chosen in_dir (L "/d") a -> exists content m z sd, not_yet E0 all_hids P0 in_dir a content m z sd) /\ snd (snd (command ["/d"]%string)) = Ok tt /\
  curve_in "/p/2010/11/run/s00005.svg" (final (command ["/d"]%string)) = Some (nfs [0; 1; 2]%Z, nfs [7; 9; 4]%Z) /\
  curve_in "/p/2010/11/a/s00003.svg" (final (command ["/d"]%string)) = Some (nfs [0; 1; 2]%Z, nfs [4; 8; 6]%Z).
Proof.
  destruct C115_example as (_ & Hn & _). split; [exact Hn|]. split; [constructor; [constructor|constructor]|]. destruct C81_example as (_ & _ & R & _).
  split. { intros a b Ha Hb Hab. destruct (in_dir_chosen a Ha) as [-> | ->], (in_dir_chosen b Hb) as [-> | ->]; try (destruct (Hab eq_refl)); [exact R|]. intros r R1 R2. exact (R r R2 R1). }
  split. { intros a b Ha _. destruct (in_dir_chosen a Ha) as [-> | ->]; apply in_d. }
  split. { intros a Ha. destruct (in_dir_chosen a Ha) as [-> | ->].
    - exists (text_of two_scans), 5%Z, (length_of two_scans), (read_of "/d/run.dat" two_scans 5). destruct new_run as [A1 A2 A3 A4 A5 A6 A7 A8 A9]. refine (mk_not_yet _ _ _ _ _ _ _ _ _ _ _ A3 A4 A5 A6 A7 _ A9).
      + vm_compute. reflexivity.
      + split; [intros mz (c & t & z & Q & _); vm_compute in Q; discriminate Q|]. intros _. split; [discriminate|vm_compute; discriminate].
      + intros d (a & b & date & more & t & r & _ & _ & _ & ->) x. unfold in_dir. cbn [dget]. rewrite !(proj2 (seqb_neq _ _)) by (intros Q; discriminate Q). reflexivity.
    - exists (text_of spec_lines), 6%Z, (length_of spec_lines), (read_of "/d/a.spec" spec_lines 6). destruct new_spec as [A1 A2 A3 A4 A5 A6 A7 A8 A9]. refine (mk_not_yet _ _ _ _ _ _ _ _ _ _ _ A3 A4 A5 A6 A7 _ A9).
      + vm_compute. reflexivity.
      + split; [intros mz (c & t & z & Q & _); vm_compute in Q; discriminate Q|]. intros _. split; [discriminate|vm_compute; discriminate].
      + intros d (a & b & date & more & t & r & _ & _ & _ & ->) x. unfold in_dir. cbn [dget]. rewrite !(proj2 (seqb_neq _ _)) by (intros Q; discriminate Q). reflexivity. }
  split; [vm_compute; reflexivity|]. split; vm_compute; reflexivity.
Qed.
