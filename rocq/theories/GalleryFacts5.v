(** Runs over files that did not change, and interrupted runs (C53, C85). *)
From Coq Require Import String Lia.
From Verif Require Import Py PyFacts NumFacts Time Utils Keys Handlers Reader Cli Writer Plot Gallery SpecText SpecReader SpecLookup SpecHistory SpecCli SpecGallery CliFacts CliFacts2 TextFacts ReaderFacts ReaderFacts2 ReaderFacts4 ReaderFacts5 ReaderFacts8
  ExampleFacts DataFacts GalleryFacts GalleryFacts2 GalleryFacts3 GalleryFacts4.
Import ListNotations.
Local Open Scope list_scope.

Section Runs.
  Variables (E : env) (known : list hid) (draw : image -> option exn) (now : nat -> Z) (size_of : body -> Z) (plotDir : str) (reversed : bool).
  Hypothesis Hdir : plain_path plotDir.
  Notation run := (plot_all_scans E known draw now size_of plotDir reversed).
  Notation cache_file := (cache_name plotDir).

  (** the part after the creation of the directory *)
  Definition after_dir (specFile d : str) (sd : sdf) : GM unit :=
    let+ its := glift (items d sd) in
    let+ f := get_fs in
    let+ c := glift (cache_read plotDir f) in
    let last := cache_get specFile c in
    let+ u := specFileUpdated now size_of plotDir specFile in
    match u with
    | None => gret tt
    | Some new =>
        let+ plot_list := old_plots specFile d last new in
        let+ r := plots E known draw now size_of specFile plot_list its sd false [] in
        let '(sd, remake, problems) := r in
        make_index now size_of reversed d its sd remake problems +>
        copy_data now specFile d
    end.
  Lemma run_eq specFile s : run specFile s =
    let f := g_fs s in
    if negb (is_spec_file (path_of f specFile)) then ([], (s, Raise NotASpecDataFile)) else
    match open_file E known specFile (path_of f specFile) with
    | Raise e => ([], (s, Raise e))
    | Ok sd => if Nat.eqb (List.length (headers sd)) 0 then ([], (s, Ok tt)) else
        match getPlotDir plotDir specFile f with
        | Raise e => ([], (s, Raise e))
        | Ok None => ([], (s, Raise TypeError))
        | Ok (Some d) =>
            if fexists f d then after_dir specFile d sd s
            else match after_dir specFile d sd (mk_g (dset d FDir f) (g_sel s) (g_tick s)) with (t, r) => (dset d FDir f :: t, r) end
        end
    end.
  Proof.
    unfold plot_all_scans. rewrite gbind_get. cbv zeta. destruct (negb _); [reflexivity|]. rewrite gbind_lift. destruct (open_file E known specFile (path_of (g_fs s) specFile)) as [sd|e]; [|reflexivity].
    destruct (Nat.eqb _ 0); [reflexivity|]. rewrite gbind_lift. destruct (getPlotDir plotDir specFile (g_fs s)) as [[d|]|e]; [|reflexivity|reflexivity].
    rewrite gbind_lift. cbn [of_opt]. change (fun _ : unit => glift (items d sd)) with (fun _ : unit => glift (items d sd)).
    destruct (fexists (g_fs s) d).
    - unfold gbind at 1. unfold gret at 1. fold (after_dir specFile d sd). destruct (after_dir specFile d sd s) as [t r]. reflexivity.
    - unfold gbind at 1. unfold change at 1. fold (after_dir specFile d sd). destruct (after_dir specFile d sd _) as [t r]. reflexivity.
  Qed.

  (** ** files that did not change *)
  Lemma stat_file f n b m z : dget n f = Some (FFile b m z) -> stat (path_of f n) = Ok (m, z).
  Proof. intros H. unfold path_of. rewrite H. destruct b; reflexivity. Qed.
  Lemma unchanged_after specFile d sd s c m z : cache_read plotDir (g_fs s) = Ok c -> on_disk (g_fs s) specFile m z -> (m = fst (cache_get specFile c) \/ z = snd (cache_get specFile c)) ->
    exists r, after_dir specFile d sd s = ([], (s, r)).
  Proof.
    destruct s as [f0 sel tick]. cbn [g_fs]. intros Hc Hd Hm. unfold after_dir. rewrite gbind_lift. destruct (items d sd) as [its|e]; [|eauto]. rewrite gbind_get, gbind_lift. cbn [g_fs]. rewrite Hc. cbv zeta.
    unfold specFileUpdated. unfold gbind at 1. rewrite gbind_get. cbn [g_fs]. destruct Hd as (b & Hb). unfold fexists, has. rewrite Hb.
    unfold gbind at 1. rewrite (check_eq now size_of plotDir f0 sel tick specFile c m z Hc (ex_intro _ b Hb)). cbv zeta.
    replace (negb (m =? fst (cache_get specFile c))%Z && negb (z =? snd (cache_get specFile c))%Z) with false.
    - unfold gret. cbn. exists (Ok tt). reflexivity.
    - symmetry. apply Bool.andb_false_iff. destruct Hm as [->| ->]; rewrite Z.eqb_refl; auto.
  Qed.
  Lemma read_sound f : dget plotDir f <> None -> sound_cache plotDir f -> exists c, cache_read plotDir f = Ok c /\ (forall n mz, cached plotDir f n mz -> dget n c = Some mz) /\
    (forall n mz, dget n c = Some mz -> cached plotDir f n mz).
  Proof.
    intros Hp H. unfold cache_read, fexists, has. destruct (dget plotDir f); [|congruence]. cbn [negb]. rewrite (cache_path plotDir Hdir). unfold sound_cache, cached in *. unfold CACHE_FILE.
    destruct H as [->|(c & t & z & ->)].
    - exists []. split; [reflexivity|]. split; [intros n mz (c & t & s & Q & _); discriminate|intros n mz Q; discriminate].
    - exists c. split; [reflexivity|]. split; [intros n mz (c' & t' & s' & Q & Q'); congruence|intros n mz Q; eauto 6].
  Qed.
  Lemma cached_read f n mz : dget plotDir f <> None -> cached plotDir f n mz -> exists c, cache_read plotDir f = Ok c /\ cache_get n c = mz.
  Proof.
    intros Hp (c & t & s & H1 & H2). exists c. unfold cache_read, fexists, has. destruct (dget plotDir f); [|congruence]. cbn [negb]. rewrite (cache_path plotDir Hdir). unfold CACHE_FILE. rewrite H1.
    split; [reflexivity|]. unfold cache_get. rewrite H2. reflexivity.
  Qed.
  Lemma unchanged_lemma specFile s m z mz : plain_path specFile -> dget plotDir (g_fs s) <> None -> on_disk (g_fs s) specFile m z -> cached plotDir (g_fs s) specFile mz -> m = fst mz \/ z = snd mz ->
    exists r, run specFile s = ([], (s, r)) \/
      exists d, plots_in plotDir specFile d /\ dget d (g_fs s) = None /\ run specFile s = ([dset d FDir (g_fs s)], (mk_g (dset d FDir (g_fs s)) (g_sel s) (g_tick s), r)).
  Proof.
    intros Hp Hd0 Hd Hc Hm. destruct (cached_read _ _ _ Hd0 Hc) as (c & C1 & C2). rewrite run_eq. cbv zeta. destruct (negb _); [eauto|]. destruct (open_file _ _ _ _) as [sd|e]; [|eauto].
    destruct (Nat.eqb _ 0); [eauto|]. destruct (getPlotDir plotDir specFile (g_fs s)) as [[d|]|e] eqn:Ed; [|eauto|eauto]. destruct (plot_dir_ok plotDir Hdir _ _ _ Hp Ed) as [P1 P2].
    rewrite <- C2 in Hm. destruct (fexists (g_fs s) d) eqn:Ex.
    - destruct (unchanged_after specFile d sd s c m z C1 Hd Hm) as [r ->]. eauto.
    - assert (Hn : dget d (g_fs s) = None) by (unfold fexists, has in Ex; destruct (dget d (g_fs s)); [discriminate|reflexivity]).
      assert (N1 : specFile <> d) by (intros ->; destruct Hd as [b Hb]; congruence). assert (N2 : plotDir <> d) by (intros Q; rewrite <- Q in Hn; contradiction).
      assert (N3 : cache_file <> d) by (intros Q; apply (place_cache plotDir Hdir specFile); rewrite Q; exists d; auto).
      destruct (unchanged_after specFile d sd (mk_g (dset d FDir (g_fs s)) (g_sel s) (g_tick s)) c m z) as [r Hr].
      + cbn [g_fs]. rewrite <- C1. apply read_same; rewrite dget_dset_other; auto; tauto.
      + destruct Hd as [b Hb]. exists b. cbn [g_fs]. rewrite dget_dset_other; auto.
      + exact Hm.
      + rewrite Hr. exists r. right. exists d. auto.
  Qed.

  (** ** runs killed before the cache was written *)
  Lemma getPlotDir_same specFile f f' : path_of f' specFile = path_of f specFile -> getPlotDir plotDir specFile f' = getPlotDir plotDir specFile f.
  Proof. intros H. unfold getPlotDir. rewrite H. reflexivity. Qed.
  (** once the cache is written it differs from what it was *)
  Lemma written_after specFile d sd s : plots_in plotDir specFile d -> plain_path d -> history E known sd -> Forall (fun f => dget cache_file f <> dget cache_file (g_fs s)) (fst (after_dir specFile d sd s)).
  Proof.
    destruct s as [f0 sel tick]. cbn [g_fs]. intros Hp Hd Hh. unfold after_dir. rewrite gbind_lift. destruct (items d sd) as [its|e] eqn:Ei; [|constructor]. pose proof (items_ok E known d sd its Hh Ei) as Hi.
    rewrite gbind_get, gbind_lift. cbn [g_fs]. destruct (cache_read plotDir f0) as [c|e] eqn:Ec; [|constructor]. cbv zeta.
    unfold gbind at 1. unfold specFileUpdated at 1. rewrite gbind_get. cbn [g_fs]. destruct (fexists f0 specFile) eqn:Ex; [|unfold gret; constructor].
    destruct (dget specFile f0) as [[|b m z]|] eqn:Eb.
    - unfold was_file_updated. unfold gbind at 1. rewrite gbind_get, gbind_lift. cbn [g_fs]. rewrite Ec, gbind_lift. unfold path_of. rewrite Eb. cbn. constructor.
    - unfold gbind at 1. rewrite (check_eq now size_of plotDir f0 sel tick specFile c m z Ec (ex_intro _ b Eb)). cbv zeta.
      destruct (negb (m =? fst (cache_get specFile c))%Z && negb (z =? snd (cache_get specFile c))%Z) eqn:En; [|unfold gret; cbn; constructor].
      cbn [fst snd]. unfold gret at 1. cbn [fst snd app].
      set (bc := BCache (dset specFile (m, z) c)). set (f1 := dset cache_file (FFile BPart (now tick) 0%Z) f0). set (f2 := dset cache_file (FFile bc (now tick) (size_of bc)) f1).
      assert (Old : forall t x, dget cache_file f0 <> Some (FFile bc t x)).
      { intros t x Q. unfold cache_read in Ec. destruct (negb _); [discriminate|]. rewrite Q in Ec. unfold bc in Ec. injection Ec as Ec. rewrite <- Ec in En. unfold cache_get in En. rewrite dget_dset_same in En. cbn [fst snd] in En. rewrite !Z.eqb_refl in En. discriminate. }
      assert (Part : forall t x, dget cache_file f0 <> Some (FFile BPart t x)).
      { intros t x Q. unfold cache_read in Ec. destruct (negb _); [discriminate|]. rewrite Q in Ec. discriminate. }
      match goal with |- context [gbind (old_plots specFile d ?a ?b) ?k] => set (m2 := gbind (old_plots specFile d a b) k) end.
      assert (Hx : forall x, ~ In SL x -> plot_place plotDir specFile (pjoin d x)) by (intros x; apply place_in; auto).
      assert (Fr : gframe (plot_place plotDir specFile) m2).
      { unfold m2. apply gframe_bind; [apply frame_old; auto|]. intros pl. apply gframe_bind; [eapply frame_plots; eauto|]. intros [[sd' rm] ps]. apply gframe_bind; [apply frame_index; auto|]. intros _. apply frame_copy; auto. }
      set (s2 := mk_g f2 sel (S tick)). destruct (m2 s2) as [t2 [s3 r3]] eqn:E2. destruct (frame_of _ _ _ _ _ _ Fr E2) as [F1 _].
      assert (C2 : dget cache_file f2 = Some (FFile bc (now tick) (size_of bc))) by (unfold f2; apply dget_dset_same).
      cbn [fst]. constructor; [|constructor].
      + unfold f1. rewrite dget_dset_same. intros Q. exact (Part _ _ (eq_sym Q)).
      + rewrite C2. intros Q. exact (Old _ _ (eq_sym Q)).
      + refine (Forall_impl _ _ F1). intros g Hg. rewrite (Hg cache_file (place_cache plotDir Hdir specFile)). cbn [s2 g_fs]. rewrite C2. intros Q. exact (Old _ _ (eq_sym Q)).
    - unfold fexists, has in Ex. rewrite Eb in Ex. discriminate.
  Qed.
  Lemma killed_lemma specFile s f : plain_path specFile -> dget plotDir (g_fs s) <> None -> In f (fst (run specFile s)) -> dget cache_file f = dget cache_file (g_fs s) ->
    snd (run specFile (mk_g f (g_sel s) (g_tick s))) = snd (run specFile s).
  Proof.
    intros Hp Hd0 Hf Hc. rewrite (run_eq specFile s) in Hf |- *. cbv zeta in Hf |- *. destruct (is_spec_file (path_of (g_fs s) specFile)) eqn:Ei; cbn [negb] in Hf |- *; [|destruct Hf].
    destruct (open_file E known specFile (path_of (g_fs s) specFile)) as [sd|e] eqn:Eo; [|destruct Hf]. destruct (Nat.eqb _ 0) eqn:Eh; [destruct Hf|].
    destruct (getPlotDir plotDir specFile (g_fs s)) as [[d|]|e] eqn:Ed; [|destruct Hf|destruct Hf]. destruct (plot_dir_ok plotDir Hdir _ _ _ Hp Ed) as [P1 P2]. pose proof (open_history _ _ _ _ _ Eo) as Hh.
    destruct (fexists (g_fs s) d) eqn:Ex.
    - exfalso. pose proof (written_after specFile d sd s P1 P2 Hh) as W. rewrite Forall_forall in W. exact (W f Hf Hc).
    - set (s1 := mk_g (dset d FDir (g_fs s)) (g_sel s) (g_tick s)) in *.
      assert (Hn : dget d (g_fs s) = None) by (unfold fexists, has in Ex; destruct (dget d (g_fs s)); [discriminate|reflexivity]).
      assert (N3 : cache_file <> d) by (intros Q; apply (place_cache plotDir Hdir specFile); rewrite Q; exists d; auto).
      assert (N1 : specFile <> d). { intros ->. unfold path_of in Ei. rewrite Hn in Ei. discriminate. }
      pose proof (written_after specFile d sd s1 P1 P2 Hh) as W. destruct (after_dir specFile d sd s1) as [t r] eqn:Ea. cbn [fst snd] in *. destruct Hf as [<-|Hf].
      + assert (Pf : path_of (dset d FDir (g_fs s)) specFile = path_of (g_fs s) specFile) by (unfold path_of; rewrite dget_dset_other by exact N1; reflexivity).
        rewrite run_eq. cbn [g_fs g_sel g_tick]. cbv zeta. rewrite Pf, Ei. cbn [negb]. rewrite Eo, Eh. rewrite (getPlotDir_same _ _ _ Pf), Ed.
        unfold fexists, has. rewrite dget_dset_same. fold s1. rewrite Ea. reflexivity.
      + exfalso. rewrite Forall_forall in W. apply (W f Hf). rewrite Hc. cbn [s1 g_fs]. rewrite dget_dset_other by exact N3. reflexivity.
  Qed.
End Runs.
