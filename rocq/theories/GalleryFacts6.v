(** A second run with nothing changed (C85); a cache that was not completed (C53). *)
From Coq Require Import String Lia.
From Verif Require Import Py PyFacts NumFacts Time Utils Keys Handlers Reader Cli Writer Plot Gallery SpecText SpecReader SpecLookup SpecHistory SpecCli SpecGallery CliFacts CliFacts2 TextFacts ReaderFacts ReaderFacts2 ReaderFacts4 ReaderFacts5 ReaderFacts8
  ExampleFacts DataFacts GalleryFacts GalleryFacts2 GalleryFacts3 GalleryFacts4 GalleryFacts5.
Import ListNotations.
Local Open Scope list_scope.

Section Again.
  Variables (E : env) (known : list hid) (draw : image -> option exn) (now : nat -> Z) (size_of : body -> Z) (plotDir : str) (reversed : bool).
  Hypothesis Hdir : plain_path plotDir.
  Notation run := (plot_all_scans E known draw now size_of plotDir reversed).
  Notation after := (after_dir E known draw now size_of plotDir reversed).
  Notation cache_file := (cache_name plotDir).

  Definition inside (d n : str) : Prop := n = cache_file \/ exists x, ~ In SL x /\ n = d ++ SL :: x.
  (** what is done after the check of the file *)
  Definition main (specFile d : str) (its : list item) (sd : sdf) (last new : Z * Z) : GM unit :=
    let+ plot_list := old_plots specFile d last new in
    let+ r := plots E known draw now size_of specFile plot_list its sd false [] in
    let '(sd, remake, problems) := r in
    make_index now size_of reversed d its sd remake problems +>
    copy_data now specFile d.
  Lemma frame_main (P : str -> Prop) specFile d its sd last new : (forall x, ~ In SL x -> P (pjoin d x)) -> Forall (good_item d) its -> gframe P (main specFile d its sd last new).
  Proof.
    intros Hx Hi. unfold main. apply gframe_bind; [apply frame_old; auto|]. intros pl. apply gframe_bind; [eapply frame_plots; eauto|]. intros [[sd' rm] ps].
    apply gframe_bind; [apply frame_index; auto|]. intros _. apply frame_copy; auto.
  Qed.
  Lemma after_eq specFile d sd f sel tick its c m z : items d sd = Ok its -> cache_read plotDir f = Ok c -> on_disk f specFile m z ->
    let old := cache_get specFile c in
    after specFile d sd (mk_g f sel tick) =
      if negb (m =? fst old)%Z && negb (z =? snd old)%Z
      then let b := BCache (dset specFile (m, z) c) in let f1 := dset cache_file (FFile BPart (now tick) 0%Z) f in
           let f2 := dset cache_file (FFile b (now tick) (size_of b)) f1 in
           let '(t, r) := main specFile d its sd old (m, z) (mk_g f2 sel (S tick)) in (f1 :: f2 :: t, r)
      else ([], (mk_g f sel tick, Ok tt)).
  Proof.
    intros Hi Hc Hd. cbv zeta. unfold after_dir. rewrite gbind_lift, Hi, gbind_get. cbn [g_fs]. rewrite gbind_lift, Hc. cbv zeta.
    unfold specFileUpdated. unfold gbind at 1. rewrite gbind_get. cbn [g_fs]. pose proof Hd as (b & Hb). unfold fexists, has. rewrite Hb.
    unfold gbind at 1. rewrite (check_eq now size_of plotDir f sel tick specFile c m z Hc Hd). cbv zeta.
    destruct (negb (m =? fst (cache_get specFile c))%Z && negb (z =? snd (cache_get specFile c))%Z); [|unfold gret; reflexivity].
    unfold gret. cbn [fst snd app]. unfold main. match goal with |- context [gbind (old_plots specFile d ?a ?b) ?k ?s] => destruct (gbind (old_plots specFile d a b) k s) as [t r] end. reflexivity.
  Qed.

  (** ** a cache that was not completed *)
  Lemma broken_after specFile d sd s t z : dget cache_file (g_fs s) = Some (FFile BPart t z) -> exists e, after specFile d sd s = ([], (s, Raise e)).
  Proof.
    intros H. unfold after_dir. rewrite gbind_lift. destruct (items d sd) as [its|e]; [|eauto]. rewrite gbind_get, gbind_lift. unfold cache_read.
    destruct (negb _); [eauto|]. rewrite H. eauto.
  Qed.
  Lemma broken_lemma specFile s t z : plain_path specFile -> dget cache_file (g_fs s) = Some (FFile BPart t z) ->
    exists r, (run specFile s = ([], (s, r)) \/ exists d, plots_in plotDir specFile d /\ dget d (g_fs s) = None /\ run specFile s = ([dset d FDir (g_fs s)], (mk_g (dset d FDir (g_fs s)) (g_sel s) (g_tick s), r))) /\
      (r = Ok tt -> exists sd, open_file E known specFile (path_of (g_fs s) specFile) = Ok sd /\ headers sd = []).
  Proof.
    intros Hp Hc. rewrite run_eq. cbv zeta. destruct (negb _); [eexists; split; [left; reflexivity|discriminate]|]. destruct (open_file _ _ _ _) as [sd|e]; [|eexists; split; [left; reflexivity|discriminate]].
    destruct (Nat.eqb _ 0) eqn:Eh. { eexists; split; [left; reflexivity|]. intros _. exists sd. split; [reflexivity|]. apply Nat.eqb_eq in Eh. destruct (headers sd); [reflexivity|discriminate]. }
    destruct (getPlotDir plotDir specFile (g_fs s)) as [[d|]|e] eqn:Ed; [|eexists; split; [left; reflexivity|discriminate]|eexists; split; [left; reflexivity|discriminate]].
    destruct (plot_dir_ok plotDir Hdir _ _ _ Hp Ed) as [P1 P2].
    destruct (fexists (g_fs s) d) eqn:Ex.
    - destruct (broken_after specFile d sd s t z Hc) as [e ->]. eexists; split; [left; reflexivity|discriminate].
    - assert (Hn : dget d (g_fs s) = None) by (unfold fexists, has in Ex; destruct (dget d (g_fs s)); [discriminate|reflexivity]).
      assert (N3 : cache_file <> d) by (intros Q; apply (place_cache plotDir Hdir specFile); rewrite Q; exists d; auto).
      destruct (broken_after specFile d sd (mk_g (dset d FDir (g_fs s)) (g_sel s) (g_tick s)) t z) as [e ->].
      + cbn [g_fs]. rewrite dget_dset_other by exact N3. exact Hc.
      + eexists; split; [right; exists d; auto|discriminate].
  Qed.

  (** ** files that are done *)
  Definition settled (a : str) (f : gfs) : Prop := is_spec_file (path_of f a) = true /\ exists sd, open_file E known a (path_of f a) = Ok sd /\
    (headers sd = [] \/ exists d its c m z, getPlotDir plotDir a f = Ok (Some d) /\ dget d f <> None /\ items d sd = Ok its /\ cache_read plotDir f = Ok c /\ on_disk f a m z /\
       (m = fst (cache_get a c) \/ z = snd (cache_get a c))).
  Lemma settled_run a s : settled a (g_fs s) -> run a s = ([], (s, Ok tt)).
  Proof.
    destruct s as [f sel tick]. cbn [g_fs]. intros (H1 & sd & H2 & H). rewrite run_eq. cbn [g_fs]. cbv zeta. rewrite H1, H2. cbn [negb]. destruct H as [->|(d & its & c & m & z & H3 & H4 & H5 & H6 & H7 & H8)]; [reflexivity|].
    destruct (Nat.eqb _ 0); [reflexivity|]. rewrite H3. unfold fexists, has. destruct (dget d f); [|congruence]. rewrite (after_eq a d sd f sel tick its c m z H5 H6 H7).
    replace (negb (m =? fst (cache_get a c))%Z && negb (z =? snd (cache_get a c))%Z) with false; [reflexivity|].
    symmetry. apply Bool.andb_false_iff. destruct H8 as [->| ->]; rewrite Z.eqb_refl; auto.
  Qed.
  Lemma spec_on_disk f a : is_spec_file (path_of f a) = true -> exists m z, on_disk f a m z.
  Proof. unfold path_of, on_disk. destruct (dget a f) as [[|b m z]|]; try discriminate. intros _. exists m, z, b. reflexivity. Qed.
  Lemma not_inside d n : n <> cache_file -> (forall x, n <> d ++ SL :: x) -> ~ inside d n.
  Proof. intros H1 H2 [Q|(x & _ & Q)]; [exact (H1 Q)|exact (H2 x Q)]. Qed.
  Lemma below_not d x : d <> d ++ SL :: x.
  Proof. intros Q. apply (f_equal (@List.length N)) in Q. rewrite app_length in Q. cbn [List.length] in Q. lia. Qed.
  Lemma dir_not_below a d x : plots_in plotDir a d -> plotDir <> d ++ SL :: x.
  Proof. intros (y & m & r & _ & _ & _ & ->) Q. apply (f_equal (@List.length N)) in Q. rewrite !app_length in Q. cbn [List.length] in Q. rewrite !app_length in Q. lia. Qed.
  Lemma dir_not_in a d : plots_in plotDir a d -> plotDir <> d.
  Proof. intros (y & m & r & _ & _ & _ & ->) Q. apply (f_equal (@List.length N)) in Q. rewrite !app_length in Q. cbn [List.length] in Q. rewrite !app_length in Q. lia. Qed.
  Lemma dirs_apart a b d e x : plots_in plotDir a d -> plots_in plotDir b e -> ~ In SL x -> d <> e ++ SL :: x.
  Proof.
    intros (y1 & m1 & r1 & Y1 & M1 & R1 & ->) (y2 & m2 & r2 & Y2 & M2 & R2 & ->) Hx Q. pose proof (root_no_slash _ _ R1) as S1.
    rewrite <- !app_assoc in Q. apply app_inv_head in Q. cbn [app] in Q. injection Q as Q. rewrite <- !app_assoc in Q. cbn [app] in Q. apply cut_slash in Q; auto. destruct Q as [_ Q].
    rewrite <- !app_assoc in Q. cbn [app] in Q. apply cut_slash in Q; auto. destruct Q as [_ Q]. exact (cut_end _ _ _ S1 (eq_sym Q)).
  Qed.

  (** after_dir in all cases *)
  Lemma after_cases a d sd f sel tick t s' r : plots_in plotDir a d -> plain_path d -> history E known sd -> (exists m z, on_disk f a m z) -> after a d sd (mk_g f sel tick) = (t, (s', r)) ->
    (g_fs s' = f /\ (r = Ok tt -> exists its c m z, items d sd = Ok its /\ cache_read plotDir f = Ok c /\ on_disk f a m z /\ (m = fst (cache_get a c) \/ z = snd (cache_get a c)))) \/
    (exists its c m z x y, items d sd = Ok its /\ cache_read plotDir f = Ok c /\ on_disk f a m z /\ dget cache_file (g_fs s') = Some (FFile (BCache (dset a (m, z) c)) x y) /\ same_but (inside d) f (g_fs s')).
  Proof.
    intros Hp Hd Hh (m & z & Ho) H. destruct (items d sd) as [its|e] eqn:Ei; [|unfold after_dir in H; rewrite gbind_lift, Ei in H; injection H as _ <- <-; left; split; [reflexivity|discriminate]].
    destruct (cache_read plotDir f) as [c|e] eqn:Ec; [|unfold after_dir in H; rewrite gbind_lift, Ei, gbind_get in H; cbn [g_fs] in H; rewrite gbind_lift, Ec in H; injection H as _ <- <-; left; split; [reflexivity|discriminate]].
    rewrite (after_eq a d sd f sel tick its c m z Ei Ec Ho) in H. destruct (negb (m =? fst (cache_get a c))%Z && negb (z =? snd (cache_get a c))%Z) eqn:En.
    - right. cbv zeta in H. set (b := BCache (dset a (m, z) c)) in *. set (f1 := dset cache_file (FFile BPart (now tick) 0%Z) f) in *. set (f2 := dset cache_file (FFile b (now tick) (size_of b)) f1) in *.
      pose proof (frame_main (fun n => exists x, ~ In SL x /\ n = d ++ SL :: x) a d its sd (cache_get a c) (m, z)) as F.
      destruct (main a d its sd (cache_get a c) (m, z) (mk_g f2 sel (S tick))) as [t2 [s2 r2]] eqn:Em. injection H as <- <- <-.
      assert (F0 : gframe (fun n => exists x, ~ In SL x /\ n = d ++ SL :: x) (main a d its sd (cache_get a c) (m, z))).
      { apply F; [|exact (items_ok E known d sd its Hh Ei)]. intros x Hx. exists x. split; [exact Hx|]. apply pjoin_plain; auto. }
      destruct (frame_of _ _ _ _ _ _ F0 Em) as [_ F2]. exists its, c, m, z, (now tick), (size_of b). split; [reflexivity|]. split; [reflexivity|]. split; [exact Ho|]. split.
      + rewrite F2; [cbn [g_fs]; unfold f2; apply dget_dset_same|]. intros (x & Hx & Q). apply (place_cache plotDir Hdir a). exists d. split; [exact Hp|]. right. exists x. auto.
      + intros n Hn. rewrite F2; [|intros Q; apply Hn; right; exact Q]. cbn [g_fs]. unfold f2, f1. assert (Hc : n <> cache_file) by (intros Q; apply Hn; left; exact Q). rewrite !dget_dset_other by exact Hc. reflexivity.
    - left. injection H as <- <- <-. split; [reflexivity|]. intros _. exists its, c, m, z. repeat split; auto. apply Bool.andb_false_iff in En. destruct En as [En|En]; apply Bool.negb_false_iff, Z.eqb_eq in En; auto.
  Qed.

  (** all effects of a run *)
  Lemma run_cases a s t s' r : plain_path a -> run a s = (t, (s', r)) ->
    (g_fs s' = g_fs s /\ r <> Ok tt) \/ (g_fs s' = g_fs s /\ settled a (g_fs s)) \/
    exists sd d f, is_spec_file (path_of (g_fs s) a) = true /\ open_file E known a (path_of (g_fs s) a) = Ok sd /\ getPlotDir plotDir a (g_fs s) = Ok (Some d) /\ plots_in plotDir a d /\ plain_path d /\
      (f = g_fs s /\ dget d f <> None \/ dget d (g_fs s) = None /\ f = dset d FDir (g_fs s)) /\
      ((g_fs s' = f /\ (r = Ok tt -> exists its c m z, items d sd = Ok its /\ cache_read plotDir f = Ok c /\ on_disk f a m z /\ (m = fst (cache_get a c) \/ z = snd (cache_get a c)))) \/
       (exists its c m z x y, items d sd = Ok its /\ cache_read plotDir f = Ok c /\ on_disk f a m z /\ dget cache_file (g_fs s') = Some (FFile (BCache (dset a (m, z) c)) x y) /\ same_but (inside d) f (g_fs s'))).
  Proof.
    intros Hp H. rewrite run_eq in H. cbv zeta in H. destruct (is_spec_file (path_of (g_fs s) a)) eqn:Es; cbn [negb] in H; [|injection H as _ <- <-; left; split; [reflexivity|discriminate]].
    destruct (open_file E known a (path_of (g_fs s) a)) as [sd|e] eqn:Eo; [|injection H as _ <- <-; left; split; [reflexivity|discriminate]].
    destruct (Nat.eqb _ 0) eqn:Eh.
    { injection H as _ <- <-. right; left. split; [reflexivity|]. split; [exact Es|]. exists sd. split; [exact Eo|]. left. apply Nat.eqb_eq in Eh. destruct (headers sd); [reflexivity|discriminate]. }
    destruct (getPlotDir plotDir a (g_fs s)) as [[d|]|e] eqn:Ed; [|injection H as _ <- <-; left; split; [reflexivity|discriminate]|injection H as _ <- <-; left; split; [reflexivity|discriminate]].
    destruct (plot_dir_ok plotDir Hdir _ _ _ Hp Ed) as [P1 P2]. pose proof (open_history _ _ _ _ _ Eo) as Hh. destruct (spec_on_disk _ _ Es) as (m & z & Ho). right; right. destruct (fexists (g_fs s) d) eqn:Ex.
    - exists sd, d, (g_fs s). assert (Hn : dget d (g_fs s) <> None) by (unfold fexists, has in Ex; destruct (dget d (g_fs s)); discriminate).
      repeat (split; [solve [reflexivity|exact Eo|exact P1|exact P2]|]). split; [left; split; [reflexivity|exact Hn]|].
      destruct s as [f0 sel tick]. cbn [g_fs] in *. exact (after_cases a d sd f0 sel tick t s' r P1 P2 Hh (ex_intro _ m (ex_intro _ z Ho)) H).
    - exists sd, d, (dset d FDir (g_fs s)). assert (Hn : dget d (g_fs s) = None) by (unfold fexists, has in Ex; destruct (dget d (g_fs s)); [discriminate|reflexivity]).
      repeat (split; [solve [reflexivity|exact Eo|exact P1|exact P2]|]). split; [right; split; [exact Hn|reflexivity]|].
      destruct (after a d sd (mk_g (dset d FDir (g_fs s)) (g_sel s) (g_tick s))) as [t2 [s2 r2]] eqn:Ea. injection H as _ <- <-.
      refine (after_cases a d sd _ _ _ _ _ _ P1 P2 Hh _ Ea). exists m, z. destruct Ho as [b Hb]. exists b. rewrite dget_dset_other; [exact Hb|]. intros Q. rewrite Q in Hb. congruence.
  Qed.

  Lemma path_same f f' a : dget a f' = dget a f -> path_of f' a = path_of f a.
  Proof. intros H. unfold path_of. rewrite H. reflexivity. Qed.
  Lemma plot_dir_same f f' a : dget a f' = dget a f -> getPlotDir plotDir a f' = getPlotDir plotDir a f.
  Proof. intros H. apply getPlotDir_same. apply path_same. exact H. Qed.
  Lemma cache_now f n c x y : dget plotDir f <> None -> dget cache_file f = Some (FFile (BCache c) x y) -> cache_read plotDir f = Ok c /\ cache_get n c = cache_get n c.
  Proof. intros H1 H2. split; [|reflexivity]. unfold cache_read, fexists, has. destruct (dget plotDir f); [|congruence]. cbn [negb]. rewrite H2. reflexivity. Qed.
  Lemma read_dir f c : cache_read plotDir f = Ok c -> dget plotDir f <> None.
  Proof. unfold cache_read, fexists, has. destruct (dget plotDir f); [discriminate|]. cbn [negb]. discriminate. Qed.
  Lemma dir_stays a d f f' : plots_in plotDir a d -> same_but (inside d) f f' -> dget plotDir f' = dget plotDir f.
  Proof. intros Hp H. apply H. apply not_inside; [intros Q; exact (cache_not_dir plotDir (eq_sym Q))|]. intros x. exact (dir_not_below a d x Hp). Qed.

  Lemma run_settled a s t s' : plain_path a -> ~ place plotDir a a -> run a s = (t, (s', Ok tt)) -> settled a (g_fs s').
  Proof.
    intros Hp Ha H. destruct (run_cases a s t s' (Ok tt) Hp H) as [[_ Q]|[[-> Q]|(sd & d & f & H1 & H2 & H3 & P1 & P2 & Hf & Hc)]]; [congruence|exact Q|].
    assert (Nd : a <> d) by (intros Q; apply Ha; right; exists d; auto).
    assert (Ef : dget a f = dget a (g_fs s)) by (destruct Hf as [[-> _]|[_ ->]]; [reflexivity|apply dget_dset_other; exact Nd]).
    assert (Df : dget d f <> None) by (destruct Hf as [[-> Q]|[_ ->]]; [exact Q|rewrite dget_dset_same; discriminate]).
    destruct Hc as [[-> Hc]|(its & c & m & z & x & y & C1 & C2 & C3 & C4 & C5)].
    - destruct (Hc eq_refl) as (its & c & m & z & C1 & C2 & C3 & C4). split; [rewrite (path_same _ _ _ Ef); exact H1|]. exists sd. split; [rewrite (path_same _ _ _ Ef); exact H2|].
      right. exists d, its, c, m, z. rewrite (plot_dir_same _ _ _ Ef). auto 8.
    - assert (Ia : ~ inside d a) by (intros [Q|(w & Hw & Q)]; apply Ha; [left; exact Q|right; exists d; split; [exact P1|right; exists w; auto]]).
      assert (Id : ~ inside d d). { apply not_inside; [|intros w; apply below_not]. intros Q. apply (place_cache plotDir Hdir a). exists d. split; [exact P1|left; symmetry; exact Q]. }
      assert (Ea : dget a (g_fs s') = dget a (g_fs s)) by (rewrite (C5 a Ia); exact Ef).
      split; [rewrite (path_same _ _ _ Ea); exact H1|]. exists sd. split; [rewrite (path_same _ _ _ Ea); exact H2|]. right. exists d, its, (dset a (m, z) c), m, z. rewrite (plot_dir_same _ _ _ Ea).
      split; [exact H3|]. split; [rewrite (C5 d Id); exact Df|]. split; [exact C1|]. split; [|split; [|left; unfold cache_get; rewrite dget_dset_same; reflexivity]].
      + refine (proj1 (cache_now _ a _ x y _ C4)). rewrite (dir_stays a d f _ P1 C5). exact (read_dir _ _ C2).
      + destruct C3 as [b Hb]. exists b. rewrite (C5 a Ia). exact Hb.
  Qed.
  Lemma settled_kept a b s t s' r : plain_path b -> a <> b -> ~ place plotDir b a -> (exists r, root_name a r) -> settled a (g_fs s) -> (forall d, getPlotDir plotDir a (g_fs s) = Ok (Some d) -> plots_in plotDir a d) ->
    run b s = (t, (s', r)) -> settled a (g_fs s').
  Proof.
    intros Hp Hab Hb _ Hs Hpa H. destruct (run_cases b s t s' r Hp H) as [[-> _]|[[-> _]|(sd & d & f & H1 & H2 & H3 & P1 & P2 & Hf & Hc)]]; [exact Hs|exact Hs|].
    assert (Nd : a <> d) by (intros Q; apply Hb; right; exists d; auto). destruct Hs as (S1 & sa & S2 & S3).
    assert (Ef : forall n, n <> d -> dget n f = dget n (g_fs s)) by (intros n Hn; destruct Hf as [[-> _]|[_ ->]]; [reflexivity|apply dget_dset_other; exact Hn]).
    assert (Df : dget d f <> None) by (destruct Hf as [[-> Q]|[_ ->]]; [exact Q|rewrite dget_dset_same; discriminate]).
    assert (Ia : ~ inside d a) by (intros [Q|(w & Hw & Q)]; apply Hb; [left; exact Q|right; exists d; split; [exact P1|right; exists w; auto]]).
    assert (Ea : dget a (g_fs s') = dget a (g_fs s)).
    { rewrite <- (Ef a Nd). destruct Hc as [[-> _]|(its & c & m & z & x & y & _ & _ & _ & _ & C5)]; [reflexivity|exact (C5 a Ia)]. }
    split; [rewrite (path_same _ _ _ Ea); exact S1|]. exists sa. split; [rewrite (path_same _ _ _ Ea); exact S2|]. destruct S3 as [S3|(da & its & c & m & z & D1 & D2 & D3 & D4 & D5 & D6)]; [left; exact S3|right].
    assert (Pd : dget plotDir f = dget plotDir (g_fs s)) by (apply Ef; exact (dir_not_in b d P1)).
    assert (Pc : dget cache_file f = dget cache_file (g_fs s)). { apply Ef. intros Q. apply (place_cache plotDir Hdir b). exists d. split; [exact P1|left; exact Q]. }
    assert (Rc : cache_read plotDir f = Ok c) by (rewrite <- D4; apply read_same; [rewrite Pd; tauto|exact Pc]).
    assert (Da : dget da f <> None). { destruct (list_eq_dec N.eq_dec da d) as [->|Hn]; [exact Df|rewrite (Ef da Hn); exact D2]. }
    specialize (Hpa da D1).
    destruct Hc as [[-> _]|(its' & c' & m' & z' & x & y & C1 & C2 & C3 & C4 & C5)].
    - exists da, its, c, m, z. rewrite (plot_dir_same _ _ _ (Ef a Nd)). split; [exact D1|]. split; [exact Da|]. split; [exact D3|]. split; [exact Rc|]. split; [|exact D6].
      destruct D5 as [bb Hbb]. exists bb. rewrite (Ef a Nd). exact Hbb.
    - assert (c' = c) by congruence. subst c'. exists da, its, (dset b (m', z') c), m, z. rewrite (plot_dir_same _ _ _ Ea). split; [exact D1|]. split.
      { rewrite C5; [exact Da|]. intros [Q|(w & Hw & Q)]; [|exact (dirs_apart a b da d w Hpa P1 Hw Q)]. apply (place_cache plotDir Hdir a). exists da. split; [exact Hpa|left; symmetry; exact Q]. }
      split; [exact D3|]. split; [refine (proj1 (cache_now _ a _ x y _ C4)); rewrite (dir_stays b d f _ P1 C5); exact (read_dir _ _ C2)|]. split.
      + destruct D5 as [bb Hbb]. exists bb. rewrite Ea. exact Hbb.
      + unfold cache_get in *. rewrite dget_dset_other by exact Hab. exact D6.
  Qed.

  Lemma gallery_settled files : forall s t s', Forall plain_path files -> (forall a b, In a files -> In b files -> ~ place plotDir b a) -> giter run files s = (t, (s', Ok tt)) ->
    (forall a, plain_path a -> (forall b, In b files -> ~ place plotDir b a) -> settled a (g_fs s) -> settled a (g_fs s')) /\ forall a, In a files -> settled a (g_fs s').
  Proof.
    induction files as [|b files IH]; intros s t s' Hp Hn H; cbn [giter] in H.
    - injection H as _ <-. split; [auto|]. intros a [].
    - apply gbind_inv in H. destruct H as (t1 & s1 & [] & t2 & H1 & H2 & _). inversion Hp as [|? ? Pb Pf]; subst.
      assert (Hk : forall a, plain_path a -> ~ place plotDir b a -> settled a (g_fs s) -> settled a (g_fs s1)).
      { intros a Pa Ha Hs. destruct (list_eq_dec N.eq_dec a b) as [->|Hab]; [exact (run_settled b s t1 s1 Pb Ha H1)|].
        refine (settled_kept a b s t1 s1 (Ok tt) Pb Hab Ha (ex_intro _ _ (root_ok a)) Hs _ H1). intros d Hd. exact (proj1 (plot_dir_ok plotDir Hdir _ _ _ Pa Hd)). }
      destruct (IH s1 t2 s' Pf (fun a c Ha Hc => Hn a c (or_intror Ha) (or_intror Hc)) H2) as [I1 I2]. split.
      + intros a Pa Ha Hs. apply I1; [exact Pa|intros c Hc; apply Ha; right; exact Hc|]. apply Hk; auto. apply Ha. left. reflexivity.
      + intros a [<-|Ha]; [|exact (I2 a Ha)]. apply I1; [exact Pb|intros c Hc; apply Hn; [left; reflexivity|right; exact Hc]|]. refine (run_settled b s t1 s1 Pb _ H1). apply Hn; left; reflexivity.
  Qed.
  Lemma C85_lemma files s t s' : Forall plain_path files -> (forall a, In a files -> ~ places plotDir files a) -> gallery E known draw now size_of plotDir reversed files s = (t, (s', Ok tt)) ->
    gallery E known draw now size_of plotDir reversed files s' = ([], (s', Ok tt)).
  Proof.
    intros Hp Hn H. unfold gallery in *. assert (Hn' : forall a b, In a files -> In b files -> ~ place plotDir b a).
    { intros a b Ha Hb [Q|Q]; apply (Hn a Ha); [left; exact Q|right; exists b; auto]. }
    destruct (gallery_settled files s t s' Hp Hn' H) as [_ Hs]. clear H Hp Hn Hn'. induction files as [|a files IH]; [reflexivity|]. cbn [giter]. unfold gbind.
    rewrite (settled_run a s'); [|apply Hs; left; reflexivity]. rewrite IH; [reflexivity|]. intros b Hb. apply Hs. right. exact Hb.
  Qed.
End Again.
