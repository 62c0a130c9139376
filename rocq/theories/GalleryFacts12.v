(** A first run of the gallery over several data files. *)
From Coq Require Import String Lia Permutation Sorted.
From Verif Require Import Py PyFacts NumFacts Time Utils Keys Handlers Reader Cli H5 Writer Plot Gallery SpecText SpecReader SpecNum SpecLookup SpecHistory SpecTables SpecCli SpecPlot SpecGallery SpecGallery2 SpecGallery3 CliFacts CliFacts2 TextFacts OrderFacts ReaderFacts ReaderFacts2 ReaderFacts4 ReaderFacts5 ReaderFacts6 ReaderFacts8
  ExampleFacts DataFacts DataFacts2 UseFacts PlotFacts PlotLocal GalleryFacts GalleryFacts2 GalleryFacts3 GalleryFacts4 GalleryFacts5 GalleryFacts6 GalleryFacts7 GalleryFacts8.
Import ListNotations.
Local Open Scope list_scope.

(** ** what the selector answers is kept *)
Definition gsel (db : selector) {A} (m : GM A) : Prop := forall s, same_answers db (g_sel s) -> same_answers db (g_sel (fst (snd (m s)))).
Section Sel.
  Variable db : selector.
  Hypothesis Hdb : dget default_key db <> None.
  Lemma gsel_keep {A} (m : GM A) : (forall s, g_sel (fst (snd (m s))) = g_sel s) -> gsel db m.
  Proof. intros H s Hs. rewrite H. exact Hs. Qed.
  Lemma gsel_bind {A B} (m : GM A) (k : A -> GM B) : gsel db m -> (forall a, gsel db (k a)) -> gsel db (gbind m k).
  Proof.
    intros Hm Hk s Hs. specialize (Hm s Hs). unfold gbind. destruct (m s) as [t [s1 [a|e]]]; cbn [fst snd] in *; [|exact Hm]. specialize (Hk a s1 Hm). destruct (k a s1) as [t2 [s2 r]]. exact Hk.
  Qed.
  Lemma gsel_iter {A} (c : A -> GM unit) l : (forall x, gsel db (c x)) -> gsel db (giter c l).
  Proof. intros H. induction l as [|x l IH]; cbn [giter]; [apply gsel_keep; reflexivity|]. apply gsel_bind; [apply H|]. intros _. exact IH. Qed.
  Lemma gsel_ret {A} (a : A) : gsel db (gret a). Proof. apply gsel_keep. reflexivity. Qed.
  Lemma gsel_fail {A} e : gsel db (@gfail A e). Proof. apply gsel_keep. reflexivity. Qed.
  Lemma gsel_lift {A} (r : res A) : gsel db (glift r). Proof. apply gsel_keep. reflexivity. Qed.
  Lemma gsel_get : gsel db get_fs. Proof. apply gsel_keep. reflexivity. Qed.
  Lemma gsel_change c : gsel db (change c). Proof. apply gsel_keep. reflexivity. Qed.
  Lemma gsel_write now n b z : gsel db (write_file now n b z). Proof. apply gsel_keep. reflexivity. Qed.
  Lemma gsel_remove n : gsel db (remove_file n). Proof. apply gsel_keep. reflexivity. Qed.
  Ltac gs := repeat first [apply gsel_ret|apply gsel_fail|apply gsel_lift|apply gsel_get|apply gsel_change|apply gsel_write|apply gsel_remove|(apply gsel_bind; [|intros ?])].
  Context (E : env) (known : list hid) (draw : image -> option exn) (now : nat -> Z) (size_of : body -> Z) (plotDir : str) (reversed : bool).
  Lemma gsel_one specFile it sd : gsel db (one_plot E known draw now size_of specFile it sd).
  Proof.
    unfold one_plot. apply gsel_bind; [apply gsel_get|]. intros f s Hs. unfold select. destruct (auto_scan_same (i_scan it) db (g_sel s) Hdb Hs) as [A1 _].
    destruct (sel_auto_scan (Some (i_scan it)) (g_sel s)) as [db' [c|e]]; cbn [fst snd] in *; [|exact A1]. destruct (kind_of c) as [k|]; [|exact A1].
    match goal with |- context [plot_scan ?a ?b ?c ?d ?e ?f ?g ?h] => destruct (plot_scan a b c d e f g h) as [p [[i|]|x]] end; [exact A1|exact A1|destruct x; exact A1].
  Qed.
  Lemma gsel_plots specFile pl its : forall sd rm ps, gsel db (plots E known draw now size_of specFile pl its sd rm ps).
  Proof. induction its as [|it its IH]; intros sd rm ps; cbn [plots]; [apply gsel_ret|]. destruct (mem (i_base it) pl); [apply IH|]. apply gsel_bind; [apply gsel_one|]. intros [sd' [e|]]; apply IH. Qed.
  Lemma gsel_run specFile : gsel db (plot_all_scans E known draw now size_of plotDir reversed specFile).
  Proof.
    unfold plot_all_scans. apply gsel_bind; [apply gsel_get|]. intros f. cbv zeta. destruct (negb _); [apply gsel_fail|]. apply gsel_bind; [apply gsel_lift|]. intros sd. destruct (Nat.eqb _ 0); [apply gsel_ret|].
    apply gsel_bind; [apply gsel_lift|]. intros o. apply gsel_bind; [apply gsel_lift|]. intros d. apply gsel_bind; [destruct (fexists f d); gs|]. intros _. apply gsel_bind; [apply gsel_lift|]. intros its. apply gsel_bind; [apply gsel_get|]. intros f1.
    apply gsel_bind; [apply gsel_lift|]. intros c. apply gsel_bind.
    { unfold specFileUpdated. apply gsel_bind; [apply gsel_get|]. intros f2. destruct (fexists f2 specFile); [|apply gsel_ret]. apply gsel_bind; [|intros r; apply gsel_ret].
      unfold was_file_updated. apply gsel_bind; [apply gsel_get|]. intros f3. apply gsel_bind; [apply gsel_lift|]. intros c0. apply gsel_bind; [apply gsel_lift|]. intros [m z]. cbv zeta. destruct (_ && _); [|apply gsel_ret]. gs. }
    intros [new|]; [|apply gsel_ret]. apply gsel_bind.
    { unfold old_plots. apply gsel_bind; [apply gsel_get|]. intros f2. cbv zeta. destruct (_ && _ && _); [|apply gsel_ret]. destruct (snd _ <? snd new)%Z.
      - destruct (path_of f2 specFile) as [| |[co|] m z]; try apply gsel_fail. destruct (prefixb _ _); [apply gsel_ret|]. destruct (rev _); gs.
      - apply gsel_bind; [|intros _; apply gsel_ret]. apply gsel_iter. intros x. apply gsel_remove. }
    intros pl. apply gsel_bind; [apply gsel_plots|]. intros [[sd' rm] ps]. apply gsel_bind.
    { unfold make_index. apply gsel_bind; [apply gsel_get|]. intros f2. cbv zeta. destruct (rm || _); [|apply gsel_ret]. gs. }
    intros _. unfold copy_data. apply gsel_bind; [apply gsel_get|]. intros f2. cbv zeta. destruct (dget specFile f2) as [[|b m z]|]; try apply gsel_fail. destruct (fmtime f2 _) as [t|]; [destruct (t <? m)%Z|destruct (fexists f2 _)]; gs.
  Qed.
  Lemma plotting_db sel sd sc m o sc' : same_answers db sel -> plotting E known draw sel sd sc m o sc' <-> plotting E known draw db sd sc m o sc'.
  Proof. intros Hs. unfold plotting. destruct (auto_scan_same sc db sel Hdb Hs) as [_ ->]. reflexivity. Qed.
  Lemma epoch_db sel sd sc m x : same_answers db sel -> epoch_is E known draw sel sd m sc x <-> epoch_is E known draw db sd m sc x.
  Proof. intros Hs. unfold epoch_is. split; intros (o & sc' & H1 & H2); exists o, sc'; (split; [apply (plotting_db sel); assumption|exact H2]). Qed.
  Lemma first_same sel sd m d specFile content f f' scs : same_answers db sel -> (forall x, dget (d ++ SL :: x) f' = dget (d ++ SL :: x) f) ->
    first_run E known draw reversed sel sd m d specFile content f scs -> first_run E known draw reversed db sd m d specFile content f' scs.
  Proof.
    intros Hs Hf [H1 H2 H3]. split.
    - destruct H1 as (os & ps & links & t & z & order & sh & F1 & F2 & F3 & F4 & F5 & F6 & F7 & F8). exists os, ps, links, t, z, order, sh. split; [|split; [rewrite Hf; exact F2|split; [exact F3|split; [exact F4|split; [|split; [|split; [|exact F8]]]]]]].
      + clear -F1 Hf Hs Hdb. induction F1 as [|sc o l os [G1 [sc' G2]] _ IH]; constructor; [|exact IH]. split; [unfold plot_file in *; rewrite Hf; exact G1|]. exists sc'. apply (plotting_db sel); assumption.
      + refine (Forall_impl _ _ F5). intros sc [x Hx]. exists x. apply (epoch_db sel); assumption.
      + intros Hn. eapply StronglySorted_impl; [|apply F6; intros sc x Hin Hx; apply (Hn sc x Hin); apply (epoch_db sel); assumption]. cbv beta. intros a b (x & y & Q1 & Q2 & Q3). exists x, y.
        split; [apply (epoch_db sel); assumption|]. split; [apply (epoch_db sel); assumption|exact Q3].
      + eapply Keeps_ext; [|exact F7]. intros sc. cbv beta. rewrite Hf. reflexivity.
    - intros b Hb. destruct (H2 b Hb) as (t & z & Q). exists t, z. rewrite Hf. exact Q.
    - intros x. rewrite Hf. exact (H3 x).
  Qed.
End Sel.

Section All.
  Variables (E : env) (known : list hid) (draw : image -> option exn) (now : nat -> Z) (size_of : body -> Z) (plotDir : str) (reversed : bool).
  Hypothesis Hk : incl all_hids known.
  Hypothesis Hdir : plain_path plotDir.
  Notation run := (plot_all_scans E known draw now size_of plotDir reversed).

  (** what is below the directory of one data file is not in the place of another *)
  Lemma below_apart a b d1 x : (forall r, root_name a r -> root_name b r -> False) -> plots_in plotDir a d1 -> ~ place plotDir b (d1 ++ SL :: x).
  Proof.
    intros Hd (y1 & m1 & r1 & Y1 & M1 & R1 & ->) [Q|(d2 & (y2 & m2 & r2 & Y2 & M2 & R2 & ->) & H2)].
    - rewrite (cache_path plotDir Hdir) in Q. rewrite <- app_assoc in Q. apply app_inv_head in Q. cbn [app] in Q. injection Q as Q.
      assert (X : In SL CACHE_FILE) by (rewrite <- Q; apply in_or_app; left; apply in_or_app; right; left; reflexivity). cbn in X. intuition discriminate.
    - pose proof (root_no_slash _ _ R1) as S1. pose proof (root_no_slash _ _ R2) as S2.
      assert (K : forall z2, (z2 = [] \/ exists x, z2 = SL :: x) -> (plotDir ++ SL :: y1 ++ SL :: m1 ++ SL :: r1) ++ SL :: x = (plotDir ++ SL :: y2 ++ SL :: m2 ++ SL :: r2) ++ z2 -> r1 = r2).
      { intros z2 Z2 Q. rewrite <- !app_assoc in Q. apply app_inv_head in Q. cbn [app] in Q. injection Q as Q. rewrite <- !app_assoc in Q. cbn [app] in Q. apply cut_slash in Q; auto. destruct Q as [_ Q].
        rewrite <- !app_assoc in Q. cbn [app] in Q. apply cut_slash in Q; auto. destruct Q as [_ Q].
        destruct Z2 as [->|[x2 ->]]; rewrite ?app_nil_r in Q.
        - exfalso. exact (cut_end _ _ _ S2 Q).
        - apply cut_slash in Q; auto. tauto. }
      assert (r1 = r2) as <-; [|exact (Hd _ R1 R2)]. destruct H2 as [H2|(x2 & _ & H2)]; [apply (K []); [auto|rewrite app_nil_r; exact H2]|apply (K (SL :: x2)); [eauto|exact H2]].
  Qed.
  (** the cache after a complete run *)
  Lemma cache_after specFile s t s' content m z sd : plain_path specFile -> data_file (g_fs s) specFile content m z -> outdated plotDir (g_fs s) specFile m z ->
    open_file E known specFile (File (Some content) m z) = Ok sd -> headers sd <> [] -> ~ place plotDir specFile specFile -> run specFile s = (t, (s', Ok tt)) ->
    exists c tc zc, cache_read plotDir (g_fs s) = Ok c /\ dget (plotDir ++ SL :: L "mtime_cache.json") (g_fs s') = Some (FFile (BCache (dset specFile (m, z) c)) tc zc).
  Proof.
    intros Hp Hf Ho Hop Hhd Hpl H. rewrite run_eq in H. cbv zeta in H. assert (Pa : path_of (g_fs s) specFile = File (Some content) m z) by (unfold path_of; rewrite Hf; reflexivity). rewrite Pa in H.
    destruct (negb _); [discriminate H|]. rewrite Hop in H. destruct (headers sd) as [|h hs] eqn:Eh; [contradiction Hhd; reflexivity|]. cbn [List.length Nat.eqb] in H. destruct s as [f sel tick]. cbn [g_fs g_sel g_tick] in *.
    destruct (getPlotDir plotDir specFile f) as [[d|]|e] eqn:Ed; try discriminate H. destruct (plot_dir_ok plotDir Hdir _ _ _ Hp Ed) as [P1 P2].
    assert (Nsd : specFile <> d) by (intros Q; apply Hpl; right; exists d; auto). assert (Ncd : cache_name plotDir <> d) by (intros Q; apply (place_cache plotDir Hdir specFile); exists d; auto).
    pose proof (open_history _ _ _ _ _ Hop) as Hh.
    assert (K : forall f', dget specFile f' = dget specFile f -> dget plotDir f' = dget plotDir f -> dget (cache_name plotDir) f' = dget (cache_name plotDir) f ->
      forall t, after_dir E known draw now size_of plotDir reversed specFile d sd (mk_g f' sel tick) = (t, (s', Ok tt)) ->
      exists c tc zc, cache_read plotDir f = Ok c /\ dget (plotDir ++ SL :: L "mtime_cache.json") (g_fs s') = Some (FFile (BCache (dset specFile (m, z) c)) tc zc)).
    { intros f' Es Epd Ec t' Ha. destruct (items d sd) as [its|e] eqn:Ei; [|unfold after_dir in Ha; rewrite gbind_lift, Ei in Ha; discriminate Ha].
      assert (Rs : cache_read plotDir f' = cache_read plotDir f) by (apply read_same; [rewrite Epd; tauto|exact Ec]).
      destruct (cache_read plotDir f) as [c|e] eqn:Er; [|unfold after_dir in Ha; rewrite gbind_lift, Ei, gbind_get in Ha; cbn [g_fs] in Ha; rewrite gbind_lift, Rs in Ha; discriminate Ha].
      assert (Od : on_disk f' specFile m z) by (exists (BText (Some content)); rewrite Es; exact Hf).
      rewrite (after_eq E known draw now size_of plotDir reversed specFile d sd f' sel tick its c m z Ei Rs Od) in Ha. rewrite (outdated_lemma plotDir Hdir f specFile m z c Er Ho) in Ha. cbv zeta in Ha.
      match type of Ha with (let (_, _) := main _ _ _ _ _ _ _ _ _ _ _ _ (mk_g ?F _ _) in _) = _ => set (f2 := F) in * end.
      destruct (main E known draw now size_of reversed specFile d its sd (cache_get specFile c) (m, z) (mk_g f2 sel (S tick))) as [t2 r2] eqn:Em. injection Ha as _ ->.
      assert (Fr : gframe (plot_place plotDir specFile) (main E known draw now size_of reversed specFile d its sd (cache_get specFile c) (m, z))).
      { apply frame_main; [|exact (items_ok E known d sd its Hh Ei)]. intros x Hx. exact (place_in plotDir specFile d x P1 P2 Hx). }
      destruct (frame_of _ _ _ _ _ _ Fr Em) as [_ F2]. specialize (F2 (cache_name plotDir) (place_cache plotDir Hdir specFile)). cbn [g_fs] in F2. unfold f2 in F2. rewrite dget_dset_same in F2.
      rewrite (cache_path plotDir Hdir) in F2. unfold CACHE_FILE in F2. eexists _, _, _. split; [reflexivity|exact F2]. }
    destruct (fexists f d) eqn:Ex; [exact (K f eq_refl eq_refl eq_refl t H)|].
    destruct (after_dir E known draw now size_of plotDir reversed specFile d sd (mk_g (dset d FDir f) sel tick)) as [t2 r2] eqn:Ea. injection H as _ ->. apply (K (dset d FDir f)) with (t := t2).
    - apply dget_dset_other. exact Nsd.
    - apply dget_dset_other. exact (dir_not_in plotDir specFile d P1).
    - apply dget_dset_other. exact Ncd.
    - exact Ea.
  Qed.
  Lemma cached_same a c tc zc f f' n mz mz0 : n <> a -> cache_read plotDir f = Ok c -> dget (plotDir ++ SL :: L "mtime_cache.json") f' = Some (FFile (BCache (dset a mz0 c)) tc zc) -> cached plotDir f' n mz <-> cached plotDir f n mz.
  Proof.
    intros Hn Hc Hf'. unfold cached. rewrite Hf'. unfold cache_read in Hc. destruct (negb _); [discriminate|]. rewrite (cache_path plotDir Hdir) in Hc. unfold CACHE_FILE in Hc.
    assert (X : (exists t0 z0, dget (plotDir ++ SL :: L "mtime_cache.json") f = Some (FFile (BCache c) t0 z0)) \/ (dget (plotDir ++ SL :: L "mtime_cache.json") f = None /\ c = [])).
    { destruct (dget (plotDir ++ SL :: L "mtime_cache.json") f) as [[|[?|?|c'|? ?|] t0 z0]|]; try discriminate Hc; injection Hc as <-; [left; eauto|right; auto]. }
    split.
    - intros (c1 & t1 & z1 & Q1 & Q2). injection Q1 as <- <- <-. rewrite dget_dset_other in Q2 by exact Hn. destruct X as [(t0 & z0 & X)|[X ->]]; [|discriminate Q2]. exists c, t0, z0. split; [exact X|exact Q2].
    - intros (c1 & t1 & z1 & Q1 & Q2). destruct X as [(t0 & z0 & X)|[X ->]]; [|congruence]. rewrite X in Q1. injection Q1 as <- <- <-. exists (dset a mz0 c), tc, zc. split; [reflexivity|]. rewrite dget_dset_other by exact Hn. exact Q2.
  Qed.
  Lemma dir_in specFile content d : plot_directory plotDir specFile content d -> plots_in plotDir specFile d.
  Proof. intros (a & b & date & mo & tm0 & r & _ & _ & R & ->). destruct (four_plain (year tm0)) as [_ Y2]. destruct (two_plain (mon tm0)) as [_ M2]. exists (four_digits (year tm0)), (two_digits (mon tm0)), r. auto. Qed.

  Lemma all_files_lemma db : dget default_key db <> None -> forall files, Forall plain_path files -> ForallOrdPairs other_roots files -> (forall a b, In a files -> In b files -> ~ place plotDir b a) ->
    forall s t s', same_answers db (g_sel s) -> (forall a, In a files -> exists content m z sd, not_yet E known plotDir (g_fs s) a content m z sd) -> gallery E known draw now size_of plotDir reversed files s = (t, (s', Ok tt)) ->
    forall a content m z sd, In a files -> not_yet E known plotDir (g_fs s) a content m z sd -> exists d scs, plot_directory plotDir a content d /\ Permutation scs (values (scans sd)) /\
      StronglySorted (fun a b => exists x y, py_float (s_num a) = Ok x /\ py_float (s_num b) = Ok y /\ num_le x y) scs /\ first_run E known draw reversed db sd m d a (BText (Some content)) (g_fs s') scs.
  Proof.
    intros Hdb. induction files as [|a files IH]; intros Hpl Hr Hpp s t s' Hs Hrd H a0 content0 m0 z0 sd0 Hin Ha0; [destruct Hin|].
    unfold gallery in H. cbn [giter] in H. apply gbind_inv in H. destruct H as (t1 & s1 & [] & t2 & H1 & H2 & _). inversion Hpl as [|? ? Pa Pf]; subst. inversion Hr as [|? ? Ra Rf]; subst. rewrite Forall_forall in Ra.
    assert (Npa : ~ place plotDir a a) by (apply Hpp; left; reflexivity).
    assert (Hs1 : same_answers db (g_sel s1)) by (pose proof (gsel_run db Hdb E known draw now size_of plotDir reversed a s Hs) as Q; rewrite H1 in Q; exact Q).
    destruct (frame_of _ _ _ _ _ _ (frame_all E known draw now size_of plotDir reversed Hdir a Pa) H1) as [_ F1].
    destruct Hin as [<-|Hin].
    - destruct Ha0 as [A1 A2 A3 A4 A5 A6 A7 A8 A9].
      destruct (first_run_lemma E known draw now size_of plotDir reversed Hk Hdir a s t1 s1 content0 m0 z0 sd0 Pa A1 A2 A3 A4 A5 A6 A7) as (d & scs & B1 & B2 & B3 & B4); [destruct Hs as [_ ->]; exact Hdb|exact Npa|exact A8|exact A9|exact H1|].
      exists d, scs. split; [exact B1|]. split; [exact B2|]. split; [exact B3|]. apply (first_same db Hdb E known draw reversed (g_sel s)) with (f := g_fs s1); [exact Hs| |exact B4].
      intros x. assert (Fr : gframe (fun n => exists b, In b files /\ place plotDir b n) (giter run files)).
      { apply gframe_iter. intros b Hb. rewrite Forall_forall in Pf. refine (gframe_mono _ _ _ _ (frame_all E known draw now size_of plotDir reversed Hdir b (Pf b Hb))). intros n Hn. exists b. auto. }
      destruct (frame_of _ _ _ _ _ _ Fr H2) as [_ F2]. apply F2. intros (b & Hb & Q). exact (below_apart a b d x (Ra b Hb) (dir_in _ _ _ B1) Q).
    - destruct (Hrd a (or_introl eq_refl)) as (contentA & mA & zA & sdA & [A1 A2 A3 A4 A5 A6 A7 A8 A9]).
      destruct (cache_after a s t1 s1 contentA mA zA sdA Pa A1 A2 A3 A4 Npa H1) as (c & tc & zc & C1 & C2).
      assert (Step : forall b content m z sd, In b files -> not_yet E known plotDir (g_fs s) b content m z sd -> not_yet E known plotDir (g_fs s1) b content m z sd).
      { intros b content m z sd Hb [B1 B2 B3 B4 B5 B6 B7 B8 B9]. assert (Nab : b <> a) by (intros ->; exact (Ra a Hb _ (root_ok a) (root_ok a))). split; try assumption.
        - unfold data_file in *. rewrite (F1 b); [exact B1|]. apply Hpp; [right; exact Hb|left; reflexivity].
        - destruct B2 as [Q1 Q2]. split.
          + intros mz Hc. apply Q1. apply (cached_same a c tc zc (g_fs s) (g_fs s1) b mz (mA, zA) Nab C1 C2). exact Hc.
          + intros Hc. apply Q2. intros mz Hmz. apply (Hc mz). apply (cached_same a c tc zc (g_fs s) (g_fs s1) b mz (mA, zA) Nab C1 C2). exact Hmz.
        - intros d Hd x. rewrite (F1 (d ++ SL :: x)); [exact (B8 d Hd x)|]. apply (below_apart b a d x); [|exact (dir_in _ _ _ Hd)]. intros r R1 R2. exact (Ra b Hb r R2 R1). }
      refine (IH Pf Rf _ s1 t2 s' Hs1 _ H2 a0 content0 m0 z0 sd0 Hin (Step _ _ _ _ _ Hin Ha0)).
      + intros x y Hx Hy. apply Hpp; right; assumption.
      + intros x Hx. destruct (Hrd x (or_intror Hx)) as (content & m & z & sd & Q). exists content, m, z, sd. exact (Step _ _ _ _ _ Hx Q).
  Qed.
End All.
