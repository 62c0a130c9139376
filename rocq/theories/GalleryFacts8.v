(** Runs after scans were appended to a data file. *)
From Coq Require Import String Lia Permutation Sorted.
From Verif Require Import Py PyFacts NumFacts Time Utils Keys Handlers Reader Cli Writer Plot Gallery SpecText SpecReader SpecNum SpecLookup SpecHistory SpecTables SpecCli SpecPlot SpecGallery SpecGallery2 CliFacts CliFacts2 TextFacts OrderFacts ReaderFacts ReaderFacts2 ReaderFacts4 ReaderFacts5 ReaderFacts8
  ExampleFacts DataFacts UseFacts PlotFacts PlotLocal GalleryFacts GalleryFacts2 GalleryFacts3 GalleryFacts4 GalleryFacts5 GalleryFacts6 GalleryFacts7.
Import ListNotations.
Local Open Scope list_scope.

Lemma universal_same s : ~ In CR s -> universal_newlines s = s.
Proof.
  induction s as [|c s IH]; intros H; [reflexivity|]. cbn [universal_newlines]. destruct (N.eqb c CR) eqn:E; [apply N.eqb_eq in E; exfalso; apply H; left; exact E|].
  rewrite IH; [reflexivity|]. intros Q. apply H. right. exact Q.
Qed.
Lemma lstrip_gap gap s : Forall (fun c => is_space c = true) gap -> is_space (hd 0%N s) = false -> s <> [] -> lstrip (gap ++ s) = s.
Proof.
  intros H Hs Hn. unfold lstrip. induction H as [|c gap Hc _ IH]; cbn [app lstrip_by].
  - destruct s as [|c s]; [contradiction|]. cbn [hd] in Hs. cbn [lstrip_by]. rewrite Hs. reflexivity.
  - rewrite Hc. exact IH.
Qed.
Lemma appended_prefix content size : scans_appended content size -> prefixb (L "#S ") (lstrip (skipn (Z.to_nat size) (universal_newlines content))) = true.
Proof.
  intros (Hc & old & gap & rest & E & Hl & Hg). rewrite (universal_same _ Hc), E. rewrite <- Hl, Nat2Z.id, skipn_app, skipn_all, Nat.sub_diag. cbn [app skipn].
  rewrite (lstrip_gap gap (L "#S " ++ rest) Hg); [reflexivity|reflexivity|discriminate].
Qed.
Lemma insert_perm {A} (leb : A -> A -> bool) x y l : x = y \/ In x l -> In x (insert leb y l).
Proof.
  induction l as [|z l IH]; cbn [insert In]; [intros [->|[]]; left; reflexivity|]. intros H. destruct (leb y z); cbn [In]; [destruct H as [->|H]; [left; reflexivity|right; exact H]|].
  destruct H as [->|[->|H]]; [right; apply IH; left; reflexivity|left; reflexivity|right; apply IH; right; exact H].
Qed.
Lemma isort_in {A} (leb : A -> A -> bool) x l : In x l -> In x (isort leb l).
Proof. induction l as [|y l IH]; [intros []|]. intros [->|H]; cbn [isort]; apply insert_perm; [left; reflexivity|right; exact (IH H)]. Qed.
Lemma listdir_iff d f x : In x (listdir d f) <-> x <> [] /\ ~ In SL x /\ dget (d ++ SL :: x) f <> None.
Proof.
  unfold listdir. rewrite in_flat_map. split.
  - intros (k & Hk & Hx). destruct (prefixb (d ++ [H5.SLASH]) k) eqn:Ep; [|destruct Hx]. apply prefixb_spec in Ep. destruct Ep as [y ->].
    assert (Es : skipn (S (List.length d)) ((d ++ [H5.SLASH]) ++ y) = y).
    { rewrite skipn_app, skipn_all2 by (rewrite app_length; cbn; lia). rewrite app_length. cbn [List.length]. replace (S (List.length d) - (List.length d + 1)) with 0 by lia. reflexivity. }
    rewrite Es in Hx. cbv zeta in Hx. destruct y as [|c y]; [destruct Hx|]. cbn [List.length Nat.eqb orb] in Hx. destruct (existsb (N.eqb H5.SLASH) (c :: y)) eqn:El; [destruct Hx|]. destruct Hx as [<-|[]].
    split; [discriminate|]. split.
    + intros Q. assert (X : existsb (N.eqb H5.SLASH) (c :: y) = true) by (apply existsb_exists; exists H5.SLASH; split; [exact Q|reflexivity]). congruence.
    + intros Q. apply dget_none in Q. apply Q. rewrite <- app_assoc in Hk. exact Hk.
  - intros (H1 & H2 & H3). exists (d ++ SL :: x). split.
    + destruct (in_dec (list_eq_dec N.eq_dec) (d ++ SL :: x) (keys f)) as [Q|Q]; [exact Q|]. apply dget_none in Q. contradiction.
    + assert (Ep : prefixb (d ++ [H5.SLASH]) (d ++ SL :: x) = true) by (apply prefixb_spec; exists x; rewrite <- app_assoc; reflexivity). rewrite Ep.
      assert (Es : skipn (S (List.length d)) (d ++ SL :: x) = x).
      { change (d ++ SL :: x) with (d ++ [SL] ++ x). rewrite app_assoc, skipn_app, skipn_all2 by (rewrite app_length; cbn; lia). rewrite app_length. cbn [List.length]. replace (S (List.length d) - (List.length d + 1)) with 0 by lia. reflexivity. }
      rewrite Es. destruct x as [|c x]; [contradiction|]. cbn [List.length Nat.eqb orb]. cbv zeta.
      destruct (existsb (N.eqb H5.SLASH) (c :: x)) eqn:El; [|left; reflexivity]. exfalso. apply existsb_exists in El. destruct El as (a & Ha & Q). apply N.eqb_eq in Q. apply H2. unfold SL. unfold H5.SLASH in Q. rewrite Q. exact Ha.
Qed.
Lemma NoDup_map_filter {A B} (g : A -> B) (p : A -> bool) l : NoDup (map g l) -> NoDup (map g (List.filter p l)).
Proof.
  induction l as [|x l IH]; cbn [map List.filter]; [intros H; exact H|]. intros H. inversion H as [|? ? H1 H2]; subst. destruct (p x); [|exact (IH H2)]. cbn [map]. constructor; [|exact (IH H2)].
  intros Q. apply H1. apply in_map_iff in Q. destruct Q as (y & <- & Hy). apply filter_In in Hy. apply in_map. exact (proj1 Hy).
Qed.
Lemma Forall_filter {A} (P : A -> Prop) (p : A -> bool) l : Forall P l -> Forall P (List.filter p l).
Proof. rewrite !Forall_forall. intros H x Hx. apply filter_In in Hx. exact (H x (proj1 Hx)). Qed.
Lemma problems_length scs os ps : problems_of scs os ps -> (List.length ps = List.length os <-> forall i, ~ In (Ok i) os) /\ List.length ps <= List.length os.
Proof.
  induction 1 as [|sc scs a os ps _ [IH1 IH2]|sc scs e os ps _ [IH1 IH2]]; cbn [List.length].
  - split; [|lia]. split; [intros _ i []|reflexivity].
  - split; [|lia]. split; [lia|]. intros H. exfalso. apply (H a). left. reflexivity.
  - split; [|lia]. split.
    + intros H i [Q|Q]; [discriminate Q|]. apply (proj1 IH1 ltac:(lia) i Q).
    + intros H. f_equal. apply IH1. intros i Q. apply (H i). right. exact Q.
Qed.

Lemma f2_length {A B} (R : A -> B -> Prop) l l' : Forall2 R l l' -> List.length l = List.length l'.
Proof. induction 1; cbn [List.length]; congruence. Qed.
Section Later.
  Variables (E : env) (known : list hid) (draw : image -> option exn) (now : nat -> Z) (size_of : body -> Z) (plotDir : str) (reversed : bool).
  Hypothesis Hknown : incl all_hids known.
  Hypothesis Hdir : plain_path plotDir.
  Notation run := (plot_all_scans E known draw now size_of plotDir reversed).
  Notation plots_ := (plots E known draw now size_of).

  (** plots that are there are skipped *)
  Lemma plots_skip specFile pl its : forall sd rm ps s, plots_ specFile pl its sd rm ps s = plots_ specFile [] (List.filter (fun it => negb (mem (i_base it) pl)) its) sd rm ps s.
  Proof.
    induction its as [|it its IH]; intros sd rm ps s; [reflexivity|]. cbn [plots List.filter]. destruct (mem (i_base it) pl) eqn:Em; cbn [negb]; [apply IH|].
    cbn [plots mem existsb]. unfold gbind. destruct (one_plot E known draw now size_of specFile it sd s) as [t [s1 [[sd1 [e|]]|e]]]; [| |reflexivity]; rewrite IH; reflexivity.
  Qed.
  (** is the index to be made again? *)
  Lemma plots_remake specFile its : forall sd rm ps s t s' sd' rm' ps', plots_ specFile [] its sd rm ps s = (t, (s', Ok (sd', rm', ps'))) ->
    List.length ps <= List.length ps' /\ List.length ps' <= List.length ps + List.length its /\ (rm' = rm \/ rm' = true) /\
    (List.length ps' = List.length ps + List.length its -> rm' = rm) /\ (List.length ps' < List.length ps + List.length its -> rm' = true).
  Proof.
    induction its as [|it its IH]; intros sd rm ps s t s' sd' rm' ps' H; cbn [plots mem existsb] in H.
    - injection H as _ _ _ <- <-. cbn [List.length]. repeat split; try lia; try (left; reflexivity).
    - cbn [mem existsb] in H. apply gbind_inv in H. destruct H as (t1 & s1 & [sd1 e] & t2 & H1 & H2 & _). cbn [List.length]. destruct e as [e|].
      + destruct (IH _ _ _ _ _ _ _ _ _ H2) as (A1 & A2 & A3 & A4 & A5). rewrite app_length in *. cbn [List.length] in *. split; [lia|]. split; [lia|]. split; [exact A3|]. split; intros Q; [apply A4; lia|apply A5; lia].
      + destruct (IH _ _ _ _ _ _ _ _ _ H2) as (A1 & A2 & A3 & A4 & A5). split; [lia|]. split; [lia|]. assert (rm' = true) as -> by (destruct A3; assumption). split; [right; reflexivity|]. split; [lia|reflexivity].
  Qed.
  Definition plot_list_of (d : str) (f : gfs) : list str := isort str_leb (List.filter (suffixb PLOT_TYPE) (listdir d f)).
  Lemma old_kept specFile d f sel tick m0 z0 m z content : path_of f specFile = File (Some content) m z -> (z0 < z)%Z -> scans_appended content z0 ->
    old_plots specFile d (m0, z0) (m, z) (mk_g f sel tick) = ([], (mk_g f sel tick, Ok (plot_list_of d f))).
  Proof.
    intros Hp Hz Hs. unfold old_plots. rewrite gbind_get. cbn [g_fs fst snd]. cbv zeta. fold (plot_list_of d f).
    destruct (negb (Nat.eqb (List.length (plot_list_of d f)) 0) && (0 <? z)%Z && negb (z =? z0)%Z); [|reflexivity].
    replace (z0 <? z)%Z with true by (symmetry; apply Z.ltb_lt; exact Hz). rewrite Hp, (appended_prefix content z0 Hs). reflexivity.
  Qed.
  Lemma in_plot_list d f n : ~ In SL n -> (mem (plot_name n) (plot_list_of d f) = true <-> dget (d ++ SL :: plot_name n) f <> None).
  Proof.
    intros Hn. rewrite mem_In. unfold plot_list_of. split.
    - intros H. apply isort_sub in H. apply filter_In in H. destruct H as [H _]. apply listdir_iff in H. apply H.
    - intros H. apply isort_in. apply filter_In. split.
      + apply listdir_iff. split; [|split; [apply plot_name_no_slash; exact Hn|exact H]]. destruct (plot_name_svg n) as [y ->]. destruct y; discriminate.
      + destruct (plot_name_svg n) as [y ->]. unfold PLOT_TYPE. apply suffixb_spec. exists y. reflexivity.
  Qed.

  (** the kept plots [pl] are those in the files [f] *)
  Definition kept_in (d : str) (f : gfs) (pl : list str) : Prop := forall n, ~ In SL n -> (mem (plot_name n) pl = true <-> dget (d ++ SL :: plot_name n) f <> None).
  Lemma news_filter d f pl l : kept_in d f pl -> Forall (fun it => i_base it = plot_name (num_of it) /\ ~ In SL (num_of it)) l ->
    news f d (map i_scan l) (map i_scan (List.filter (fun it => negb (mem (i_base it) pl)) l)).
  Proof.
    intros Hpl H. unfold news. apply Keeps_map. eapply Forall_impl; [|exact H]. intros it [H1 H2]. fold (num_of it). rewrite H1. pose proof (Hpl (num_of it) H2) as Q.
    destruct (mem _ _); cbn [negb].
    - split; [discriminate|]. intros X. exfalso. apply (proj1 Q eq_refl). exact X.
    - split; [|reflexivity]. intros _. destruct (dget (d ++ SL :: plot_name (num_of it)) f) eqn:Ed; [|reflexivity]. exfalso. assert (X : false = true) by (apply (proj2 Q); congruence). discriminate X.
  Qed.

  (** the directory after a later run *)
  Lemma later_main specFile d its sd db sel f00 f tick tr pl last m z content t s' :
    plain_path d -> plots_in plotDir specFile d -> history E known sd -> all_ge1 sd -> nice sd -> Forall (fun n => ~ In 32%N n /\ no_leading_zero n) (keys (scans sd)) -> items d sd = Ok its ->
    dget default_key db <> None -> same_answers db sel -> dget specFile f = Some (FFile (BText (Some content)) m z) -> ~ place plotDir specFile specFile -> old_plots specFile d last (m, z) (mk_g f00 sel tick) = (tr, (mk_g f sel tick, Ok pl)) -> kept_in d f pl ->
    (forall b, file_name specFile b -> b <> L "index.html" /\ forall y, b <> y ++ L ".svg") ->
    main E known draw now size_of reversed specFile d its sd last (m, z) (mk_g f00 sel tick) = (t, (s', Ok tt)) ->
    later_run E known draw reversed db sd m d specFile (BText (Some content)) f (g_fs s') (map i_scan its).
  Proof.
    intros Hd Hp Hh Hg Hnice Hk Hi Hdef Ha Hf Hpl Hold Hkept Hb H. destruct (items_lemma E known d sd its Hh Hg Hi) as (I1 & I2 & I3 & I4). pose proof (items_ok E known d sd its Hh Hi) as I5.
    unfold main in H. unfold gbind at 1 in H. rewrite Hold in H.
    assert (Full : Forall (fun it => i_full it = d ++ SL :: plot_name (num_of it)) its).
    { eapply Forall_impl; [|exact I5]. intros it (J1 & J2 & ->). rewrite J1. apply pjoin_plain; [exact Hd|apply plot_name_no_slash; exact J2]. }
    assert (Keys : Forall (fun it => In (num_of it) (keys (scans sd))) its).
    { eapply Forall_impl; [|exact I3]. intros it [J1 _]. destruct (in_dec (list_eq_dec N.eq_dec) (num_of it) (keys (scans sd))) as [Q|Q]; [exact Q|]. apply dget_none in Q. congruence. }
    assert (ND : NoDup (map i_full its)).
    { clear -Full Keys I4 Hk. induction its as [|it its IH]; cbn [map] in *; [constructor|]. inversion Full as [|? ? F1 F2]; subst. inversion Keys as [|? ? K1 K2]; subst. inversion I4 as [|? ? N1 N2]; subst. constructor; [|apply IH; assumption].
      intros Q. apply in_map_iff in Q. destruct Q as (it' & Q & Hin). rewrite Forall_forall in F2, K2, Hk. rewrite F1, (F2 it' Hin) in Q. apply app_inv_head in Q. apply (f_equal (@tl N)) in Q. cbn [tl] in Q. destruct (Hk _ K1) as [A1 A2]. destruct (Hk _ (K2 it' Hin)) as [B1 B2].
      apply N1. rewrite <- (C54_distinct_lemma _ _ B1 A1 B2 A2 Q). apply in_map. exact Hin. }
    assert (Hsp : forall x, ~ In SL x -> specFile <> d ++ SL :: x).
    { intros x Hx Q. apply Hpl. right. exists d. split; [exact Hp|]. right. exists x. auto. }
    assert (Nm : Forall (fun it => i_base it = plot_name (num_of it) /\ ~ In SL (num_of it)) its).
    { eapply Forall_impl; [|exact I5]. intros it (J1 & J2 & _). split; [exact J1|exact J2]. }
    cbn [app] in H. match type of H with (let (_, _) := ?k ?s in _) = _ => destruct (k s) as [t2 r2] eqn:Er end. injection H as <- ->.
    apply gbind_inv in Er. destruct Er as (t1 & s1 & [[sd' rm'] ps'] & t3 & H1 & H2 & _).
    rewrite plots_skip in H1. set (new := List.filter (fun it => negb (mem (i_base it) pl)) its) in *.
    assert (Hnew : forall it, In it new -> In it its /\ dget (d ++ SL :: plot_name (num_of it)) f = None).
    { intros it Hin. apply filter_In in Hin. destruct Hin as [Hin Q]. split; [exact Hin|]. rewrite Forall_forall in Nm. destruct (Nm it Hin) as [J1 J2]. rewrite J1 in Q. apply Bool.negb_true_iff in Q.
      destruct (dget (d ++ SL :: plot_name (num_of it)) f) eqn:Ed; [|reflexivity]. exfalso. assert (X : mem (plot_name (num_of it)) pl = true) by (apply (proj2 (Hkept _ J2)); congruence). congruence. }
    destruct (plots_remake specFile new sd false [] (mk_g f sel tick) t1 s1 sd' rm' ps' H1) as (R1 & R2 & _ & R4 & R5). cbn [List.length] in *.
    destruct (plots_lemma E known draw now size_of Hknown specFile db sd m d Hdef) with (its := new) (sd := sd) (rm := false) (ps := @nil (exn * str)) (s := mk_g f sel tick) (t := t1) (s' := s1) (sd' := sd') (rm' := rm') (ps' := ps') as (os & qs & P1 & P2 & P3 & P4 & P5); auto.
    { apply Forall_filter. exact I5. }
    { apply NoDup_map_filter. exact ND. }
    { apply NoDup_map_filter. exact I4. }
    { exists z, (BText (Some content)). exact Hf. }
    { apply Forall_forall. intros it Hin. rewrite Forall_forall in Full. destruct (Hnew it Hin) as [Q1 Q2]. rewrite (Full it Q1). exact Q2. }
    { apply Forall_filter. eapply Forall_impl; [|exact I3]. intros it [J _]. split; [reflexivity|exact J]. }
    cbn [app] in P3. subst ps'. cbn [g_fs] in P4.
    apply gbind_inv in H2. destruct H2 as (t4 & s2 & [] & t5 & H3 & H4 & _).
    assert (Nplot : forall x, (forall it, In it new -> x <> plot_name (num_of it)) -> ~ In (d ++ SL :: x) (map i_full new)).
    { intros x Hx Q. apply in_map_iff in Q. destruct Q as (it & Q & Hin). rewrite Forall_forall in Full. rewrite (Full it (proj1 (Hnew it Hin))) in Q. apply app_inv_head in Q. apply (f_equal (@tl N)) in Q. cbn [tl] in Q.
      apply (Hx it Hin). symmetry. exact Q. }
    assert (Nsvg : forall x, (forall y, x <> y ++ L ".svg") -> ~ In (d ++ SL :: x) (map i_full new)).
    { intros x Hx. apply Nplot. intros it _ ->. destruct (plot_name_svg (num_of it)) as [y Hy]. apply (Hx y). exact Hy. }
    assert (Xi : forall y, L "index.html" <> y ++ L ".svg") by (intros y Q; apply (f_equal (@rev N)) in Q; rewrite rev_app_distr in Q; discriminate Q).
    destruct (Hb _ (basename_spec specFile)) as [B1 B2]. set (base := basename specFile) in *. pose proof (proj1 (basename_spec specFile)) as B3. fold base in B3.
    set (html := d ++ SL :: L "index.html"). set (target := d ++ SL :: base).
    assert (Ehtml : pjoin d INDEX_FILE = html) by (apply pjoin_plain; [exact Hd|cbn; intuition discriminate]). assert (Etarget : pjoin d base = target) by (apply pjoin_plain; assumption).
    assert (Nt : target <> html) by (unfold target, html; intros Q; apply app_inv_head in Q; apply (f_equal (@tl N)) in Q; exact (B1 Q)).
    unfold make_index in H3. rewrite gbind_get in H3. rewrite Ehtml in H3. cbv zeta in H3.
    assert (Hh1 : dget html (g_fs s1) = dget html f) by (apply P4; apply Nsvg; exact Xi).
    assert (Sf : dget specFile (g_fs s1) = Some (FFile (BText (Some content)) m z)).
    { rewrite P4; [exact Hf|]. intros Q. apply in_map_iff in Q. destruct Q as (it & Q & Hin). rewrite Forall_forall in I5. destruct (I5 it (proj1 (Hnew it Hin))) as (J1 & J2 & J3).
      assert (Ns : ~ In SL (i_base it)) by (rewrite J1; apply plot_name_no_slash; exact J2). rewrite J3, pjoin_plain in Q; [|exact Hd|exact Ns]. exact (Hsp _ Ns (eq_sym Q)). }
    assert (Nsh : specFile <> html) by (apply Hsp; cbn; intuition discriminate).
    assert (Tn : dget target (g_fs s1) = dget target f) by (apply P4; apply Nsvg; exact B2).
    assert (Ep : forall it x, In it its -> epoch_of sd' it = Ok x -> epoch_now E known draw db sd m d f (i_scan it) x).
    { intros it x Hin Hx. rewrite Forall_forall in Nm. destruct (Nm it Hin) as [J1 J2]. pose proof (Hkept (num_of it) J2) as Jp. unfold epoch_of in Hx. fold (num_of it) in Hx. unfold epoch_now. fold (num_of it).
      destruct (mem (i_base it) pl) eqn:Em.
      - right. rewrite J1 in Em. split; [exact (proj1 Jp Em)|]. assert (Nn : ~ In (num_of it) (map num_of new)).
        { intros Q. apply in_map_iff in Q. destruct Q as (it' & Q & Hin'). destruct (Hnew it' Hin') as [_ Q2]. rewrite Q in Q2. exact (proj1 Jp Em Q2). }
        rewrite (P5 _ Nn) in Hx. rewrite Forall_forall in I3. destruct (I3 it Hin) as [J3 _]. rewrite J3 in Hx. destruct (s_obj (i_scan it) A_epoch) as [x'|]; [cbn [of_opt] in Hx; injection Hx as ->; reflexivity|discriminate Hx].
      - left. assert (Hin' : In it new) by (apply filter_In; split; [exact Hin|rewrite Em; reflexivity]). split; [exact (proj2 (Hnew it Hin'))|].
        assert (X : exists o, plotting E known draw db sd (i_scan it) m o (dget (num_of it) (scans sd'))).
        { clear -P1 Hin'. induction P1 as [|it' o its' os [_ X] P1 IH]; [destruct Hin'|]. destruct Hin' as [<-|Hin']; [exists o; exact X|exact (IH Hin')]. }
        destruct X as [o X]. destruct (dget (num_of it) (scans sd')) as [sc'|]; [|discriminate Hx]. exists o, sc'. split; [exact X|].
        destruct (s_obj sc' A_epoch) as [x'|]; [cbn [of_opt] in Hx; injection Hx as ->; reflexivity|discriminate Hx]. }
    (* the index *)
    assert (X2 : (forall n, n <> html -> dget n (g_fs s2) = dget n (g_fs s1)) /\
      ((rm' = true \/ dget html f = None) -> exists links tt zz order shown, dget html (g_fs s2) = Some (FFile (BIndex links qs) tt zz) /\ Permutation order (map i_scan its) /\
         Keeps (fun sc => dget (d ++ SL :: plot_name (s_num sc)) (g_fs s1) <> None) order shown /\ Forall2 link_to shown links /\
         ((forall sc x, In sc (map i_scan its) -> epoch_now E known draw db sd m d f sc x -> fl_of_num x <> FNaN) ->
           StronglySorted (fun a b => exists x y, epoch_now E known draw db sd m d f a x /\ epoch_now E known draw db sd m d f b y /\ in_order reversed x y) order)) /\
      (rm' = false -> dget html f <> None -> dget html (g_fs s2) = dget html f)).
    { unfold fexists at 1, has in H3. rewrite Hh1 in H3. destruct (rm' || negb match dget html f with Some _ => true | None => false end) eqn:Erm.
      - rewrite gbind_lift in H3. destruct (mapM (epoch_of sd') its) as [ts|] eqn:Ets; [|discriminate H3]. unfold write_file in H3.
        set (sorted := sort_by (if reversed then fun a b => num_leb b a else num_leb) (combine ts its)) in *. set (links := map i_href (List.filter (fun it => fexists (g_fs s1) (i_full it)) sorted)) in *.
        injection H3 as _ <-. cbn [g_fs]. assert (Hperm : Permutation sorted its) by (apply sort_by_perm; apply mapM_length in Ets; exact Ets). split; [|split].
        + intros n Q. rewrite !dget_dset_other by exact Q. reflexivity.
        + intros _. exists links. eexists _, _. exists (map i_scan sorted), (map i_scan (List.filter (fun it => fexists (g_fs s1) (i_full it)) sorted)).
          split; [apply dget_dset_same|]. split; [apply Permutation_map; exact Hperm|]. split.
          * apply Keeps_map. apply Forall_forall. intros it Hin. apply (Permutation_in _ Hperm) in Hin. rewrite Forall_forall in Full. fold (num_of it). rewrite <- (Full it Hin). unfold fexists, has. destruct (dget (i_full it) (g_fs s1)); split; congruence.
          * split; [|intros Hnan; apply (sorted_scans reversed sd');
             [intros a b Ha' Hb' (x & y & Q1 & Q2 & Q3); apply (Permutation_in _ Hperm) in Ha'; apply (Permutation_in _ Hperm) in Hb'; exists x, y; split; [exact (Ep a x Ha' Q1)|]; split; [exact (Ep b y Hb' Q2)|exact Q3]|]].
            2: { apply sort_epochs; [exact Ets|]. apply mapM_ok in Ets. assert (G : forall it x, In it its -> epoch_of sd' it = Ok x -> is_nan (fl_of_num x) = false).
              { intros it x Hin Hx. specialize (Hnan (i_scan it) x (in_map i_scan _ _ Hin) (Ep it x Hin Hx)). destruct (fl_of_num x); [reflexivity|reflexivity|exfalso; apply Hnan; reflexivity]. }
              clear -Ets G. induction Ets as [|a b l l' X Ets IH]; constructor; [apply (G a); [left; reflexivity|exact X]|apply IH; intros it x Hin; apply G; right; exact Hin]. }
            unfold links. assert (G : forall l, (forall it, In it l -> In it its) -> Forall2 link_to (map i_scan l) (map i_href l)).
            { intros l. induction l as [|it l IH]; intros Hl; cbn [map]; constructor; [|apply IH; intros x Hx; apply Hl; right; exact Hx]. rewrite Forall_forall in I3. apply I3. apply Hl. left. reflexivity. }
            apply G. intros it Hin. apply filter_In in Hin. apply (Permutation_in _ Hperm). exact (proj1 Hin).
        + intros Q1 Q2. exfalso. rewrite Q1 in Erm. destruct (dget html f); [discriminate Erm|apply Q2; reflexivity].
      - injection H3 as _ <-. split; [reflexivity|]. split; [|intros _ _; exact Hh1]. intros [Q|Q]; exfalso; [rewrite Q in Erm; discriminate Erm|]. rewrite Q, Bool.orb_true_r in Erm. discriminate Erm. }
    destruct X2 as (F2 & X2 & X3).
    (* the copy *)
    unfold copy_data in H4. rewrite gbind_get in H4. fold base in H4. rewrite Etarget in H4. cbv zeta in H4. rewrite (F2 specFile Nsh), Sf in H4.
    unfold fmtime, fexists, has in H4. rewrite (F2 target Nt), Tn in H4.
    assert (X4 : (forall n, n <> target -> dget n (g_fs s') = dget n (g_fs s2)) /\
      match dget target f with
      | None => exists t z, dget target (g_fs s') = Some (FFile (BText (Some content)) t z)
      | Some (FFile _ t0 _) => if (t0 <? m)%Z then exists t z, dget target (g_fs s') = Some (FFile (BText (Some content)) t z) else dget target (g_fs s') = dget target f
      | Some FDir => dget target (g_fs s') = Some FDir
      end).
    { destruct (dget target f) as [[|b0 t0 zz0]|] eqn:Et.
      - injection H4 as _ <-. split; [reflexivity|]. rewrite (F2 target Nt). exact Tn.
      - destruct (t0 <? m)%Z.
        + unfold write_file in H4. injection H4 as _ <-. cbn [g_fs]. split; [intros n Q; rewrite !dget_dset_other by exact Q; reflexivity|]. eexists _, _. apply dget_dset_same.
        + injection H4 as _ <-. split; [reflexivity|]. rewrite (F2 target Nt). exact Tn.
      - unfold write_file in H4. injection H4 as _ <-. cbn [g_fs]. split; [intros n Q; rewrite !dget_dset_other by exact Q; reflexivity|]. eexists _, _. apply dget_dset_same. }
    destruct X4 as (F3 & X4).
    assert (Fin : forall n, n <> target -> n <> html -> dget n (g_fs s') = dget n (g_fs s1)) by (intros n Q1 Q2; rewrite (F3 n Q1); exact (F2 n Q2)).
    assert (Plots : forall n, dget (d ++ SL :: plot_name n) (g_fs s') = dget (d ++ SL :: plot_name n) (g_fs s1)).
    { intros n. destruct (plot_name_svg n) as [y Hy]. apply Fin; unfold target, html; intros Q; apply app_inv_head in Q; apply (f_equal (@tl N)) in Q; cbn [tl] in Q; rewrite Hy in Q; [exact (B2 y (eq_sym Q))|exact (Xi y (eq_sym Q))]. }
    split.
    - intros x Hx Hor Nx Nb. assert (N1 : d ++ SL :: x <> target).
      { unfold target. intros Q. apply app_inv_head in Q. apply (f_equal (@tl N)) in Q. cbn [tl] in Q. apply Nb. rewrite Q. exact (basename_spec specFile). }
      assert (N2 : d ++ SL :: x <> html) by (unfold html; intros Q; apply app_inv_head in Q; apply (f_equal (@tl N)) in Q; cbn [tl] in Q; exact (Nx Q)).
      rewrite (Fin _ N1 N2). apply P4. apply Nplot. intros it Hin Q. destruct (Hnew it Hin) as [Q1 Q2]. destruct Hor as [Hor|Hor]; [apply (Hor (i_scan it)); [apply in_map; exact Q1|exact Q]|]. apply Hor. rewrite Q. exact Q2.
    - exists (map i_scan new), os, qs. split; [apply news_filter; [exact Hkept|exact Nm]|]. split; [|split; [exact P2|split]].
      + clear -P1 Full Plots Hnew. assert (G : forall its0 os, Forall2 (fun it o => plot_file (g_fs s1) (i_full it) o /\ plotting E known draw db sd (i_scan it) m o (dget (num_of it) (scans sd'))) its0 os ->
          (forall it, In it its0 -> In it new) -> Forall2 (fun sc o => plot_file (g_fs s') (d ++ SL :: plot_name (s_num sc)) o /\ (exists sc', plotting E known draw db sd sc m o sc')) (map i_scan its0) os).
        { intros its0 os0 H. induction H as [|it o l os0 [H1 H2] H IH]; intros Hin; cbn [map]; constructor; [|apply IH; intros x Hx; apply Hin; right; exact Hx]. rewrite Forall_forall in Full.
          assert (Hit : In it new) by (apply Hin; left; reflexivity). pose proof (proj1 (Hnew it Hit)) as Hit'. split; [|exists (dget (num_of it) (scans sd')); exact H2]. unfold plot_file in *. fold (num_of it). rewrite Plots. rewrite <- (Full it Hit'). exact H1. }
        apply G; [exact P1|auto].
      + pose proof (problems_length _ _ _ P2) as [L1 L2]. pose proof (f2_length _ _ _ P1) as L3. intros Hor. fold html. assert (Hor' : rm' = true \/ dget html f = None).
        { destruct Hor as [[i Hi']|Hor]; [left|right; exact Hor]. apply R5. assert (List.length qs <> List.length os) by (intros Q; exact (proj1 L1 Q i Hi')). lia. }
        destruct (X2 Hor') as (links & tt' & zz & order & shown & Y1 & Y2 & Y3 & Y4 & Y5). exists links, tt', zz, order, shown. split; [rewrite F3 by (intros Q; exact (Nt (eq_sym Q))); exact Y1|]. split; [exact Y2|]. split; [|split; [exact Y4|exact Y5]].
        clear -Y3 Plots. induction Y3; constructor; try exact IHY3; rewrite Plots; assumption.
      + pose proof (problems_length _ _ _ P2) as [L1 L2]. pose proof (f2_length _ _ _ P1) as L3. intros Hno Hi'. fold html. rewrite F3 by (intros Q; exact (Nt (eq_sym Q))). apply X3; [|exact Hi']. apply R4. apply (proj2 L1) in Hno. lia.
    - intros b Hbn. rewrite (file_name_one _ _ _ Hbn (basename_spec specFile)). fold base. fold target. exact X4.
  Qed.

  Lemma Keeps_ext {A} (P Q : A -> Prop) l l' : (forall x, P x <-> Q x) -> Keeps P l l' -> Keeps Q l l'.
  Proof. intros H K. induction K as [|x a b H1 K IH|x a b H1 K IH]; constructor; try exact IH; rewrite <- H; exact H1. Qed.
  Lemma later_ext db sd m d specFile content f0 f0' f scs : (forall x, dget (d ++ SL :: x) f0 = dget (d ++ SL :: x) f0') ->
    later_run E known draw reversed db sd m d specFile content f0 f scs -> later_run E known draw reversed db sd m d specFile content f0' f scs.
  Proof.
    intros He [H1 H2 H3]. split.
    - intros x. rewrite <- He. exact (H1 x).
    - assert (Hep : forall sc x, epoch_now E known draw db sd m d f0 sc x <-> epoch_now E known draw db sd m d f0' sc x) by (intros sc x; unfold epoch_now; rewrite He; reflexivity).
      destruct H2 as (l & os & ps & A1 & A2 & A3 & A4 & A5). exists l, os, ps. split; [|split; [exact A2|split; [exact A3|split; [rewrite <- He|rewrite <- He; exact A5]]]].
      2: { intros Q. destruct (A4 Q) as (links & tt' & zz & order & sh & B1 & B2 & B3 & B4 & B5). exists links, tt', zz, order, sh. split; [exact B1|]. split; [exact B2|]. split; [exact B3|]. split; [exact B4|].
        intros Hn. eapply StronglySorted_impl; [|apply B5; intros sc x Hin Hx; apply (Hn sc x Hin); apply Hep; exact Hx]. cbv beta. intros a b (x & y & Q1 & Q2 & Q3). exists x, y. split; [apply Hep; exact Q1|]. split; [apply Hep; exact Q2|exact Q3]. }
      unfold news in *. eapply Keeps_ext; [|exact A1]. intros sc. cbv beta. rewrite He. reflexivity.
    - intros b. rewrite <- He. exact (H3 b).
  Qed.
  (** what is done with the plots that are there: [R d f f1] for the files before and after *)
  Variables (specFile : str) (R : str -> gfs -> gfs -> Prop) (m z m0 z0 : Z) (content : str).
  Hypothesis Rext : forall d f f' f1, (forall x, dget (d ++ SL :: x) f = dget (d ++ SL :: x) f') -> R d f f1 -> R d f' f1.
  Hypothesis Rold : forall d f sel tick, plain_path d -> NoDup (keys f) -> dget specFile f = Some (FFile (BText (Some content)) m z) -> exists tr f1 pl, old_plots specFile d (m0, z0) (m, z) (mk_g f sel tick) = (tr, (mk_g f1 sel tick, Ok pl)) /\ kept_in d f1 pl /\ R d f f1 /\
    (forall n, (forall x, ~ In SL x -> n <> d ++ SL :: x) -> dget n f1 = dget n f).
  Lemma later_run_lemma s t s' sd : plain_path specFile -> NoDup (keys (g_fs s)) -> data_file (g_fs s) specFile content m z -> cached plotDir (g_fs s) specFile (m0, z0) -> m <> m0 -> z <> z0 ->
    open_file E known specFile (File (Some content) m z) = Ok sd -> headers sd <> [] -> all_ge1 sd -> no_names_in_scans sd -> Forall (fun n => ~ In 32%N n /\ no_leading_zero n) (keys (scans sd)) ->
    dget default_key (g_sel s) <> None -> ~ place plotDir specFile specFile ->
    (forall b, file_name specFile b -> b <> L "index.html" /\ forall y, b <> y ++ L ".svg") ->
    run specFile s = (t, (s', Ok tt)) ->
    exists d scs f1, plot_directory plotDir specFile content d /\ Permutation scs (values (scans sd)) /\
      StronglySorted (fun a b => exists x y, py_float (s_num a) = Ok x /\ py_float (s_num b) = Ok y /\ num_le x y) scs /\ R d (g_fs s) f1 /\
      later_run E known draw reversed (g_sel s) sd m d specFile (BText (Some content)) f1 (g_fs s') scs.
  Proof.
    intros Hp Hnd Hf Hc Hm Hz Hop Hhd Hge Hnn Hk Hdef Hpl Hb H. rewrite run_eq in H. cbv zeta in H. assert (Pa : path_of (g_fs s) specFile = File (Some content) m z) by (unfold path_of; rewrite Hf; reflexivity). rewrite Pa in H.
    destruct (negb _); [discriminate H|]. rewrite Hop in H. destruct (headers sd) as [|h hs] eqn:Eh; [contradiction Hhd; reflexivity|]. cbn [List.length Nat.eqb] in H. destruct s as [f sel tick]. cbn [g_fs g_sel g_tick] in *.
    destruct (getPlotDir plotDir specFile f) as [[d|]|e] eqn:Ed; try discriminate H. destruct (plot_dir_ok plotDir Hdir _ _ _ Hp Ed) as [P1 P2]. pose proof (date_dir plotDir Hdir _ _ _ _ _ _ Hf Ed Hp) as Hdd.
    assert (Nsd : specFile <> d) by (intros Q; apply Hpl; right; exists d; auto). assert (Ncd : cache_name plotDir <> d) by (intros Q; apply (place_cache plotDir Hdir specFile); exists d; auto).
    pose proof (open_history _ _ _ _ _ Hop) as Hh.
    assert (K : forall f', NoDup (keys f') -> (forall x, dget (d ++ SL :: x) f' = dget (d ++ SL :: x) f) -> dget specFile f' = dget specFile f -> dget plotDir f' = dget plotDir f -> dget (cache_name plotDir) f' = dget (cache_name plotDir) f ->
      forall t, after_dir E known draw now size_of plotDir reversed specFile d sd (mk_g f' sel tick) = (t, (s', Ok tt)) ->
      exists scs f1, Permutation scs (values (scans sd)) /\ StronglySorted (fun a b => exists x y, py_float (s_num a) = Ok x /\ py_float (s_num b) = Ok y /\ num_le x y) scs /\ R d f f1 /\
        later_run E known draw reversed sel sd m d specFile (BText (Some content)) f1 (g_fs s') scs).
    { intros f' Hnd' Hsame Es Epd Ec t' Ha. destruct (items d sd) as [its|e] eqn:Ei; [|unfold after_dir in Ha; rewrite gbind_lift, Ei in Ha; discriminate Ha].
      assert (Rs : cache_read plotDir f' = cache_read plotDir f) by (apply read_same; [rewrite Epd; tauto|exact Ec]).
      destruct (cache_read plotDir f) as [c|e] eqn:Er; [|unfold after_dir in Ha; rewrite gbind_lift, Ei, gbind_get in Ha; cbn [g_fs] in Ha; rewrite gbind_lift, Rs in Ha; discriminate Ha].
      assert (Od : on_disk f' specFile m z) by (exists (BText (Some content)); rewrite Es; exact Hf).
      rewrite (after_eq E known draw now size_of plotDir reversed specFile d sd f' sel tick its c m z Ei Rs Od) in Ha.
      assert (Old : cache_get specFile c = (m0, z0)).
      { destruct Hc as (c' & t0 & zz & C1 & C2). unfold cache_read in Er. destruct (negb (fexists f plotDir)); [discriminate Er|]. rewrite (cache_path plotDir Hdir) in Er. unfold CACHE_FILE in Er. rewrite C1 in Er. injection Er as <-. unfold cache_get. rewrite C2. reflexivity. }
      rewrite Old in Ha. cbn [fst snd] in Ha. replace (m =? m0)%Z with false in Ha by (symmetry; apply Z.eqb_neq; exact Hm). replace (z =? z0)%Z with false in Ha by (symmetry; apply Z.eqb_neq; exact Hz). cbn [negb andb] in Ha. cbv zeta in Ha.
      match type of Ha with (let (_, _) := main _ _ _ _ _ _ _ _ _ _ _ _ (mk_g ?F _ _) in _) = _ => set (f2 := F) in * end.
      destruct (main E known draw now size_of reversed specFile d its sd (m0, z0) (m, z) (mk_g f2 sel (S tick))) as [t2 r2] eqn:Em. injection Ha as _ ->.
      destruct (items_lemma E known d sd its Hh Hge Ei) as (I1 & I2 & _).
      assert (Ncs : specFile <> cache_name plotDir) by (intros Q; apply Hpl; left; exact Q).
      assert (Sp2 : dget specFile f2 = Some (FFile (BText (Some content)) m z)) by (unfold f2; rewrite !dget_dset_other by exact Ncs; rewrite Es; exact Hf).
      assert (Nd2 : NoDup (keys f2)) by (unfold f2; apply NoDup_dset; apply NoDup_dset; exact Hnd').
      destruct (Rold d f2 sel (S tick) P2 Nd2 Sp2) as (tr & f1 & pl & O1 & O2 & O3 & O4).
      exists (map i_scan its), f1. split; [exact I1|]. split; [exact I2|]. split.
      - refine (Rext d f2 f f1 _ O3). intros x. unfold f2. rewrite !dget_dset_other; [apply Hsame| |]; intros Q; rewrite (cache_path plotDir Hdir) in Q; destruct P1 as (y & mm & r & _ & _ & _ & ->); rewrite <- app_assoc in Q; apply app_inv_head in Q; cbn [app] in Q; apply (f_equal (@tl N)) in Q; cbn [tl] in Q;
          (assert (X : In SL CACHE_FILE) by (rewrite <- Q; apply in_or_app; left; apply in_or_app; right; left; reflexivity)); cbn in X; intuition discriminate.
      - refine (later_main specFile d its sd sel sel f2 f1 (S tick) tr pl (m0, z0) m z content t2 s' P2 P1 Hh Hge _ Hk Ei Hdef (answers_refl sel) _ Hpl O1 O2 Hb Em).
        + split; [exact Hnn|exact (open_dated _ _ _ _ _ Hop)].
        + rewrite O4; [exact Sp2|]. intros x Hx Q. apply Hpl. right. exists d. split; [exact P1|]. right. exists x. split; [exact Hx|exact Q]. }
    destruct (fexists f d) eqn:Ex.
    - destruct (K f Hnd (fun _ => eq_refl) eq_refl eq_refl eq_refl t H) as (scs & f1 & K1 & K2 & K3 & K4). exists d, scs, f1. auto.
    - destruct (after_dir E known draw now size_of plotDir reversed specFile d sd (mk_g (dset d FDir f) sel tick)) as [t2 r2] eqn:Ea. injection H as _ ->.
      destruct (K (dset d FDir f)) with (t := t2) as (scs & f1 & K1 & K2 & K3 & K4).
      + apply NoDup_dset. exact Hnd.
      + intros x. rewrite dget_dset_other; [reflexivity|]. intros Q. exact (below_not d x (eq_sym Q)).
      + apply dget_dset_other. exact Nsd.
      + apply dget_dset_other. exact (dir_not_in plotDir specFile d P1).
      + apply dget_dset_other. exact Ncd.
      + exact Ea.
      + exists d, scs, f1. auto.
  Qed.
End Later.
