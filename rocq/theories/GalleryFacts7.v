(** The first run over a data file: all its plots (C82, C83). *)
From Coq Require Import String Lia Permutation Sorted.
From Verif Require Import Py PyFacts NumFacts Time Utils Keys Handlers Reader Cli Writer Plot Gallery SpecText SpecReader SpecNum SpecLookup SpecHistory SpecTables SpecCli SpecPlot SpecGallery CliFacts CliFacts2 TextFacts OrderFacts ReaderFacts ReaderFacts2 ReaderFacts4 ReaderFacts5 ReaderFacts8
  ExampleFacts DataFacts UseFacts PlotFacts PlotLocal GalleryFacts GalleryFacts2 GalleryFacts3 GalleryFacts4 GalleryFacts5 GalleryFacts6.
Import ListNotations.
Local Open Scope list_scope.

(** ** the Selector *)
Definition same_answers (db db' : selector) : Prop := (forall m, snd (sel_auto m db') = snd (sel_auto m db)) /\ dget default_key db' = dget default_key db.
Lemma answers_refl db : same_answers db db. Proof. split; [intros; reflexivity|reflexivity]. Qed.
Lemma auto_same m db : dget default_key db <> None -> same_answers db (fst (sel_auto m db)).
Proof.
  intros Hd. unfold sel_auto, sel_get. destruct (dget m db) as [c|] eqn:Em; [apply answers_refl|].
  set (c := if seqb m (L "hklscan") then HklP else if suffixb (L "scan") (lower m) then LineP else if suffixb (L "mesh") (lower m) then MeshP else match sel_default db with Some c => c | None => NoClass 0 end).
  unfold sel_add, sel_exists, has. rewrite Em. unfold sel_store. destruct (issub c) as [[|]|e] eqn:Ei; [|apply answers_refl|apply answers_refl]. cbn [fst].
  assert (Nd : default_key <> m) by (intros <-; exact (Hd Em)). split; [|apply dget_dset_other; exact Nd].
  intros m'. unfold sel_auto, sel_get. destruct (list_eq_dec N.eq_dec m' m) as [->|Hm].
  - rewrite dget_dset_same, Em. fold c. unfold sel_add, sel_exists, has. rewrite Em. unfold sel_store. rewrite Ei. reflexivity.
  - rewrite dget_dset_other by exact Hm. destruct (dget m' db) as [c'|] eqn:Em'; [reflexivity|]. unfold sel_default, sel_get. rewrite dget_dset_other by exact Nd.
    unfold sel_add, sel_exists, has. rewrite dget_dset_other by exact Hm. rewrite Em'. unfold sel_store. match goal with |- context [issub ?x] => destruct (issub x) as [[|]|] end; reflexivity.
Qed.
Lemma auto_scan_same sc db db' : dget default_key db <> None -> same_answers db db' ->
  same_answers db (fst (sel_auto_scan (Some sc) db')) /\ snd (sel_auto_scan (Some sc) db') = snd (sel_auto_scan (Some sc) db).
Proof.
  intros Hd [H1 H2]. unfold sel_auto_scan. destruct (get_macro_name sc) as [m|e]; [|split; [split; assumption|reflexivity]]. split; [|apply H1].
  destruct (auto_same m db') as [Q1 Q2]; [rewrite H2; exact Hd|]. split; [intros m'; rewrite Q1; apply H1|congruence].
Qed.

Section First.
  Variables (E : env) (known : list hid) (draw : image -> option exn) (now : nat -> Z) (size_of : body -> Z) (plotDir : str) (reversed : bool).
  Hypothesis Hknown : incl all_hids known.
  Hypothesis Hdir : plain_path plotDir.
  Notation run := (plot_all_scans E known draw now size_of plotDir reversed).

  (** ** one plot *)
  Definition num_of (it : item) : str := s_num (i_scan it).
  Lemma one_plot_lemma specFile db0 sd0 m it sd s t s' sd' e :
    dget default_key db0 <> None -> same_answers db0 (g_sel s) -> (exists z, on_disk (g_fs s) specFile m z) -> dget (i_full it) (g_fs s) = None ->
    nice sd -> headers sd = headers sd0 -> fileName sd = fileName sd0 -> dget (num_of it) (scans sd) = dget (num_of it) (scans sd0) -> dget (num_of it) (scans sd0) = Some (i_scan it) ->
    one_plot E known draw now size_of specFile it sd s = (t, (s', Ok (sd', e))) ->
    exists o sc', plotting E known draw db0 sd0 (i_scan it) m o sc' /\ dget (num_of it) (scans sd') = sc' /\ e = match o with Raise x => Some x | Ok _ => None end /\
      nice sd' /\ alike (num_of it) sd sd' /\ same_answers db0 (g_sel s') /\ plot_file (g_fs s') (i_full it) o /\ (forall n, n <> i_full it -> dget n (g_fs s') = dget n (g_fs s)).
  Proof.
    intros Hd Ha (z & Ho) Hn Hs Eh Ef Es E0 H. unfold one_plot in H. rewrite gbind_get in H. unfold select in H.
    destruct (auto_scan_same (i_scan it) db0 (g_sel s) Hd Ha) as [A1 A2]. unfold plotting. rewrite <- A2. destruct (sel_auto_scan (Some (i_scan it)) (g_sel s)) as [db [c|x]]; cbn [fst snd] in *.
    - destruct (kind_of c) as [k|] eqn:Ek; [|discriminate].
      assert (Dm : rmap fst (stat (path_of (g_fs s) specFile)) = Ok m) by (destruct Ho as [b Hb]; rewrite (stat_file _ _ _ _ _ Hb); reflexivity). rewrite Dm in H.
      unfold fexists, has in H. rewrite Hn in H.
      assert (Nr : near (num_of it) (mk_pst sd plotter0) (mk_pst sd0 plotter0)) by (split; [exact Es|split; [exact Eh|split; [exact Ef|reflexivity]]]).
      destruct (det_plot E known draw (num_of it) k (Ok m) None (i_scan it) eq_refl _ _ Nr) as [D1 D2].
      destruct (q_plot E known draw Hknown (num_of it) k (Ok m) None (i_scan it) eq_refl (mk_pst sd plotter0) Hs) as [Q1 Q2]. cbn [ps_sdf] in Q2.
      destruct (plot_scan E known draw k (Ok m) None (i_scan it) (mk_pst sd plotter0)) as [p o]. destruct (plot_scan E known draw k (Ok m) None (i_scan it) (mk_pst sd0 plotter0)) as [p0 o0] eqn:Ep0.
      cbn [fst snd] in *. subst o0. exists o, (dget (num_of it) (scans (ps_sdf p0))). destruct D1 as (D1 & _).
      assert (R : sd' = ps_sdf p /\ e = match o with Raise x => Some x | Ok _ => None end /\ same_answers db0 (g_sel s') /\ plot_file (g_fs s') (i_full it) o /\ (forall n, n <> i_full it -> dget n (g_fs s') = dget n (g_fs s))).
      { destruct o as [[i|]|x].
        - unfold write_file in H. cbn [g_sel g_fs g_tick] in H. injection H as _ <- <- <-. cbn [g_fs g_sel]. split; [reflexivity|]. split; [reflexivity|]. split; [exact A1|]. split.
          + exists (now (g_tick s)), (size_of (BPlot i)). apply dget_dset_same.
          + intros n Q. rewrite !dget_dset_other by exact Q. reflexivity.
        - injection H as _ <- <- <-. cbn [g_fs g_sel]. split; [reflexivity|]. split; [reflexivity|]. split; [exact A1|]. split; [exact Hn|]. intros; reflexivity.
        - assert (X : (sd', e) = (ps_sdf p, Some x) /\ s' = mk_g (g_fs s) db (g_tick s)) by (destruct x; try discriminate; injection H as _ <- <- <-; split; reflexivity). destruct X as [X ->]. injection X as -> ->.
          cbn [g_fs g_sel]. split; [reflexivity|]. split; [reflexivity|]. split; [exact A1|]. split; [exact Hn|]. intros; reflexivity. }
      destruct R as (-> & -> & R3 & R4 & R5). split; [exists k, p0; auto|]. split; [exact D1|]. split; [reflexivity|]. split; [exact Q1|]. split; [exact Q2|]. split; [exact R3|]. split; [exact R4|exact R5].
    - injection H as _ <- <- <-. exists (Raise x), (Some (i_scan it)). cbn [g_fs g_sel]. split; [split; reflexivity|]. split; [rewrite Es; exact E0|]. split; [reflexivity|]. split; [exact Hs|].
      split; [apply alike_refl|]. split; [exact A1|]. split; [exact Hn|]. intros; reflexivity.
  Qed.

  (** ** all plots *)
  Lemma plots_lemma specFile db0 sd0 m d : dget default_key db0 <> None -> (forall x, ~ In SL x -> specFile <> d ++ SL :: x) -> plain_path d -> forall its, Forall (good_item d) its -> NoDup (map i_full its) -> NoDup (map num_of its) ->
    forall sd rm ps s t s' sd' rm' ps', same_answers db0 (g_sel s) -> (exists z, on_disk (g_fs s) specFile m z) -> Forall (fun it => dget (i_full it) (g_fs s) = None) its ->
    nice sd -> headers sd = headers sd0 -> fileName sd = fileName sd0 -> Forall (fun it => dget (num_of it) (scans sd) = dget (num_of it) (scans sd0) /\ dget (num_of it) (scans sd0) = Some (i_scan it)) its ->
    plots E known draw now size_of specFile [] its sd rm ps s = (t, (s', Ok (sd', rm', ps'))) ->
    exists os qs, Forall2 (fun it o => plot_file (g_fs s') (i_full it) o /\ plotting E known draw db0 sd0 (i_scan it) m o (dget (num_of it) (scans sd'))) its os /\
      problems_of (map i_scan its) os qs /\ ps' = ps ++ qs /\ (forall n, ~ In n (map i_full its) -> dget n (g_fs s') = dget n (g_fs s)) /\
      (forall n, ~ In n (map num_of its) -> dget n (scans sd') = dget n (scans sd)).
  Proof.
    intros Hd Hsp Hpd its. induction its as [|it its IH]; intros Hg N1 N2 sd rm ps s t s' sd' rm' ps' Ha Ho Hn Hs Eh Ef Es H; cbn [plots mem] in H.
    - injection H as _ <- <- _ <-. exists [], []. split; [constructor|]. split; [constructor|]. rewrite app_nil_r. auto.
    - cbn [mem existsb] in H. apply gbind_inv in H. destruct H as (t1 & s1 & [sd1 e] & t2 & H1 & H2 & _).
      cbn [map] in N1, N2. inversion N1 as [|? ? N3 N4]; subst. inversion N2 as [|? ? N5 N6]; subst. inversion Hg as [|? ? G1 G2]; subst. inversion Hn as [|? ? M1 M2]; subst. inversion Es as [|? ? [S1 S1'] S2]; subst.
      destruct (one_plot_lemma specFile db0 sd0 m it sd s t1 s1 sd1 e Hd Ha Ho M1 Hs Eh Ef S1 S1' H1) as (o & sc' & P1 & P2 & P3 & P4 & (A1 & A2 & A3) & P6 & P7 & P8).
      assert (Ho1 : exists z, on_disk (g_fs s1) specFile m z).
      { destruct Ho as (z & b & Hb). exists z, b. rewrite P8; [exact Hb|]. destruct G1 as (G3 & G4 & ->). assert (Ns : ~ In SL (i_base it)) by (rewrite G3; apply plot_name_no_slash; exact G4). rewrite pjoin_plain; [apply Hsp; exact Ns|exact Hpd|exact Ns]. }
      assert (M3 : Forall (fun it => dget (i_full it) (g_fs s1) = None) its).
      { rewrite Forall_forall in *. intros x Hx. rewrite P8; [apply M2; exact Hx|]. intros Q. apply N3. rewrite <- Q. apply in_map. exact Hx. }
      assert (S3 : Forall (fun it => dget (num_of it) (scans sd1) = dget (num_of it) (scans sd0) /\ dget (num_of it) (scans sd0) = Some (i_scan it)) its).
      { rewrite Forall_forall in *. intros x Hx. destruct (S2 x Hx) as [S3 S4]. split; [|exact S4]. rewrite A3; [exact S3|]. intros Q. apply N5. rewrite <- Q. apply in_map. exact Hx. }
      assert (K : forall rm0 ps0, plots E known draw now size_of specFile [] its sd1 rm0 ps0 s1 = (t2, (s', Ok (sd', rm', ps'))) ->
        exists os qs, Forall2 (fun it o => plot_file (g_fs s') (i_full it) o /\ plotting E known draw db0 sd0 (i_scan it) m o (dget (num_of it) (scans sd'))) (it :: its) (o :: os) /\
          problems_of (map i_scan its) os qs /\ ps' = ps0 ++ qs /\ (forall n, ~ In n (i_full it :: map i_full its) -> dget n (g_fs s') = dget n (g_fs s)) /\
          (forall n, ~ In n (num_of it :: map num_of its) -> dget n (scans sd') = dget n (scans sd))).
      { intros rm0 ps0 H. destruct (IH G2 N4 N6 sd1 rm0 ps0 s1 t2 s' sd' rm' ps' P6 Ho1 M3 P4 (eq_trans A1 Eh) (eq_trans A2 Ef) S3 H) as (os & qs & I1 & I2 & I3 & I4 & I5).
        exists os, qs. split; [constructor; [|exact I1]; split|].
        - unfold plot_file in *. rewrite (I4 _ N3). exact P7.
        - rewrite (I5 _ N5), P2. exact P1.
        - split; [exact I2|]. split; [exact I3|]. split.
          + intros n Q. rewrite I4; [apply P8|]; intros X; apply Q; [left; symmetry; exact X|right; exact X].
          + intros n Q. rewrite I5; [apply A3|]; intros X; apply Q; [left; symmetry; exact X|right; exact X]. }
      destruct o as [oi|x]; subst e.
      + destruct (K _ _ H2) as (os & qs & K1 & K2 & K3 & K4 & K5). exists (Ok oi :: os), qs. split; [exact K1|]. split; [constructor; exact K2|]. auto.
      + destruct (K _ _ H2) as (os & qs & K1 & K2 & K3 & K4 & K5). exists (Raise x :: os), ((x, num_of it) :: qs). split; [exact K1|]. split; [constructor; exact K2|]. split; [rewrite K3, <- app_assoc; reflexivity|]. auto.
  Qed.

  (** ** items of a file just opened *)
  Lemma link_ok sc : link_to sc (href_format (plot_name (s_num sc)) (L "#" ++ s_num sc ++ L ": " ++ s_cmd sc)).
  Proof.
    unfold link_to, href_format. generalize (plot_name (s_num sc)) as p, (s_num sc) as n, (s_cmd sc) as c. intros p n c.  rewrite <- !(@app_assoc N). reflexivity.
  Qed.
  Lemma items_lemma d sd its : history E known sd -> all_ge1 sd -> items d sd = Ok its ->
    Permutation (map i_scan its) (values (scans sd)) /\ StronglySorted (fun a b => exists x y, py_float (s_num a) = Ok x /\ py_float (s_num b) = Ok y /\ num_le x y) (map i_scan its) /\
    Forall (fun it => dget (num_of it) (scans sd) = Some (i_scan it) /\ link_to (i_scan it) (i_href it)) its /\ NoDup (map num_of its).
  Proof.
    intros Hh Hg H. unfold items in H. destruct (getScanNumbers sd) as [ns|] eqn:En; [|discriminate]. cbn [bind] in H. pose proof (hist_inv _ _ _ Hh) as I.
    assert (Nn : no_nan sd). { unfold no_nan, all_ge1 in *. eapply Forall_impl; [|exact Hg]. intros k (x & Hx & Hl & _) Q. rewrite Q in Hx. injection Hx as <-. cbn in Hl. exact Hl. }
    destruct (C10_lemma sd ns Nn En) as (P & S & _).
    assert (Q : Forall2 (fun n it => num_of it = n /\ dget n (scans sd) = Some (i_scan it) /\ link_to (i_scan it) (i_href it)) ns its).
    { assert (Hin : forall n, In n ns -> In n (keys (scans sd))) by (intros n Hn; exact (Permutation_in _ P Hn)). clear S P En. revert its H. induction ns as [|n ns IH]; intros its H; cbn [mapM] in H; [injection H as <-; constructor|].
      destruct (getScan (KStr n) sd) as [o|] eqn:Eg; [|discriminate]. cbn [bind] in H. destruct o as [sc|]; [|discriminate]. cbn [of_opt bind] in H.
      destruct (mapM _ ns) as [r|] eqn:Em; [|discriminate]. cbn [bind] in H. injection H as <-. constructor; [|apply IH; [intros k Hk; apply Hin; right; exact Hk|reflexivity]].
      assert (Hn : In n (keys (scans sd))) by (apply Hin; left; reflexivity). unfold all_ge1 in Hg. rewrite Forall_forall in Hg. destruct (Hg n Hn) as (x & Hx & H1 & H2).
      rewrite (C09_lemma (KStr n) x sd Hx H1 H2) in Eg. cbn [key_str] in Eg. assert (Eg' : dget n (scans sd) = Some sc) by congruence.
      assert (Hs : s_num sc = n). { apply inv_invF in I. destruct I as [_ F]. rewrite Forall_forall in F. specialize (F _ (dget_In _ _ _ Eg')). cbn [fst snd] in F. symmetry. exact F. }
      unfold num_of. cbn [i_scan i_href]. split; [exact Hs|]. split; [exact Eg'|]. apply link_ok. }
    assert (M : map num_of its = ns) by (clear -Q; induction Q as [|n it ns its (<- & _) Q IH]; cbn [map]; [reflexivity|rewrite IH; reflexivity]).
    assert (M2 : map s_num (map i_scan its) = ns) by (rewrite map_map; exact M).
    assert (Nd : NoDup ns). { apply (Permutation_NoDup (Permutation_sym P)). exact (proj1 I). }
    split; [|split; [|split]].
    - apply NoDup_Permutation_bis.
      + apply (NoDup_map_inv s_num). rewrite M2. exact Nd.
      + apply Permutation_length in P. rewrite map_length. assert (L1 : List.length its = List.length ns) by (rewrite <- M, map_length; reflexivity). unfold values. rewrite map_length. rewrite L1, P. unfold keys. rewrite map_length. lia.
      + intros sc Hsc. apply in_map_iff in Hsc. destruct Hsc as (it & <- & Hit). assert (X : exists n, dget n (scans sd) = Some (i_scan it)).
        { clear -Q Hit. induction Q as [|n it' ns its (_ & X & _) Q IH]; [destruct Hit|]. destruct Hit as [<-|Hit]; [exists n; exact X|exact (IH Hit)]. }
        destruct X as [n X]. apply dget_In in X. unfold values. apply in_map_iff. exists (n, i_scan it). split; [reflexivity|exact X].
    - rewrite <- M2 in S. clear -S. induction (map i_scan its) as [|a l IH]; [constructor|]. cbn [map] in S. inversion S as [|? ? S1 S2]; subst. constructor; [exact (IH S1)|]. rewrite Forall_map in S2. exact S2.
    - clear -Q. induction Q as [|n it ns its (<- & X) Q IH]; constructor; auto.
    - rewrite M. exact Nd.
  Qed.

  Lemma no_old specFile d f sel tick last new : nothing_in d f -> old_plots specFile d last new (mk_g f sel tick) = ([], (mk_g f sel tick, Ok [])).
  Proof.
    intros H. unfold old_plots. rewrite gbind_get. cbn [g_fs]. assert (X : listdir d f = []).
    { destruct (listdir d f) as [|x l] eqn:El; [reflexivity|]. assert (Hx : In x (listdir d f)) by (rewrite El; left; reflexivity). exfalso. clear El. unfold listdir in Hx. apply in_flat_map in Hx. destruct Hx as (k & Hk & Hx).
      destruct (prefixb (d ++ [H5.SLASH]) k) eqn:Ep; [|destruct Hx]. apply prefixb_spec in Ep. destruct Ep as [y ->]. rewrite <- app_assoc in Hk. cbn [app] in Hk. pose proof (H y) as Q. apply dget_none in Q. exact (Q Hk). }
    rewrite X. reflexivity.
  Qed.

  (** ** names *)
  Lemma file_name_one p b b' : file_name p b -> file_name p b' -> b = b'.
  Proof.
    intros [Hb Hp] [Hb' Hp']. destruct Hp as [->|[d ->]], Hp' as [Hp'|[d' Hp']].
    - exact Hp'.
    - exfalso. apply Hb. rewrite Hp'. apply in_or_app. right. left. reflexivity.
    - exfalso. apply Hb'. rewrite <- Hp'. apply in_or_app. right. left. reflexivity.
    - apply (f_equal (@rev N)) in Hp'. rewrite !rev_app_distr in Hp'. cbn [rev] in Hp'. rewrite <- !app_assoc in Hp'. cbn [app] in Hp'. apply cut_slash in Hp'; [|rewrite <- in_rev; exact Hb|rewrite <- in_rev; exact Hb'].
      destruct Hp' as [Q _]. apply (f_equal (@rev N)) in Q. rewrite !rev_involutive in Q. exact Q.
  Qed.
  Lemma plot_name_svg n : exists y, plot_name n = y ++ L ".svg".
  Proof. unfold plot_name. rewrite !map_app. eexists. rewrite !app_assoc. reflexivity. Qed.
  Lemma not_index n : plot_name n <> L "index.html".
  Proof. destruct (plot_name_svg n) as [y ->]. intros Q. apply (f_equal (@rev N)) in Q. rewrite rev_app_distr in Q. discriminate Q. Qed.
  Lemma date_dir specFile f content m z d : data_file f specFile content m z -> getPlotDir plotDir specFile f = Ok (Some d) -> plain_path specFile -> plot_directory plotDir specFile content d.
  Proof.
    intros Hf H Hp. unfold getPlotDir in H. unfold path_of, data_file in *. rewrite Hf in H. cbn [getSpecFileDate] in H. pose proof (proj2 (Lines_text_lines content (text_lines content)) eq_refl) as Hl.
    destruct (text_lines content) as [|a [|b [|c more]]]; try discriminate H. destruct (prefixb (L "#F ") a && prefixb (L "#E ") b && prefixb (L "#D ") c) eqn:Ep; [|discriminate H]. cbn [bind] in H.
    unfold datePath in H. destruct (strptime (strip (skipn 2 c))) as [tm0|] eqn:Et; [|discriminate H]. cbn [bind] in H. injection H as <-.
    apply andb_prop in Ep. destruct Ep as [_ Ep]. apply prefixb_spec in Ep. destruct Ep as [u ->].
    exists a, b, (skipn 2 (L "#D " ++ u)), more, tm0, (fst (splitext (basename specFile))). split; [exact Hl|]. split; [exact Et|]. split; [apply root_ok|].
    destruct (four_plain (year tm0)) as [Y1 Y2]. destruct (two_plain (mon tm0)) as [M1 M2]. pose proof (root_ok specFile) as R. set (root := fst (splitext (basename specFile))) in *.
    assert (Py : plain_path (four_digits (year tm0))).
    { destruct (four_digits (year tm0)) as [|x y _] using rev_ind; [congruence|]. exists y, x. split; [reflexivity|]. intros ->. apply Y2. apply in_or_app. right. left. reflexivity. }
    rewrite (pjoin_plain (four_digits (year tm0)) (two_digits (mon tm0))) by auto. rewrite (pjoin_path plotDir (four_digits (year tm0) ++ SL :: two_digits (mon tm0)) Hdir) by (apply no_prefix; auto).
    rewrite pjoin_plain; [|replace (plotDir ++ SL :: four_digits (year tm0) ++ SL :: two_digits (mon tm0)) with ((plotDir ++ SL :: four_digits (year tm0)) ++ SL :: two_digits (mon tm0)) by (rewrite <- app_assoc; reflexivity); apply plain_app; auto|exact (root_no_slash _ _ R)].
    rewrite <- !app_assoc. cbn [app]. rewrite <- app_assoc. reflexivity.
  Qed.

  (** ** the index *)
  Lemma Keeps_map (P : scan -> Prop) (p : item -> bool) l : Forall (fun it => p it = true <-> P (i_scan it)) l -> Keeps P (map i_scan l) (map i_scan (List.filter p l)).
  Proof. induction 1 as [|it l H F IH]; cbn [map List.filter]; [constructor|]. destruct (p it); [constructor; [apply H; reflexivity|exact IH]|constructor; [|exact IH]]. intros Q. apply H in Q. discriminate. Qed.
  Lemma sort_epochs sd its ts : mapM (epoch_of sd) its = Ok ts -> Forall (fun x => is_nan (fl_of_num x) = false) ts ->
    StronglySorted (fun a b => exists x y, epoch_of sd a = Ok x /\ epoch_of sd b = Ok y /\ in_order reversed x y) (sort_by (if reversed then (fun a b => num_leb b a) else num_leb) (combine ts its)).
  Proof.
    intros H Hn. unfold in_order. destruct reversed.
    - destruct (sort_keys (epoch_of sd) (fun a b => num_leb b a) (fun x => is_nan (fl_of_num x) = false)) with (ks := its) (zs := ts) as (_ & S & _); auto.
      + intros x y Hx Hy. unfold num_leb. rewrite !fl_leb_num. apply num_le_total; auto.
      + intros x y w _ _ _. unfold num_leb. rewrite !fl_leb_num. intros Q1 Q2. eapply num_le_trans; eauto.
      + eapply StronglySorted_impl; [|exact S]. cbv beta. intros a b (x & y & Q1 & Q2 & Q3). exists x, y. split; [exact Q1|]. split; [exact Q2|]. apply fl_leb_num. exact Q3.
    - destruct (sort_keys (epoch_of sd) num_leb (fun x => is_nan (fl_of_num x) = false)) with (ks := its) (zs := ts) as (_ & S & _); auto.
      + intros x y Hx Hy. unfold num_leb. rewrite !fl_leb_num. apply num_le_total; auto.
      + intros x y w _ _ _. unfold num_leb. rewrite !fl_leb_num. intros Q1 Q2. eapply num_le_trans; eauto.
      + eapply StronglySorted_impl; [|exact S]. cbv beta. intros a b (x & y & Q1 & Q2 & Q3). exists x, y. split; [exact Q1|]. split; [exact Q2|]. apply fl_leb_num. exact Q3.
  Qed.
  Lemma sorted_scans sd l (P : scan -> scan -> Prop) : (forall a b, In a l -> In b l -> (exists x y, epoch_of sd a = Ok x /\ epoch_of sd b = Ok y /\ in_order reversed x y) -> P (i_scan a) (i_scan b)) ->
    StronglySorted (fun a b => exists x y, epoch_of sd a = Ok x /\ epoch_of sd b = Ok y /\ in_order reversed x y) l -> StronglySorted P (map i_scan l).
  Proof.
    intros H S. induction S as [|a l S IH F]; cbn [map]; [constructor|]. constructor; [apply IH; intros x y Hx Hy; apply H; right; assumption|].
    rewrite Forall_map. rewrite Forall_forall in *. intros b Hb. apply H; [left; reflexivity|right; exact Hb|apply F; exact Hb].
  Qed.

  (** ** the directory after the first run *)
  Lemma main_lemma specFile d its sd db sel f tick last new m z content t s' :
    plain_path d -> plots_in plotDir specFile d -> history E known sd -> all_ge1 sd -> nice sd -> Forall (fun n => ~ In 32%N n /\ no_leading_zero n) (keys (scans sd)) -> items d sd = Ok its ->
    dget default_key db <> None -> same_answers db sel -> dget specFile f = Some (FFile content m z) -> ~ place plotDir specFile specFile -> nothing_in d f ->
    (forall b, file_name specFile b -> b <> L "index.html" /\ forall y, b <> y ++ L ".svg") ->
    main E known draw now size_of reversed specFile d its sd last new (mk_g f sel tick) = (t, (s', Ok tt)) ->
    first_run E known draw reversed db sd m d specFile content (g_fs s') (map i_scan its).
  Proof.
    intros Hd Hp Hh Hg Hnice Hk Hi Hdef Ha Hf Hpl Hno Hb H. destruct (items_lemma d sd its Hh Hg Hi) as (I1 & I2 & I3 & I4). pose proof (items_ok E known d sd its Hh Hi) as I5.
    unfold main in H. unfold gbind at 1 in H. rewrite (no_old specFile d f sel tick last new Hno) in H.
    assert (Full : Forall (fun it => i_full it = d ++ SL :: plot_name (num_of it)) its).
    { eapply Forall_impl; [|exact I5]. intros it (J1 & J2 & ->). rewrite J1. apply pjoin_plain; [exact Hd|apply plot_name_no_slash; exact J2]. }
    assert (Keys : Forall (fun it => In (num_of it) (keys (scans sd))) its).
    { eapply Forall_impl; [|exact I3]. intros it [J1 _]. destruct (in_dec (list_eq_dec N.eq_dec) (num_of it) (keys (scans sd))) as [Q|Q]; [exact Q|]. apply dget_none in Q. congruence. }
    assert (ND : NoDup (map i_full its)).
    { clear -Full Keys I4 Hk. induction its as [|it its IH]; cbn [map] in *; [constructor|]. inversion Full as [|? ? F1 F2]; subst. inversion Keys as [|? ? K1 K2]; subst. inversion I4 as [|? ? N1 N2]; subst. constructor; [|apply IH; assumption].
      intros Q. apply in_map_iff in Q. destruct Q as (it' & Q & Hin). rewrite Forall_forall in F2, K2, Hk. rewrite F1, (F2 it' Hin) in Q. apply app_inv_head in Q. apply (f_equal (@tl N)) in Q. cbn [tl] in Q. destruct (Hk _ K1) as [A1 A2]. destruct (Hk _ (K2 it' Hin)) as [B1 B2].
      apply N1. rewrite <- (C54_distinct_lemma _ _ B1 A1 B2 A2 Q). apply in_map. exact Hin. }
    assert (Hsp : forall x, ~ In SL x -> specFile <> d ++ SL :: x).
    { intros x Hx Q. apply Hpl. right. exists d. split; [exact Hp|]. right. exists x. auto. }
    cbn [app] in H. match type of H with (let (_, _) := ?k ?s in _) = _ => destruct (k s) as [t2 r2] eqn:Er end. injection H as <- ->.
    apply gbind_inv in Er. destruct Er as (t1 & s1 & [[sd' rm'] ps'] & t3 & H1 & H2 & _).
    destruct (plots_lemma specFile db sd m d Hdef) with (its := its) (sd := sd) (rm := false) (ps := @nil (exn * str)) (s := mk_g f sel tick) (t := t1) (s' := s1) (sd' := sd') (rm' := rm') (ps' := ps') as (os & qs & P1 & P2 & P3 & P4 & P5); auto.
    { exists z, content. exact Hf. }
    { eapply Forall_impl; [|exact Full]. intros it ->. apply Hno. }
    { eapply Forall_impl; [|exact I3]. intros it [J _]. split; [reflexivity|exact J]. }
    cbn [app] in P3. subst ps'. cbn [g_fs] in P4.
    apply gbind_inv in H2. destruct H2 as (t4 & s2 & [] & t5 & H3 & H4 & _).
    assert (Nplot : forall x, (forall y, x <> y ++ L ".svg") -> ~ In (d ++ SL :: x) (map i_full its)).
    { intros x Hx Q. apply in_map_iff in Q. destruct Q as (it & Q & Hin). rewrite Forall_forall in Full. rewrite (Full it Hin) in Q. apply app_inv_head in Q. apply (f_equal (@tl N)) in Q. cbn [tl] in Q.
      destruct (plot_name_svg (num_of it)) as [y Hy]. apply (Hx y). rewrite <- Hy. symmetry. exact Q. }
    assert (Xi : forall y, L "index.html" <> y ++ L ".svg") by (intros y Q; apply (f_equal (@rev N)) in Q; rewrite rev_app_distr in Q; discriminate Q).
    destruct (Hb _ (basename_spec specFile)) as [B1 B2]. set (base := basename specFile) in *. pose proof (proj1 (basename_spec specFile)) as B3. fold base in B3.
    set (html := d ++ SL :: L "index.html"). set (target := d ++ SL :: base).
    assert (Ehtml : pjoin d INDEX_FILE = html) by (apply pjoin_plain; [exact Hd|cbn; intuition discriminate]). assert (Etarget : pjoin d base = target) by (apply pjoin_plain; assumption).
    assert (Nt : target <> html) by (unfold target, html; intros Q; apply app_inv_head in Q; apply (f_equal (@tl N)) in Q; exact (B1 Q)).
    unfold make_index in H3. rewrite gbind_get in H3. rewrite Ehtml in H3. cbv zeta in H3.
    assert (Hh1 : dget html (g_fs s1) = None) by (rewrite P4; [apply Hno|apply Nplot; exact Xi]). unfold fexists at 1, has in H3. rewrite Hh1 in H3. rewrite Bool.orb_true_r in H3.
    rewrite gbind_lift in H3. destruct (mapM (epoch_of sd') its) as [ts|] eqn:Ets; [|discriminate H3]. unfold write_file in H3.
    set (sorted := sort_by (if reversed then fun a b => num_leb b a else num_leb) (combine ts its)) in *. set (links := map i_href (List.filter (fun it => fexists (g_fs s1) (i_full it)) sorted)) in *.
    injection H3 as _ <-. unfold copy_data in H4. rewrite gbind_get in H4. cbn [g_fs] in H4. fold base in H4. rewrite Etarget in H4. cbv zeta in H4.
    assert (Sf : dget specFile (g_fs s1) = Some (FFile content m z)).
    { rewrite P4; [exact Hf|]. intros Q. apply in_map_iff in Q. destruct Q as (it & Q & Hin). rewrite Forall_forall in I5. destruct (I5 it Hin) as (J1 & J2 & J3).
      assert (Ns : ~ In SL (i_base it)) by (rewrite J1; apply plot_name_no_slash; exact J2). rewrite J3, pjoin_plain in Q; [|exact Hd|exact Ns]. exact (Hsp _ Ns (eq_sym Q)). }
    assert (Nsh : specFile <> html) by (apply Hsp; cbn; intuition discriminate). rewrite !dget_dset_other in H4 by exact Nsh. rewrite Sf in H4.
    assert (Tn : dget target (g_fs s1) = None) by (rewrite P4; [apply Hno|apply Nplot; exact B2]).
    unfold fmtime, fexists, has in H4. rewrite !dget_dset_other in H4 by exact Nt. rewrite Tn in H4. unfold write_file in H4. cbn [g_fs g_sel g_tick] in H4. injection H4 as _ <-. cbn [g_fs].
    match goal with |- first_run _ _ _ _ _ _ _ _ _ _ ?F _ => set (fin := F) end.
    assert (Fin : forall n, n <> target -> n <> html -> dget n fin = dget n (g_fs s1)) by (intros n Q1 Q2; unfold fin; rewrite !dget_dset_other by assumption; reflexivity).
    assert (FinP : forall it, In it its -> dget (i_full it) fin = dget (i_full it) (g_fs s1)).
    { intros it Hin. apply Fin; intros Q; [apply (Nplot base B2)|apply (Nplot _ Xi)]; [change (d ++ SL :: base) with target|change (d ++ SL :: L "index.html") with html]; rewrite <- Q; apply in_map; exact Hin. }
    assert (Hperm : Permutation sorted its) by (apply sort_by_perm; apply mapM_length in Ets; exact Ets).
    assert (Ep : forall it x, In it its -> epoch_of sd' it = Ok x -> epoch_is E known draw db sd m (i_scan it) x).
    { intros it x Hin Hx. assert (X : exists o, plotting E known draw db sd (i_scan it) m o (dget (num_of it) (scans sd'))).
      { clear -P1 Hin. induction P1 as [|it' o its os [_ X] P1 IH]; [destruct Hin|]. destruct Hin as [<-|Hin]; [exists o; exact X|exact (IH Hin)]. }
      destruct X as [o X]. unfold epoch_of in Hx. fold (num_of it) in Hx. destruct (dget (num_of it) (scans sd')) as [sc'|]; [|discriminate Hx]. exists o, sc'. split; [exact X|].
      destruct (s_obj sc' A_epoch) as [x'|]; [cbn [of_opt] in Hx; injection Hx as ->; reflexivity|discriminate Hx]. }
    split.
    - exists os, qs, links. eexists _, _. exists (map i_scan sorted), (map i_scan (List.filter (fun it => fexists (g_fs s1) (i_full it)) sorted)).
      split; [|split; [|split; [exact P2|split; [|split; [|split; [|split]]]]]].
      + clear -P1 Full FinP. assert (G : forall its0 os, Forall2 (fun it o => plot_file (g_fs s1) (i_full it) o /\ plotting E known draw db sd (i_scan it) m o (dget (num_of it) (scans sd'))) its0 os ->
          (forall it, In it its0 -> In it its) -> Forall2 (fun sc o => plot_file fin (d ++ SL :: plot_name (s_num sc)) o /\ (exists sc', plotting E known draw db sd sc m o sc')) (map i_scan its0) os).
        { intros its0 os0 H. induction H as [|it o l os0 [H1 H2] H IH]; intros Hin; cbn [map]; constructor; [|apply IH; intros x Hx; apply Hin; right; exact Hx]. rewrite Forall_forall in Full.
          assert (Hit : In it its) by (apply Hin; left; reflexivity). split; [|eauto]. fold (num_of it). rewrite <- (Full it Hit). unfold plot_file in *. rewrite (FinP it Hit). exact H1. }
        apply G; [exact P1|auto].
      + unfold fin. fold html. rewrite !dget_dset_other by (intros Q; exact (Nt (eq_sym Q))). apply dget_dset_same.
      + apply Permutation_map. exact Hperm.
      + rewrite Forall_map. apply Forall_forall. intros it Hin. apply (Permutation_in _ Hperm) in Hin. apply mapM_ok in Ets. assert (X : exists x, epoch_of sd' it = Ok x).
        { clear -Ets Hin. induction Ets as [|a b l l' X Ets IH]; [destruct Hin|]. destruct Hin as [<-|Hin]; [exists b; exact X|exact (IH Hin)]. }
        destruct X as [x X]. exists x. exact (Ep it x Hin X).
      + intros Hnan. apply (sorted_scans sd').
        * intros a b Ha' Hb' (x & y & Q1 & Q2 & Q3). apply (Permutation_in _ Hperm) in Ha'. apply (Permutation_in _ Hperm) in Hb'. exists x, y. split; [exact (Ep a x Ha' Q1)|]. split; [exact (Ep b y Hb' Q2)|exact Q3].
        * apply sort_epochs; [exact Ets|]. apply mapM_ok in Ets. assert (G : forall it x, In it its -> epoch_of sd' it = Ok x -> is_nan (fl_of_num x) = false).
          { intros it x Hin Hx. specialize (Hnan (i_scan it) x (in_map i_scan _ _ Hin) (Ep it x Hin Hx)). destruct (fl_of_num x); [reflexivity|reflexivity|exfalso; apply Hnan; reflexivity]. }
          clear -Ets G. induction Ets as [|a b l l' X Ets IH]; constructor; [apply (G a); [left; reflexivity|exact X]|apply IH; intros it x Hin; apply G; right; exact Hin].
      + apply Keeps_map. apply Forall_forall. intros it Hin. apply (Permutation_in _ Hperm) in Hin. rewrite Forall_forall in Full. fold (num_of it). rewrite <- (Full it Hin), (FinP it Hin). unfold fexists, has. destruct (dget (i_full it) (g_fs s1)); split; congruence.
      + unfold links. assert (G : forall l, (forall it, In it l -> In it its) -> Forall2 link_to (map i_scan l) (map i_href l)).
        { intros l. induction l as [|it l IH]; intros Hl; cbn [map]; constructor; [|apply IH; intros x Hx; apply Hl; right; exact Hx]. rewrite Forall_forall in I3. apply I3. apply Hl. left. reflexivity. }
        apply G. intros it Hin. apply filter_In in Hin. apply (Permutation_in _ Hperm). exact (proj1 Hin).
    - intros b Hbn. rewrite (file_name_one _ _ _ Hbn (basename_spec specFile)). fold base. fold target. eexists _, _. unfold fin. apply dget_dset_same.
    - intros x Hx. destruct (list_eq_dec N.eq_dec x base) as [->|Nx]; [right; left; exact (basename_spec specFile)|]. destruct (list_eq_dec N.eq_dec x (L "index.html")) as [->|Ni]; [left; reflexivity|]. right. right.
      rewrite Fin in Hx; [|unfold target; intros Q; apply app_inv_head in Q; apply (f_equal (@tl N)) in Q; exact (Nx Q)|unfold html; intros Q; apply app_inv_head in Q; apply (f_equal (@tl N)) in Q; exact (Ni Q)].
      destruct (in_dec (list_eq_dec N.eq_dec) (d ++ SL :: x) (map i_full its)) as [Q|Q]; [|exfalso; apply Hx; rewrite (P4 _ Q); apply Hno].
      apply in_map_iff in Q. destruct Q as (it & Q & Hin). rewrite Forall_forall in Full. rewrite (Full it Hin) in Q. apply app_inv_head in Q. apply (f_equal (@tl N)) in Q. cbn [tl] in Q.
      exists (i_scan it). split; [apply in_map; exact Hin|]. symmetry. exact Q.
  Qed.

  Lemma outdated_lemma f name m z c : cache_read plotDir f = Ok c -> outdated plotDir f name m z -> negb (m =? fst (cache_get name c))%Z && negb (z =? snd (cache_get name c))%Z = true.
  Proof.
    intros Hc [H1 H2]. assert (Q : m <> fst (cache_get name c) /\ z <> snd (cache_get name c)).
    { unfold cache_get. unfold cache_read in Hc. destruct (negb _); [discriminate|]. rewrite (cache_path plotDir Hdir) in Hc. unfold CACHE_FILE in Hc.
      destruct (dget name c) as [mz|] eqn:En.
      - apply H1. destruct (dget (plotDir ++ SL :: L "mtime_cache.json") f) as [[|[?|?|c'|? ?|] t0 z0]|] eqn:Ec; try discriminate Hc; injection Hc as <-; [|discriminate En]. exists c', t0, z0. split; [exact Ec|exact En].
      - apply H2. intros mz (c' & t0 & z0 & Q1 & Q2). rewrite Q1 in Hc. injection Hc as ->. congruence. }
    destruct Q as [Q1 Q2]. apply Z.eqb_neq in Q1. apply Z.eqb_neq in Q2. rewrite Q1, Q2. reflexivity.
  Qed.
  Lemma first_run_lemma specFile s t s' content m z sd : plain_path specFile -> data_file (g_fs s) specFile content m z -> outdated plotDir (g_fs s) specFile m z ->
    open_file E known specFile (File (Some content) m z) = Ok sd -> headers sd <> [] -> all_ge1 sd -> no_names_in_scans sd -> Forall (fun n => ~ In 32%N n /\ no_leading_zero n) (keys (scans sd)) ->
    dget default_key (g_sel s) <> None -> ~ place plotDir specFile specFile -> (forall d, plot_directory plotDir specFile content d -> nothing_in d (g_fs s)) ->
    (forall b, file_name specFile b -> b <> L "index.html" /\ forall y, b <> y ++ L ".svg") ->
    run specFile s = (t, (s', Ok tt)) ->
    exists d scs, plot_directory plotDir specFile content d /\ Permutation scs (values (scans sd)) /\
      StronglySorted (fun a b => exists x y, py_float (s_num a) = Ok x /\ py_float (s_num b) = Ok y /\ num_le x y) scs /\
      first_run E known draw reversed (g_sel s) sd m d specFile (BText (Some content)) (g_fs s') scs.
  Proof.
    intros Hp Hf Ho Hop Hhd Hge Hnn Hk Hdef Hpl Hno Hb H. rewrite run_eq in H. cbv zeta in H. assert (Pa : path_of (g_fs s) specFile = File (Some content) m z) by (unfold path_of; rewrite Hf; reflexivity). rewrite Pa in H.
    destruct (negb _); [discriminate H|]. rewrite Hop in H. destruct (headers sd) as [|h hs] eqn:Eh; [contradiction Hhd; reflexivity|]. cbn [List.length Nat.eqb] in H. destruct s as [f sel tick]. cbn [g_fs g_sel g_tick] in *.
    destruct (getPlotDir plotDir specFile f) as [[d|]|e] eqn:Ed; try discriminate H. destruct (plot_dir_ok plotDir Hdir _ _ _ Hp Ed) as [P1 P2]. pose proof (date_dir _ _ _ _ _ _ Hf Ed Hp) as Hdd. specialize (Hno d Hdd).
    assert (Nsd : specFile <> d) by (intros Q; apply Hpl; right; exists d; auto). assert (Ncd : cache_name plotDir <> d) by (intros Q; apply (place_cache plotDir Hdir specFile); exists d; auto).
    pose proof (open_history _ _ _ _ _ Hop) as Hh.
    assert (K : forall f', nothing_in d f' -> dget specFile f' = dget specFile f -> dget plotDir f' = dget plotDir f -> dget (cache_name plotDir) f' = dget (cache_name plotDir) f ->
      forall t, after_dir E known draw now size_of plotDir reversed specFile d sd (mk_g f' sel tick) = (t, (s', Ok tt)) ->
      exists scs, Permutation scs (values (scans sd)) /\ StronglySorted (fun a b => exists x y, py_float (s_num a) = Ok x /\ py_float (s_num b) = Ok y /\ num_le x y) scs /\
        first_run E known draw reversed sel sd m d specFile (BText (Some content)) (g_fs s') scs).
    { intros f' Hno' Es Epd Ec t' Ha. destruct (items d sd) as [its|e] eqn:Ei; [|unfold after_dir in Ha; rewrite gbind_lift, Ei in Ha; discriminate Ha].
      assert (Rs : cache_read plotDir f' = cache_read plotDir f) by (apply read_same; [rewrite Epd; tauto|exact Ec]).
      destruct (cache_read plotDir f) as [c|e] eqn:Er; [|unfold after_dir in Ha; rewrite gbind_lift, Ei, gbind_get in Ha; cbn [g_fs] in Ha; rewrite gbind_lift, Rs in Ha; discriminate Ha].
      assert (Od : on_disk f' specFile m z) by (exists (BText (Some content)); rewrite Es; exact Hf).
      rewrite (after_eq E known draw now size_of plotDir reversed specFile d sd f' sel tick its c m z Ei Rs Od) in Ha. rewrite (outdated_lemma f specFile m z c Er Ho) in Ha. cbv zeta in Ha.
      match type of Ha with (let (_, _) := main _ _ _ _ _ _ _ _ _ _ _ _ (mk_g ?F _ _) in _) = _ => set (f2 := F) in * end.
      destruct (main E known draw now size_of reversed specFile d its sd (cache_get specFile c) (m, z) (mk_g f2 sel (S tick))) as [t2 r2] eqn:Em. injection Ha as _ ->.
      destruct (items_lemma d sd its Hh Hge Ei) as (I1 & I2 & _). exists (map i_scan its). split; [exact I1|]. split; [exact I2|].
      assert (Ncs : specFile <> cache_name plotDir) by (intros Q; apply Hpl; left; exact Q).
      refine (main_lemma specFile d its sd sel sel f2 (S tick) _ _ m z _ t2 s' P2 P1 Hh Hge _ Hk Ei Hdef (answers_refl sel) _ Hpl _ Hb Em).
      - split; [exact Hnn|exact (open_dated _ _ _ _ _ Hop)].
      - unfold f2. rewrite !dget_dset_other by exact Ncs. rewrite Es. exact Hf.
      - intros x. unfold f2. rewrite !dget_dset_other; [apply Hno'| |]; intros Q; apply (f_equal (fun n => n)) in Q; rewrite (cache_path plotDir Hdir) in Q; destruct P1 as (y & mm & r & _ & _ & _ & ->); rewrite <- app_assoc in Q; apply app_inv_head in Q; cbn [app] in Q; apply (f_equal (@tl N)) in Q; cbn [tl] in Q;
          (assert (X : In SL CACHE_FILE) by (rewrite <- Q; apply in_or_app; left; apply in_or_app; right; left; reflexivity)); cbn in X; intuition discriminate. }
    destruct (fexists f d) eqn:Ex.
    - destruct (K f Hno eq_refl eq_refl eq_refl t H) as (scs & K1 & K2 & K3). exists d, scs. auto.
    - destruct (after_dir E known draw now size_of plotDir reversed specFile d sd (mk_g (dset d FDir f) sel tick)) as [t2 r2] eqn:Ea. injection H as _ ->.
      destruct (K (dset d FDir f)) with (t := t2) as (scs & K1 & K2 & K3).
      + intros x. rewrite dget_dset_other; [apply Hno|]. intros Q. exact (below_not d x (eq_sym Q)).
      + apply dget_dset_other. exact Nsd.
      + apply dget_dset_other. exact (dir_not_in plotDir specFile d P1).
      + apply dget_dset_other. exact Ncd.
      + exact Ea.
      + exists d, scs. auto.
  Qed.
End First.
