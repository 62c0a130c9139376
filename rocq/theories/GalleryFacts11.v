(** Two runs of the gallery; in between the last scan has grown. *)
From Coq Require Import String Lia Permutation Sorted.
From Verif Require Import Py PyFacts NumFacts Time Utils Keys Handlers Reader Cli H5 Writer Plot Gallery SpecText SpecReader SpecNum SpecLookup SpecHistory SpecTables SpecCli SpecPlot SpecGallery SpecGallery2 CliFacts CliFacts2 TextFacts OrderFacts ReaderFacts ReaderFacts2 ReaderFacts4 ReaderFacts5 ReaderFacts6 ReaderFacts8
  ExampleFacts DataFacts DataFacts2 UseFacts PlotFacts PlotLocal GalleryFacts GalleryFacts2 GalleryFacts3 GalleryFacts4 GalleryFacts5 GalleryFacts6 GalleryFacts7 GalleryFacts8 GalleryFacts9 AppendFacts GrownFacts GalleryFacts10.
Import ListNotations.
Local Open Scope list_scope.


Section Two.
  Variables (E : env) (known : list hid) (draw : image -> option exn) (now : nat -> Z) (size_of : body -> Z) (plotDir : str) (reversed : bool).
  Hypothesis Hk : incl all_hids known.
  Hypothesis Hdir : plain_path plotDir.
  Notation run := (plot_all_scans E known draw now size_of plotDir reversed).
  Lemma two_grown_lemma specFile s t s1 content m z sd more m' z' sd' secs l rest ks nl tick t' s' : plain_path specFile ->
    data_file (g_fs s) specFile content m z -> outdated plotDir (g_fs s) specFile m z -> open_file E known specFile (File (Some content) m z) = Ok sd -> headers sd <> [] ->
    all_ge1 sd -> no_names_in_scans sd -> Forall (fun n => ~ In 32%N n /\ no_leading_zero n) (keys (scans sd)) -> dget default_key (g_sel s) <> None ->
    ~ place plotDir specFile specFile -> (forall d, plot_directory plotDir specFile content d -> nothing_in d (g_fs s)) -> (forall b, file_name specFile b -> b <> L "index.html" /\ forall y, b <> y ++ L ".svg") ->
    run specFile s = (t, (s1, Ok tt)) ->
    (0 < m)%Z -> (0 < m')%Z -> m' <> m -> (0 <= z < z')%Z -> more_appended (content ++ more) z -> (exists a b c e rest, Lines file_eol content (a :: b :: c :: e :: rest)) -> headers sd' = headers sd -> keys (scans sd) = ks ++ [nl] -> (forall n, In n ks -> lex_before (plot_name n) (plot_name nl)) ->
    open_file E known specFile (File (Some (content ++ more)) m' z') = Ok sd' -> all_ge1 sd' -> no_names_in_scans sd' -> Forall (fun n => ~ In 32%N n /\ no_leading_zero n) (keys (scans sd')) ->
    dissect (File (Some content) m z) = Ok (secs ++ [l]) -> dissect (File (Some (content ++ more)) m' z') = Ok (secs ++ rest) -> scan_section l -> Forall scan_section rest -> NoDup (keys (g_fs s1)) ->
    run specFile (mk_g (dset specFile (FFile (BText (Some (content ++ more))) m' z') (g_fs s1)) (g_sel s) tick) = (t', (s', Ok tt)) ->
    exists d, plot_directory plotDir specFile (content ++ more) d /\ (forall sc, In sc (values (scans sd')) -> exists o sc', plotting E known draw (g_sel s) sd' sc m' o sc' /\ plot_file (g_fs s') (d ++ SL :: plot_name (s_num sc)) o) /\
      (forall x, svg_name x -> dget (d ++ SL :: x) (g_fs s') <> None -> exists sc, In sc (values (scans sd')) /\ x = plot_name (s_num sc)).
  Proof.
    intros Hp Hf Ho Hop Hhd Hge Hnn Hkk Hdef Hpl Hno Hb Hrun Hm Hm' Hmm Hz Hap H4 B1 Eks Hord Hop' Hge' Hnn' Hkk' D1 D2 Sl Sx Hnd Hrun'.
    destruct (first_run_lemma E known draw now size_of plotDir reversed Hk Hdir specFile s t s1 content m z sd Hp Hf Ho Hop Hhd Hge Hnn Hkk Hdef Hpl Hno Hb Hrun) as (d & scs & A1 & A2 & _ & [A3 _ A4]).
    pose proof (cached_after E known draw now size_of plotDir reversed Hdir specFile s t s1 content m z sd Hp Hf Ho Hop Hhd Hpl Hrun) as Hc.
    destruct (grown_lemma E known Hk specFile _ _ sd sd' secs l rest Hop Hop' D1 D2 Sl Sx) as (B2 & B3). specialize (B3 ks nl Eks).
    set (f2 := dset specFile (FFile (BText (Some (content ++ more))) m' z') (g_fs s1)) in *.
    destruct (later_run_lemma E known draw now size_of plotDir reversed Hk Hdir specFile kept_but_last m' z' m z (content ++ more)) with (s := mk_g f2 (g_sel s) tick) (t := t') (s' := s') (sd := sd') as (d' & scs' & f1 & C1 & C2 & _ & C4 & C5); try assumption.
    { intros d0 f f' f1 Hs [[Q1 Q2]|(k & (Q1 & Q2 & Q3) & Q4 & Q5)].
      - left. split; [intros x Hx; rewrite <- Hs; exact (Q1 x Hx)|]. intros x. rewrite <- Hs. apply Q2.
      - right. exists k. split; [split; [exact Q1|split; [rewrite <- Hs; exact Q2|intros x Hx; rewrite <- Hs; exact (Q3 x Hx)]]|]. split; [exact Q4|]. intros x Hx. rewrite <- Hs. exact (Q5 x Hx). }
    { intros d0 f sel tk Hd0 Hn0 Hff. exact (old_grown specFile m' z' m z (content ++ more) d0 f sel tk Hd0 Hn0 Hz Hap Hff). }
    { apply NoDup_dset. exact Hnd. }
    { unfold data_file. cbn [g_fs]. unfold f2. apply dget_dset_same. }
    { destruct Hc as (c & tt0 & ss & Q1 & Q2). exists c, tt0, ss. split; [|exact Q2]. cbn [g_fs]. unfold f2. rewrite dget_dset_other; [exact Q1|]. intros Q. apply Hpl. left. rewrite (cache_path plotDir Hdir). unfold CACHE_FILE. rewrite Q. reflexivity. }
    { lia. }
    { rewrite B1. exact Hhd. }
    rename C5 into C6. cbn [g_fs g_sel] in *. pose proof (same_directory _ _ _ _ _ _ H4 A1 C1) as Dd. rewrite Dd in C1, C4, C6. exists d. split; [exact C1|].
    assert (Pin : plots_in plotDir specFile d).
    { destruct A1 as (a & b & date & mo & tm0 & r & _ & _ & R & ->). destruct (four_plain (year tm0)) as [_ Y2]. destruct (two_plain (mon tm0)) as [_ M2]. exists (four_digits (year tm0)), (two_digits (mon tm0)), r. auto. }
    assert (F2 : forall x, ~ In SL x -> dget (d ++ SL :: x) f2 = dget (d ++ SL :: x) (g_fs s1)).
    { intros x Hx. unfold f2. apply dget_dset_other. intros Q. apply Hpl. right. exists d. split; [exact Pin|]. right. exists x. split; [exact Hx|symmetry; exact Q]. }
    pose proof (open_history _ _ _ _ _ Hop) as Hh. pose proof (open_history _ _ _ _ _ Hop') as Hh'.
    (* a plot that is kept is one of a scan before the last *)
    assert (Kept : forall x, svg_name x -> ~ file_name specFile x -> x <> L "index.html" -> dget (d ++ SL :: x) f1 <> None -> dget (d ++ SL :: x) f1 = dget (d ++ SL :: x) (g_fs s1) /\ exists sc0, In sc0 scs /\ x = plot_name (s_num sc0) /\ In (s_num sc0) ks).
    { intros x Hsv Xb Xi Hx. destruct C4 as [[G1 G2]|(k & (G1 & G2 & G3) & G4 & G5)]; [exfalso; apply Hx; rewrite (G2 x); exact (G1 x Hsv)|].
      assert (Nk : x <> k) by (intros ->; exact (Hx G4)). pose proof (G5 x Nk) as G6. rewrite G6 in Hx. pose proof Hx as Hx2. rewrite (F2 x (proj1 Hsv)) in Hx.
      split; [rewrite G6; exact (F2 x (proj1 Hsv))|]. destruct (A4 x Hx) as [Q|[Q|(sc0 & Hin0 & Q)]]; [contradiction|contradiction|]. exists sc0. split; [exact Hin0|]. split; [exact Q|].
      destruct (value_at E known sd sc0 Hh (Permutation_in _ A2 Hin0)) as [_ W2]. rewrite Eks in W2. apply in_app_or in W2. destruct W2 as [W2|[W2|[]]]; [exact W2|]. exfalso.
      destruct (G3 x Hsv Hx2) as [Q2|Q2]; [exact (Nk Q2)|]. rewrite Q, <- W2 in Q2.
      rewrite (F2 k (proj1 G1)) in G2. assert (Kb : ~ file_name specFile k /\ k <> L "index.html").
      { destruct G1 as [_ [y Hy]]. split; [intros Q3; destruct (Hb _ Q3) as [_ Q4]; exact (Q4 y Hy)|]. intros ->. apply (f_equal (@rev N)) in Hy. rewrite rev_app_distr in Hy. discriminate Hy. }
      destruct Kb as [K1 K2]. destruct (A4 k G2) as [Q3|[Q3|(sc1 & Hin1 & Q3)]]; [contradiction|contradiction|]. destruct (value_at E known sd sc1 Hh (Permutation_in _ A2 Hin1)) as [_ W3]. rewrite Eks in W3. apply in_app_or in W3.
      destruct W3 as [W3|[W3|[]]]; [|apply Nk; rewrite Q, Q3, <- W2, <- W3; reflexivity]. rewrite Q3 in Q2. exact (lex_asym _ _ Q2 (Hord _ W3)). }
    split; cycle 1.
    { intros x Hsv Hx. destruct (in_dec (list_eq_dec N.eq_dec) x (map (fun sc => plot_name (s_num sc)) scs')) as [Q|Q].
      { apply in_map_iff in Q. destruct Q as (sc & Q & Hin). exists sc. split; [exact (Permutation_in _ C2 Hin)|symmetry; exact Q]. }
      assert (Xb : ~ file_name specFile x) by (intros Q2; destruct (Hb _ Q2) as [_ Q3]; destruct Hsv as [_ [y Hy]]; exact (Q3 y Hy)).
      assert (Xi : x <> L "index.html") by (intros ->; destruct Hsv as [_ [y Hy]]; apply (f_equal (@rev N)) in Hy; rewrite rev_app_distr in Hy; discriminate Hy).
      destruct C6 as [K1 _ _]. rewrite (K1 x (proj1 Hsv)) in Hx; [|left; intros sc Hin Q2; apply Q; rewrite Q2; exact (in_map (fun sc => plot_name (s_num sc)) _ _ Hin)|exact Xi|exact Xb].
      destruct (Kept x Hsv Xb Xi Hx) as (_ & sc0 & Hin0 & Q2 & Hks). exists sc0. split; [|exact Q2].
      destruct (value_at E known sd sc0 Hh (Permutation_in _ A2 Hin0)) as [W1 _]. destruct (B3 _ Hks) as (sc9 & W3 & W2). assert (sc9 = sc0) as -> by congruence. apply dget_In in W2. unfold values. apply in_map_iff. exists (s_num sc0, sc0). split; [reflexivity|exact W2]. }
    intros sc Hin. destruct (value_at E known sd' sc Hh' Hin) as [V1 V2]. assert (Nsl : ~ In SL (plot_name (s_num sc))).
    { apply plot_name_no_slash. unfold all_ge1 in Hge'. rewrite Forall_forall in Hge'. destruct (Hge' _ V2) as (x & Hx & _). exact (number_no_slash _ _ Hx). }
    destruct C6 as [K1 K2 _]. destruct (dget (d ++ SL :: plot_name (s_num sc)) f1) as [en|] eqn:En.
    - assert (Nb : ~ file_name specFile (plot_name (s_num sc))).
      { intros Q. destruct (Hb _ Q) as [_ Q2]. destruct (plot_name_svg (s_num sc)) as [y Hy]. exact (Q2 y Hy). }
      assert (Ne : dget (d ++ SL :: plot_name (s_num sc)) f1 <> None) by (rewrite En; discriminate).
      destruct (Kept _ (conj Nsl (plot_name_svg (s_num sc))) Nb (not_index _) Ne) as (F3 & sc0 & Hin0 & Q & Hks).
      assert (Hin0' : In sc0 (values (scans sd))) by (exact (Permutation_in _ A2 Hin0)). destruct (value_at E known sd sc0 Hh Hin0') as [W1 W2].
      rewrite Forall_forall in Hkk, Hkk'. destruct (Hkk _ W2) as [X1 X2]. destruct (Hkk' _ V2) as [Y1 Y2]. pose proof (C54_distinct_lemma _ _ Y1 X1 Y2 X2 Q) as Eq.
      destruct (B3 _ Hks) as (sc9 & W3 & W4). assert (sc9 = sc0) as -> by congruence. rewrite <- Eq, V1 in W4. assert (sc = sc0) as <- by congruence.
      destruct A3 as (os & ps & links & tt0 & z0 & order & shown & G & _). destruct (f2_in _ _ _ _ G Hin0) as (o & G1 & sc1 & G2). exists o, sc1. split.
      + refine (same_plot E known draw (g_sel s) sd sd' sc m m' o sc1 B1 B2 _ Hm Hm' G2). rewrite V1, W1. reflexivity.
      + unfold plot_file in *. rewrite (K1 (plot_name (s_num sc)) Nsl); [|right; exact Ne|exact (not_index _)|exact Nb]. rewrite F3. exact G1.
    - destruct K2 as (ln & os & ps & N1 & N2 & _). assert (Hl : In sc ln) by (apply (Keeps_In _ _ _ _ N1); [exact (Permutation_in _ (Permutation_sym C2) Hin)|exact En]).
      destruct (f2_in _ _ _ _ N2 Hl) as (o & G1 & sc1 & G2). exists o, sc1. split; [exact G2|exact G1].
  Qed.
End Two.
