(** Two runs of the gallery, with whole scans appended in between. *)
From Coq Require Import String Lia Permutation Sorted.
From Verif Require Import Py PyFacts NumFacts Time Utils Keys Handlers Reader Cli H5 Writer Plot Gallery SpecText SpecReader SpecNum SpecLookup SpecHistory SpecTables SpecCli SpecPlot SpecGallery SpecGallery2 CliFacts CliFacts2 TextFacts OrderFacts ReaderFacts ReaderFacts2 ReaderFacts4 ReaderFacts5 ReaderFacts6 ReaderFacts8
  ExampleFacts DataFacts DataFacts2 UseFacts PlotFacts PlotLocal GalleryFacts GalleryFacts2 GalleryFacts3 GalleryFacts4 GalleryFacts5 GalleryFacts6 GalleryFacts7 GalleryFacts8 GalleryFacts9 AppendFacts.
Import ListNotations.
Local Open Scope list_scope.

(** ** the third line of a text to which more is added *)
Lemma Lines_more s a b rest : Lines file_eol s (a :: b :: rest) -> exists s1, Lines file_eol s1 (b :: rest) /\ forall y ls, Lines file_eol (s1 ++ y) ls -> Lines file_eol (s ++ y) (a :: ls).
Proof.
  intros H. inversion H as [|? ? ?|l t ls H1 H2|l c t ls H1 H2 H3 H4]; subst.
  - exists t. split; [exact H2|]. intros y ls' Q. rewrite <- app_assoc. cbn [app]. apply Lines_crlf; assumption.
  - exists t. split; [exact H4|]. intros y ls' Q. rewrite <- app_assoc. cbn [app]. apply Lines_one; [exact H1|exact H2| |exact Q]. intros Hc t' Ht. destruct t as [|x t0].
    + apply Lines_text_lines in H4. discriminate H4.
    + cbn [app] in Ht. injection Ht as -> _. exact (H3 Hc t0 eq_refl).
Qed.
Lemma lines_exist s : exists ls, Lines file_eol s ls.
Proof. exists (text_lines s). apply Lines_text_lines. reflexivity. Qed.
Lemma lines_one s a b : Lines file_eol s a -> Lines file_eol s b -> a = b.
Proof. rewrite !Lines_text_lines. congruence. Qed.
Lemma third_line s y a b c e rest ls : Lines file_eol s (a :: b :: c :: e :: rest) -> Lines file_eol (s ++ y) ls -> exists more, ls = a :: b :: c :: more.
Proof.
  intros H H'. destruct (Lines_more _ _ _ _ H) as (s1 & H1 & K1). destruct (Lines_more _ _ _ _ H1) as (s2 & H2 & K2). destruct (Lines_more _ _ _ _ H2) as (s3 & H3 & K3).
  destruct (lines_exist (s3 ++ y)) as [m Hm]. exists m. exact (lines_one _ _ _ H' (K1 _ _ (K2 _ _ (K3 _ _ Hm)))).
Qed.
Lemma lead_one (a : list N) : forall b u v, Forall (fun c => c = 46%N) a -> Forall (fun c => c = 46%N) b -> (forall c t, u = c :: t -> c <> 46%N) -> (forall c t, v = c :: t -> c <> 46%N) -> a ++ u = b ++ v -> a = b /\ u = v.
Proof.
  induction a as [|x a IH]; intros [|y b] u v Ha Hb Hu Hv H; cbn [app] in H.
  - auto.
  - inversion Hb; subst. exfalso. exact (Hu _ _ eq_refl eq_refl).
  - inversion Ha; subst. exfalso. exact (Hv _ _ eq_refl eq_refl).
  - injection H as -> H. inversion Ha; inversion Hb; subst. destruct (IH b u v) as [-> ->]; auto.
Qed.
Lemma last_dot_one (a : list N) : forall b u v, ~ In 46%N u -> ~ In 46%N v -> a ++ 46%N :: u = b ++ 46%N :: v -> a = b /\ u = v.
Proof.
  induction a as [|x a IH]; intros [|y b] u v Hu Hv H; cbn [app] in H.
  - injection H as ->. auto.
  - exfalso. injection H as <- H. apply Hu. rewrite H. apply in_or_app. right. left. reflexivity.
  - exfalso. injection H as -> H. apply Hv. rewrite <- H. apply in_or_app. right. left. reflexivity.
  - injection H as -> H. destruct (IH b u v Hu Hv H) as [-> ->]. auto.
Qed.
Lemma ext_shape p r x : ~ In SL p -> extension_of p r x -> exists dots w, p = dots ++ w /\ Forall (fun c => c = 46%N) dots /\ (forall c t, w = c :: t -> c <> 46%N) /\
  ((~ In 46%N w /\ r = p) \/ exists stem e, w = stem ++ 46%N :: e /\ ~ In 46%N e /\ r = dots ++ stem).
Proof.
  intros Hs [(dir & dots & stem & e & H1 & H2 & _ & H3 & H4 & H5 & H6 & _ & H7 & _)|(H1 & _ & dir & dots & stem & H2 & H3 & H4 & H5 & _)].
  - assert (dir = []) as ->. { destruct H3 as [Q|[d ->]]; [exact Q|]. exfalso. apply Hs. rewrite H1. apply in_or_app. left. apply in_or_app. right. left. reflexivity. }
    cbn [app] in *. exists dots, (stem ++ 46%N :: e). split; [exact H1|]. split; [exact H4|]. split.
    + intros c t Q. destruct stem as [|y stem]; [congruence|]. cbn [app] in Q. injection Q as <- _. exact (H6 _ _ eq_refl).
    + right. exists stem, e. auto.
  - assert (dir = []) as ->. { destruct H3 as [Q|[d ->]]; [exact Q|]. exfalso. apply Hs. rewrite H2. apply in_or_app. left. apply in_or_app. right. left. reflexivity. }
    cbn [app] in *. exists dots, stem. split; [exact H2|]. split; [exact H4|]. split.
    + intros c t Q ->. apply H5. rewrite Q. left. reflexivity.
    + left. split; [exact H5|exact H1].
Qed.
Lemma root_one p r r' : root_name p r -> root_name p r' -> r = r'.
Proof.
  intros (b & x & H1 & H2) (b' & x' & H1' & H2'). rewrite (file_name_one _ _ _ H1' H1) in H2'. pose proof (proj1 H1) as Hs.
  destruct (ext_shape _ _ _ Hs H2) as (dots & w & A1 & A2 & A3 & A4). destruct (ext_shape _ _ _ Hs H2') as (dots' & w' & B1 & B2 & B3 & B4).
  destruct (lead_one dots dots' w w' A2 B2 A3 B3) as [<- <-]; [congruence|]. destruct A4 as [[A4 ->]|(st & e & A4 & A5 & ->)], B4 as [[B4 ->]|(st' & e' & B4 & B5 & ->)].
  - reflexivity.
  - exfalso. apply A4. rewrite B4. apply in_or_app. right. left. reflexivity.
  - exfalso. apply B4. rewrite A4. apply in_or_app. right. left. reflexivity.
  - rewrite A4 in B4. destruct (last_dot_one _ _ _ _ A5 B5 B4) as [-> _]. reflexivity.
Qed.
Lemma same_directory plotDir specFile s y d d' : (exists a b c e rest, Lines file_eol s (a :: b :: c :: e :: rest)) -> plot_directory plotDir specFile s d -> plot_directory plotDir specFile (s ++ y) d' -> d' = d.
Proof.
  intros (a0 & b0 & c0 & e & rest & Hl) (a & b & date & more & t & r & H1 & H2 & H3 & ->) (a' & b' & date' & more' & t' & r' & H1' & H2' & H3' & ->).
  pose proof (lines_one _ _ _ H1 Hl) as Q. injection Q as <- <- Q _. destruct (third_line _ _ _ _ _ _ _ _ Hl H1') as [m Q']. injection Q' as -> -> Q' _.
  assert (D : L "#D" ++ date' = L "#D" ++ date) by congruence. apply app_inv_head in D. subst date'. rewrite H2 in H2'. injection H2' as <-. rewrite (root_one _ _ _ H3' H3). reflexivity.
Qed.

Section Two.
  Variables (E : env) (known : list hid) (draw : image -> option exn) (now : nat -> Z) (size_of : body -> Z) (plotDir : str) (reversed : bool).
  Hypothesis Hk : incl all_hids known.
  Hypothesis Hdir : plain_path plotDir.
  Notation run := (plot_all_scans E known draw now size_of plotDir reversed).

  (** a complete run over a file whose time and size are not those in the cache puts them there *)
  Lemma cached_after specFile s t s' content m z sd : plain_path specFile -> data_file (g_fs s) specFile content m z -> outdated plotDir (g_fs s) specFile m z ->
    open_file E known specFile (File (Some content) m z) = Ok sd -> headers sd <> [] -> ~ place plotDir specFile specFile -> run specFile s = (t, (s', Ok tt)) -> cached plotDir (g_fs s') specFile (m, z).
  Proof.
    intros Hp Hf Ho Hop Hhd Hpl H. rewrite run_eq in H. cbv zeta in H. assert (Pa : path_of (g_fs s) specFile = File (Some content) m z) by (unfold path_of; rewrite Hf; reflexivity). rewrite Pa in H.
    destruct (negb _); [discriminate H|]. rewrite Hop in H. destruct (headers sd) as [|h hs] eqn:Eh; [contradiction Hhd; reflexivity|]. cbn [List.length Nat.eqb] in H. destruct s as [f sel tick]. cbn [g_fs g_sel g_tick] in *.
    destruct (getPlotDir plotDir specFile f) as [[d|]|e] eqn:Ed; try discriminate H. destruct (plot_dir_ok plotDir Hdir _ _ _ Hp Ed) as [P1 P2].
    assert (Nsd : specFile <> d) by (intros Q; apply Hpl; right; exists d; auto). assert (Ncd : cache_name plotDir <> d) by (intros Q; apply (place_cache plotDir Hdir specFile); exists d; auto).
    pose proof (open_history _ _ _ _ _ Hop) as Hh.
    assert (K : forall f', dget specFile f' = dget specFile f -> dget plotDir f' = dget plotDir f -> dget (cache_name plotDir) f' = dget (cache_name plotDir) f ->
      forall t, after_dir E known draw now size_of plotDir reversed specFile d sd (mk_g f' sel tick) = (t, (s', Ok tt)) -> cached plotDir (g_fs s') specFile (m, z)).
    { intros f' Es Epd Ec t' Ha. destruct (items d sd) as [its|e] eqn:Ei; [|unfold after_dir in Ha; rewrite gbind_lift, Ei in Ha; discriminate Ha].
      assert (Rs : cache_read plotDir f' = cache_read plotDir f) by (apply read_same; [rewrite Epd; tauto|exact Ec]).
      destruct (cache_read plotDir f) as [c|e] eqn:Er; [|unfold after_dir in Ha; rewrite gbind_lift, Ei, gbind_get in Ha; cbn [g_fs] in Ha; rewrite gbind_lift, Rs in Ha; discriminate Ha].
      assert (Od : on_disk f' specFile m z) by (exists (BText (Some content)); rewrite Es; exact Hf).
      rewrite (after_eq E known draw now size_of plotDir reversed specFile d sd f' sel tick its c m z Ei Rs Od) in Ha. rewrite (outdated_lemma plotDir Hdir f specFile m z c Er Ho) in Ha. cbv zeta in Ha.
      match type of Ha with (let (_, _) := main _ _ _ _ _ _ _ _ _ _ _ _ (mk_g ?F _ _) in _) = _ => set (f2 := F) in * end.
      destruct (main E known draw now size_of reversed specFile d its sd (cache_get specFile c) (m, z) (mk_g f2 sel (S tick))) as [t2 r2] eqn:Em. injection Ha as _ ->.
      assert (Fr : gframe (plot_place plotDir specFile) (main E known draw now size_of reversed specFile d its sd (cache_get specFile c) (m, z))).
      { apply frame_main; [|exact (items_ok E known d sd its Hh Ei)]. intros x Hx. exact (place_in plotDir specFile d x P1 P2 Hx). }
      destruct (frame_of _ _ _ _ _ _ Fr Em) as [_ F2]. specialize (F2 (cache_name plotDir) (place_cache plotDir Hdir specFile)). cbn [g_fs] in F2. unfold f2 in F2. rewrite dget_dset_same in F2.
      eexists _, _, _. rewrite (cache_path plotDir Hdir) in F2. unfold CACHE_FILE in F2. split; [exact F2|]. apply dget_dset_same. }
    destruct (fexists f d) eqn:Ex; [exact (K f eq_refl eq_refl eq_refl t H)|].
    destruct (after_dir E known draw now size_of plotDir reversed specFile d sd (mk_g (dset d FDir f) sel tick)) as [t2 r2] eqn:Ea. injection H as _ ->. apply (K (dset d FDir f)) with (t := t2).
    - apply dget_dset_other. exact Nsd.
    - apply dget_dset_other. exact (dir_not_in plotDir specFile d P1).
    - apply dget_dset_other. exact Ncd.
    - exact Ea.
  Qed.

  Lemma value_at s sc : history E known s -> In sc (values (scans s)) -> dget (s_num sc) (scans s) = Some sc /\ In (s_num sc) (keys (scans s)).
  Proof.
    intros Hh Hin. destruct (hist_inv _ _ _ Hh) as [I1 I2]. unfold values in Hin. apply in_map_iff in Hin. destruct Hin as ([k v] & Q & Hin). cbn [snd] in Q. subst v.
    assert (Q : In (s_num sc) (keys (scans s))) by (rewrite I2; apply in_map; unfold values; apply in_map_iff; exists (k, sc); split; [reflexivity|exact Hin]).
    split; [|exact Q]. pose proof (In_dget _ _ _ I1 Hin) as D. assert (k = s_num sc) as <-; [|exact D].
    clear -I2 Hin. unfold keys, values in I2. induction (scans s) as [|[k0 v0] l IH]; [destruct Hin|]. cbn [map fst snd] in I2. injection I2 as Q1 Q2. destruct Hin as [Q|Hin]; [injection Q as <- <-; exact Q1|exact (IH Hin Q2)].
  Qed.
  Lemma f2_in {A B} (P : A -> B -> Prop) l l' x : Forall2 P l l' -> In x l -> exists y, P x y.
  Proof. induction 1 as [|a b l l' H _ IH]; intros Hin; [destruct Hin|]. destruct Hin as [<-|Hin]; [exists b; exact H|exact (IH Hin)]. Qed.
  Lemma two_runs_lemma specFile s t s1 content m z sd more m' z' sd' secs l extra tick t' s' : plain_path specFile ->
    data_file (g_fs s) specFile content m z -> outdated plotDir (g_fs s) specFile m z -> open_file E known specFile (File (Some content) m z) = Ok sd -> headers sd <> [] ->
    all_ge1 sd -> no_names_in_scans sd -> Forall (fun n => ~ In 32%N n /\ no_leading_zero n) (keys (scans sd)) -> dget default_key (g_sel s) <> None ->
    ~ place plotDir specFile specFile -> (forall d, plot_directory plotDir specFile content d -> nothing_in d (g_fs s)) -> (forall b, file_name specFile b -> b <> L "index.html" /\ forall y, b <> y ++ L ".svg") ->
    run specFile s = (t, (s1, Ok tt)) ->
    (0 < m)%Z -> (0 < m')%Z -> m' <> m -> (z < z')%Z -> scans_appended (content ++ more) z -> (exists a b c e rest, Lines file_eol content (a :: b :: c :: e :: rest)) ->
    open_file E known specFile (File (Some (content ++ more)) m' z') = Ok sd' -> all_ge1 sd' -> no_names_in_scans sd' -> Forall (fun n => ~ In 32%N n /\ no_leading_zero n) (keys (scans sd')) ->
    dissect (File (Some content) m z) = Ok (secs ++ [l]) -> dissect (File (Some (content ++ more)) m' z') = Ok ((secs ++ [l]) ++ extra) -> scan_section l -> Forall scan_section extra -> NoDup (keys (g_fs s1)) ->
    run specFile (mk_g (dset specFile (FFile (BText (Some (content ++ more))) m' z') (g_fs s1)) (g_sel s) tick) = (t', (s', Ok tt)) ->
    exists d, plot_directory plotDir specFile (content ++ more) d /\ (forall sc, In sc (values (scans sd')) -> exists o sc', plotting E known draw (g_sel s) sd' sc m' o sc' /\ plot_file (g_fs s') (d ++ SL :: plot_name (s_num sc)) o) /\
      (forall x, svg_name x -> dget (d ++ SL :: x) (g_fs s') <> None -> exists sc, In sc (values (scans sd')) /\ x = plot_name (s_num sc)).
  Proof.
    intros Hp Hf Ho Hop Hhd Hge Hnn Hkk Hdef Hpl Hno Hb Hrun Hm Hm' Hmm Hz Hap H4 Hop' Hge' Hnn' Hkk' D1 D2 Sl Sx Hnd Hrun'.
    destruct (first_run_lemma E known draw now size_of plotDir reversed Hk Hdir specFile s t s1 content m z sd Hp Hf Ho Hop Hhd Hge Hnn Hkk Hdef Hpl Hno Hb Hrun) as (d & scs & A1 & A2 & _ & [A3 _ A4]).
    pose proof (cached_after specFile s t s1 content m z sd Hp Hf Ho Hop Hhd Hpl Hrun) as Hc.
    destruct (appended_lemma E known Hk specFile _ _ sd sd' secs l extra Hop Hop' D1 D2 Sl Sx) as (B1 & B2 & B3).
    set (f2 := dset specFile (FFile (BText (Some (content ++ more))) m' z') (g_fs s1)) in *.
    destruct (later_run_lemma E known draw now size_of plotDir reversed Hk Hdir specFile kept_all m' z' m z (content ++ more)) with (s := mk_g f2 (g_sel s) tick) (t := t') (s' := s') (sd := sd') as (d' & scs' & f1 & C1 & C2 & _ & C4 & C5); try assumption.
    { intros d0 f f' f1 Hs Hr x. rewrite <- Hs. apply Hr. }
    { intros d0 f sel tk _ _ Hff. exact (old_appended specFile m' z' m z (content ++ more) d0 f sel tk Hz Hap Hff). }
    { apply NoDup_dset. exact Hnd. }
    { unfold data_file. cbn [g_fs]. unfold f2. apply dget_dset_same. }
    { destruct Hc as (c & tt0 & ss & Q1 & Q2). exists c, tt0, ss. split; [|exact Q2]. cbn [g_fs]. unfold f2. rewrite dget_dset_other; [exact Q1|]. intros Q. apply Hpl. left. rewrite (cache_path plotDir Hdir). unfold CACHE_FILE. rewrite Q. reflexivity. }
    { lia. }
    { rewrite B1. exact Hhd. }
    pose proof (later_ext E known draw reversed _ _ _ _ _ _ _ _ _ _ C4 C5) as C6. clear C5. cbn [g_fs g_sel] in *. pose proof (same_directory _ _ _ _ _ _ H4 A1 C1) as Dd. rewrite Dd in C1, C4, C6. exists d. split; [exact C1|].
    assert (Pin : plots_in plotDir specFile d).
    { destruct A1 as (a & b & date & mo & tm0 & r & _ & _ & R & ->). destruct (four_plain (year tm0)) as [_ Y2]. destruct (two_plain (mon tm0)) as [_ M2]. exists (four_digits (year tm0)), (two_digits (mon tm0)), r. auto. }
    assert (F2 : forall x, ~ In SL x -> dget (d ++ SL :: x) f2 = dget (d ++ SL :: x) (g_fs s1)).
    { intros x Hx. unfold f2. apply dget_dset_other. intros Q. apply Hpl. right. exists d. split; [exact Pin|]. right. exists x. split; [exact Hx|symmetry; exact Q]. }
    pose proof (open_history _ _ _ _ _ Hop) as Hh. pose proof (open_history _ _ _ _ _ Hop') as Hh'.
    split; cycle 1.
    { intros x [Nx [y Hy]] Hx. destruct (in_dec (list_eq_dec N.eq_dec) x (map (fun sc => plot_name (s_num sc)) scs')) as [Q|Q].
      { apply in_map_iff in Q. destruct Q as (sc & Q & Hin). exists sc. split; [exact (Permutation_in _ C2 Hin)|symmetry; exact Q]. }
      assert (Xb : ~ file_name specFile x) by (intros Q2; destruct (Hb _ Q2) as [_ Q3]; exact (Q3 y Hy)).
      assert (Xi : x <> L "index.html") by (intros ->; apply (f_equal (@rev N)) in Hy; rewrite rev_app_distr in Hy; discriminate Hy).
      destruct C6 as [K1 _ _]. rewrite (K1 x Nx) in Hx; [|left; intros sc Hin Q2; apply Q; rewrite Q2; exact (in_map (fun sc => plot_name (s_num sc)) _ _ Hin)|exact Xi|exact Xb]. rewrite (F2 x Nx) in Hx.
      destruct (A4 x Hx) as [Q2|[Q2|(sc0 & Hin0 & Q2)]]; [contradiction|contradiction|]. exists sc0. split; [|exact Q2].
      destruct (value_at sd sc0 Hh (Permutation_in _ A2 Hin0)) as [W1 _]. pose proof (B3 _ _ W1) as W2. apply dget_In in W2. unfold values. apply in_map_iff. exists (s_num sc0, sc0). split; [reflexivity|exact W2]. }
    intros sc Hin. destruct (value_at sd' sc Hh' Hin) as [V1 V2]. assert (Nsl : ~ In SL (plot_name (s_num sc))).
    { apply plot_name_no_slash. unfold all_ge1 in Hge'. rewrite Forall_forall in Hge'. destruct (Hge' _ V2) as (x & Hx & _). exact (number_no_slash _ _ Hx). }
    destruct C6 as [K1 K2 _]. destruct (dget (d ++ SL :: plot_name (s_num sc)) f2) as [en|] eqn:En.
    - assert (Hs : dget (d ++ SL :: plot_name (s_num sc)) (g_fs s1) <> None) by (rewrite <- (F2 _ Nsl), En; discriminate).
      assert (Nb : ~ file_name specFile (plot_name (s_num sc))).
      { intros Q. destruct (Hb _ Q) as [_ Q2]. destruct (plot_name_svg (s_num sc)) as [y Hy]. exact (Q2 y Hy). }
      destruct (A4 _ Hs) as [Q|[Q|(sc0 & Hin0 & Q)]]; [exfalso; exact (not_index _ Q)|exfalso; exact (Nb Q)|].
      assert (Hin0' : In sc0 (values (scans sd))) by (exact (Permutation_in _ A2 Hin0)). destruct (value_at sd sc0 Hh Hin0') as [W1 W2].
      rewrite Forall_forall in Hkk, Hkk'. destruct (Hkk _ W2) as [X1 X2]. destruct (Hkk' _ V2) as [Y1 Y2]. pose proof (C54_distinct_lemma _ _ Y1 X1 Y2 X2 Q) as Eq.
      pose proof (B3 _ _ W1) as W1'. rewrite <- Eq, V1 in W1'. assert (sc = sc0) as <- by congruence.
      destruct A3 as (os & ps & links & tt0 & z0 & order & shown & G & _). destruct (f2_in _ _ _ _ G Hin0) as (o & G1 & sc1 & G2). exists o, sc1. split.
      + refine (same_plot E known draw (g_sel s) sd sd' sc m m' o sc1 B1 B2 _ Hm Hm' G2). rewrite V1, W1. reflexivity.
      + unfold plot_file in *. rewrite (K1 (plot_name (s_num sc)) Nsl); [|right; rewrite En; discriminate|exact (not_index _)|exact Nb]. rewrite (F2 _ Nsl). exact G1.
    - destruct K2 as (ln & os & ps & N1 & N2 & _). assert (Hl : In sc ln) by (apply (Keeps_In _ _ _ _ N1); [exact (Permutation_in _ (Permutation_sym C2) Hin)|exact En]).
      destruct (f2_in _ _ _ _ N2 Hl) as (o & G1 & sc1 & G2). exists o, sc1. split; [exact G2|exact G1].
  Qed.
End Two.
