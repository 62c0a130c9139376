(** A data file to which scans were appended: the other scans are the same, and so are their plots. *)
From Coq Require Import String Lia Permutation Sorted.
From Verif Require Import Py PyFacts NumFacts Time Utils Keys Handlers Reader Cli Writer Plot Gallery SpecText SpecReader SpecNum SpecLookup SpecHistory SpecTables SpecCli SpecPlot SpecGallery CliFacts TextFacts OrderFacts ReaderFacts ReaderFacts2 ReaderFacts4 ReaderFacts5 ReaderFacts6 ReaderFacts8
  ExampleFacts DataFacts UseFacts PlotFacts PlotLocal.
Import ListNotations.
Local Open Scope list_scope.

Section Append.
  Context (E : env) (known : list hid) (Hk : incl all_hids known).

  Lemma fw_one l a b : first_word_is l a -> first_word_is l b -> a = b.
  Proof. rewrite !first_word_words. intros [x Hx] [y Hy]. rewrite Hx in Hy. injection Hy as Q _. exact Q. Qed.
  (** a scan section: what was read before stays *)
  Lemma scan_block b s s' : good_sec b -> scan_section b -> last_scan s = None -> inv s -> headers s <> [] -> hdate s (List.length (headers s) - 1) -> read_block E known b s = (s', None) ->
    headers s' = headers s /\ last_scan s' = None /\ inv s' /\ fileName s' = fileName s /\ forall n, In n (keys (scans s)) -> In n (keys (scans s')) /\ dget n (scans s') = dget n (scans s).
  Proof.
    intros Hg Hs Hl Hi Hh Hd H. pose proof H as H0. apply (block_first E known Hk) in H0; auto. destruct H0 as (L1 & I1 & F1 & _).
    destruct (read_block_cases E known Hk b s Hg) as (h & t & Hb & Hsl & Hf & FL & Hb0 & C).
    assert (Hw : first_word_is (join [LF] (h :: t)) (L "#S")) by (rewrite <- Hb; exact Hs).
    destruct C as [[e C]|[(rest & Hr & C)|[(rest & Hr & C)|(rest & Hr & C)]]]; rewrite C in H; clear C.
    - discriminate H.
    - apply (fw_hash (L "#F") rest h t) in Hw; [discriminate Hw|exact Hsl|cbn; auto|exact Hr].
    - apply (fw_hash (L "#E") rest h t) in Hw; [discriminate Hw|exact Hsl|cbn; auto|exact Hr].
    - unfold process_scan in H. assert (Es : match headers s with [] => set_headers [mk_header [] header_init] s | _ => s end = s) by (destruct (headers s); [contradiction Hh; reflexivity|reflexivity]). rewrite Es in H. clear Es. cbv zeta in H. rewrite Hl in H.
      destruct (store_scan_spec b (List.length (headers s) - 1) s) as (s2 & r & Hst & [(-> & l & n0 & tl0 & n & sc & Fl & Hw' & Hn & Hs2 & Hsc)|(-> & _)]); rewrite Hst in H; [|discriminate H].
      assert (Nf : ~ In n (keys (scans s))) by (eapply named_fresh; eauto).
      assert (K : headers s' = headers s2 /\ (scans s' = scans s2 \/ exists sc', scans s' = dset n sc' (scans s2))).
      { unfold date_scan in H. rewrite Hs2 in H at 1. cbn [set_scans scans] in H. rewrite rev_app_distr in H. cbn [rev app] in H.
        destruct (find_D _) as [[ld|]|e]; [|injection H as <-; auto|discriminate H].
        destruct (run_on_scan (process_D E ld) n sc s2) as [[s3 sc3] r3] eqn:Er. injection H as -> _. split.
        - apply (run_still (process_D E ld) n sc s2 s' sc3 r3); [apply still_D| |exact Er]. subst s2 sc. exact Hd.
        - right. unfold run_on_scan in Er. destruct (process_D E ld _) as [w r0]. injection Er as <- _ _. cbn [set_headers scans set_scans]. eexists. reflexivity. }
      destruct K as [K1 K2]. rewrite K1. split; [subst s2; reflexivity|]. split; [exact L1|]. split; [exact I1|]. split; [exact F1|].
      intros m Hm. assert (Nm : m <> n) by (intros ->; exact (Nf Hm)).
      assert (D2 : dget m (scans s2) = dget m (scans s)).
      { subst s2. cbn [set_scans scans]. rewrite dget_app. destruct (dget m (scans s)) eqn:Ed; [reflexivity|]. apply dget_none in Ed. contradiction. }
      assert (D' : dget m (scans s') = dget m (scans s)) by (destruct K2 as [->|[sc' ->]]; [exact D2|rewrite dget_dset_other by exact Nm; exact D2]).
      split; [|exact D']. destruct (in_dec (list_eq_dec N.eq_dec) m (keys (scans s'))) as [Q|Q]; [exact Q|]. apply dget_none in Q. rewrite D' in Q. apply dget_none in Q. contradiction.
  Qed.
  Lemma scan_blocks bs : Forall good_sec bs -> Forall scan_section bs -> forall s s', last_scan s = None -> inv s -> headers s <> [] -> hdate s (List.length (headers s) - 1) -> read_blocks E known bs s = (s', None) ->
    headers s' = headers s /\ fileName s' = fileName s /\ forall n, In n (keys (scans s)) -> In n (keys (scans s')) /\ dget n (scans s') = dget n (scans s).
  Proof.
    induction 1 as [|b bs Hb Hbs IH]; intros Hss s s' Hl Hi Hh Hd H; cbn [read_blocks] in H.
    - injection H as <-. split; [reflexivity|]. split; [reflexivity|]. intros n Hn. split; [exact Hn|reflexivity].
    - inversion Hss as [|? ? S1 S2]; subst. destruct (read_block E known b s) as [s1 [e|]] eqn:Eb; [discriminate H|].
      destruct (scan_block b s s1 Hb S1 Hl Hi Hh Hd Eb) as (A1 & A2 & A3 & A4 & A5). destruct (IH S2 s1 s' A2 A3) as (B1 & B2 & B3); [rewrite A1; exact Hh| |exact H|].
      + unfold hdate in *. rewrite A1. exact Hd.
      + split; [congruence|]. split; [congruence|]. intros n Hn. destruct (A5 n Hn) as [C1 C2]. destruct (B3 n C1) as [C3 C4]. split; [exact C3|congruence].
  Qed.
  Lemma open_parts name p s secs : open_file E known name p = Ok s -> dissect p = Ok secs -> exists s1, read_blocks E known secs (sdf_init name) = (s1, None) /\ scans s = scans s1 /\ headers s = headers s1 /\ fileName s = fileName s1.
  Proof.
    unfold open_file. destruct (negb (exists_p p)); [discriminate|]. destruct (negb (is_spec_file p)); [discriminate|]. destruct (read E known p (sdf_init name)) as [s0 [e|]] eqn:Er; [discriminate|]. intros H Hd. injection H as <-.
    unfold read in Er. rewrite Hd in Er. destruct (read_blocks E known secs (sdf_init name)) as [s1 [e|]] eqn:Eb; [discriminate Er|]. exists s1. split; [reflexivity|].
    set (s2 := match specFile s1 with Some _ => s1 | None => _ end) in Er. assert (V : scans s2 = scans s1 /\ headers s2 = headers s1 /\ fileName s2 = fileName s1) by (unfold s2; destruct (specFile s1); auto).
    clearbody s2. cbv zeta in Er. destruct (getLastScanNumber s2) as [k|]; [|discriminate Er]. destruct (stat p) as [[m z]|]; [|discriminate Er]. injection Er as <-. exact V.
  Qed.
  Lemma appended_lemma name p p' s s' secs l extra : open_file E known name p = Ok s -> open_file E known name p' = Ok s' -> dissect p = Ok (secs ++ [l]) -> dissect p' = Ok ((secs ++ [l]) ++ extra) -> scan_section l -> Forall scan_section extra ->
    headers s' = headers s /\ fileName s' = fileName s /\ forall n sc, dget n (scans s) = Some sc -> dget n (scans s') = Some sc.
  Proof.
    intros H H' Hd Hd' Hl Hx. pose proof (open_dated E known _ _ _ H) as Dt. destruct (open_parts _ _ _ _ H Hd) as (s1 & R1 & S1 & S2 & S3). destruct (open_parts _ _ _ _ H' Hd') as (s1' & R1' & S1' & S2' & S3').
    rewrite (read_blocks_app E known (secs ++ [l]) extra), R1 in R1'. pose proof (dissect_good _ _ Hd') as Hg. apply Forall_app in Hg. destruct Hg as [Hg1 Hg2].
    assert (I0 : inv (sdf_init name)) by (split; [constructor|reflexivity]). pose proof R1 as R0. apply (blocks_first E known Hk) in R0; [|exact Hg1|reflexivity|exact I0]. destruct R0 as (L1 & I1 & _ & _).
    pose proof R1 as Ra. rewrite (read_blocks_app E known secs [l]) in Ra. destruct (read_blocks E known secs (sdf_init name)) as [sa [e|]] eqn:Ea; [discriminate Ra|]. apply Forall_app in Hg1. destruct Hg1 as [Hga Hgl]. inversion Hgl as [|? ? Gl _]; subst.
    apply (blocks_first E known Hk) in Ea; [|exact Hga|reflexivity|exact I0]. destruct Ea as (La & Ia & _ & _). cbn [read_blocks] in Ra. destruct (read_block E known l sa) as [sb [e|]] eqn:Eb; [discriminate Ra|]. injection Ra as ->.
    apply (block_first E known Hk) in Eb; auto. destruct Eb as (_ & _ & _ & St).
    assert (X : exists n sc, dget n (scans s1) = Some sc /\ s_hdr sc = List.length (headers s1) - 1 /\ headers s1 <> []).
    { inversion St as [v h Q|v h Q|v h Q|v h l0 rest n0 t n Q1 Q2 Q3 Q4 Q5 Ev Eh E3 E4]; subst; try (pose proof (fw_one _ _ _ Hl Q) as Z; discriminate Z).
      assert (Lh : List.length (headers s1) = List.length (hdrs (vh sa))) by (rewrite <- (map_length h_raw (headers s1)); unfold hdrs in *; fold (vh s1); rewrite E4; reflexivity).
      assert (Z : exists sc, In (n, sc) (scans s1) /\ s_hdr sc = List.length (hdrs (vh sa)) - 1).
      { unfold vs, vd in E3. assert (Hin : In (n, (l, strip_first_word (strip (L "#S" ++ SP :: rest)), n, strip_first_word (strip_first_word (strip (L "#S" ++ SP :: rest))), List.length (hdrs (vh sa)) - 1)) (map vkv (scans s1))) by (rewrite <- E3; apply in_or_app; right; left; reflexivity).
        apply in_map_iff in Hin. destruct Hin as ([n' sc] & Q & Hin). unfold vkv, info in Q. cbn [fst snd] in Q. exists sc. injection Q as -> _ _ _ _ Q. split; [exact Hin|exact Q]. }
      destruct Z as (sc & Z1 & Z2). exists n, sc. split; [apply In_dget; [apply I1|exact Z1]|]. rewrite Lh. split; [exact Z2|]. intros Y. rewrite Y in Lh. unfold hdrs in Lh. destruct (vh sa); discriminate Lh. }
    destruct X as (n & sc & X1 & X2 & X3). assert (Hd1 : hdate s1 (List.length (headers s1) - 1)).
    { rewrite <- S1 in X1. pose proof (Dt n sc X1) as Q. unfold hdate in *. rewrite S2 in Q. rewrite X2 in Q. exact Q. }
    destruct (scan_blocks extra Hg2 Hx s1 s1' L1 I1 X3 Hd1 R1') as (A1 & A2 & A3). split; [congruence|]. split; [congruence|]. intros k sck Hsc. rewrite S1', S1 in *. destruct (A3 k) as [_ B]; [|rewrite B; exact Hsc].
    destruct (in_dec (list_eq_dec N.eq_dec) k (keys (scans s1))) as [Q|Q]; [exact Q|]. apply dget_none in Q. congruence.
  Qed.

  (** the plot depends only on the scan, its header and the name of the file *)
  Lemma same_plot draw db s s' sc m m' o sc1 : headers s' = headers s -> fileName s' = fileName s -> dget (s_num sc) (scans s') = dget (s_num sc) (scans s) -> (0 < m)%Z -> (0 < m')%Z ->
    plotting E known draw db s sc m o sc1 -> plotting E known draw db s' sc m' o sc1.
  Proof.
    intros Hh Hf Hs Hm Hm' H. unfold plotting in *. destruct (snd (sel_auto_scan (Some sc) db)) as [c|e]; [|exact H]. destruct H as (k & p & H1 & H2 & H3).
    assert (Et : plot_scan E known draw k (Ok m') None sc = plot_scan E known draw k (Ok m) None sc).
    { unfold plot_scan. assert (Q : data_is_newer_than_plot (Ok m') None = data_is_newer_than_plot (Ok m) None).
      { unfold data_is_newer_than_plot. cbn [bind]. replace (0 <? m')%Z with true by (symmetry; apply Z.ltb_lt; exact Hm'). replace (0 <? m)%Z with true by (symmetry; apply Z.ltb_lt; exact Hm). reflexivity. }
      rewrite Q. reflexivity. }
    assert (Nr : near (s_num sc) (mk_pst s' plotter0) (mk_pst s plotter0)) by (split; [exact Hs|split; [exact Hh|split; [exact Hf|reflexivity]]]).
    destruct (det_plot E known draw (s_num sc) k (Ok m) None sc eq_refl _ _ Nr) as [D1 D2]. rewrite H2 in D1, D2. cbn [fst snd] in *.
    destruct (plot_scan E known draw k (Ok m) None sc (mk_pst s' plotter0)) as [p' o'] eqn:Ep. cbn [fst snd] in *. subst o'. exists k, p'. split; [exact H1|]. split; [rewrite Et; exact Ep|]. rewrite H3. symmetry. apply D1.
  Qed.
End Append.
