(** A data file whose last scan has grown: the scans before it are the same. *)
From Coq Require Import String Lia Permutation Sorted.
From Verif Require Import Py PyFacts NumFacts Time Utils Keys Handlers Reader Cli Writer Plot Gallery SpecText SpecReader SpecNum SpecLookup SpecHistory SpecTables SpecCli SpecPlot SpecGallery CliFacts TextFacts OrderFacts ReaderFacts ReaderFacts2 ReaderFacts4 ReaderFacts5 ReaderFacts6 ReaderFacts8
  ExampleFacts DataFacts UseFacts PlotFacts PlotLocal AppendFacts.
Import ListNotations.
Local Open Scope list_scope.

Section Grown.
  Context (E : env) (known : list hid) (Hk : incl all_hids known).

  (** a scan section: the scans read before stay, and at most one is added, behind them *)
  Lemma scan_keeps b s s' : good_sec b -> scan_section b -> last_scan s = None -> inv s -> read_block E known b s = (s', None) ->
    last_scan s' = None /\ inv s' /\ fileName s' = fileName s /\ (exists n, keys (scans s') = keys (scans s) ++ [n]) /\ forall n, In n (keys (scans s)) -> dget n (scans s') = dget n (scans s).
  Proof.
    intros Hg Hs Hl Hi H. pose proof H as H0. apply (block_first E known Hk) in H0; auto. destruct H0 as (L1 & I1 & F1 & St).
    split; [exact L1|]. split; [exact I1|]. split; [exact F1|].
    assert (X : exists n, keys (scans s') = keys (scans s) ++ [n]).
    { inversion St as [v h Q|v h Q|v h Q|v h l0 rest n0 t n Q1 Q2 Q3 Q4 Q5 Ev Eh E3 E4]; subst; try (pose proof (fw_one _ _ _ Hs Q) as Z; discriminate Z).
      exists n. unfold vs, vd in E3. apply (f_equal (map fst)) in E3. rewrite map_app, !map_map in E3. unfold keys. symmetry. exact E3. }
    split; [exact X|].
    destruct (read_block_cases E known Hk b s Hg) as (h & t & Hb & Hsl & Hf & FL & Hb0 & C).
    assert (Hw : first_word_is (join [LF] (h :: t)) (L "#S")) by (rewrite <- Hb; exact Hs).
    destruct C as [[e C]|[(rest & Hr & C)|[(rest & Hr & C)|(rest & Hr & C)]]]; rewrite C in H; clear C.
    - discriminate H.
    - apply (fw_hash (L "#F") rest h t) in Hw; [discriminate Hw|exact Hsl|cbn; auto|exact Hr].
    - apply (fw_hash (L "#E") rest h t) in Hw; [discriminate Hw|exact Hsl|cbn; auto|exact Hr].
    - unfold process_scan in H. set (s0 := match headers s with [] => set_headers [mk_header [] header_init] s | _ => s end) in *.
      assert (E0 : scans s0 = scans s /\ last_scan s0 = None) by (unfold s0; destruct (headers s); auto). clearbody s0. destruct E0 as [E1 E2]. assert (I0 : inv s0) by (unfold inv in *; rewrite E1; exact Hi). rewrite <- E1.
      cbv zeta in H. rewrite E2 in H.
      destruct (store_scan_spec b (List.length (headers s0) - 1) s0) as (s2 & r & Hst & [(-> & l & n0 & tl0 & n & sc & Fl & Hw' & Hn & Hs2 & Hsc)|(-> & _)]); rewrite Hst in H; [|discriminate H].
      assert (Nf : ~ In n (keys (scans s0))) by (eapply named_fresh; eauto).
      assert (K2 : scans s' = scans s2 \/ exists sc', scans s' = dset n sc' (scans s2)).
      { unfold date_scan in H. rewrite Hs2 in H at 1. cbn [set_scans scans] in H. rewrite rev_app_distr in H. cbn [rev app] in H.
        destruct (find_D _) as [[ld|]|e]; [|injection H as <-; auto|discriminate H].
        destruct (run_on_scan (process_D E ld) n sc s2) as [[s3 sc3] r3] eqn:Er. injection H as -> _.
        right. unfold run_on_scan in Er. destruct (process_D E ld _) as [w r0]. injection Er as <- _ _. cbn [set_headers scans set_scans]. eexists. reflexivity. }
      intros m Hm. assert (Nm : m <> n) by (intros ->; exact (Nf Hm)).
      assert (D2 : dget m (scans s2) = dget m (scans s0)).
      { subst s2. cbn [set_scans scans]. rewrite dget_app. destruct (dget m (scans s0)) eqn:Ed; [reflexivity|]. apply dget_none in Ed. contradiction. }
      destruct K2 as [->|[sc' ->]]; [exact D2|rewrite dget_dset_other by exact Nm; exact D2].
  Qed.
  Lemma scans_keep bs : Forall good_sec bs -> Forall scan_section bs -> forall s s', last_scan s = None -> inv s -> read_blocks E known bs s = (s', None) ->
    fileName s' = fileName s /\ forall n, In n (keys (scans s)) -> dget n (scans s') = dget n (scans s).
  Proof.
    induction 1 as [|b bs Hb Hbs IH]; intros Hss s s' Hl Hi H; cbn [read_blocks] in H.
    - injection H as <-. split; [reflexivity|]. intros n Hn. reflexivity.
    - inversion Hss as [|? ? S1 S2]; subst. destruct (read_block E known b s) as [s1 [e|]] eqn:Eb; [discriminate H|].
      destruct (scan_keeps b s s1 Hb S1 Hl Hi Eb) as (A1 & A2 & A3 & [n0 A4] & A5). destruct (IH S2 s1 s' A1 A2 H) as (B1 & B2).
      split; [congruence|]. intros n Hn. rewrite B2; [exact (A5 n Hn)|]. rewrite A4. apply in_or_app. left. exact Hn.
  Qed.
  Lemma grown_lemma name p p' s s' secs l rest : open_file E known name p = Ok s -> open_file E known name p' = Ok s' -> dissect p = Ok (secs ++ [l]) -> dissect p' = Ok (secs ++ rest) -> scan_section l -> Forall scan_section rest ->
    fileName s' = fileName s /\ forall ks n, keys (scans s) = ks ++ [n] -> forall m, In m ks -> exists sc, dget m (scans s) = Some sc /\ dget m (scans s') = Some sc.
  Proof.
    intros H H' Hd Hd' Hl Hx. destruct (open_parts E known _ _ _ _ H Hd) as (s1 & R1 & S1 & S2 & S3). destruct (open_parts E known _ _ _ _ H' Hd') as (s1' & R1' & S1' & S2' & S3').
    pose proof (dissect_good _ _ Hd) as Hg. apply Forall_app in Hg. destruct Hg as [Hga Hgl]. pose proof (dissect_good _ _ Hd') as Hg'. apply Forall_app in Hg'. destruct Hg' as [_ Hgr].
    rewrite (read_blocks_app E known secs) in R1, R1'. destruct (read_blocks E known secs (sdf_init name)) as [sa [e|]] eqn:Ea; [discriminate R1|].
    assert (I0 : inv (sdf_init name)) by (split; [constructor|reflexivity]). apply (blocks_first E known Hk) in Ea; [|exact Hga|reflexivity|exact I0]. destruct Ea as (La & Ia & _ & _).
    inversion Hgl as [|? ? Gl _]; subst. cbn [read_blocks] in R1. destruct (read_block E known l sa) as [sb [e|]] eqn:Eb; [discriminate R1|]. injection R1 as ->.
    destruct (scan_keeps l sa s1 Gl Hl La Ia Eb) as (_ & _ & A3 & [n0 A4] & A5). destruct (scans_keep rest Hgr Hx sa s1' La Ia R1') as [B1 B2].
    split; [congruence|]. intros ks n Hkeys m Hm. rewrite S1, A4 in Hkeys. apply app_inj_tail in Hkeys. destruct Hkeys as [<- _]. rewrite S1, S1'. rewrite (A5 m Hm), (B2 m Hm).
    destruct (dget m (scans sa)) as [sc|] eqn:Ed; [exists sc; auto|]. apply dget_none in Ed. contradiction.
  Qed.
End Grown.

(** ** names in order *)
Lemma str_leb_common p : forall u v, str_leb (p ++ u) (p ++ v) = str_leb u v.
Proof. induction p as [|c p IH]; intros u v; [reflexivity|]. cbn [app str_leb]. rewrite N.ltb_irrefl. apply IH. Qed.
Lemma lex_leb a b : lex_before a b -> str_leb a b = true /\ str_leb b a = false.
Proof.
  intros [(p & x & y & u & v & -> & -> & Q)|(c & u & ->)].
  - rewrite !str_leb_common. cbn [str_leb]. assert (Q1 : (x <? y)%N = true) by (apply N.ltb_lt; exact Q). assert (Q2 : (y <? x)%N = false) by (apply N.ltb_ge; lia). rewrite Q1, Q2. auto.
  - rewrite <- (app_nil_r a) at 1 4. rewrite !str_leb_common. auto.
Qed.
Lemma lex_asym a b : lex_before a b -> lex_before b a -> False.
Proof. intros H1 H2. destruct (lex_leb _ _ H1) as [_ Q1]. destruct (lex_leb _ _ H2) as [Q2 _]. congruence. Qed.
