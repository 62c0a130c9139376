(** The header objects of a data file are what interpreting their text gave. *)
From Coq Require Import String Lia.
From Verif Require Import Uni Py PyFacts NumFacts Time Utils Keys Handlers Reader SpecText SpecUtils SpecReader SpecNum SpecHistory SpecKeys SpecInterp SpecData SpecTables
  TextFacts KeyFacts ReaderFacts ReaderFacts2 ReaderFacts3 ReaderFacts4 DispatchFacts FrameFacts StateFacts InterpFacts HeaderFacts.
Import ListNotations.
Local Open Scope list_scope.

Section Link.
  Context (E : env) (known : list hid) (Hk : incl all_hids known).
  Definition DE : list attr := [A_date; A_epoch].
  Section Gen.
    Context (T : list attr) (HT : incl DE T).
    Definition hd_of (h : header) : Prop :=
      (h_raw h = [] /\ obj_step T header_init (h_obj h)) \/ exists o, header_read E known (h_raw h) o /\ obj_step T o (h_obj h).
    Definition hds (s : sdf) : Prop := Forall hd_of (headers s).
    Lemma run_hd S m name sc s s' sc' r : frame S T m -> hds s -> run_on_scan m name sc s = (s', sc', r) -> hds s'.
    Proof.
      intros Hf Hs H. unfold run_on_scan in H. destruct (nth_error (headers s) (s_hdr sc)) as [h|] eqn:En; cbn [option_map] in H.
      - destruct (m _) as [w r0] eqn:Em. inversion H; subst; clear H. pose proof (Hf (mk_w true (s_obj sc) (Some (h_obj h)))) as F. rewrite Em in F. cbn [fst] in F.
        destruct F as (_ & _ & F). cbn [peer peer_step] in F. destruct (peer w) as [p|]; [|destruct F]. unfold hds. cbn [set_headers headers].
        apply Forall_set_nth; auto. unfold hds in Hs. rewrite Forall_forall in Hs. specialize (Hs h (nth_error_In _ _ En)).
        destruct Hs as [[Q1 Q2]|(o & Q1 & Q2)]; [left; split; auto|right; exists o; split; auto]; cbn [h_obj]; eapply obj_step_trans; eauto.
      - destruct (m _) as [w r0]. inversion H; subst. unfold hds. cbn [set_headers headers]. destruct (peer w); auto.
    Qed.
    Lemma frame_D' l : frame D3 T (process_D E l).
    Proof. eapply frame_mono; [| |apply (frame_process E H_D l)]; [intros x Hx; simpl in *; tauto|]. intros x Hx. apply HT. simpl in *. tauto. Qed.
    Lemma date_hd s s' r : hds s -> date_scan E s = (s', r) -> hds s'.
    Proof.
      intros Hs H. unfold date_scan in H. destruct (rev (scans s)) as [|[name sc] t]; [inversion H; subst; auto|].
      destruct (find_D _) as [[l|]|e]; try (inversion H; subst; auto; fail).
      destruct (run_on_scan (process_D E l) name sc s) as [[s1 sc1] r1] eqn:Eo. inversion H; subst. eapply run_hd; [apply frame_D'|exact Hs|exact Eo].
    Qed.
    Lemma store_hd part hdr s s' r : hds s -> store_scan part hdr s = (s', r) -> hds s'.
    Proof.
      intros Hs H. unfold store_scan in H. destruct (first_line part) as [l|]; [|inversion H; subst; auto].
      destruct (index 0 _) as [n|]; [|inversion H; subst; auto]. destruct (has _ (scans s)) eqn:Eh; [|inversion H; subst; auto].
      destruct (has (free_name n s) (scans s)); inversion H; subst; auto.
    Qed.
    Lemma scan_hd b s s' r : hds s -> process_scan b s = (s', r) -> hds s'.
    Proof.
      intros Hs. unfold process_scan. set (s1 := match headers s with [] => _ | _ => s end).
      assert (H1 : hds s1).
      { unfold s1. destruct (headers s) as [|h hs] eqn:Eh; [|exact Hs]. constructor; [|constructor]. left. split; [reflexivity|apply obj_step_refl]. }
      clearbody s1. destruct (last_scan s1) as [k|].
      - destruct (if existsb _ _ then _ else _) as [[|]|e]; try (intros H; inversion H; subst; auto; fail).
        destruct (last_raw k s1) as [rw|e]; [|intros H; inversion H; subst; auto].
        destruct (seqb (beginning b) (beginning rw)).
        + destruct k as [n| |]; try (intros H; inversion H; subst; auto; fail).
          destruct (has n (scans s1)); [|intros H; inversion H; subst; auto].
          intros H. eapply store_hd; [|exact H]. exact H1.
        + intros H. eapply store_hd; [|exact H]; auto.
      - intros H. eapply store_hd; [|exact H]; auto.
    Qed.
    Lemma epoch_hd b s s' : hds s -> process_epoch E known b s = (s', None) -> hds s'.
    Proof.
      intros Hs H. unfold process_epoch in H. destruct (existsb _ _); [inversion H; subst; auto|].
      destruct (parse_epoch b) as [ep|e]; [|discriminate]. destruct (interpret_header E known b _) as [w [[]|e]] eqn:Ei; [|discriminate].
      inversion H; subst; clear H. unfold hds. cbn [set_headers headers]. apply Forall_app; split; auto. constructor; [|constructor]. right.
      exists (me w). split; [exists ep, (latest s), w; auto|apply obj_step_refl].
    Qed.
    Lemma block_hd b s s' : hds s -> read_block E known b s = (s', None) -> hds s'.
    Proof.
      intros Hs. unfold read_block. destruct b as [|c b0]; [intros H; inversion H; subst; auto|].
      set (b := c :: b0). destruct (bind _ _) as [[h|]|e]; try (intros H; inversion H; subst; auto; fail).
      destruct (negb (prefixb (L "#") (key_of h))); [intros H; inversion H; subst; auto|].
      destruct h; try (intros H; inversion H; subst; auto; fail).
      - intros H; inversion H; subst. unfold process_file. destruct (specFile s) as [[|]|]; exact Hs.
      - intros H. eapply epoch_hd; eauto.
      - destruct (process_scan b s) as [s1 [e|]] eqn:Ep; [discriminate|].
        intros H. eapply date_hd; [|exact H]. eapply scan_hd; eauto.
    Qed.
    Lemma blocks_hd bs s s' : hds s -> read_blocks E known bs s = (s', None) -> hds s'.
    Proof.
      revert s; induction bs as [|b bs IH]; simpl; intros s Hs H; [inversion H; subst; auto|].
      destruct (read_block E known b s) as [s1 [e|]] eqn:Eb; [discriminate|]. eapply IH; [|exact H]. eapply block_hd; eauto.
    Qed.
    Lemma read_hd p s s' : hds s -> read E known p s = (s', None) -> hds s'.
    Proof.
      intros Hs. unfold read. destruct (dissect p) as [secs|e]; [|discriminate].
      destruct (read_blocks E known secs s) as [s1 [e|]] eqn:Eb; [discriminate|]. pose proof (blocks_hd _ _ _ Hs Eb) as H1.
      set (s2 := match specFile s1 with Some _ => s1 | None => _ end).
      assert (V : hds s2) by (unfold s2; destruct (specFile s1); exact H1).
      destruct (getLastScanNumber s2) as [k|]; [|discriminate]. destruct (stat p) as [[m z]|]; [|discriminate]. intros H; inversion H; subst; exact V.
    Qed.
    Lemma interpret_hd name s s' r : (forall sc, dget name (scans s) = Some sc -> frame all_sets T (interpret_scan E known (s_raw sc))) ->
      hds s -> interpret E known name s = (s', r) -> hds s'.
    Proof.
      intros Hf Hs. unfold interpret. destruct (dget name (scans s)) as [sc|] eqn:Eg; [|intros H; inversion H; subst; auto].
      destruct (s_done sc) eqn:Ed; [intros H; inversion H; subst; auto|].
      destruct (run_on_scan _ name (with_flags false false sc) s) as [[s1 sc1] r1] eqn:Eo.
      assert (H1 : hds s1) by (eapply run_hd; [apply (Hf sc eq_refl)|exact Hs|exact Eo]).
      destruct r1 as [e|]; intros H; inversion H; subst; exact H1.
    Qed.
    Lemma attr_hd nm a name s : (forall sc, dget name (scans s) = Some sc -> frame all_sets T (interpret_scan E known (s_raw sc))) ->
      hds s -> hds (fst (get_attr E known nm a name s)).
    Proof.
      intros Hf Hs. unfold get_attr. destruct (dget name (scans s)) as [sc|] eqn:Eg; [|exact Hs].
      destruct (mem nm _ && s_lazy sc).
      - destruct (interpret E known name s) as [s1 [e|]] eqn:Ei; (assert (H1 : hds s1) by (eapply interpret_hd; [|exact Hs|exact Ei]; rewrite Eg; exact Hf)); [exact H1|].
        destruct (dget name (scans s1)); exact H1.
      - rewrite Eg. exact Hs.
    Qed.
  End Gen.

  Lemma clean_hd s : clean_history E known s -> hds H3 s.
  Proof.
    assert (HT : incl DE H3) by (intros a [<-|[<-|[]]]; simpl; auto).
    induction 1 as [name|p s s' _ IH Hr|p s s' k _ IH Hr|name s _ IH|nm a name s _ IH].
    - constructor.
    - eapply read_hd; eauto.
    - unfold refresh in Hr. destruct (update_available p s) as [[]|]; [|inversion Hr; subst; auto|discriminate].
      destruct (read E known p s) as [s1 [e|]] eqn:Er; [discriminate|]. inversion Hr; subst. eapply read_hd; eauto.
    - destruct (interpret E known name s) as [s1 r] eqn:Ei. eapply interpret_hd; [|exact IH|exact Ei]. intros; apply frame_interpret.
    - apply attr_hd; [|exact IH]. intros; apply frame_interpret.
  Qed.
  Lemma open_clean name p s : open_file E known name p = Ok s -> clean_history E known s.
  Proof.
    unfold open_file. destruct (exists_p p); [|discriminate]. destruct (is_spec_file p); [|discriminate]. cbn [negb].
    destruct (read E known p (sdf_init name)) as [s1 [e|]] eqn:Er; [discriminate|]. intros H. injection H as <-. eapply Clean_read; [apply (Clean_new _ _ name)|exact Er].
  Qed.
  Lemma uses_clean s s' : clean_history E known s -> uses E known s s' -> clean_history E known s'.
  Proof. intros Hs Hu. induction Hu; auto; [apply Clean_interpret|apply Clean_attr]; auto. Qed.
  Lemma clean_hist s : clean_history E known s -> history E known s.
  Proof.
    induction 1 as [name|p s s' _ IH Hr|p s s' k _ IH Hr|name s _ IH|nm a name s _ IH].
    - apply Hist_new.
    - change s' with (fst (s', @None exn)). rewrite <- Hr. apply Hist_read; auto.
    - change s' with (fst (s', @Ok (option skey) k)). rewrite <- Hr. apply Hist_refresh; auto.
    - apply Hist_interpret; auto.
    - apply Hist_attr; auto.
  Qed.

  (** scans without #O lines *)
  Lemma frame_lines S T lines : (forall l, In l lines -> frame S T (scan_line E known l)) -> frame S T (iterM (scan_line E known) lines).
  Proof. induction lines as [|l lines IH]; intros H; [apply frame_ret|]. apply frame_bind; [apply H; left; auto|]. intros. apply IH. intros; apply H; right; auto. Qed.
  Lemma frame_no_O raw : (forall l, In l (scan_lines raw) -> ~ control H_O l) -> frame all_sets DE (interpret_scan E known raw).
  Proof.
    intros H. unfold interpret_scan. apply frame_bind; [|intros; apply frame_run_posts]. apply frame_lines. intros l Hl w.
    rewrite (scan_line_eff E known Hk). destruct (eff known l) as [h|] eqn:Ee; [|apply wstep_refl].
    apply (wstep_mono (sets h) (peer_sets h)); [apply sets_all| |apply frame_process].
    assert (Hh : h <> H_O).
    { intros ->. apply (H l Hl). apply (eff_control known Hk); auto; try discriminate. refine (proj1 (Forall_forall _ _) (scan_lines_no_lf raw) l Hl). }
    destruct h; cbn; intros x Hx; simpl in *; try tauto; congruence.
  Qed.
  Lemma attr_no_names nm a name s : no_names_in_scans s -> no_names_in_scans (fst (get_attr E known nm a name s)).
  Proof.
    intros H. destruct (get_attr E known nm a name s) as [s' r] eqn:Eg. apply get_attr_view in Eg. cbn [fst].
    destruct Eg as (_ & Ev & _). intros n sc ls l H1 H2 H3. assert (Q : exists sc0, dget n (scans s) = Some sc0 /\ s_raw sc0 = s_raw sc).
    { pose proof (f_equal (dget n) Ev) as Q. unfold vs in Q. rewrite !dget_vd in Q. rewrite H1 in Q. cbn in Q. destruct (dget n (scans s)) as [sc0|]; [|discriminate].
      exists sc0. split; auto. cbn in Q. injection Q. intros; congruence. }
    destruct Q as (sc0 & Q1 & Q2). rewrite <- Q2 in H2. eapply H; eauto.
  Qed.
  Lemma interpret_no_names name s : no_names_in_scans s -> no_names_in_scans (fst (interpret E known name s)).
  Proof.
    intros H. destruct (interpret E known name s) as [s' r] eqn:Eg. apply interpret_view in Eg. cbn [fst].
    destruct Eg as (_ & Ev & _). intros n sc ls l H1 H2 H3. assert (Q : exists sc0, dget n (scans s) = Some sc0 /\ s_raw sc0 = s_raw sc).
    { pose proof (f_equal (dget n) Ev) as Q. unfold vs in Q. rewrite !dget_vd in Q. rewrite H1 in Q. cbn in Q. destruct (dget n (scans s)) as [sc0|]; [|discriminate].
      exists sc0. split; auto. cbn in Q. injection Q. intros; congruence. }
    destruct Q as (sc0 & Q1 & Q2). rewrite <- Q2 in H2. eapply H; eauto.
  Qed.
  Lemma no_names_frame s name : no_names_in_scans s -> forall sc, dget name (scans s) = Some sc -> frame all_sets DE (interpret_scan E known (s_raw sc)).
  Proof. intros H sc Hg. apply frame_no_O. intros l Hl. eapply (H name sc _ l Hg); [|exact Hl]. apply lines_of_scan_lines. reflexivity. Qed.
  Lemma uses_hd s s' : uses E known s s' -> no_names_in_scans s -> hds DE s -> no_names_in_scans s' /\ hds DE s'.
  Proof.
    intros Hu Hn Hs. induction Hu as [s|name s s' _ IH|nm a name s s' _ IH]; auto; destruct (IH Hn Hs) as [I1 I2].
    - split; [apply interpret_no_names; auto|]. destruct (interpret E known name s') as [s1 r] eqn:Ei. eapply interpret_hd; [|exact I2|exact Ei]. apply no_names_frame; auto.
    - split; [apply attr_no_names; auto|]. apply attr_hd; auto. apply no_names_frame; auto.
  Qed.
  Lemma open_hd name p s : open_file E known name p = Ok s -> hds DE s.
  Proof.
    unfold open_file. destruct (exists_p p); [|discriminate]. destruct (is_spec_file p); [|discriminate]. cbn [negb].
    destruct (read E known p (sdf_init name)) as [s1 [e|]] eqn:Er; [discriminate|]. intros H. injection H as <-. eapply read_hd; [apply incl_refl| |exact Er]. constructor.
  Qed.

  (** ** the attributes of headers *)
  Lemma C31_link s h ls : clean_history E known s -> In h (headers s) -> h_raw h <> [] -> Lines py_eol (h_raw h) ls ->
    exists J j O m, header_rows H_J ls J /\ header_rows H_j ls j /\ positioner_names ls O /\ header_rows H_o ls m /\
      ((J <> [] /\ j <> [] /\ exists x, h_obj h A_counter_xref = Some x /\ cross_reference x j J) \/ ((J = [] \/ j = []) /\ h_obj h A_counter_xref = None)) /\
      ((m <> [] /\ exists x, h_obj h A_positioner_xref = Some x /\ cross_reference x m O) \/ (m = [] /\ h_obj h A_positioner_xref = None)).
  Proof.
    intros Hs Hh Hr Hl. apply clean_hd in Hs. unfold hds in Hs. rewrite Forall_forall in Hs. destruct (Hs h Hh) as [[Q _]|(o & Ho & [F _])]; [congruence|].
    destruct (C31_lemma E known Hk _ _ _ Ho Hl) as (J & j & O & m & H1 & H2 & H3' & H4 & _ & H6 & H7). exists J, j, O, m.
    rewrite !F by (simpl; intros Q; decompose [or] Q; try discriminate; auto). auto 10.
  Qed.
  Lemma C67_link s h ls : clean_history E known s -> In h (headers s) -> Lines py_eol (h_raw h) ls ->
    (exists cs ts, Keeps (starts H_C) ls cs /\ Forall2 content cs ts /\ h_obj h A_comments = Some ts) /\
    (exists cs labs, Keeps (starts H_H) ls cs /\ Forall2 meta_labels cs labs /\ h_obj h A_H = Some labs).
  Proof.
    intros Hs Hh Hl. apply clean_hd in Hs. unfold hds in Hs. rewrite Forall_forall in Hs. destruct (Hs h Hh) as [[Q [F _]]|(o & Ho & [F _])].
    - rewrite Q in Hl. apply Lines_splitlines in Hl. subst ls. change (splitlines []) with (@nil str).
      rewrite !F by (simpl; intros G; decompose [or] G; try discriminate; auto). split; exists [], []; (split; [constructor|split; [constructor|reflexivity]]).
    - destruct (C67_lemma E known Hk _ _ _ Ho Hl) as (H1 & H2).
      rewrite !F by (simpl; intros Q; decompose [or] Q; try discriminate; auto). auto.
  Qed.
  Lemma names_link name p s s' h ls : open_file E known name p = Ok s -> uses E known s s' -> no_names_in_scans s -> In h (headers s') -> Lines py_eol (h_raw h) ls ->
    exists O, h_obj h A_O = Some O /\ ((h_raw h = [] /\ O = []) \/ (h_raw h <> [] /\ positioner_names ls O)).
  Proof.
    intros Ho Hu Hn Hh Hl. destruct (uses_hd _ _ Hu Hn (open_hd _ _ _ Ho)) as [_ Hd]. unfold hds in Hd. rewrite Forall_forall in Hd.
    assert (FA : forall o, obj_step DE o (h_obj h) -> h_obj h A_O = o A_O) by (intros o [F _]; apply F; simpl; intros Q; decompose [or] Q; try discriminate; auto).
    destruct (Hd h Hh) as [[Q Hi]|(o & Hr & Hi)]; rewrite (FA _ Hi).
    - exists []. split; [reflexivity|left; auto].
    - destruct (C31_lemma E known Hk _ _ _ Hr Hl) as (J & j & O & m & _ & _ & Hp & _ & HO & _). exists O. split; auto.
      destruct (h_raw h) as [|c t] eqn:Er; [left|right; split; [discriminate|exact Hp]]. split; auto.
      assert (ls = []) by (apply Lines_splitlines in Hl; subst; reflexivity). subst ls. destruct Hp as (cs & ds & K & Sl & F).
      inversion K; subst. destruct Sl as [[_ ->]|(pre & x & post & Q & _)]; [|destruct pre; discriminate]. inversion F. reflexivity.
  Qed.
End Link.
