(** C26: opening and interpreting a file written by SPEC (for PropRound.v). *)
From Coq Require Import String Lia.
From Verif Require Import Uni Py PyFacts NumFacts Time Utils UtilsFacts Keys Handlers Geom Reader SpecText SpecUtils SpecReader SpecNum SpecHistory SpecKeys SpecInterp SpecData SpecDecimal SpecRound
  TextFacts KeyFacts ReaderFacts ReaderFacts2 ReaderFacts4 FrameFacts StateFacts DispatchFacts InterpFacts MonadFacts HandlerFacts DecimalFacts DataFacts DataFacts2 LastFacts ReaderFacts5 ReaderFacts7 UseFacts RoundFacts RoundFacts2 RoundFacts3 RoundFacts4 RoundFacts5.
From Verif Require ExampleFacts.
Import ListNotations.
Local Open Scope nat_scope.
Local Open Scope list_scope.

Lemma file_eol_py c : file_eol c = true -> is_eol c = true.
Proof. unfold file_eol. rewrite orb_true_iff, !N.eqb_eq. intros [->| ->]; reflexivity. Qed.
Lemma free_file l : free_of is_eol l -> free_of file_eol l.
Proof. intros H. eapply Forall_impl; [|exact H]. intros c Hc. destruct (file_eol c) eqn:Ef; [apply file_eol_py in Ef; congruence|reflexivity]. Qed.
Lemma Lines_lf ls : Forall (free_of is_eol) ls -> Lines file_eol (List.concat (map (fun l => l ++ [LF]) ls)) ls.
Proof.
  induction 1 as [|l ls H HF IH]; cbn [map List.concat]; [constructor|]. rewrite <- app_assoc. cbn [app]. apply Lines_one; [apply free_file; exact H|reflexivity|intros Q; discriminate|exact IH].
Qed.
Section Open.
  Context (E : env) (known : list hid) (Hk : incl all_hids known).

  Lemma is_header h ws valss : good_head E h -> Forall2 (good_scan E) ws valss -> spec_header (file_text h ws).
  Proof.
    intros Hh Hw. pose proof (Lines_lf _ (file_free E h ws valss Hh Hw)) as Q. unfold spec_header, file_text, file_lines in *.
    eexists _, _, _, _, _. split; [exact Q|]. repeat split; eexists; reflexivity.
  Qed.
  Lemma file_sections h ws valss m z : good_head E h -> Forall2 (good_scan E) ws valss ->
    dissect (File (Some (file_text h ws)) m z) = Ok (map (join [LF]) ([L "#F " ++ hd_file h] :: (head_lines h ++ pad ws) :: sections ws)).
  Proof.
    intros Hh Hw. pose proof (is_header _ _ _ Hh Hw) as H1. apply (header_test _ m z) in H1. unfold dissect, read_file. rewrite H1, andb_false_r. cbn [bind].
    rewrite replace_un, dissect_text_groups, splitlines_un. unfold file_text. rewrite (lines_lf _ (file_free E h ws valss Hh Hw)), (group_file E h ws valss Hw). reflexivity.
  Qed.

  Lemma header_h h line w : control h line -> lstrip line = line -> h <> H_E -> ~ In LF line -> line <> [] -> header_line E known line w = process E h line w.
  Proof.
    intros Hc Hl He Hlf Hne. unfold header_line. destruct line as [|c t]; [congruence|]. apply (dispatch_some known _ _ Hk Hlf) in Hc. rewrite Hl in Hc.
    unfold mbind, lift. rewrite Hc. destruct h; try reflexivity. congruence.
  Qed.
  Lemma control_C t : control H_C (L "#C " ++ t). Proof. apply (control_key "#C" H_C t); key_tac. Qed.

  Lemma go_C_header t w c : is_scan w = false -> me w A_comments = Some c ->
    exists o, process_C t w = (mk_w false o (peer w), Ok tt) /\ forall a, ~ In a [A_comments; A_aborted] -> o a = me w a.
  Proof.
    intros H1 H2. unfold process_C. unfold mbind at 1. unfold getA at 1. rewrite H2. unfold mbind at 1. unfold setA at 1. rewrite H1.
    assert (Q : forall o' : obj, whenScan (addH5 (key_of H_C) H_C) (mk_w false o' (peer w)) = (mk_w false o' (peer w), Ok tt)) by (intros; reflexivity).
    destruct (find (L "Scan aborted after ") t) as [[|n]|]; unfold mbind at 1; unfold ret, setA; cbn [is_scan me peer]; rewrite Q; eexists; (split; [reflexivity|]);
      intros a Ha; rewrite !upd_other; try reflexivity; intros <-; apply Ha; cbn; auto.
  Qed.
  Lemma epoch_block h {A} (ws : list A) s : good_head E h -> headers s = [] -> last_scan s = None -> scans s = [] ->
    exists s', read_block E known (join [LF] (head_lines h ++ pad ws)) s = (s', None) /\ state E h s' [] /\ specFile s' = specFile s.
  Proof.
    intros Hh H1 H2 H3. pose proof Hh as ((A1 & _) & (z & B1 & B2) & C1 & (D1 & _)). destruct (int_word _ _ B1) as [[B3 B3'] B4].
    assert (Hfree : Forall (free_of is_eol) (head_lines h)).
    { unfold head_lines. repeat (constructor; [apply free_app; [repeat constructor|]|]); try constructor; auto; [apply word_free; split; auto|destruct C1 as [[Q _] _]; exact Q]. }
    assert (Hsl : splitlines (join [LF] (head_lines h ++ pad ws)) = head_lines h).
    { apply lines_sec; [discriminate|exact Hfree|]. unfold head_lines. repeat constructor; discriminate. }
    set (block := join [LF] (head_lines h ++ pad ws)) in *.
    assert (Hfl : first_line block = Ok (L "#E " ++ hd_epoch h)) by (unfold first_line; rewrite Hsl; reflexivity).
    assert (Hep : parse_epoch block = Ok (NI z)).
    { unfold parse_epoch. rewrite Hfl. cbn [bind]. cbv zeta.
      assert (T1 : tight (hd_epoch h)) by (apply word_tight; split; auto).
      assert (T2 : tight (L "#E " ++ hd_epoch h)).
      { split; [intros c t Q; injection Q as <- _; reflexivity|]. intros c t Q. destruct (snoc_app _ _ _ _ B3 Q) as [b Hb]. eapply T1; exact Hb. }
      rewrite (strip_by_id is_space) by (apply tight_tight_by; exact T2).
      assert (F : find_c 46%N (L "#E " ++ hd_epoch h) = None).
      { apply find_c_none. destruct B1 as (sg & neg & ds & P1 & _ & P3 & P4 & _). rewrite P4. rewrite Forall_forall in P3. intros Q.
        apply in_app_or in Q. destruct Q as [Q|Q]; [cbn in Q; intuition discriminate|]. apply in_app_or in Q. destruct Q as [Q|Q].
        - destruct P1 as [[P1 _]|[[P1 _]|[P1 _]]]; rewrite P1 in Q; cbn in Q; intuition discriminate.
        - destruct (P3 _ Q) as [P _]. cbv in P. congruence. }
      rewrite F. change (L "#E " ++ hd_epoch h) with (L "#E" ++ SP :: hd_epoch h). rewrite strip_key by (first [key_tac|exact T1]).
      assert (P : py_int (hd_epoch h) = Ok z) by (apply py_int_text; exact B1). rewrite P. reflexivity. }
    inversion_clear Hfree as [|? ? F1 F']. inversion_clear F' as [|? ? F2 F'']. inversion_clear F'' as [|? ? F3 _].
    assert (Hih : exists o, interpret_header E known block (mk_w false (upd A_epoch (NI z) header_init) (latest s)) = (mk_w false o (latest s), Ok tt) /\
       o A_date = Some (hd_date h) /\ o A_epoch = Some (NI z)).
    { unfold interpret_header. rewrite Hsl. unfold head_lines. cbn [iterM].
      unfold mbind at 1. unfold mbind at 1.
      assert (Q1 : forall w, header_line E known (L "#E " ++ hd_epoch h) w = (w, Ok tt)).
      { intros w. unfold header_line. change (L "#E " ++ hd_epoch h) with (key_of H_E ++ SP :: hd_epoch h). unfold mbind, lift. rewrite (key_blank_dispatch known H_E _ Hk) by (cbn; auto). reflexivity. }
      rewrite Q1. unfold mbind at 1. rewrite (header_h H_D _ _ (control_D _)) by (first [reflexivity|discriminate|apply free_lf; exact F2]).
      change (process E H_D ?l ?w) with (process_D E l w). rewrite (go_D_header E _ _ (NI z)) by (first [reflexivity|exact C1]). cbn [is_scan me peer].
      unfold mbind at 1. rewrite (header_h H_C _ _ (control_C _)) by (first [reflexivity|discriminate|apply free_lf; exact F3]).
      change (process E H_C ?l ?w) with (process_C l w). 
      set (w0 := mk_w _ _ _).
      destruct (go_C_header (L "#C " ++ hd_comment h) w0 []) as (o & O1 & O2); [reflexivity|unfold w0; cbn [me]; rewrite !upd_other by discriminate; reflexivity|].
      rewrite O1. unfold run_posts, mbind, ret, getA. cbn [me].
      assert (O3 : o A_posts = Some []). { rewrite O2 by (cbn; intros [Q|[Q|[]]]; discriminate). unfold w0. cbn [me]. rewrite !upd_other by discriminate. reflexivity. }
      rewrite O3. exists o. split; [reflexivity|]. split; (rewrite O2 by (cbn; intros [Q|[Q|[]]]; discriminate)); unfold w0; cbn [me]; [apply upd_same|]. rewrite upd_other by discriminate. apply upd_same. }
    destruct Hih as (o & O1 & O2 & O3).
    exists (set_headers [mk_header block o] s). split; [|split; [|reflexivity]].
    - unfold read_block. rewrite Hfl. cbn [bind]. change (L "#E " ++ hd_epoch h) with (key_of H_E ++ SP :: hd_epoch h).
      rewrite (key_blank_dispatch known H_E _ Hk) by (cbn; auto). unfold process_epoch. rewrite H1. cbn [existsb]. rewrite Hep, O1. cbn [me app].
      destruct block; [discriminate Hsl|reflexivity].
    - constructor; cbn [headers last_scan scans set_headers]; [|exact H2|rewrite H3; constructor]. exists (mk_header block o), (NI z). split; [reflexivity|]. split; [exact O2|]. split; [exact O3|exact B2].
  Qed.

  Definition header_ok (h : head) (s : sdf) : Prop :=
    exists H e, headers s = [H] /\ h_obj H A_date = Some (hd_date h) /\ h_obj H A_epoch = Some e /\ good_epoch E e.

  (** opening the file *)
  Lemma open_go h ws valss name m z : good_head E h -> Forall2 (good_scan E) ws valss -> NoDup (map w_num ws) ->
    exists s, open_file E known name (File (Some (file_text h ws)) m z) = Ok s /\ header_ok h s /\ Forall2 (entry E) (scans s) ws.
  Proof.
    intros Hh Hw Hn. unfold open_file. cbn [exists_p negb].
    assert (H1 : is_spec_file (File (Some (file_text h ws)) m z) = true).
    { unfold is_spec_file. cbn [exists_p isfile negb orb]. pose proof (is_header _ _ _ Hh Hw) as Q. apply (header_test _ m z) in Q. rewrite Q. reflexivity. }
    rewrite H1. cbn [negb]. unfold read. rewrite (file_sections h ws valss m z Hh Hw). cbn [map read_blocks].
    assert (HF : free_of is_eol (L "#F " ++ hd_file h)). { destruct Hh as ((Q & _) & _). apply free_app; [repeat constructor|exact Q]. }
    assert (H2 : read_block E known (join [LF] [L "#F " ++ hd_file h]) (sdf_init name) = (process_file (L "#F " ++ hd_file h) (sdf_init name), None)).
    { unfold read_block. assert (Q : first_line (join [LF] [L "#F " ++ hd_file h]) = Ok (L "#F " ++ hd_file h)) by (apply first_line_sec; [discriminate|exact HF]).
      rewrite Q. cbn [bind]. change (L "#F " ++ hd_file h) with (key_of H_F ++ SP :: hd_file h). rewrite (key_blank_dispatch known H_F _ Hk) by (cbn; auto).
      rewrite join_cons, app_nil_r. reflexivity. }
    rewrite H2. clear H2. set (s0 := process_file _ _).
    destruct (epoch_block h ws s0 Hh) as (s1 & R1 & R2 & R3); [reflexivity|reflexivity|reflexivity|]. rewrite R1.
    destruct (scans_step E known Hk h ws) with (valss := valss) (done := @nil SpecRound.written) (s := s1) as (s2 & T1 & T2 & T3); [apply Hh|exact R2|exact Hw|exact Hn|].
    rewrite T1. cbn [app] in T2. destruct T2 as [T4 T5 T6].
    set (s3 := match specFile s2 with None => _ | Some _ => s2 end).
    assert (E3 : headers s3 = headers s2 /\ scans s3 = scans s2) by (unfold s3; destruct (specFile s2); auto). destruct E3 as [E3 E4].
    assert (H3 : exists k, getLastScanNumber s3 = Ok k).
    { unfold getLastScanNumber, getScanNumbersChronological. rewrite E4.
      destruct (mapM_total_list (fun sc => do d <- date_of sc; strptime d) (values (scans s2))) as [ts Ht].
      - clear - T6 Hw. revert valss Hw. induction T6 as [|kv w l ws He H IH]; intros valss Hw; [constructor|]. inversion Hw as [|? vals ? valss' G1 G2]; subst. cbn [values map]. constructor; [|eapply IH; exact G2].
        destruct G1 as (_ & _ & _ & _ & (_ & t & e & G1 & _) & _). unfold date_of. rewrite (e_date _ _ _ He). cbn [of_opt bind]. eauto.
      - rewrite Ht. cbn [bind]. eauto. }
    destruct H3 as [k H3]. rewrite H3. cbn [stat]. eexists. split; [reflexivity|]. cbn [set_stat set_last]. split.
    - unfold header_ok. cbn [headers set_stat set_last]. rewrite E3. exact T4.
    - cbn [scans set_stat set_last]. rewrite E4. exact T6.
  Qed.

  (** ** interpretation *)
  Definition finished (kv : str * scan) (wv : SpecRound.written * list (list fl)) : Prop :=
    let '(w, vals) := wv in
    fst kv = w_num w /\ s_num (snd kv) = w_num w /\ s_cmd (snd kv) = w_cmd w /\ s_lazy (snd kv) = false /\ s_done (snd kv) = true /\
    attr_is (snd kv) A_date (w_date w) /\ (w_rows w <> [] -> read_back (snd kv) w vals) /\
    (w_rows w = [] -> attr_is (snd kv) A_L (w_labels w) /\ attr_is (snd kv) A_data []).
  Definition stored (kv : str * scan) (wv : SpecRound.written * list (list fl)) : Prop := entry E kv (fst wv) \/ finished kv wv.

  Lemma F2_dset {V B} (R : str * V -> B -> Prop) (d : dict V) l name x y : Forall2 R d l -> dget name d = Some x -> (forall w, R (name, x) w -> R (name, y) w) ->
    Forall2 R (dset name y d) l.
  Proof.
    intros H Hg Hr. induction H as [|[k v] w d l Hw H IH]; [discriminate|]. cbn [dset dget] in *. destruct (seqb name k) eqn:Ek.
    - apply seqb_eq in Ek. subst k. injection Hg as ->. constructor; auto.
    - constructor; auto.
  Qed.
  Lemma F2_find {V B} (R : str * V -> B -> Prop) (d : dict V) l name x : Forall2 R d l -> dget name d = Some x -> exists w, In w l /\ R (name, x) w.
  Proof.
    intros H Hg. induction H as [|[k v] w d l Hw H IH]; [discriminate|]. cbn [dget] in Hg. destruct (seqb name k) eqn:Ek.
    - apply seqb_eq in Ek. subst k. injection Hg as ->. exists w. split; [left; reflexivity|exact Hw].
    - destruct (IH Hg) as (w' & I1 & I2). exists w'. split; [right; exact I1|exact I2].
  Qed.

  Definition J (h : head) (wvs : list (SpecRound.written * list (list fl))) (s : sdf) : Prop :=
    history E known s /\ header_ok h s /\ Forall2 stored (scans s) wvs.
  Lemma section_controls w vals : good_scan E w vals ->
    last_line_of H_N (section_lines w) (L "#N " ++ w_ncols w) /\ last_line_of H_L (section_lines w) (L "#L " ++ join [SP; SP] (w_labels w)) /\
    Keeps data_line_of (section_lines w) (map (join [SP]) (w_rows w)).
  Proof.
    intros Hg. pose proof (section_free E w vals Hg) as Hf. destruct Hg as (_ & _ & _ & _ & _ & GT).
    assert (Hlf : forall l, In l (section_lines w) -> ~ In LF l). { rewrite Forall_forall in Hf. intros l Hl. apply free_lf. apply Hf. exact Hl. }
    assert (U : forall l h h', In l (section_lines w) -> control h l -> h <> h' -> ~ control h' l). { intros l h1 h2 Hl C1 Hn C2. apply Hn. eapply control_unique; eauto. }
    assert (Hr : forall l, In l (map (join [SP]) (w_rows w)) -> In l (section_lines w) /\ control H_data l).
    { intros l Hl. split; [unfold section_lines, table_lines; apply in_or_app; right; apply in_or_app; right; exact Hl|eapply row_line; eauto]. }
    assert (CS : control H_S (L "#S " ++ w_num w ++ L "  " ++ w_cmd w)) by (apply (control_key "#S" H_S (w_num w ++ L "  " ++ w_cmd w)); key_tac).
    unfold section_lines, table_lines in *. cbn [app] in *. split; [|split].
    - exists [L "#S " ++ w_num w ++ L "  " ++ w_cmd w; L "#D " ++ w_date w], ((L "#L " ++ join [SP; SP] (w_labels w)) :: map (join [SP]) (w_rows w)).
      split; [reflexivity|]. split; [apply control_N|]. constructor; [apply (U _ H_L); [right; right; right; left; reflexivity|apply control_L|discriminate]|].
      apply Forall_forall. intros l Hl. destruct (Hr l Hl) as [R1 R2]. apply (U _ H_data); [exact R1|exact R2|discriminate].
    - exists [L "#S " ++ w_num w ++ L "  " ++ w_cmd w; L "#D " ++ w_date w; L "#N " ++ w_ncols w], (map (join [SP]) (w_rows w)).
      split; [reflexivity|]. split; [apply control_L|]. apply Forall_forall. intros l Hl. destruct (Hr l Hl) as [R1 R2]. apply (U _ H_data); [exact R1|exact R2|discriminate].
    - assert (V : forall l h0, In l ((L "#S " ++ w_num w ++ L "  " ++ w_cmd w) :: (L "#D " ++ w_date w) :: (L "#N " ++ w_ncols w) :: (L "#L " ++ join [SP; SP] (w_labels w)) :: map (join [SP]) (w_rows w)) ->
        control h0 l -> h0 <> H_data -> h0 <> H_atA -> ~ data_line_of l). { intros l h0 Hl C N1 N2 [Q|Q]; revert Q; apply (U l h0); auto. }
      apply Keeps_no; [apply (V _ H_S); [left; reflexivity|exact CS|discriminate|discriminate]|].
      apply Keeps_no; [apply (V _ H_D); [right; left; reflexivity|apply control_D|discriminate|discriminate]|].
      apply Keeps_no; [apply (V _ H_N); [right; right; left; reflexivity|apply control_N|discriminate|discriminate]|].
      apply Keeps_no; [apply (V _ H_L); [right; right; right; left; reflexivity|apply control_L|discriminate|discriminate]|].
      apply Keeps_all. apply Forall_forall. intros l Hl. left. apply Hr. exact Hl.
  Qed.
  Lemma dset_dset {V} k (a b : V) d : dset k b (dset k a d) = dset k b d.
  Proof. induction d as [|[k' v] d IH]; cbn [dset]; [rewrite seqb_refl; reflexivity|]. destruct (seqb k k') eqn:Ek; cbn [dset]; rewrite Ek; [reflexivity|]. rewrite IH. reflexivity. Qed.

  Lemma entry_go h s name sc w vals : good_head E h -> good_scan E w vals -> history E known s -> header_ok h s -> dget name (scans s) = Some sc -> entry E (name, sc) w ->
    exists s' sc', interpret E known name s = (s', None) /\ header_ok h s' /\ scans s' = dset name sc' (scans s) /\ finished (name, sc') (w, vals).
  Proof.
    intros Hh Hg Hist (H & e & T1 & T2 & T3 & T4) Hget [E1 E2 E3 E4 E5 E6 E7 E8 [h5 E9] E10 E11 E13 [e1 [E12 E12']]]. cbn [fst snd] in *.
    assert (R : ready E (mk_w true (s_obj sc) (Some (h_obj H))) (h_obj H) (hd_date h) e h5).
    { constructor; cbn [is_scan me peer]; auto; [|right; exists e1; split; [exact E12|exact E12']].
      destruct Hh as (_ & _ & (_ & Q1 & Q2) & _). rewrite (strip_by_id is_space) by (apply tight_tight_by; exact Q1). intros Z. rewrite Z in Q2. destruct Q2. }
    destruct (section_go E known Hk _ w vals _ _ _ _ Hg R) as (w1 & S1 & S2 & S3 & S4).
    assert (Hi : exists s' sc', interpret E known name s = (s', None) /\ headers s' = [mk_header (h_raw H) (h_obj H)] /\ scans s' = dset name sc' (scans s) /\ dget name (scans s') = Some sc' /\
       s_num sc' = s_num sc /\ s_cmd sc' = s_cmd sc /\ s_lazy sc' = false /\ s_done sc' = true /\ s_obj sc' = me w1).
    { unfold interpret. rewrite Hget, E5. cbv zeta. unfold run_on_scan. cbn [with_flags s_raw s_obj s_hdr]. rewrite E6, T1. cbn [nth_error option_map].
      unfold interpret_scan. apply lines_of_scan_lines in E7. rewrite <- E7. rewrite S1. rewrite S2. eexists. eexists. split; [reflexivity|].
      cbn [headers scans set_scans set_headers set_nth]. split; [reflexivity|]. rewrite dset_dset. split; [reflexivity|]. split; [apply dget_dset_same|]. repeat split; reflexivity. }
    destruct Hi as (s' & sc' & I1 & I2 & I3 & I4 & I5 & I6 & I7 & I8 & I9). exists s', sc'. split; [exact I1|]. split; [|split; [exact I3|]].
    - exists (mk_header (h_raw H) (h_obj H)), e. split; [exact I2|]. split; [exact T2|]. split; [exact T3|exact T4].
    - unfold finished. cbn [fst snd]. split; [exact E1|]. split; [congruence|]. split; [congruence|]. split; [exact I7|]. split; [exact I8|].
      split; [unfold attr_is; rewrite I9; exact S3|]. split.
      + intros Hr. destruct (section_controls w vals Hg) as (C1 & C2 & C3). eapply (table_lemma E known Hk s name sc s' sc'); [|exact E7|apply Hg|exact Hr|exact C1|exact C2|exact C3].
        split; [exact Hist|]. split; [exact Hget|]. split; [exact E4|]. split; [exact I1|exact I4].
      + intros Hr. unfold attr_is. rewrite I9. apply S4. exact Hr.
  Qed.
  Lemma hist_fst s name : history E known s -> history E known (fst (interpret E known name s)). Proof. apply Hist_interpret. Qed.

  Lemma interpret_go h wvs s name : good_head E h -> Forall (fun wv => good_scan E (fst wv) (snd wv)) wvs -> J h wvs s ->
    J h wvs (fst (interpret E known name s)) /\
    forall wv sc, dget name (scans s) = Some sc -> stored (name, sc) wv -> In wv wvs -> 
      snd (interpret E known name s) = None /\ exists sc', dget name (scans (fst (interpret E known name s))) = Some sc' /\ finished (name, sc') wv.
  Proof.
    intros Hh Hg (J1 & J2 & J3). rewrite Forall_forall in Hg. destruct (dget name (scans s)) as [sc|] eqn:Hget.
    2: { assert (Q : interpret E known name s = (s, Some KeyError)) by (unfold interpret; rewrite Hget; reflexivity). rewrite Q. split; [split; [exact J1|split; [exact J2|exact J3]]|]. intros wv sc Z. discriminate. }
    destruct (F2_find _ _ _ _ _ J3 Hget) as (wv & W1 & [W2|W2]).
    - destruct wv as [w vals]. cbn [fst snd] in *. destruct (entry_go h s name sc w vals Hh (Hg _ W1) J1 J2 Hget W2) as (s' & sc' & I1 & I2 & I3 & I4).
      assert (F : forall wv', In wv' wvs -> stored (name, sc) wv' -> finished (name, sc') wv').
      { intros [w' vals'] M1 [M2|M2].
        - cbn [fst snd] in *. destruct (entry_go h s name sc w' vals' Hh (Hg _ M1) J1 J2 Hget M2) as (s2 & sc2 & K1 & K2 & K3 & K4). rewrite I1 in K1. injection K1 as <-.
          assert (sc2 = sc') as ->; [|exact K4]. assert (Q : dget name (scans s') = Some sc2) by (rewrite K3; apply dget_dset_same). rewrite I3, dget_dset_same in Q. apply Some_inj in Q. symmetry. exact Q.
        - exfalso. destruct M2 as (_ & _ & _ & _ & M2 & _). cbn [snd] in M2. pose proof (e_done _ _ _ W2) as M3. cbn [snd] in M3. congruence. }
      pose proof (hist_fst s name J1) as HH. rewrite I1 in *. cbn [fst snd] in *. split; [split; [exact HH|split; [exact I2|]]|].
      + rewrite I3. clear - J3 Hget F. 
        assert (G : forall l, incl l wvs -> forall d, Forall2 stored d l -> dget name d = Some sc -> Forall2 stored (dset name sc' d) l).
        { intros l Hl d HF Hd. induction HF as [|[k v] w d l Hw HF IH]; [discriminate|]. cbn [dset dget] in *. destruct (seqb name k) eqn:Ek.
          - apply seqb_eq in Ek. subst k. apply Some_inj in Hd. subst v. constructor; [|exact HF]. right. apply F; [apply Hl; left; reflexivity|exact Hw].
          - constructor; [exact Hw|]. apply IH; [intros x Hx; apply Hl; right; exact Hx|exact Hd]. }
        apply G; [apply incl_refl|exact J3|exact Hget].
      + intros wv' sc0 Z M1 M2. apply Some_inj in Z. subst sc0. split; [reflexivity|]. exists sc'. rewrite I3, dget_dset_same. split; [reflexivity|]. apply F; [exact M2|exact M1].
    - assert (Q : interpret E known name s = (s, None)). { unfold interpret. rewrite Hget. destruct wv as [w vals]. destruct W2 as (_ & _ & _ & _ & W2 & _). cbn [snd] in W2. rewrite W2. reflexivity. }
      rewrite Q. cbn [fst snd]. split; [split; [exact J1|split; [exact J2|exact J3]]|]. intros wv' sc0 Z M1 M2. apply Some_inj in Z. subst sc0. split; [reflexivity|]. exists sc. split; [exact Hget|].
      destruct M1 as [M1|M1]; [|exact M1]. exfalso. destruct wv as [w vals]. destruct W2 as (_ & _ & _ & _ & W2 & _). pose proof (e_done _ _ _ M1) as M3. cbn [snd] in *. congruence.
  Qed.
  Lemma uses_go h wvs s s' : good_head E h -> Forall (fun wv => good_scan E (fst wv) (snd wv)) wvs -> uses E known s s' -> J h wvs s -> J h wvs s'.
  Proof.
    intros Hh Hg Hu Hj. induction Hu as [s|name s s' _ IH|nm a name s s' _ IH]; [exact Hj| |]; specialize (IH Hj).
    - apply (interpret_go h wvs s' name Hh Hg IH).
    - pose proof (Hist_attr E known nm a name s' (proj1 IH)) as HH. destruct (interpret_go h wvs s' name Hh Hg IH) as [(_ & I2 & I3) _]. destruct IH as (J1 & J2 & J3).
      unfold get_attr in *. destruct (dget name (scans s')) as [sc|]; [|split; [exact J1|split; [exact J2|exact J3]]].
      destruct (_ && _).
      + destruct (interpret E known name s') as [s1 [ex|]]; cbn [fst] in *; [split; [exact HH|split; [exact I2|exact I3]]|].
        destruct (dget name (scans s1)) as [sc1|]; cbn [fst] in *; (split; [exact HH|split; [exact I2|exact I3]]).
      + destruct (dget name (scans s')) as [sc1|]; cbn [fst] in *; (split; [exact J1|split; [exact J2|exact J3]]).
  Qed.

  (** the round trip *)
  Lemma round_lemma h ws valss name m z : good_head E h -> Forall2 (good_scan E) ws valss -> NoDup (map w_num ws) ->
    exists s, open_file E known name (File (Some (file_text h ws)) m z) = Ok s /\ keys (scans s) = map w_num ws /\
      forall s1, uses E known s s1 -> forall i w vals, nth_error ws i = Some w -> nth_error valss i = Some vals ->
      exists s2 sc, interpret E known (w_num w) s1 = (s2, None) /\ dget (w_num w) (scans s2) = Some sc /\ s_num sc = w_num w /\ s_cmd sc = w_cmd w /\
        attr_is sc A_date (w_date w) /\ (w_rows w <> [] -> read_back sc w vals) /\ (w_rows w = [] -> attr_is sc A_L (w_labels w) /\ attr_is sc A_data []).
  Proof.
    intros Hh Hw Hn. destruct (open_go h ws valss name m z Hh Hw Hn) as (s & O1 & O2 & O3). exists s. split; [exact O1|]. split.
    { clear - O3. unfold keys. induction O3 as [|kv w l ws He H IH]; [reflexivity|]. cbn [map]. rewrite IH, (e_key _ _ _ He). reflexivity. }
    intros s1 Hu i w vals N1 N2.
    assert (HG : Forall (fun wv => good_scan E (fst wv) (snd wv)) (combine ws valss)).
    { clear - Hw. induction Hw; cbn [combine]; constructor; auto. }
    assert (HJ : J h (combine ws valss) s).
    { split; [eapply ExampleFacts.open_history; exact O1|]. split; [exact O2|]. clear - O3 Hw. revert valss Hw. induction O3 as [|kv w l ws He H IH]; intros valss Hw; inversion Hw; subst; cbn [combine]; constructor; auto. left. exact He. }
    pose proof (uses_go h _ s s1 Hh HG Hu HJ) as (J1 & J2 & J3).
    assert (Hin : In (w, vals) (combine ws valss)).
    { clear - N1 N2. revert ws valss N1 N2. induction i as [|i IH]; intros [|a ws] [|b vs] N1 N2; try discriminate; cbn [combine nth_error] in *; [left; congruence|right; apply IH; auto]. }
    assert (Hnd : NoDup (map (fun wv => w_num (fst wv)) (combine ws valss))).
    { replace (map (fun wv : SpecRound.written * list (list fl) => w_num (fst wv)) (combine ws valss)) with (map w_num ws); [exact Hn|]. clear - Hw. induction Hw; cbn [combine map fst]; [reflexivity|]. rewrite IHHw. reflexivity. }
    assert (Hget : exists sc, dget (w_num w) (scans s1) = Some sc /\ stored (w_num w, sc) (w, vals)).
    { clear - J3 Hin Hnd. revert Hin Hnd. revert J3. generalize (scans s1) as d. generalize (combine ws valss) as l. intros l d HF Hin Hnd.
      induction HF as [|[k v] wv d l Hs HF IH]; [destruct Hin|]. cbn [map] in Hnd. inversion_clear Hnd as [|? ? N1 N2].
      assert (Hkey : k = w_num (fst wv)). { destruct Hs as [Hs|Hs]; [exact (e_key _ _ _ Hs)|]. destruct wv as [w0 v0]. destruct Hs as [Hs _]. exact Hs. }
      cbn [dget]. destruct (seqb (w_num w) k) eqn:Ek.
      - apply seqb_eq in Ek. exists v. split; [reflexivity|]. rewrite Ek. destruct Hin as [->|Hin]; [exact Hs|]. exfalso. apply N1. rewrite <- Hkey, <- Ek. apply in_map_iff. exists (w, vals). split; [reflexivity|exact Hin].
      - destruct Hin as [->|Hin]; [exfalso; cbn [fst] in Hkey; rewrite Hkey, seqb_refl in Ek; discriminate|]. apply IH; [exact Hin|exact N2]. }
    destruct Hget as (sc & G1 & G2). destruct (interpret_go h _ s1 (w_num w) Hh HG (conj J1 (conj J2 J3))) as [_ I]. destruct (I _ _ G1 G2 Hin) as (I1 & sc' & I2 & I3).
    destruct (interpret E known (w_num w) s1) as [s2 r] eqn:Ei. cbn [fst snd] in *. subst r. exists s2, sc'. split; [reflexivity|]. split; [exact I2|].
    destruct I3 as (_ & P1 & P2 & _ & _ & P3 & P4 & P5). cbn [snd] in *. auto.
  Qed.
End Open.
