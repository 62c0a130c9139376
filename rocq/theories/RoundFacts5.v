(** C26: reading a file written by SPEC (for PropRound.v). *)
From Coq Require Import String Lia.
From Verif Require Import Uni Py PyFacts NumFacts Time Utils UtilsFacts Keys Handlers Geom Reader SpecText SpecUtils SpecReader SpecNum SpecHistory SpecKeys SpecInterp SpecData SpecDecimal SpecRound
  TextFacts KeyFacts ReaderFacts ReaderFacts2 ReaderFacts4 FrameFacts StateFacts DispatchFacts InterpFacts MonadFacts HandlerFacts DecimalFacts DataFacts DataFacts2 LastFacts ReaderFacts5 ReaderFacts7 UseFacts RoundFacts RoundFacts2 RoundFacts3 RoundFacts4.
Import ListNotations.
Local Open Scope nat_scope.
Local Open Scope list_scope.

Lemma dset_tail {V} k (x v : V) d : ~ In k (keys d) -> dset k v (d ++ [(k, x)]) = d ++ [(k, v)].
Proof.
  induction d as [|[k0 v0] d IH]; intros H; cbn [app dset].
  - rewrite seqb_refl. reflexivity.
  - destruct (seqb k k0) eqn:Ek; [exfalso; apply H; left; cbn; symmetry; apply seqb_eq; exact Ek|]. rewrite IH; [reflexivity|]. intros Q. apply H. right. exact Q.
Qed.
Section Read.
  Context (E : env) (known : list hid) (Hk : incl all_hids known).

  Record entry (kv : str * scan) (w : SpecRound.written) : Prop := {
    e_key : fst kv = w_num w; e_num : s_num (snd kv) = w_num w; e_cmd : s_cmd (snd kv) = w_cmd w; e_lazy : s_lazy (snd kv) = true; e_done : s_done (snd kv) = false;
    e_hdr : s_hdr (snd kv) = 0; e_lines : lines_of (s_raw (snd kv)) (section_lines w); e_date : s_obj (snd kv) A_date = Some (w_date w);
    e_h5 : exists h5, s_obj (snd kv) A_h5 = Some h5; e_posts : s_obj (snd kv) A_posts = Some []; e_data : s_obj (snd kv) A_data_lines = Some [];
    e_table : s_obj (snd kv) A_data = Some [];
    e_epoch : exists e, s_obj (snd kv) A_epoch = Some e /\ good_epoch E e }.
  Record state (h : head) (s : sdf) (ws : list SpecRound.written) : Prop := {
    t_header : exists H e, headers s = [H] /\ h_obj H A_date = Some (hd_date h) /\ h_obj H A_epoch = Some e /\ good_epoch E e;
    t_last : last_scan s = None;
    t_scans : Forall2 entry (scans s) ws }.

  Lemma S_line w vals : good_scan E w vals ->
    let l := L "#S " ++ w_num w ++ L "  " ++ w_cmd w in
    strip l = l /\ words (strip_first_word l) = w_num w :: words (w_cmd w) /\ strip_first_word (strip_first_word l) = w_cmd w.
  Proof.
    intros ([S1 S1'] & S2 & S3 & S4 & _). cbv zeta.
    assert (T0 : tight (w_num w ++ L "  " ++ w_cmd w)).
    { split.
      - intros c t Q. destruct (w_num w) as [|x n]; [congruence|]. injection Q as <- _. inversion S1'; auto.
      - intros c t Q. rewrite app_assoc in Q. destruct (snoc_app _ _ _ _ S3 Q) as [b Hb]. apply S4 in Hb. exact Hb. }
    assert (Hsp : ~ In SP (w_num w)). { intros Q. rewrite Forall_forall in S1'. specialize (S1' _ Q). discriminate. }
    assert (F : strip_first_word (L "#S " ++ w_num w ++ L "  " ++ w_cmd w) = w_num w ++ L "  " ++ w_cmd w).
    { change (L "#S " ++ w_num w ++ L "  " ++ w_cmd w) with (L "#S" ++ SP :: (w_num w ++ L "  " ++ w_cmd w)). apply strip_key; [key_tac|exact T0]. }
    split; [|rewrite F; split].
    - assert (T1 : tight (L "#S " ++ w_num w ++ L "  " ++ w_cmd w)).
      { split; [intros c t Q; injection Q as <- _; reflexivity|]. intros c t Q.
        destruct (snoc_app (L "#S ") (w_num w ++ L "  " ++ w_cmd w) c t) as [b Hb]; [destruct (w_num w); [congruence|discriminate]|exact Q|]. destruct T0 as [_ T0]. eapply T0. exact Hb. }
      apply strip_by_id. apply tight_tight_by. exact T1.
    - change (w_num w ++ L "  " ++ w_cmd w) with (w_num w ++ SP :: SP :: w_cmd w). rewrite words_word_space; [f_equal; exact (words_app_space [] SP (w_cmd w) eq_refl)|exact S1|apply nospace_Forall; exact S1'|reflexivity].
    - pose proof (C39_lemma (w_num w) [SP] (w_cmd w) [] Hsp ltac:(repeat constructor) S4 (Forall_nil _)) as Q. rewrite app_nil_r in Q. exact Q.
  Qed.
  Lemma has_new (s : sdf) ws n : Forall2 entry (scans s) ws -> ~ In n (map w_num ws) -> has n (scans s) = false.
  Proof.
    intros H Hn. apply has_not_In. intros Q. apply Hn. clear Hn. unfold keys in Q. induction H as [|kv w l ws He H IH]; [destruct Q|]. destruct Q as [Q|Q]; [left|right; auto].
    rewrite <- Q. symmetry. apply (e_key _ _ He).
  Qed.

  (** one scan *)
  Lemma scan_step h s ws w vals (rest : list SpecRound.written) : state h s ws -> date_text (hd_date h) -> good_scan E w vals -> ~ In (w_num w) (map w_num ws) ->
    exists s', read_block E known (join [LF] (section_lines w ++ pad rest)) s = (s', None) /\ state h s' (ws ++ [w]) /\ specFile s' = specFile s.
  Proof.
    intros [(H & e & T1 & T2 & T3 & T4) T5 T6] Hhd Hg Hnew. pose proof (section_free E w vals Hg) as Hfree. destruct (section_closed E w vals Hg) as [Hcl Hne].
    destruct (S_line w vals Hg) as (A1 & A2 & A3). pose proof Hg as (_ & _ & _ & _ & S5 & _).
    assert (Hlines : lines_of (join [LF] (section_lines w ++ pad rest)) (section_lines w)) by (apply lines_of_sec; auto; discriminate).
    assert (Hsl : splitlines (join [LF] (section_lines w ++ pad rest)) = section_lines w) by (apply lines_sec; auto; discriminate).
    set (block := join [LF] (section_lines w ++ pad rest)) in *.
    set (l := L "#S " ++ w_num w ++ L "  " ++ w_cmd w) in *.
    assert (Hfl : first_line block = Ok l) by (unfold first_line; rewrite Hsl; reflexivity).
    assert (Hst : store_scan block 0 s = (set_scans (scans s ++ [(w_num w, mk_scan block (strip_first_word l) (w_num w) (w_cmd w) 0 (scan_init (fileName s)) true false)]) s, None)).
    { unfold store_scan. rewrite Hfl, A1, A2, index_0. rewrite (has_new s ws _ T6 Hnew). rewrite (has_new s ws _ T6 Hnew). rewrite A3. rewrite dset_fresh; [reflexivity|]. apply has_not_In. eapply has_new; eauto. }
    assert (Hps : process_scan block s = (set_scans (scans s ++ [(w_num w, mk_scan block (strip_first_word l) (w_num w) (w_cmd w) 0 (scan_init (fileName s)) true false)]) s, None)).
    { unfold process_scan. cbv zeta. rewrite T1, T5. cbv iota. rewrite T1. cbn [List.length Nat.sub]. exact Hst. }
    assert (Hrb : read_block E known block s = date_scan E (set_scans (scans s ++ [(w_num w, mk_scan block (strip_first_word l) (w_num w) (w_cmd w) 0 (scan_init (fileName s)) true false)]) s)).
    { unfold read_block. rewrite Hfl. cbn [bind]. change l with (key_of H_S ++ SP :: (w_num w ++ L "  " ++ w_cmd w)) at 1.
      rewrite (key_blank_dispatch known H_S _ Hk) by (cbn; auto). rewrite Hps. destruct block; [discriminate Hsl|reflexivity]. }
    rewrite Hrb. clear Hrb Hps Hst. unfold date_scan. cbn [scans set_scans]. rewrite rev_app_distr. cbn [rev app s_raw]. rewrite Hsl. unfold section_lines. cbn [app tl find_D].
    assert (Hw : words (L "#D " ++ w_date w) = L "#D" :: words (w_date w)).
    { change (L "#D " ++ w_date w) with (L "#D" ++ SP :: w_date w). apply words_word_space; [discriminate|reflexivity|reflexivity]. }
    change (L "#D " ++ w_date w) with (35%N :: (68%N :: SP :: w_date w)) at 1. cbv iota. change (35%N :: 68%N :: SP :: w_date w) with (L "#D " ++ w_date w). rewrite Hw, index_0. cbn [bind].
    rewrite seqb_refl. cbv iota.
    set (sc := mk_scan block _ _ _ _ _ _ _).
    unfold run_on_scan. cbn [headers set_scans]. change (s_hdr sc) with 0. rewrite T1. cbn [nth_error option_map].
    destruct (go_D E (w_date w) (mk_w true (s_obj sc) (Some (h_obj H))) [] (h_obj H) (hd_date h) e) as (w1 & h5' & e1 & D1 & D2 & D3 & D4 & D5 & D6 & D7 & D8).
    - reflexivity.
    - exact S5.
    - reflexivity.
    - reflexivity.
    - exact T2.
    - destruct Hhd as (_ & Q1 & Q2). rewrite (strip_by_id is_space) by (apply tight_tight_by; exact Q1). intros Z. rewrite Z in Q2. destruct Q2.
    - exact T3.
    - exact T4.
    - left. reflexivity.
    - rewrite D1. eexists. split; [reflexivity|]. split; [|reflexivity]. constructor; cbn [headers scans set_scans set_headers last_scan].
      + rewrite D3. cbn [set_nth]. exists (mk_header (h_raw H) (h_obj H)), e. split; [reflexivity|]. split; [exact T2|]. split; [exact T3|exact T4].
      + exact T5.
      + assert (Q : dset (w_num w) (with_obj (me w1) sc) (scans s ++ [(w_num w, sc)]) = scans s ++ [(w_num w, with_obj (me w1) sc)]).
        { apply dset_tail. apply has_not_In. eapply has_new; eauto. }
        rewrite Q. apply Forall2_app; [exact T6|]. constructor; [|constructor]. constructor; cbn [fst snd with_obj s_num s_cmd s_lazy s_done s_hdr s_raw s_obj]; try reflexivity.
        * exact Hlines.
        * exact D4.
        * exists h5'. exact D5.
        * rewrite D8; [reflexivity|]. cbn. intros [Z|[Z|[Z|[]]]]; discriminate.
        * rewrite D8; [reflexivity|]. cbn. intros [Z|[Z|[Z|[]]]]; discriminate.
        * rewrite D8; [reflexivity|]. cbn. intros [Z|[Z|[Z|[]]]]; discriminate.
        * exists e1. split; [exact D6|exact D7].
  Qed.
  Lemma scans_step h ws : date_text (hd_date h) -> forall valss done s, state h s done -> Forall2 (good_scan E) ws valss -> NoDup (map w_num (done ++ ws)) ->
    exists s', read_blocks E known (map (join [LF]) (sections ws)) s = (s', None) /\ state h s' (done ++ ws) /\ specFile s' = specFile s.
  Proof.
    intros Hhd. induction ws as [|w ws IH]; intros valss done s Hs Hg Hn.
    - exists s. rewrite app_nil_r. split; [reflexivity|]. split; [exact Hs|reflexivity].
    - inversion Hg as [|? vals ? valss' G1 G2]; subst. cbn [sections map read_blocks].
      destruct (scan_step h s done w vals ws Hs Hhd G1) as (s1 & R1 & R2 & R3).
      { rewrite map_app in Hn. cbn [map] in Hn. apply NoDup_remove_2 in Hn. intros Q. apply Hn. apply in_or_app. left. exact Q. }
      rewrite R1. destruct (IH valss' (done ++ [w]) s1 R2 G2) as (s' & I1 & I2 & I3); [rewrite <- app_assoc; exact Hn|].
      exists s'. split; [exact I1|]. rewrite <- app_assoc in I2. split; [exact I2|]. rewrite I3. exact R3.
  Qed.
End Read.
