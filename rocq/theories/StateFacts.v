(** What every scan object is, in every state that can be reached. *)
From Coq Require Import String Lia.
From Verif Require Import Uni Py PyFacts NumFacts Time Utils Keys Handlers Reader SpecText SpecReader SpecNum SpecHistory
  TextFacts KeyFacts ReaderFacts ReaderFacts2 ReaderFacts4 FrameFacts.
Import ListNotations.
Local Open Scope list_scope.

(** attributes set when a file is read, before the scan is interpreted *)
Definition D3 : list attr := [A_date; A_epoch; A_h5].
(** attributes of a header that its scans may set *)
Definition H3 : list attr := [A_date; A_epoch; A_O].

Lemma Forall_dset {V} (P : str * V -> Prop) k v (d : dict V) : Forall P d -> P (k, v) -> Forall P (dset k v d).
Proof.
  intros H Hp. induction H as [|[k' v'] d Hx Hd IH]; simpl; [auto|].
  destruct (seqb k k') eqn:E; constructor; auto. apply seqb_eq in E; subst. auto.
Qed.

Section State.
  Context (E : env) (known : list hid).

  Definition untouched (file : str) (o : obj) : Prop := obj_step D3 (scan_init file) o.
  Definition sc_ok (file : str) (sc : scan) : Prop :=
    (forall a, In a [A_date; A_posts; A_h5; A_comments; A_data_lines] -> s_obj sc a <> None) /\
    (s_lazy sc = true -> s_done sc = false /\ untouched file (s_obj sc)).
  Definition hd_ok (h : header) : Prop :=
    (h_raw h = [] /\ obj_step H3 header_init (h_obj h)) \/
    exists ep pe w r, interpret_header E known (h_raw h) (mk_w false (upd A_epoch ep header_init) pe) = (w, r) /\ obj_step H3 (me w) (h_obj h).
  Definition st_ok (s : sdf) : Prop :=
    Forall (fun kv => sc_ok (fileName s) (snd kv)) (scans s) /\ Forall (fun kv => s_hdr (snd kv) < List.length (headers s)) (scans s) /\
    Forall hd_ok (headers s).

  Lemma set_nth_length {A} n (x : A) l : List.length (set_nth n x l) = List.length l.
  Proof. revert n; induction l as [|y l IH]; intros [|n]; simpl; auto. Qed.
  Lemma Forall_set_nth {A} (P : A -> Prop) n x l : Forall P l -> P x -> Forall P (set_nth n x l).
  Proof. intros H Hx. revert n; induction H; intros [|n]; simpl; auto. Qed.

  (** a program run on a scan object *)
  Lemma frame_scan_line S line : (forall h, incl (sets h) S) -> frame S H3 (scan_line E known line).
  Proof.
    intros HS. unfold scan_line. destruct line as [|c l]; [apply frame_ret|].
    apply frame_bind; [apply frame_lift|]. intros [h|].
    - assert (G : frame S H3 (process E h (c :: l))).
      { eapply frame_mono; [apply HS| |apply frame_process]. destruct h; simpl; intros x Hx; simpl in *; tauto. }
      destruct h; exact G.
    - apply (frame_mono (sets H_unrec) (peer_sets H_unrec)); [apply HS|intros x []|apply frame_process].
  Qed.
  Definition all_sets : list attr := flat_map sets all_hids ++ flat_map post_sets [PP_geo; PP_counter H_J; PP_posx; PP_motor; PP_data; PP_unicat; PP_uxml].
  Lemma sets_all h : incl (sets h) all_sets.
  Proof. intros a Ha. apply in_or_app; left. apply in_flat_map. exists h. split; [apply all_hids_complete|auto]. Qed.
  Lemma post_sets_all p : incl (post_sets p) all_sets.
  Proof.
    intros a Ha. apply in_or_app; right. apply in_flat_map.
    destruct p; [exists PP_geo|exists (PP_counter H_J)|exists PP_posx|exists PP_motor|exists PP_data|exists PP_unicat|exists PP_uxml]; simpl in *; tauto.
  Qed.
  Lemma frame_run_posts T : frame all_sets T (run_posts E).
  Proof.
    unfold run_posts. apply frame_bind; [apply frame_getA|]. intros d. apply frame_iterM. intros p.
    eapply frame_mono; [apply post_sets_all| |apply frame_post]. intros x [].
  Qed.
  Lemma frame_interpret raw : frame all_sets H3 (interpret_scan E known raw).
  Proof.
    unfold interpret_scan. apply frame_bind; [|intros; apply frame_run_posts]. apply frame_iterM. intros l. apply frame_scan_line. apply sets_all.
  Qed.

  Lemma obj_step_none S o o' : obj_step S o o' -> forall a, o a <> None -> o' a <> None.
  Proof. intros [_ H]; auto. Qed.

  Lemma run_st S m name sc s s' sc' r : frame S H3 m -> st_ok s -> s_hdr sc < List.length (headers s) ->
    run_on_scan m name sc s = (s', sc', r) ->
    exists w0 w r0, m w0 = (w, r0) /\ r = match r0 with Ok _ => None | Raise e => Some e end /\
      is_scan w0 = true /\ me w0 = s_obj sc /\ peer w0 <> None /\ sc' = with_obj (me w) sc /\ obj_step S (s_obj sc) (me w) /\
      fileName s' = fileName s /\ scans s' = dset name sc' (scans s) /\ List.length (headers s') = List.length (headers s) /\ Forall hd_ok (headers s').
  Proof.
    intros Hf (H1 & H2 & H3') Hl H. unfold run_on_scan in H.
    destruct (nth_error (headers s) (s_hdr sc)) as [h|] eqn:En; [|apply nth_error_None in En; lia]. cbn [option_map] in H.
    set (w0 := mk_w true (s_obj sc) (Some (h_obj h))) in *. destruct (m w0) as [w r0] eqn:Em. inversion H; subst; clear H.
    exists w0, w, r0. pose proof (Hf w0) as F. rewrite Em in F. cbn [fst] in F. destruct F as (F1 & F2 & F3).
    repeat split; auto; try discriminate; try apply F2.
    - cbn [set_headers headers]. destruct (peer w); auto. apply set_nth_length.
    - cbn [set_headers headers]. cbn [peer peer_step w0] in F3. destruct (peer w) as [p|]; [|destruct F3].
      apply Forall_set_nth; auto. rewrite Forall_forall in H3'. specialize (H3' h (nth_error_In _ _ En)).
      destruct H3' as [[Q1 Q2]|(ep & pe & w1 & r1 & Q1 & Q2)]; [left|right].
      + split; auto. cbn [h_obj]. eapply obj_step_trans; eauto.
      + exists ep, pe, w1, r1. split; auto. cbn [h_obj]. eapply obj_step_trans; eauto.
  Qed.

  Lemma st_dset s name sc s' : st_ok s -> sc_ok (fileName s) sc -> s_hdr sc < List.length (headers s) ->
    fileName s' = fileName s -> scans s' = dset name sc (scans s) -> List.length (headers s') = List.length (headers s) -> Forall hd_ok (headers s') -> st_ok s'.
  Proof.
    intros (H1 & H2 & H3') Hs Hl F1 F2 F3 F4. split; [|split; auto].
    - rewrite F1, F2. apply Forall_dset; auto.
    - rewrite F2, F3. apply Forall_dset; auto.
  Qed.

  Lemma frame_D l : frame D3 H3 (process_D E l).
  Proof. eapply frame_mono; [| |apply (frame_process E H_D l)]; intros x Hx; simpl in *; tauto. Qed.
  Lemma sc_ok_D file sc o : sc_ok file sc -> obj_step D3 (s_obj sc) o -> sc_ok file (with_obj o sc).
  Proof.
    intros [H0 H] Ho. split; [intros a Ha; cbn [s_obj with_obj]; destruct Ho as [_ Ho]; auto|].
    intros Hz. cbn [s_lazy s_done s_obj with_obj] in *. destruct (H Hz) as [Q1 Q2]. split; auto. eapply obj_step_trans; eauto.
  Qed.

  Lemma date_scan_st s s' r : st_ok s -> date_scan E s = (s', r) -> st_ok s'.
  Proof.
    intros Hs H. unfold date_scan in H. destruct (rev (scans s)) as [|[name sc] t] eqn:Er; [inversion H; subst; auto|].
    destruct (find_D _) as [[l|]|e]; try (inversion H; subst; auto; fail).
    destruct (run_on_scan (process_D E l) name sc s) as [[s1 sc1] r1] eqn:Eo. inversion H; subst.
    assert (Hin : In (name, sc) (scans s)) by (apply in_rev; rewrite Er; simpl; auto).
    pose proof Hs as (K1 & K2 & K3). rewrite Forall_forall in K1, K2. specialize (K1 _ Hin). specialize (K2 _ Hin). cbn [snd] in K1, K2.
    destruct (run_st D3 _ _ _ _ _ _ _ (frame_D l) Hs K2 Eo) as (w0 & w & r0 & _ & _ & _ & _ & _ & -> & Hst & F1 & F2 & F3 & F4).
    apply (st_dset s name (with_obj (me w) sc)); auto. apply sc_ok_D; auto.
  Qed.

  Lemma scan_init_ok part S n cmd hdr file : sc_ok file (mk_scan part S n cmd hdr (scan_init file) true false).
  Proof.
    split; [|intros _; split; [auto|apply obj_step_refl]]. intros a Ha. simpl in Ha. cbn [s_obj]. unfold scan_init.
    repeat (destruct Ha as [<-|Ha]; [repeat (first [rewrite upd_same; discriminate|rewrite upd_other by discriminate])|]). destruct Ha.
  Qed.
  Lemma store_scan_st part hdr s s' r : st_ok s -> hdr < List.length (headers s) -> store_scan part hdr s = (s', r) -> st_ok s'.
  Proof.
    intros (K1 & K2 & K3) Hh H. destruct (store_scan_spec part hdr s) as (s1 & r1 & Hs & [(-> & l & n0 & t & n & sc & _ & _ & Hn & -> & Hsc)|(-> & ->)]);
      rewrite Hs in H; inversion H; subst; [|split; auto].
    split; [|split; [|exact K3]]; cbn [set_scans scans headers fileName]; apply Forall_app; split; auto; constructor; auto.
    apply scan_init_ok.
  Qed.
  Lemma process_scan_st b s s' r : st_ok s -> process_scan b s = (s', r) -> st_ok s'.
  Proof.
    intros Hs. unfold process_scan. set (s1 := match headers s with [] => _ | _ => s end).
    assert (H1 : st_ok s1 /\ 0 < List.length (headers s1)).
    { unfold s1. destruct Hs as (K1 & K2 & K3). destruct (headers s) as [|h hs] eqn:Eh.
      - cbn [set_headers headers]. split; [|simpl; auto]. split; [exact K1|]. split; [|constructor; [left; split; [reflexivity|apply obj_step_refl]|constructor]].
        cbn [set_headers scans headers]. eapply Forall_impl; [|exact K2]. simpl; intros; lia.
      - rewrite Eh. split; [|simpl; lia]. unfold st_ok. rewrite Eh. auto. }
    destruct H1 as [H1 Hl]. clearbody s1. clear Hs.
    assert (Hh : List.length (headers s1) - 1 < List.length (headers s1)) by lia.
    assert (Hd : forall k l, st_ok (set_last l (set_scans (ddel k (scans s1)) s1))).
    { intros k l. destruct H1 as (K1 & K2 & K3). split; [|split; [|exact K3]]; cbn [set_last set_scans scans headers fileName];
      [rewrite Forall_forall in *; intros x Hx; apply K1; eapply ddel_incl; eauto|rewrite Forall_forall in *; intros x Hx; apply K2; eapply ddel_incl; eauto]. }
    destruct (last_scan s1) as [k|].
    - destruct (if existsb _ _ then _ else _) as [[|]|e]; try (intros H; inversion H; subst; auto; fail).
      destruct (last_raw k s1) as [rw|e]; [|intros H; inversion H; subst; auto].
      destruct (seqb (beginning b) (beginning rw)).
      + destruct k as [n| |]; try (intros H; inversion H; subst; auto; fail).
        destruct (has n (scans s1)); [|intros H; inversion H; subst; auto].
        intros H. eapply store_scan_st; [| |exact H]; [apply Hd|exact Hh].
      + intros H. eapply store_scan_st; [| |exact H]; auto.
    - intros H. eapply store_scan_st; [| |exact H]; auto.
  Qed.
  Lemma process_epoch_st b s s' r : st_ok s -> process_epoch E known b s = (s', r) -> st_ok s'.
  Proof.
    intros Hs H. unfold process_epoch in H. destruct (existsb _ _); [inversion H; subst; auto|].
    destruct (parse_epoch b) as [ep|e]; [|inversion H; subst; auto].
    destruct (interpret_header E known b _) as [w r0] eqn:Ei. inversion H; subst; clear H.
    destruct Hs as (K1 & K2 & K3). split; [exact K1|]. cbn [set_headers scans headers]. split.
    - eapply Forall_impl; [|exact K2]. intros a Ha; rewrite app_length; simpl; cbv beta in Ha; lia.
    - apply Forall_app; split; auto. constructor; [|constructor]. right. exists ep, (latest s), w, r0. split; [exact Ei|apply obj_step_refl].
  Qed.
  Lemma read_block_st b s s' r : st_ok s -> read_block E known b s = (s', r) -> st_ok s'.
  Proof.
    intros Hs. unfold read_block. destruct b as [|c b0]; [intros H; inversion H; subst; auto|].
    set (b := c :: b0). destruct (bind _ _) as [[h|]|e]; try (intros H; inversion H; subst; auto; fail).
    destruct (negb (prefixb (L "#") (key_of h))); [intros H; inversion H; subst; auto|].
    destruct h; try (intros H; inversion H; subst; auto; fail).
    - intros H; inversion H; subst. unfold process_file. destruct Hs as (K1 & K2 & K3). destruct (specFile s) as [[|]|]; repeat split; auto.
    - intros H. eapply process_epoch_st; eauto.
    - destruct (process_scan b s) as [s1 [e|]] eqn:Ep.
      + intros H; inversion H; subst. eapply process_scan_st; eauto.
      + intros H. eapply date_scan_st; [|exact H]. eapply process_scan_st; eauto.
  Qed.
  Lemma read_blocks_st bs s s' r : st_ok s -> read_blocks E known bs s = (s', r) -> st_ok s'.
  Proof.
    revert s; induction bs as [|b bs IH]; simpl; intros s Hs H; [inversion H; subst; auto|].
    destruct (read_block E known b s) as [s1 [e|]] eqn:Eb.
    - inversion H; subst. eapply read_block_st; eauto.
    - eapply IH; [|exact H]. eapply read_block_st; eauto.
  Qed.
  Lemma read_st p s s' r : st_ok s -> read E known p s = (s', r) -> st_ok s'.
  Proof.
    intros Hs. unfold read. destruct (dissect p) as [secs|e]; [|intros H; inversion H; subst; auto].
    destruct (read_blocks E known secs s) as [s1 [e|]] eqn:Eb; pose proof (read_blocks_st _ _ _ _ Hs Eb) as H1.
    - intros H; inversion H; subst; auto.
    - set (s2 := match specFile s1 with Some _ => s1 | None => _ end).
      assert (V : st_ok s2) by (unfold s2; destruct (specFile s1); auto).
      destruct (getLastScanNumber s2) as [k|].
      + destruct (stat p) as [[m z]|]; intros H; inversion H; subst; exact V.
      + intros H; inversion H; subst. exact V.
  Qed.
  Lemma refresh_st p s : st_ok s -> st_ok (fst (refresh E known p s)).
  Proof.
    intros Hs. unfold refresh. destruct (update_available p s) as [[]|]; auto.
    destruct (read E known p s) as [s' [e|]] eqn:Er; cbn [fst]; eapply read_st; eauto.
  Qed.
  Lemma interpret_st name s s' r : st_ok s -> interpret E known name s = (s', r) -> st_ok s'.
  Proof.
    intros Hs. unfold interpret. destruct (dget name (scans s)) as [sc|] eqn:Eg; [|intros H; inversion H; subst; auto].
    destruct (s_done sc) eqn:Ed; [intros H; inversion H; subst; auto|].
    pose proof Hs as (K1 & K2 & K3). rewrite Forall_forall in K1, K2. specialize (K1 _ (dget_In _ _ _ Eg)). specialize (K2 _ (dget_In _ _ _ Eg)). cbn [snd] in K1, K2.
    destruct (run_on_scan _ name (with_flags false false sc) s) as [[s1 sc1] r1] eqn:Eo.
    destruct (run_st all_sets _ _ (with_flags false false sc) _ _ _ _ (frame_interpret _) Hs K2 Eo)
      as (w0 & w & r0 & Hm & Hr & Hsc & Hme & Hp & -> & Hst & F1 & F2 & F3 & F4).
    cbn [with_flags s_raw s_obj] in *. destruct K1 as [Kn K1].
    assert (Kn' : forall a, In a [A_date; A_posts; A_h5; A_comments; A_data_lines] -> me w a <> None) by (intros a Ha; destruct Hst as [_ Hst]; auto).
    destruct r1 as [e|]; intros H; inversion H; subst; clear H.
    - apply (st_dset s name (with_obj (me w) (with_flags false false sc))); auto. split; [exact Kn'|discriminate].
    - assert (Hs1 : st_ok s1) by (apply (st_dset s name (with_obj (me w) (with_flags false false sc))); auto; split; [exact Kn'|discriminate]).
      eapply st_dset; [exact Hs1| | | | | |]; try reflexivity; [|cbn [s_hdr with_flags with_obj]; rewrite F3; exact K2|exact F4].
      rewrite F1. split; [exact Kn'|discriminate].
  Qed.
  Lemma get_attr_st nm a name s : st_ok s -> st_ok (fst (get_attr E known nm a name s)).
  Proof.
    intros Hs. unfold get_attr. destruct (dget name (scans s)) as [sc|]; [|exact Hs].
    destruct (mem nm _ && s_lazy sc).
    - destruct (interpret E known name s) as [s1 [e|]] eqn:Ei; pose proof (interpret_st _ _ _ _ Hs Ei) as H1; [exact H1|].
      destruct (dget name (scans s1)); exact H1.
    - destruct (dget name (scans s)); exact Hs.
  Qed.
  Lemma history_st s : history E known s -> st_ok s.
  Proof.
    induction 1.
    - repeat split; constructor.
    - destruct (read E known p s) as [s1 r] eqn:Er. eapply read_st; eauto.
    - apply refresh_st; auto.
    - destruct (interpret E known name s) as [s1 r] eqn:Er. eapply interpret_st; eauto.
    - apply get_attr_st; auto.
  Qed.

  (** the first use of a scan *)
  Lemma first_use name s sc s' r : history E known s -> dget name (scans s) = Some sc -> s_lazy sc = true ->
    interpret E known name s = (s', r) ->
    exists h w r0 sc', nth_error (headers s) (s_hdr sc) = Some h /\
      interpret_scan E known (s_raw sc) (mk_w true (s_obj sc) (Some (h_obj h))) = (w, r0) /\
      r = match r0 with Ok _ => None | Raise e => Some e end /\
      untouched (fileName s) (s_obj sc) /\
      dget name (scans s') = Some sc' /\ s_obj sc' = me w /\ s_raw sc' = s_raw sc /\ s_lazy sc' = false /\ (r = None -> s_done sc' = true).
  Proof.
    intros Hh Hg Hz H. apply history_st in Hh. destruct Hh as (K1 & K2 & K3). rewrite Forall_forall in K1, K2.
    specialize (K1 _ (dget_In _ _ _ Hg)). specialize (K2 _ (dget_In _ _ _ Hg)). cbn [snd] in K1, K2. destruct K1 as [_ K1]. destruct (K1 Hz) as [Hd Hu].
    unfold interpret in H. rewrite Hg, Hd in H. unfold run_on_scan in H. cbn [with_flags s_raw s_obj s_hdr s_done] in H.
    destruct (nth_error (headers s) (s_hdr sc)) as [h|] eqn:En; [|apply nth_error_None in En; lia]. cbn [option_map] in H.
    destruct (interpret_scan E known (s_raw sc) (mk_w true (s_obj sc) (Some (h_obj h)))) as [w r0] eqn:Ei.
    exists h, w, r0. destruct r0 as [u|e]; inversion H; subst; clear H; cbn [set_headers set_scans scans]; rewrite ?Hd.
    - eexists. split; [reflexivity|]. split; [exact Ei|]. split; [reflexivity|]. split; [exact Hu|].
      split; [apply dget_dset_same|]. cbn. auto.
    - eexists. split; [reflexivity|]. split; [exact Ei|]. split; [reflexivity|]. split; [exact Hu|].
      split; [apply dget_dset_same|]. cbn. repeat split; auto. discriminate.
  Qed.
End State.
