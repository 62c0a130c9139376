(** C08-C13: histories and look-up. *)
From Coq Require Import String Lia Permutation Sorted QArith.
From Verif Require Import Uni Py PyFacts NumFacts Time TimeFacts Utils UtilsFacts Keys Handlers Reader SpecText SpecReader SpecNum SpecHistory
  TextFacts KeyFacts OrderFacts ReaderFacts ReaderFacts2.
Import ListNotations.
Local Open Scope nat_scope.
Local Open Scope list_scope.

(* ------------------------------------------------------------------ *)
(** * Histories *)

Lemma refresh_vh E known p s s' r : refresh E known p s = (s', r) -> s' = s \/ exists r', read E known p s = (s', r').
Proof.
  unfold refresh. destruct (update_available p s) as [[|]|]; try (intros H; inversion H; auto; fail).
  destruct (read E known p s) as [s1 [e|]]; intros H; inversion H; subst; eauto.
Qed.
Lemma get_attr_view E known nm a name s s' r : get_attr E known nm a name s = (s', r) ->
  vh s' = vh s /\ vs s' = vs s /\ last_scan s' = last_scan s.
Proof.
  unfold get_attr. destruct (dget name (scans s)); [|intros H; inversion H; auto].
  destruct (mem nm (lazy_attributes known) && s_lazy s0).
  - destruct (interpret E known name s) as [s1 [e|]] eqn:Ei; apply interpret_view in Ei.
    + intros H; inversion H; subst; auto.
    + destruct (dget name (scans s1)); intros H; inversion H; subst; auto.
  - destruct (dget name (scans s)); intros H; inversion H; subst; auto.
Qed.
Lemma history_inv E known s : history E known s -> inv s /\ NoDup (map strip (vh s)).
Proof.
  assert (R : forall p s s' r, read E known p s = (s', r) -> inv s /\ NoDup (map strip (vh s)) -> inv s' /\ NoDup (map strip (vh s'))).
  { intros p s0 s1 r H [I N0]. apply read_vh in H. destruct H as [H1 H2]. split; auto.
    destruct (dissect p); [eapply hdr_steps_nodup; eauto|rewrite H2; auto]. }
  intros H; induction H as [name|p s H IH|p s H IH|name s H IH|nm a name s H IH].
  - split; [split; [constructor|reflexivity]|constructor].
  - destruct (read E known p s) as [s1 r] eqn:Er. simpl. eapply R; eauto.
  - destruct (refresh E known p s) as [s1 r] eqn:Er. simpl. apply refresh_vh in Er. destruct Er as [->|[r' Er]]; auto. eapply R; eauto.
  - destruct (interpret E known name s) as [s1 r] eqn:Ei. simpl. apply interpret_view in Ei. destruct Ei as (V1 & V2 & _).
    rewrite V1. split; [eapply inv_view; [exact V2|tauto]|tauto].
  - destruct (get_attr E known nm a name s) as [s1 r] eqn:Ei. simpl. apply get_attr_view in Ei. destruct Ei as (V1 & V2 & _).
    rewrite V1. split; [eapply inv_view; [exact V2|tauto]|tauto].
Qed.
Lemma C08_lemma E known s : history E known s ->
  ForallOrdPairs (fun a b => ~ same_text (h_raw a) (h_raw b)) (headers s).
Proof.
  intros H. apply history_inv in H. destruct H as [_ H]. apply distinct_texts in H. unfold vh in H.
  revert H. generalize (headers s) as l. induction l as [|x l IH]; simpl; intros H; inversion H; subst; constructor; auto.
  rewrite Forall_map in *. auto.
Qed.

(** reading again *)
Lemma hdr_step_app b h h' : hdr_step b h h' -> exists g, h' = h ++ g.
Proof. intros H; inversion H; subst; [exists []; rewrite app_nil_r; auto|exists [[]]; auto|eauto]. Qed.
Lemma hdr_steps_app bs h h' : hdr_steps bs h h' -> exists g, h' = h ++ g.
Proof.
  intros H; induction H as [|b bs h h1 h2 H1 H2 [g IH]]; [exists []; rewrite app_nil_r; auto|].
  apply hdr_step_app in H1. destruct H1 as [g1 ->]. subst. exists (g1 ++ g). rewrite app_assoc; auto.
Qed.
(** a section that adds no header *)
Definition settled (h : list str) (b : str) : Prop :=
  (header_section b -> In (strip b) (map strip h)) /\ (scan_section b -> h <> []).
Lemma settled_app h g b : settled h b -> settled (h ++ g) b.
Proof.
  intros [H1 H2]. split; intros Q.
  - rewrite map_app, in_app_iff. auto.
  - intros Q2. apply app_eq_nil in Q2. destruct Q2. apply H2; auto.
Qed.
Section Again.
  Context (E : env) (known : list hid) (Hk : incl all_hids known).
  Lemma block_settles b s s' : good_sec b -> read_block E known b s = (s', None) -> settled (vh s') b.
  Proof.
    intros Hg H. destruct (read_block_cases E known Hk b s Hg) as (h & t & Hb & Hh & Hfh & FL & Hb0 & C).
    destruct C as [[e C]|[(rest & Hr & C)|[(rest & Hr & C)|(rest & Hr & C)]]]; rewrite C in H; clear C.
    - discriminate.
    - assert (FW : first_word_is b (L "#F")) by (subst b; apply (fw_hash (L "#F") rest h t); simpl; auto).
      split; intros Q; exfalso; revert Q; [eapply header_not_other|eapply scan_not_other]; eauto; discriminate.
    - assert (FW : first_word_is b (L "#E")) by (subst b; apply (fw_hash (L "#E") rest h t); simpl; auto).
      split; intros Q; [|exfalso; revert Q; eapply scan_not_other; eauto; discriminate].
      apply process_epoch_spec in H. destruct H as (_ & _ & _ & [[V [[? _]|[? _]]]|[V _]]).
      + rewrite V; auto.
      + congruence.
      + rewrite V, map_app, in_app_iff. simpl. auto.
    - assert (FW : first_word_is b (L "#S")) by (subst b; apply (fw_hash (L "#S") rest h t); simpl; auto).
      split; intros Q; [exfalso; revert Q; eapply header_not_other; eauto; discriminate|].
      destruct (process_scan b s) as [s1 [e|]] eqn:Ep; [discriminate|].
      apply process_scan_vh in Ep. destruct Ep as [V _]. apply date_scan_vh in H. rewrite H, V.
      destruct (vh s); discriminate.
  Qed.
  Lemma blocks_settle bs s s' : Forall good_sec bs -> read_blocks E known bs s = (s', None) -> Forall (settled (vh s')) bs.
  Proof.
    revert s; induction bs as [|b bs IH]; simpl; intros s Hg H; [constructor|]. inversion Hg; subst.
    destruct (read_block E known b s) as [s1 [e|]] eqn:Eb; [discriminate|]. constructor; eauto.
    apply block_settles in Eb; auto. apply read_blocks_vh in H. destruct H as [H _]. apply hdr_steps_app in H. destruct H as [g ->].
    apply settled_app; auto.
  Qed.
  Lemma block_settled b s s' r : good_sec b -> settled (vh s) b -> read_block E known b s = (s', r) -> vh s' = vh s.
  Proof.
    intros Hg [S1 S2] H. destruct (read_block_cases E known Hk b s Hg) as (h & t & Hb & Hh & Hfh & FL & Hb0 & C).
    destruct C as [[e C]|[(rest & Hr & C)|[(rest & Hr & C)|(rest & Hr & C)]]]; rewrite C in H; clear C.
    - inversion H; auto.
    - injection H as <- _. destruct (process_file_view b s) as (_ & V & _). unfold vh. rewrite V; auto.
    - assert (FW : first_word_is b (L "#E")) by (subst b; apply (fw_hash (L "#E") rest h t); simpl; auto).
      apply process_epoch_spec in H. destruct H as (_ & _ & _ & [[V _]|[V Q]]); auto. exfalso. apply Q. apply S1. exact FW.
    - assert (FW : first_word_is b (L "#S")) by (subst b; apply (fw_hash (L "#S") rest h t); simpl; auto).
      specialize (S2 FW). destruct (process_scan b s) as [s1 [e|]] eqn:Ep; apply process_scan_vh in Ep; destruct Ep as [V _].
      + inversion H; subst. rewrite V. destruct (vh s); [congruence|auto].
      + apply date_scan_vh in H. rewrite H, V. destruct (vh s); [congruence|auto].
  Qed.
  Lemma blocks_settled bs s s' r : Forall good_sec bs -> Forall (settled (vh s)) bs -> read_blocks E known bs s = (s', r) -> vh s' = vh s.
  Proof.
    revert s; induction bs as [|b bs IH]; simpl; intros s Hg Hs H; [inversion H; auto|]. inversion Hg; inversion Hs; subst.
    destruct (read_block E known b s) as [s1 [e|]] eqn:Eb; apply block_settled in Eb; auto.
    - inversion H; subst; auto.
    - rewrite <- Eb. eapply IH; eauto. rewrite Eb. auto.
  Qed.
  Lemma read_shape p s s' r : read E known p s = (s', r) ->
    (exists e, dissect p = Raise e /\ s' = s) \/
    exists secs s1 r1, dissect p = Ok secs /\ read_blocks E known secs s = (s1, r1) /\ scans s' = scans s1 /\ headers s' = headers s1 /\
      fileName s' = fileName s1 /\
      (r = None -> r1 = None /\ exists k m z, getLastScanNumber s1 = Ok k /\ last_scan s' = Some k /\ stat p = Ok (m, z) /\ sd_mtime s' = m /\ sd_size s' = z).
  Proof.
    unfold read. destruct (dissect p) as [secs|e]; [|intros H; inversion H; subst; left; eauto].
    destruct (read_blocks E known secs s) as [s1 [e|]] eqn:Eb.
    - intros H; inversion H; subst. right. do 3 eexists. split; [reflexivity|]. split; [exact Eb|]. do 3 (split; [reflexivity|]). discriminate.
    - set (s2 := match specFile s1 with Some _ => s1 | None => _ end).
      assert (V : scans s2 = scans s1 /\ headers s2 = headers s1 /\ fileName s2 = fileName s1) by (unfold s2; destruct (specFile s1); auto).
      destruct V as (V1 & V2 & V3).
      assert (G : getLastScanNumber s2 = getLastScanNumber s1) by (unfold getLastScanNumber, getScanNumbersChronological; rewrite V1; auto).
      rewrite G. destruct (getLastScanNumber s1) as [k|] eqn:Ek.
      + destruct (stat p) as [[m z]|]; intros H; inversion H; subst; right; do 3 eexists; (split; [reflexivity|]); (split; [exact Eb|]);
          (split; [exact V1|]); (split; [exact V2|]); (split; [exact V3|]); intros; try discriminate.
        split; auto. exists k, m, z. repeat split; auto.
      + intros H; inversion H; subst; right; do 3 eexists; (split; [reflexivity|]); (split; [exact Eb|]); (split; [exact V1|]); (split; [exact V2|]); (split; [exact V3|]).
        intros; discriminate.
  Qed.
  Lemma C08_again_lemma p p' s s1 : read E known p s = (s1, None) -> dissect p' = dissect p ->
    map h_raw (headers (fst (read E known p' s1))) = map h_raw (headers s1).
  Proof.
    intros H Hd. destruct (read E known p' s1) as [s2 r] eqn:E2. simpl.
    apply read_shape in H. destruct H as [(e & H & ->)|(secs & s1' & r1 & Hs & Hb & _ & Hh & _ & Hr)].
    - apply read_shape in E2. destruct E2 as [(e' & _ & ->)|(secs & s1' & r1 & Hs & _)]; auto. congruence.
    - destruct (Hr eq_refl) as [-> _]. pose proof (dissect_good _ _ Hs) as Hg. pose proof (blocks_settle _ _ _ Hg Hb) as St.
      assert (V : vh s1 = vh s1') by (unfold vh; rewrite Hh; auto). rewrite <- V in St.
      apply read_shape in E2. destruct E2 as [(e' & _ & ->)|(secs2 & s2' & r2 & Hs2 & Hb2 & _ & Hh2 & _)]; auto.
      assert (secs2 = secs) by congruence. subst secs2. apply blocks_settled in Hb2; auto. unfold vh in Hb2. rewrite Hh2. auto.
  Qed.
End Again.
