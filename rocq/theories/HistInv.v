(** What holds of every scan of every history *)
From Coq Require Import String.
From Verif Require Import Py PyFacts Keys Geom Handlers Reader ReaderFacts ReaderFacts2 StateFacts SpecHistory.
Import ListNotations.
Local Open Scope list_scope.

Section Hist.
  Context (E : env) (known : list hid) (Q : scan -> Prop).
  Context (QI : forall part S n cmd hdr file, Q (mk_scan part S n cmd hdr (scan_init file) true false)).
  Context (QD : forall l sc p, Q sc -> Q (with_obj (me (fst (process_D E l (mk_w true (s_obj sc) p)))) sc)).
  Context (QR : forall sc p w r, Q sc -> s_done sc = false ->
    interpret_scan E known (s_raw sc) (mk_w true (s_obj sc) p) = (w, r) ->
    Q (with_obj (me w) (with_flags false false sc)) /\
    (r = Ok tt -> Q (with_flags false true (with_obj (me w) (with_flags false false sc))))).
  Definition NS (s : sdf) : Prop := Forall (fun kv => Q (snd kv)) (scans s).

  Lemma interpret_NS name s s' r : NS s -> interpret E known name s = (s', r) -> NS s'.
  Proof.
    intros Hs. unfold interpret. destruct (dget name (scans s)) as [sc|] eqn:Eg; [|intros H; inversion H; subst; auto].
    destruct (s_done sc) eqn:Ed; [intros H; inversion H; subst; auto|]. cbv zeta.
    pose proof Hs as K. unfold NS in K. rewrite Forall_forall in K. specialize (K _ (dget_In _ _ _ Eg)). cbn [snd] in K.
    unfold run_on_scan. match goal with |- context [interpret_scan E known ?raw ?w0] => pose proof (QR sc (peer w0)) as QQ; cbn [peer with_flags s_obj s_hdr s_raw] in *;
      destruct (interpret_scan E known (s_raw sc) (mk_w true (s_obj sc) (option_map h_obj (nth_error (headers s) (s_hdr sc))))) as [w r0] eqn:Ei end.
    destruct (QQ w r0 K Ed eq_refl) as [Q1 Q2]. destruct r0 as [[]|x]; intros H; inversion H; subst; unfold NS; cbn [set_headers set_scans scans].
    - apply Forall_dset; [apply Forall_dset; auto|]. cbn [snd]. auto.
    - apply Forall_dset; auto.
  Qed.
  Lemma date_scan_NS s s' r : NS s -> date_scan E s = (s', r) -> NS s'.
  Proof.
    intros Hs H. unfold date_scan in H. destruct (rev (scans s)) as [|[name sc] t] eqn:Er; [inversion H; subst; auto|].
    destruct (find_D _) as [[l|]|e]; try (inversion H; subst; auto; fail).
    destruct (run_on_scan (process_D E l) name sc s) as [[s1 sc1] r1] eqn:Eo. inversion H; subst.
    assert (Hin : In (name, sc) (scans s)) by (apply in_rev; rewrite Er; simpl; auto).
    pose proof Hs as K. unfold NS in K. rewrite Forall_forall in K. specialize (K _ Hin). cbn [snd] in K.
    unfold run_on_scan in Eo. match type of Eo with (let (w, r) := process_D E l ?w0 in _) = _ => pose proof (QD l sc (peer w0) K) as QQ; cbn [peer] in QQ; destruct (process_D E l w0) as [w rw] end. inversion Eo; subst. unfold NS. cbn [set_headers set_scans scans]. apply Forall_dset; auto.
  Qed.
  Lemma store_scan_NS part hdr s s' r : NS s -> store_scan part hdr s = (s', r) -> NS s'.
  Proof.
    intros K H. destruct (store_scan_spec part hdr s) as (s1 & r1 & Hs & [(-> & l & n0 & t & n & sc & _ & _ & Hn & -> & Hsc)|(-> & ->)]);
      rewrite Hs in H; inversion H; subst; auto.
    unfold NS. cbn [set_scans scans]. apply Forall_app; split; auto. constructor; auto. apply QI.
  Qed.
  Lemma process_scan_NS b s s' r : NS s -> process_scan b s = (s', r) -> NS s'.
  Proof.
    intros Hs. unfold process_scan. set (s1 := match headers s with [] => _ | _ => s end).
    assert (H1 : NS s1) by (unfold s1; destruct (headers s); exact Hs).
    clearbody s1. clear Hs.
    assert (Hd : forall k l, NS (set_last l (set_scans (ddel k (scans s1)) s1))).
    { intros k l. unfold NS in *. cbn [set_last set_scans scans]. rewrite Forall_forall in *. intros x Hx; apply H1; eapply ddel_incl; eauto. }
    destruct (last_scan s1) as [k|].
    - destruct (if existsb _ _ then _ else _) as [[|]|e]; try (intros H; inversion H; subst; auto; fail).
      destruct (last_raw k s1) as [rw|e]; [|intros H; inversion H; subst; auto].
      destruct (seqb (beginning b) (beginning rw)).
      + destruct k as [n| |]; try (intros H; inversion H; subst; auto; fail).
        destruct (has n (scans s1)); [|intros H; inversion H; subst; auto].
        intros H. eapply store_scan_NS; [|exact H]; apply Hd.
      + intros H. eapply store_scan_NS; [|exact H]; auto.
    - intros H. eapply store_scan_NS; [|exact H]; auto.
  Qed.
  Lemma process_epoch_NS b s s' r : NS s -> process_epoch E known b s = (s', r) -> NS s'.
  Proof.
    intros Hs H. unfold process_epoch in H. destruct (existsb _ _); [inversion H; subst; auto|].
    destruct (parse_epoch b) as [ep|e]; [|inversion H; subst; auto].
    destruct (interpret_header E known b _) as [w r0]. inversion H; subst. exact Hs.
  Qed.
  Lemma read_block_NS b s s' r : NS s -> read_block E known b s = (s', r) -> NS s'.
  Proof.
    intros Hs. unfold read_block. destruct b as [|c b0]; [intros H; inversion H; subst; auto|].
    set (b := c :: b0). destruct (bind _ _) as [[h|]|e]; try (intros H; inversion H; subst; auto; fail).
    destruct (negb (prefixb (L "#") (key_of h))); [intros H; inversion H; subst; auto|].
    destruct h; try (intros H; inversion H; subst; auto; fail).
    - intros H; inversion H; subst. unfold process_file. destruct (specFile s) as [[|]|]; auto.
    - intros H. eapply process_epoch_NS; eauto.
    - destruct (process_scan b s) as [s1 [e|]] eqn:Ep.
      + intros H; inversion H; subst. eapply process_scan_NS; eauto.
      + intros H. eapply date_scan_NS; [|exact H]. eapply process_scan_NS; eauto.
  Qed.
  Lemma read_blocks_NS bs s s' r : NS s -> read_blocks E known bs s = (s', r) -> NS s'.
  Proof.
    revert s; induction bs as [|b bs IH]; simpl; intros s Hs H; [inversion H; subst; auto|].
    destruct (read_block E known b s) as [s1 [e|]] eqn:Eb.
    - inversion H; subst. eapply read_block_NS; eauto.
    - eapply IH; [|exact H]. eapply read_block_NS; eauto.
  Qed.
  Lemma read_NS p s s' r : NS s -> read E known p s = (s', r) -> NS s'.
  Proof.
    intros Hs. unfold read. destruct (dissect p) as [secs|e]; [|intros H; inversion H; subst; auto].
    destruct (read_blocks E known secs s) as [s1 [e|]] eqn:Eb; pose proof (read_blocks_NS _ _ _ _ Hs Eb) as H1.
    - intros H; inversion H; subst; auto.
    - set (s2 := match specFile s1 with Some _ => s1 | None => _ end).
      assert (V : NS s2) by (unfold s2; destruct (specFile s1); auto).
      destruct (getLastScanNumber s2) as [k|].
      + destruct (stat p) as [[m z]|]; intros H; inversion H; subst; exact V.
      + intros H; inversion H; subst. exact V.
  Qed.
  Lemma history_NS s : history E known s -> NS s.
  Proof.
    induction 1 as [n|p s H IH|p s H IH|name s H IH|nm a name s H IH].
    - constructor.
    - destruct (read E known p s) as [s1 r] eqn:Er. eapply read_NS; eauto.
    - unfold refresh. destruct (update_available p s) as [[]|]; auto.
      destruct (read E known p s) as [s' [e|]] eqn:Er; cbn [fst]; eapply read_NS; eauto.
    - destruct (interpret E known name s) as [s1 r] eqn:Er. eapply interpret_NS; eauto.
    - unfold get_attr. destruct (dget name (scans s)) as [sc|]; [|exact IH].
      destruct (mem nm _ && s_lazy sc).
      + destruct (interpret E known name s) as [s1 [e|]] eqn:Ei; pose proof (interpret_NS _ _ _ _ IH Ei) as H1; [exact H1|].
        destruct (dget name (scans s1)); exact H1.
      + destruct (dget name (scans s)); exact IH.
  Qed.

End Hist.
