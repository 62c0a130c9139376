(** The writers of dates, positioners and UNICAT metadata are registered *)
From Coq Require Import String.
From Verif Require Import Py PyFacts Utils Scanf Keys KeyFacts Geom Handlers Reader MonadFacts FrameFacts StateFacts SpecKeys SpecHistory HistInv RegFacts RegAll RegAll2
  SpecText SpecInterp InterpFacts H5 Writer KeepFacts SpecWriter WriterFacts SaveFacts.
Import ListNotations.
Local Open Scope list_scope.

Lemma ra_step {A B} S T (m : M A) (k : A -> M B) w w' r : mbind m k w = (w', Ok r) -> frame S T m -> ra m -> is_scan w = true -> labk (me w) ->
  exists a w1, is_scan w1 = true /\ labk (me w1) /\ k a w1 = (w', Ok r).
Proof.
  intros H F R Sc Lk. destruct (R w) as (A1 & _). destruct (F w) as (B1 & _). unfold mbind in H. destruct (m w) as [w1 [a|e]]; [|discriminate].
  cbn [fst] in *. exists a, w1. split; [congruence|auto].
Qed.
Lemma D_regd E text w w' u : is_scan w = true -> labk (me w) -> process E H_D text w = (w', Ok u) -> regd H_D (me w').
Proof.
  intros Sc Lk H. cbn [process] in H. unfold process_D in H. cbv zeta in H.
  apply (ra_step [A_date; A_epoch; A_h5] [A_date; A_epoch]) in H; [|fr|rao|auto|auto]. destruct H as (t & w1 & S1 & L1 & H).
  apply (ra_step [A_date; A_epoch; A_h5] [A_date; A_epoch]) in H; [|fr|rao|auto|auto]. destruct H as (u1 & w2 & S2 & L2 & H).
  apply (ra_step [A_date; A_epoch; A_h5] [A_date; A_epoch]) in H; [|fr|rao|auto|auto]. destruct H as (b & w3 & S3 & L3 & H).
  apply (ra_step [A_date; A_epoch; A_h5] [A_date; A_epoch]) in H; [|fr|rao|auto|auto]. destruct H as (u2 & w4 & S4 & L4 & H).
  unfold whenScan, mbind at 1, askScan in H. rewrite S4 in H.
  unfold mbind at 1 in H. pose proof (addH5_regd H_D w4 L4) as R. destruct (addH5 (key_of H_D) H_D w4) as [w5 [u5|e]]; [|discriminate]. cbn [fst] in R.
  match type of H with ?m w5 = _ => assert (X : ra m) by (unfold check_ts; rao); destruct (X w5) as (_ & X2 & _); rewrite H in X2 end. apply X2. exact R.
Qed.

Section Lines.
  Context (E : env) (known : list hid) (Hk : incl all_hids known).
  Lemma iter_line_regd h l ls : (forall text w w' u, is_scan w = true -> labk (me w) -> process E h text w = (w', Ok u) -> regd h (me w')) ->
    eff known l = Some h -> In l ls -> forall w w' u, is_scan w = true -> labk (me w) -> iterM (scan_line E known) ls w = (w', Ok u) -> regd h (me w').
  Proof.
    intros Hh He. induction ls as [|l0 ls IH]; intros Hin w w' u Sc Lk H; [destruct Hin|]. cbn [iterM] in H. unfold mbind in H.
    assert (Fs : is_scan (fst (scan_line E known l0 w)) = is_scan w).
    { rewrite (scan_line_eff E known Hk). destruct (eff known l0) as [h0|]; [apply (frame_process E h0 l0 w)|reflexivity]. }
    destruct (ra_scan_line E known l0 w) as (A1 & _ & _). destruct (scan_line E known l0 w) as [w1 [[]|e]] eqn:E1; [|discriminate]. cbn [fst] in *.
    destruct Hin as [->|Hin].
    - rewrite (scan_line_eff E known Hk), He in E1. pose proof (Hh _ _ _ _ Sc Lk E1) as R.
      assert (X : ra (iterM (scan_line E known) ls)) by (apply ra_iterM; intros; apply ra_scan_line).
      destruct (X w1) as (_ & X2 & _). rewrite H in X2. apply X2. exact R.
    - apply (IH Hin w1 w' u); [rewrite Fs; exact Sc|apply A1; exact Lk|exact H].
  Qed.
  Definition LR (sc : scan) : Prop := labk (s_obj sc) /\ (s_done sc = true -> forall l, In l (scan_lines (s_raw sc)) -> control H_D l -> regd H_D (s_obj sc)).
  Lemma line_reg s0 s versions ks s' f r n sc ls l : history E known s0 -> saves E known s0 s -> save E known versions ks s = (s', f, r) ->
    dget n (scans s') = Some sc -> s_done sc = true -> lines_of (s_raw sc) ls -> In l ls -> control H_D l -> registered H_D sc.
  Proof.
    intros Hh Hs H Hd D Hls Hin Hc. apply lines_of_scan_lines in Hls. subst ls. apply regd_In. assert (T : LR sc); [|destruct T as [_ T]; apply (T D l); auto].
    revert Hh Hs H Hd. apply (after_save E known LR).
    - intros. split; [apply labk_init|discriminate].
    - intros l0 sc1 p [H1 H2]. destruct (ra_process E H_D l0 (mk_w true (s_obj sc1) p)) as (A1 & A2 & _). split; [apply A1; exact H1|].
      intros D1 l1 I1 C1. apply A2. apply (H2 D1 l1); auto.
    - intros sc1 p w r0 [H1 _] D1 Ei. pose proof (ra_interpret E known (s_raw sc1) (mk_w true (s_obj sc1) p)) as (A1 & A2 & _). rewrite Ei in A1, A2. cbn [fst me] in *.
      split; [split; [apply A1; exact H1|cbn; discriminate]|]. intros ->. split; [apply A1; exact H1|]. intros _ l1 I1 C1. cbn [with_flags with_obj s_raw s_obj] in *.
      unfold interpret_scan, mbind in Ei. destruct (iterM (scan_line E known) (scan_lines (s_raw sc1)) _) as [w1 [[]|e]] eqn:E1; [|discriminate].
      assert (R : regd H_D (me w1)).
      { eapply iter_line_regd; [apply D_regd| |exact I1| | |exact E1]; [|reflexivity|exact H1].
        apply (eff_control known Hk); auto; try discriminate. pose proof (scan_lines_no_lf (s_raw sc1)) as NL. rewrite Forall_forall in NL. auto. }
      assert (X : ra (run_posts E)) by (unfold run_posts; apply ra_bind; [apply ra_getA|intros; apply ra_iterM; intros; apply ra_post]).
      destruct (X w1) as (_ & X2 & _). rewrite Ei in X2. apply X2. exact R.
    - intros sc1 o [H1 H2] S. split; [eapply labk_same; eauto|]. intros D1 l1 I1 C1. eapply regd_same; [exact S|]. apply (H2 D1 l1); auto.
  Qed.

  (** *** a postprocessor that registers its writer *)
  Context (x : attr) (p0 : pp) (R : obj -> Prop) (N : ty x -> Prop).
  Context (Rp : forall h' text w, R (me w) -> R (me (fst (process E h' text w)))).
  Context (Rr : forall p w, R (me w) -> R (me (fst (run_post E p w)))).
  Context (Rs : forall M o o', same_but M o o' -> R o -> R o').
  Context (Xs : forall h', ~ In x (sets h')).
  Context (Xp : forall p, p <> p0 -> ~ In x (post_sets p)).
  Context (Z : obj -> Prop).
  Context (Z0 : forall file, Z (scan_init file)).
  Context (Zp : forall h' text w, Z (me w) -> Z (me (fst (process E h' text w)))).
  Context (Zr : forall p w, Z (me w) -> Z (me (fst (run_post E p w)))).
  Context (Zs : forall M o o', same_but M o o' -> Z o -> Z o').
  Context (Xd : forall w w' u, labk (me w) -> Z (me w) -> posted p0 (me w) -> run_post E p0 w = (w', Ok u) -> forall v, me w' x = Some v -> N v -> R (me w')).
  Context (X0 : forall file v, scan_init file x = Some v -> ~ N v).
  Context (Xm : x <> A_counter_xref /\ x <> A_positioner_xref /\ x <> A_L).
  (** the attribute is there only if the postprocessor is registered *)
  Definition PJ (o : obj) : Prop := (labk o /\ Z o) /\ forall v, o x = Some v -> N v -> posted p0 o.
  Definition PD (sc : scan) : Prop := PJ (s_obj sc) /\ (s_done sc = true -> forall v, s_obj sc x = Some v -> N v -> R (s_obj sc)).
  Lemma PJ_frame {A} S T (m : M A) : frame S T m -> ~ In x S -> ra m -> (forall w, Z (me w) -> Z (me (fst (m w)))) -> forall w, PJ (me w) -> PJ (me (fst (m w))).
  Proof.
    intros F Ni Ra RZ w [[H1 H1'] H2]. destruct (Ra w) as (A1 & A2 & A3). destruct (F w) as (_ & [B2 _] & _). split; [auto|].
    intros v Hv Nv. apply A3. apply (H2 v); auto. rewrite <- B2; auto.
  Qed.
  Lemma PJ_lines ls : forall w, PJ (me w) -> PJ (me (fst (iterM (scan_line E known) ls w))).
  Proof.
    induction ls as [|l ls IH]; intros w H; cbn [iterM]; [exact H|]. unfold mbind.
    assert (X : PJ (me (fst (scan_line E known l w)))).
    { rewrite (scan_line_eff E known Hk). destruct (eff known l) as [h'|]; [|exact H]. eapply PJ_frame; [apply frame_process|apply Xs|apply ra_process|intros; apply Zp; auto|exact H]. }
    destruct (scan_line E known l w) as [w1 [[]|e]]; cbn [fst] in *; auto.
  Qed.
  Lemma PJ_post p w : posted p (me w) -> PJ (me w) -> PJ (me (fst (run_post E p w))).
  Proof.
    intros Hp Hj. assert (D : {p = p0} + {p <> p0}) by (repeat decide equality). destruct D as [->|D].
    - destruct (ra_post E p0 w) as (A1 & A2 & A3). split; [split; [apply A1, Hj|apply Zr, Hj]|auto].
    - eapply PJ_frame; [apply frame_post|apply Xp; auto|apply ra_post|intros; apply Zr; auto|exact Hj].
  Qed.
  Definition Good (o : obj) : Prop := forall v, o x = Some v -> N v -> R o.
  Lemma PJ_posts l : forall w, PJ (me w) -> (forall p, In p l -> posted p (me w)) ->
    PJ (me (fst (iterM (run_post E) l w))) /\
    (snd (iterM (run_post E) l w) = Ok tt -> Good (me w) \/ In p0 l -> Good (me (fst (iterM (run_post E) l w)))).
  Proof.
    induction l as [|p l IH]; cbn [iterM]; intros w Hj Hp; [split; [exact Hj|intros _ [X|[]]; exact X]|].
    unfold mbind. pose proof (PJ_post p w (Hp p (or_introl eq_refl)) Hj) as J1. pose proof (ra_post E p w) as (A1 & A2 & A3).
    pose proof (frame_post E p w) as (_ & [B2 _] & _).
    destruct (run_post E p w) as [w1 [[]|e]] eqn:E1; cbn [fst snd] in *; [|split; [exact J1|discriminate]].
    destruct (IH w1 J1) as [I1 I2]. { intros q Hq. apply A3. apply Hp. right; auto. }
    split; [exact I1|]. intros Ok_ X. apply I2; [exact Ok_|].
    assert (D : {p = p0} + {p <> p0}) by (repeat decide equality). destruct D as [->|D].
    - left. intros v. eapply Xd; [apply Hj|apply Hj|apply Hp; left; reflexivity|exact E1].
    - destruct X as [X|[X|X]]; [left|congruence|right; auto]. intros v Hv Nv. pose proof (Rr p w) as A4. rewrite E1 in A4. apply A4. apply (X v); auto. rewrite <- B2; auto.
  Qed.
  Lemma post_reg s0 s versions ks s' f r n sc v : history E known s0 -> saves E known s0 s -> save E known versions ks s = (s', f, r) ->
    dget n (scans s') = Some sc -> s_done sc = true -> s_obj sc x = Some v -> N v -> R (s_obj sc).
  Proof.
    intros Hh Hs H Hd D Hv Nv. assert (T : PD sc); [|destruct T as [_ T]; apply (T D v); auto].
    revert Hh Hs H Hd. apply (after_save E known PD).
    - intros. split; [|discriminate]. split; [split; [apply labk_init|apply Z0]|]. intros v0 H1 H2. destruct (X0 _ _ H1 H2).
    - intros l0 sc1 p [H1 H2]. destruct (ra_process E H_D l0 (mk_w true (s_obj sc1) p)) as (_ & A2 & _). split.
      + apply (PJ_frame (sets H_D) (peer_sets H_D) (process E H_D l0)); [apply frame_process|apply Xs|apply ra_process|intros; apply Zp; auto|exact H1].
      + intros D1 v0 Hv0 Nv0. apply (Rp H_D l0 (mk_w true (s_obj sc1) p)). apply (H2 D1 v0); auto. destruct (frame_process E H_D l0 (mk_w true (s_obj sc1) p)) as (_ & [B2 _] & _).
        cbn [me] in B2. rewrite <- B2; [exact Hv0|apply Xs].
    - intros sc1 p w r0 [H1 _] D1 Ei. unfold interpret_scan, mbind in Ei.
      pose proof (PJ_lines (scan_lines (s_raw sc1)) (mk_w true (s_obj sc1) p) H1) as J1.
      destruct (iterM (scan_line E known) (scan_lines (s_raw sc1)) _) as [w1 [[]|e]] eqn:E1; cbn [fst] in J1;
        [|inversion Ei; subst; split; [split; [exact J1|discriminate]|discriminate]].
      unfold run_posts, mbind, getA in Ei. destruct (me w1 A_posts) as [ps|] eqn:Ep;
        [|inversion Ei; subst; split; [split; [exact J1|discriminate]|discriminate]].
      destruct (PJ_posts (values ps) w1 J1) as [J2 R2]. { intros q Hq. exists ps. auto. }
      destruct (iterM (run_post E) (values ps) w1) as [w2 r2] eqn:E2. cbn [fst snd] in *. inversion Ei; subst w2 r2.
      split; [split; [exact J2|discriminate]|]. intros ->. split; [exact J2|]. intros _ v0 Hv0 Nv0. cbn [with_flags with_obj s_obj] in *.
      apply (R2 eq_refl) with (v := v0); auto. right. destruct J2 as [_ J2]. destruct (J2 v0 Hv0 Nv0) as (ps' & P1 & P2).
      rewrite (frame_posts_only E _ _ _ _ E2), Ep in P1. injection P1; intros <-. exact P2.
    - intros sc1 o [[[H1 HZ] H1'] H2] S. destruct Xm as (M1 & M2 & M3). assert (Ex : o x = s_obj sc1 x) by (apply S; apply may_not; auto).
      split; [split; [split; [eapply labk_same; eauto|eapply Zs; eauto]|]|].
      + cbn [with_obj s_obj]. intros v0 Hv0 Nv0. destruct (H1' v0) as (ps & P1 & P2); [congruence|auto|]. exists ps. split; [|auto].
        rewrite <- P1. apply S. apply may_not; discriminate.
      + cbn [with_obj s_obj s_done]. intros D1 v0 Hv0 Nv0. eapply Rs; [exact S|]. apply (H2 D1 v0); auto. congruence.
  Qed.
End Lines.

Section Posts.
  Context (E : env) (known : list hid) (Hk : incl all_hids known).
  Lemma reg_P s0 s versions ks s' f r n sc v : history E known s0 -> saves E known s0 s -> save E known versions ks s = (s', f, r) ->
    dget n (scans s') = Some sc -> s_done sc = true -> s_obj sc A_positioner = Some v -> v <> [] -> registered H_P sc.
  Proof.
    intros. apply regd_In. revert s0 s versions ks s' f r n sc v H H0 H1 H2 H3 H4 H5.
    apply (post_reg E known Hk A_positioner PP_motor (regd H_P) (fun v => v <> []) ltac:(intros h' text w; apply ra_process) ltac:(intros p w; apply ra_post) ltac:(intros M o o' S; apply (regd_same M); exact S) ltac:(intros h'; destruct h'; cbn; intuition discriminate) ltac:(intros p D; destruct p; first [congruence|cbn; intuition discriminate]) (fun _ => True)); auto.
    - intros w w' u Lk _ _ H v0 Hv Nv. cbn [run_post] in H. unfold post_motor in H.
      assert (St : forall A B (m : M A) (k : A -> M B) wa r, mbind m k wa = (w', Ok r) -> ra m -> labk (me wa) -> exists a wb, labk (me wb) /\ k a wb = (w', Ok r) /\ m wa = (wb, Ok a)).
      { intros A B m k wa r0 Hb R L0. destruct (R wa) as (A1 & _). unfold mbind in Hb. destruct (m wa) as [wb [a|e]]; [|discriminate]. exists a, wb. auto. }
      apply St in H; [|rao|auto]. destruct H as (u1 & w1 & L1 & H & _). apply St in H; [|rao|auto]. destruct H as (ps & w2 & L2 & H & _).
      apply St in H; [|unfold motor_row, motor_cell, add_icomment; rao|auto]. destruct H as (u3 & w3 & L3 & H & _).
      apply St in H; [|rao|auto]. destruct H as (pos & w4 & L4 & H & Hg). unfold getA in Hg.
      assert (w4 = w3 /\ me w3 A_positioner = Some pos) as [-> Hp]. { destruct (me w3 A_positioner) as [q|]; [|discriminate]. injection Hg; intros -> ->. auto. }
      destruct pos as [|c pos].
      + exfalso. apply Nv. unfold ret in H. injection H; intros _ <-. rewrite Hp in Hv. injection Hv; auto.
      + pose proof (addH5_regd H_P w3 L3) as R. rewrite H in R. exact R.
    - intros file v0 H Nv. cbn in H. injection H; intros <-. apply Nv. reflexivity.
    - repeat split; discriminate.
  Qed.
  Lemma reg_V s0 s versions ks s' f r n sc v : history E known s0 -> saves E known s0 s -> save E known versions ks s = (s', f, r) ->
    dget n (scans s') = Some sc -> s_done sc = true -> s_obj sc A_metadata = Some v -> v <> [] -> registered H_V sc.
  Proof.
    intros. apply regd_In. revert s0 s versions ks s' f r n sc v H H0 H1 H2 H3 H4 H5.
    apply (post_reg E known Hk A_metadata PP_unicat (regd H_V) (fun v => v <> []) ltac:(intros h' text w; apply ra_process) ltac:(intros p w; apply ra_post) ltac:(intros M o o' S; apply (regd_same M); exact S) ltac:(intros h'; destruct h'; cbn; intuition discriminate) ltac:(intros p D; destruct p; first [congruence|cbn; intuition discriminate]) (fun _ => True)); auto.
    - intros w w' u Lk _ _ H v0 Hv Nv. cbn [run_post] in H. unfold post_unicat in H.
      assert (St : forall A B (m : M A) (k : A -> M B) wa r, mbind m k wa = (w', Ok r) -> ra m -> labk (me wa) -> exists a wb, labk (me wb) /\ k a wb = (w', Ok r) /\ m wa = (wb, Ok a)).
      { intros A B m k wa r0 Hb R L0. destruct (R wa) as (A1 & _). unfold mbind in Hb. destruct (m wa) as [wb [a|e]]; [|discriminate]. exists a, wb. auto. }
      apply St in H; [|rao|auto]. destruct H as (u1 & w1 & L1 & H & _). apply St in H; [|rao|auto]. destruct H as (ps & w2 & L2 & H & _).
      apply St in H; [|unfold unicat_row, unicat_cell; rao|auto]. destruct H as (u3 & w3 & L3 & H & _).
      pose proof (addH5_regd H_V w3 L3) as R. rewrite H in R. exact R.
    - intros file v0 H Nv. cbn in H. first [discriminate|injection H; intros <-; apply Nv; reflexivity].
    - repeat split; discriminate.
  Qed.
End Posts.
