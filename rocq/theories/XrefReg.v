(** The writers of the cross references of a header are registered *)
From Coq Require Import String Lia.
From Verif Require Import Py PyFacts Keys Geom Handlers Reader MonadFacts FrameFacts StateFacts SpecHistory SpecTables PostFacts HeaderFacts RegFacts.
Import ListNotations.
Local Open Scope list_scope.

Definition CL : str := L "counter cross-referencing". Definition PL : str := L "positioner cross-referencing".
Definition isJ (h : hid) : Prop := h = H_J \/ h = H_j.
(** only the writers of cross references have their labels *)
Definition xlab (o : obj) : Prop := 
  (forall d, o A_h5 = Some d -> (forall v, dget CL d = Some v -> isJ v) /\ (forall v, dget PL d = Some v -> v = H_o)) /\
  (forall d, o A_posts = Some d -> forall h, In (PP_counter h) (values d) -> isJ h).
Definition xreg (l : str) (o : obj) : Prop := exists d v, o A_h5 = Some d /\ dget l d = Some v.
Definition xr {A} (m : M A) : Prop := forall w, (xlab (me w) -> xlab (me (fst (m w)))) /\ (forall l, xreg l (me w) -> xreg l (me (fst (m w)))).

Lemma xr_same {A} (m : M A) : (forall w, me (fst (m w)) A_h5 = me w A_h5 /\ me (fst (m w)) A_posts = me w A_posts) -> xr m.
Proof. intros H w. destruct (H w) as [H1 H2]. unfold xlab, xreg. rewrite H1, H2. auto. Qed.
Lemma xr_ret {A} (x : A) : xr (ret x). Proof. apply xr_same; auto. Qed.
Lemma xr_raise {A} e : xr (@raise A e). Proof. apply xr_same; auto. Qed.
Lemma xr_lift {A} (r : res A) : xr (lift r). Proof. apply xr_same; auto. Qed.
Lemma xr_getA a : xr (getA a). Proof. apply xr_same; auto. Qed.
Lemma xr_hasA a : xr (hasA a). Proof. apply xr_same; auto. Qed.
Lemma xr_getP a : xr (getP a). Proof. apply xr_same; auto. Qed.
Lemma xr_ask : xr askScan. Proof. apply xr_same; auto. Qed.
Lemma xr_setA a v : a <> A_h5 -> a <> A_posts -> xr (setA a v).
Proof. intros H1 H2. apply xr_same. intros w. unfold setA. cbn [fst me]. rewrite !upd_other by auto. auto. Qed.
Lemma xr_setP a v : xr (setP a v).
Proof. apply xr_same. intros w. unfold setP. destruct (peer w); [destruct (is_scan w)|]; split; reflexivity. Qed.
Lemma xr_bind {A B} (m : M A) (k : A -> M B) : xr m -> (forall a, xr (k a)) -> xr (mbind m k).
Proof.
  intros H1 H2 w. unfold mbind. destruct (H1 w) as (A1 & A2). destruct (m w) as [w1 [a|e]]; cbn [fst] in *; [|auto].
  destruct (H2 a w1) as (B1 & B2). auto.
Qed.
Lemma xr_iterM {A} (f : A -> M unit) l : (forall x, xr (f x)) -> xr (iterM f l).
Proof. intros H. induction l; cbn [iterM]; [apply xr_ret|apply xr_bind; auto]. Qed.
Lemma xr_ensure a i : a <> A_h5 -> a <> A_posts -> xr (ensure a i).
Proof. intros H1 H2. apply xr_bind; [apply xr_hasA|]. intros []; [apply xr_ret|apply xr_setA; auto]. Qed.
Lemma xr_addH5 l h : (l = CL -> isJ h) -> (l = PL -> h = H_o) -> xr (addH5 l h).
Proof.
  intros Hc Hp w. unfold addH5, mbind, getA. destruct (me w A_h5) as [d|] eqn:Ed; cbn [fst]; [|auto].
  unfold setA. cbn [fst me]. unfold xlab, xreg. rewrite !upd_same, !upd_other by discriminate. rewrite Ed. split.
  - intros [H1 H2]. split; [|exact H2]. destruct (H1 d eq_refl) as [X Y]. intros d' Eq. assert (d' = dadd l h d) by congruence. subst d'. clear Eq. split; intros v; rewrite dget_dadd.
    + destruct (dget CL d) as [x|] eqn:D; [intros Q; apply X; exact Q|]. destruct (seqb CL l) eqn:Es; [|discriminate]. apply seqb_eq in Es. intros Q. assert (v = h) by congruence. subst v. apply Hc. congruence.
    + destruct (dget PL d) as [x|] eqn:D; [intros Q; apply Y; exact Q|]. destruct (seqb PL l) eqn:Es; [|discriminate]. apply seqb_eq in Es. intros Q. assert (v = h) by congruence. subst v. apply Hp. congruence.
  - intros l0 (d' & v & Eq & D). assert (d' = d) by congruence. subst d'. eexists. exists v. split; [reflexivity|]. rewrite dget_dadd, D. reflexivity.
Qed.
Lemma xr_addPost l f : (forall h, f = PP_counter h -> isJ h) -> xr (addPost l f).
Proof.
  intros Hf w. unfold addPost, mbind, getA. destruct (me w A_posts) as [d|] eqn:Ed; cbn [fst]; [|auto].
  unfold setA. cbn [fst me]. unfold xlab, xreg. rewrite !upd_same, !upd_other by discriminate. rewrite Ed. split; [|auto].
  intros [H1 H2]. split; [exact H1|]. intros d' Eq h. assert (d' = dadd (L l) f d) by congruence. subst d'. clear Eq. unfold dadd. destruct (has (L l) d); [apply H2; auto|].
  unfold values. rewrite map_app, in_app_iff. intros [Q|[Q|[]]]; [apply (H2 d eq_refl); exact Q|apply Hf; exact Q].
Qed.
Lemma xr_whenScan m : xr m -> xr (whenScan m).
Proof. intros H. apply xr_bind; [apply xr_ask|]. intros []; auto. apply xr_ret. Qed.
Lemma xr_whenHeader m : xr m -> xr (whenHeader m).
Proof. intros H. apply xr_bind; [apply xr_ask|]. intros []; auto. apply xr_ret. Qed.

Ltac nolab := let Q := fresh in intros Q; exfalso; revert Q; apply seqb_neq; reflexivity.
Ltac xro := repeat first
  [ apply xr_ret | apply xr_raise | apply xr_lift | apply xr_getA | apply xr_hasA | apply xr_getP | apply xr_ask
  | apply xr_setA; discriminate | apply xr_setP | apply xr_ensure; discriminate
  | apply xr_addPost; let Q := fresh in intros ? Q; first [discriminate Q | injection Q as <-; unfold isJ; auto; fail]
  | apply xr_addH5; [nolab|nolab]
  | apply xr_whenScan | apply xr_whenHeader | apply xr_iterM; intros
  | lazymatch goal with |- xr (addH5 _ _) => fail | |- xr (addPost _ _) => fail | |- _ => apply xr_bind; [|intros] end
  | match goal with |- xr (match ?x with _ => _ end) => destruct x end
  | match goal with |- xr (let '(_, _) := ?x in _) => destruct x end ].

Lemma xr_X fmts text : xr (process_X_fmts fmts text).
Proof.
  induction fmts as [|f fmts IH]; cbn [process_X_fmts]; [apply xr_ret|].
  apply xr_bind; [apply xr_lift|]. intros [[|[a|a|a] [|[b|b|b] [|]]]|]; try apply xr_raise; auto.
  repeat (apply xr_bind; [apply xr_setA; discriminate|intros]). apply xr_addH5; nolab.
Qed.
Lemma xr_process E h text : xr (process E h text).
Proof.
  destruct h; cbn [process];
  unfold process_F, process_D, check_ts, process_C, process_G, process_I, process_J, process_j, process_L, process_M, process_T, process_N, process_O, process_o,
      process_P, process_Q, process_R, process_U, process_data, process_CALIB, process_CHANN, process_CTIME, process_ROI,
      process_VA, process_VD, process_VE, process_XPCS, process_CCD, process_MD, process_unrec, process_UIM, process_H, process_V, process_UXML, value_name; try (xro; fail).
Qed.
Lemma xr_post E p : (forall h, p = PP_counter h -> isJ h) -> xr (run_post E p).
Proof.
  intros Hp. destruct p; cbn [run_post];
  unfold post_geo, post_counter, post_posx, post_motor, motor_row, motor_cell, add_icomment, post_data, post_unicat, unicat_row, unicat_cell, post_uxml; xro.
  - apply xr_addH5; [intros _; apply Hp; reflexivity|nolab].
  - apply xr_addH5; [nolab|reflexivity].
Qed.
Lemma xr_header_line E known line : xr (header_line E known line).
Proof.
  unfold header_line. destruct line; [apply xr_ret|]. apply xr_bind; [apply xr_lift|]. intros [[]|]; first [apply xr_process|apply xr_ret].
Qed.

Lemma addH5_reg l h w w' u : addH5 l h w = (w', Ok u) -> xreg l (me w').
Proof.
  intros H. apply addH5_ok in H. destruct H as (_ & _ & _ & d & _ & Q). unfold xreg. exists (dadd l h d).
  rewrite dget_dadd, seqb_refl. destruct (dget l d) as [v|]; [exists v|exists h]; auto.
Qed.
Lemma post_reg E p l w w' : ((exists h, p = PP_counter h) /\ l = CL) \/ (p = PP_posx /\ l = PL) -> run_post E p w = (w', Ok tt) -> xreg l (me w').
Proof.
  intros Hp H. destruct Hp as [[[h ->] ->]|[-> ->]]; cbn [run_post] in H; unfold post_counter, post_posx in H;
  (apply mbind_ok in H; destruct H as (w1 & b1 & _ & H); apply mbind_ok in H; destruct H as (w2 & b2 & _ & H);
   apply mbind_ok in H; destruct H as (w3 & u & _ & H)); eapply addH5_reg; exact H.
Qed.

Section Reg.
  Context (E : env) (known : list hid) (Hk : incl all_hids known).
  Lemma posts_reg p l : ((exists h, p = PP_counter h) /\ l = CL) \/ (p = PP_posx /\ l = PL) -> forall ps w w', (forall h, In (PP_counter h) ps -> isJ h) ->
    iterM (run_post E) ps w = (w', Ok tt) -> xlab (me w) -> xlab (me w') /\ (xreg l (me w) \/ In p ps -> xreg l (me w')).
  Proof.
    intros Hp ps. induction ps as [|q ps IH]; intros w w' Hq H HL; cbn [iterM] in H.
    - apply ret_ok in H. destruct H as [-> _]. split; [auto|]. intros [Q|[]]; exact Q.
    - apply mbind_ok in H. destruct H as (w1 & [] & H1 & H2).
      destruct (xr_post E q ltac:(intros h ->; apply Hq; left; reflexivity) w) as [X1 X2]. rewrite H1 in X1, X2. cbn [fst] in X1, X2.
      destruct (IH w1 w' ltac:(intros h Hh; apply Hq; right; exact Hh) H2 (X1 HL)) as [I1 I2]. split; [exact I1|].
      intros [Q|[Q|Q]]; apply I2; [left; apply X2; exact Q| |right; exact Q]. subst q. left. eapply post_reg; eauto.
  Qed.
  Lemma header_reg raw o p l lines h : header_read E known raw o -> ((exists h, p = PP_counter h) /\ l = CL) \/ (p = PP_posx /\ l = PL) ->
    post_of h = Some p -> h <> H_unrec -> h <> H_E ->
    hlines known h (splitlines raw) = lines -> lines <> [] ->
    exists hw v, o A_h5 = Some hw /\ dget l hw = Some v /\ (l = CL -> isJ v) /\ (l = PL -> v = H_o).
  Proof.
    intros Hr Hp Hh Hu He El Hne. destruct (header_ran E known _ _ Hr) as (w0 & w1 & w & R). destruct (header_posts E known _ _ _ _ _ R) as [P1 P2].
    assert (L0 : xlab (me w0)).
    { destruct (hran_w0 _ _ _ _ _ _ _ R) as (_ & ep & ->). split; intros d Q; rewrite upd_other in Q by discriminate; cbn in Q.
      - assert (d = []) by congruence. subst d. split; discriminate. - assert (d = []) by congruence. subst d. intros ? []. }
    destruct (xr_iterM (header_line E known) (splitlines raw) (xr_header_line E known) w0) as [X1 _]. rewrite (hran_lines _ _ _ _ _ _ _ R) in X1. cbn [fst] in X1. specialize (X1 L0).
    pose proof (hran_posts _ _ _ _ _ _ _ R) as H. unfold run_posts in H. apply mbind_ok in H. destruct H as (w2 & d & H1 & H2). apply getA_ok in H1. destruct H1 as [-> H1].
    assert (Ed : posts w1 = d) by (unfold posts; rewrite H1; auto). rewrite Ed in *.
    assert (Hin : exists q, In q (values d) /\ label_of q = label_of p).
    { destruct lines as [|x t]; [congruence|]. assert (Q : In x (hlines known h (splitlines raw))) by (rewrite El; left; auto).
      apply filter_In in Q. destruct Q as [Q1 Q2]. apply chosen_only in Q2. destruct (P2 (label_of p)) as [_ P3].
      assert (T : has (label_of p) d = true) by (apply P3; exists x, h, p; auto). unfold has in T. destruct (dget (label_of p) d) as [q|] eqn:Eg; [|discriminate].
      apply ReaderFacts4.dget_In in Eg. exists q. split; [apply (in_map snd) in Eg; exact Eg|]. destruct P1 as [_ P1]. rewrite Forall_forall in P1. symmetry. apply (P1 _ Eg). }
    destruct Hin as (q & Q1 & Q2).
    assert (Hq : ((exists h, q = PP_counter h) /\ l = CL) \/ (q = PP_posx /\ l = PL)).
    { destruct Hp as [[[h0 ->] ->]|[-> ->]]; [left|right]; (split; [|reflexivity]); destruct q; try discriminate Q2; eauto. }
    destruct (posts_reg q l Hq (values d) w1 w ltac:(intros h0; apply (proj2 X1 d H1)) H2 X1) as [I1 I2].
    destruct (I2 (or_intror Q1)) as (hw & v & V1 & V2). rewrite <- (hran_o _ _ _ _ _ _ _ R) in *. exists hw, v. split; [exact V1|]. split; [exact V2|].
    destruct (proj1 I1 hw V1) as [A1 A2]. split; intros ->; [apply A1|apply A2]; exact V2.
  Qed.
End Reg.
