(** The writers of the control lines are registered for every scan that has what they write *)
From Coq Require Import String.
From Verif Require Import Py PyFacts Keys KeyFacts Geom Handlers Reader MonadFacts FrameFacts StateFacts SpecHistory HistInv RegFacts
  SpecWriter.
Import ListNotations.
Local Open Scope list_scope.

Definition labk (o : obj) : Prop := exists d, o A_h5 = Some d /\ forall h v, dget (key_of h) d = Some v -> v = h.
Definition regd (h : hid) (o : obj) : Prop := exists d, o A_h5 = Some d /\ dget (key_of h) d = Some h.
Definition own (l : str) (h : hid) : Prop := forall h', key_of h' = l -> h' = h.
Lemma own_key h : own (key_of h) h. Proof. intros h' H. apply key_of_inj; auto. Qed.
Lemma regd_In h o : regd h o -> exists d, o A_h5 = Some d /\ In h (values d).
Proof. intros (d & H1 & H2). exists d. split; auto. apply dget_In in H2. apply (in_map snd) in H2. exact H2. Qed.

Definition ra {A} (m : M A) : Prop := forall w, (labk (me w) -> labk (me (fst (m w)))) /\
  (forall h, regd h (me w) -> regd h (me (fst (m w)))) /\ forall p, posted p (me w) -> posted p (me (fst (m w))).
Lemma ra_same {A} (m : M A) : (forall w, me (fst (m w)) A_h5 = me w A_h5 /\ me (fst (m w)) A_posts = me w A_posts) -> ra m.
Proof. intros H w. destruct (H w) as [H1 H2]. unfold labk, regd, posted. rewrite H1, H2. auto. Qed.
Lemma ra_ret {A} (x : A) : ra (ret x). Proof. apply ra_same; auto. Qed.
Lemma ra_raise {A} e : ra (@raise A e). Proof. apply ra_same; auto. Qed.
Lemma ra_lift {A} (r : res A) : ra (lift r). Proof. apply ra_same; auto. Qed.
Lemma ra_getA a : ra (getA a). Proof. apply ra_same; auto. Qed.
Lemma ra_hasA a : ra (hasA a). Proof. apply ra_same; auto. Qed.
Lemma ra_getP a : ra (getP a). Proof. apply ra_same; auto. Qed.
Lemma ra_ask : ra askScan. Proof. apply ra_same; auto. Qed.
Lemma ra_setA a v : a <> A_h5 -> a <> A_posts -> ra (setA a v).
Proof. intros H1 H2. apply ra_same. intros w. unfold setA. cbn [fst me]. rewrite !upd_other by auto. auto. Qed.
Lemma ra_setP a v : ra (setP a v).
Proof. apply ra_same. intros w. unfold setP. destruct (peer w); [destruct (is_scan w)|]; split; reflexivity. Qed.
Lemma ra_bind {A B} (m : M A) (k : A -> M B) : ra m -> (forall a, ra (k a)) -> ra (mbind m k).
Proof.
  intros H1 H2 w. unfold mbind. destruct (H1 w) as (A1 & A2 & A3). destruct (m w) as [w1 [a|e]]; cbn [fst] in *; [|auto].
  destruct (H2 a w1) as (B1 & B2 & B3). auto.
Qed.
Lemma ra_iterM {A} (f : A -> M unit) l : (forall x, ra (f x)) -> ra (iterM f l).
Proof. intros H. induction l; cbn [iterM]; [apply ra_ret|apply ra_bind; auto]. Qed.
Lemma ra_ensure a i : a <> A_h5 -> a <> A_posts -> ra (ensure a i).
Proof. intros H1 H2. apply ra_bind; [apply ra_hasA|]. intros []; [apply ra_ret|apply ra_setA; auto]. Qed.
Lemma ra_addH5 l h : own l h -> ra (addH5 l h).
Proof.
  intros Hl w. unfold addH5, mbind, getA. destruct (me w A_h5) as [d|] eqn:Ed; cbn [fst]; [|auto].
  unfold setA. cbn [fst me]. unfold labk, regd, posted. rewrite !upd_same, !upd_other by discriminate. rewrite Ed. split; [|split]; auto.
  - intros (d' & Eq & H). injection Eq; intros <-. eexists. split; [reflexivity|]. intros h' v. rewrite dget_dadd. destruct (dget (key_of h') d) as [x|] eqn:D.
    + intros X. injection X; intros <-. eapply H; eauto.
    + destruct (seqb (key_of h') l) eqn:Es; [|discriminate]. apply seqb_eq in Es. intros X. injection X; intros <-. symmetry. auto.
  - intros h' (d' & Eq & D). injection Eq; intros <-. eexists. split; [reflexivity|]. rewrite dget_dadd, D. reflexivity.
Qed.
Lemma ra_addPost l f : ra (addPost l f).
Proof.
  intros w. unfold addPost, mbind, getA. destruct (me w A_posts) as [d|] eqn:Ed; cbn [fst]; [|auto].
  unfold setA. cbn [fst me]. unfold labk, regd, posted. rewrite !upd_same, !upd_other by discriminate. rewrite Ed. split; [|split]; auto.
  intros p (d' & Eq & D). injection Eq; intros <-. eexists. split; [reflexivity|]. unfold dadd. destruct (has (L l) d); auto.
  unfold values in *. rewrite map_app. apply in_app_iff; auto.
Qed.
Lemma ra_whenScan m : ra m -> ra (whenScan m).
Proof. intros H. apply ra_bind; [apply ra_ask|]. intros []; auto. apply ra_ret. Qed.
Lemma ra_whenHeader m : ra m -> ra (whenHeader m).
Proof. intros H. apply ra_bind; [apply ra_ask|]. intros []; auto. apply ra_ret. Qed.

Ltac rao := repeat first
  [ apply ra_ret | apply ra_raise | apply ra_lift | apply ra_getA | apply ra_hasA | apply ra_getP | apply ra_ask
  | apply ra_setA; discriminate | apply ra_setP | apply ra_ensure; discriminate | apply ra_addPost
  | apply ra_addH5; first [apply own_key | let h' := fresh in let H := fresh in intros h' H; destruct h'; first [discriminate H|reflexivity]]
  | apply ra_whenScan | apply ra_whenHeader | apply ra_iterM; intros
  | apply ra_bind; [|intros]
  | match goal with |- ra (match ?x with _ => _ end) => destruct x end
  | match goal with |- ra (let '(_, _) := ?x in _) => destruct x end ].

Lemma ra_X fmts text : ra (process_X_fmts fmts text).
Proof.
  induction fmts as [|f fmts IH]; cbn [process_X_fmts]; [apply ra_ret|].
  apply ra_bind; [apply ra_lift|]. intros [[|[a|a|a] [|[b|b|b] [|]]]|]; try apply ra_raise; auto.
  repeat (apply ra_bind; [apply ra_setA; discriminate|intros]). apply ra_addH5. apply own_key.
Qed.
Lemma ra_process E h text : ra (process E h text).
Proof.
  destruct h; cbn [process];
  unfold process_F, process_D, check_ts, process_C, process_G, process_I, process_J, process_j, process_L, process_M, process_T, process_N, process_O, process_o,
      process_P, process_Q, process_R, process_U, process_data, process_CALIB, process_CHANN, process_CTIME, process_ROI,
      process_VA, process_VD, process_VE, process_XPCS, process_CCD, process_MD, process_unrec, process_UIM, process_H, process_V, process_UXML, value_name;
    try (rao; fail); first [apply ra_X|unfold process_X; apply ra_X|idtac].
Qed.
Lemma ra_post E p : ra (run_post E p).
Proof.
  destruct p; cbn [run_post];
  unfold post_geo, post_counter, post_posx, post_motor, motor_row, motor_cell, add_icomment, post_data, post_unicat, unicat_row, unicat_cell, post_uxml; rao.
Qed.
Lemma ra_scan_line E known line : ra (scan_line E known line).
Proof.
  unfold scan_line. destruct line; [apply ra_ret|]. apply ra_bind; [apply ra_lift|]. intros [[]|]; first [apply ra_process|apply ra_ret].
Qed.
Lemma ra_interpret E known raw : ra (interpret_scan E known raw).
Proof.
  unfold interpret_scan, run_posts. apply ra_bind; [apply ra_iterM; intros; apply ra_scan_line|]. intros _. apply ra_bind; [apply ra_getA|].
  intros. apply ra_iterM. intros. apply ra_post.
Qed.
(** registering *)
Lemma addH5_regd h w : labk (me w) -> regd h (me (fst (addH5 (key_of h) h w))).
Proof.
  intros (d & Ed & Hl). unfold addH5, mbind, getA. rewrite Ed.
  exists (dadd (key_of h) h d). cbn [fst setA me]. split; [unfold setA; cbn [fst me]; apply upd_same|]. rewrite dget_dadd, seqb_refl. destruct (dget (key_of h) d) as [v|] eqn:D; [|reflexivity].
  f_equal. eapply Hl; eauto.
Qed.
