(** The writer of #UXML is registered for every scan that has a tree *)
From Coq Require Import String.
From Verif Require Import Py PyFacts Utils Scanf Keys KeyFacts Geom Handlers Reader MonadFacts FrameFacts StateFacts SpecKeys SpecHistory HistInv RegFacts RegAll RegAll2 RegAll3
  SpecText SpecInterp InterpFacts H5 Writer KeepFacts SpecWriter WriterFacts SaveFacts.
Import ListNotations.
Local Open Scope list_scope.

Definition UXL : str := L "UXML_metadata".
Definition UI (o : obj) : Prop := exists d, o A_h5 = Some d /\ forall v, dget UXL d = Some v -> v = H_UXML.
Definition UR (o : obj) : Prop := exists d, o A_h5 = Some d /\ dget UXL d = Some H_UXML.
Definition uz {A} (m : M A) : Prop := forall w, (UI (me w) -> UI (me (fst (m w)))) /\ (UR (me w) -> UR (me (fst (m w)))).
Lemma uz_same {A} (m : M A) : (forall w, me (fst (m w)) A_h5 = me w A_h5) -> uz m.
Proof. intros H w. unfold UI, UR. rewrite (H w). auto. Qed.
Lemma uz_ret {A} (x : A) : uz (ret x). Proof. apply uz_same; auto. Qed.
Lemma uz_raise {A} e : uz (@raise A e). Proof. apply uz_same; auto. Qed.
Lemma uz_lift {A} (r : res A) : uz (lift r). Proof. apply uz_same; auto. Qed.
Lemma uz_getA a : uz (getA a). Proof. apply uz_same; auto. Qed.
Lemma uz_hasA a : uz (hasA a). Proof. apply uz_same; auto. Qed.
Lemma uz_getP a : uz (getP a). Proof. apply uz_same; auto. Qed.
Lemma uz_ask : uz askScan. Proof. apply uz_same; auto. Qed.
Lemma uz_setA a v : a <> A_h5 -> uz (setA a v).
Proof. intros H1. apply uz_same. intros w. unfold setA. cbn [fst me]. rewrite !upd_other by auto. auto. Qed.
Lemma uz_setP a v : uz (setP a v).
Proof. apply uz_same. intros w. unfold setP. destruct (peer w); [destruct (is_scan w)|]; repeat split; reflexivity. Qed.
Lemma uz_bind {A B} (m : M A) (k : A -> M B) : uz m -> (forall a, uz (k a)) -> uz (mbind m k).
Proof.
  intros H1 H2 w. unfold mbind. specialize (H1 w). destruct (m w) as [w1 [a|e]]; cbn [fst] in *; [|auto].
  destruct H1 as [A1 A2]. destruct (H2 a w1) as [B1 B2]. auto.
Qed.
Lemma uz_iterM {A} (f : A -> M unit) l : (forall x, uz (f x)) -> uz (iterM f l).
Proof. intros H. induction l; cbn [iterM]; [apply uz_ret|apply uz_bind; auto]. Qed.
Lemma uz_ensure a i : a <> A_h5 -> uz (ensure a i).
Proof. intros H1. apply uz_bind; [apply uz_hasA|]. intros []; [apply uz_ret|apply uz_setA; auto]. Qed.
Lemma uz_addH5 l h : l <> UXL \/ h = H_UXML -> uz (addH5 l h).
Proof.
  intros Hl w. unfold addH5, mbind, getA. destruct (me w A_h5) as [d|] eqn:Ed; cbn [fst]; [|auto].
  unfold setA. cbn [fst me]. unfold UI, UR. rewrite !upd_same. rewrite Ed. split.
  - intros (d' & Eq & H'). injection Eq; intros <-. eexists. split; [reflexivity|]. intros v. rewrite dget_dadd. destruct (dget UXL d) as [x|] eqn:D.
    + intros X. injection X; intros <-. auto.
    + destruct (seqb UXL l) eqn:Es; [|discriminate]. apply seqb_eq in Es. intros X. injection X; intros <-. destruct Hl as [Hl|Hl]; congruence.
  - intros (d' & Eq & D). injection Eq; intros <-. eexists. split; [reflexivity|]. rewrite dget_dadd, D. reflexivity.
Qed.
Lemma uz_addPost l f : uz (addPost l f).
Proof.
  apply uz_same. intros w. unfold addPost, mbind, getA. destruct (me w A_posts) as [d|] eqn:Ed; cbn [fst]; [|auto].
  unfold setA. cbn [fst me]. rewrite upd_other by discriminate. auto.
Qed.
Lemma uz_whenScan m : uz m -> uz (whenScan m).
Proof. intros H. apply uz_bind; [apply uz_ask|]. intros []; auto. apply uz_ret. Qed.
Lemma uz_whenHeader m : uz m -> uz (whenHeader m).
Proof. intros H. apply uz_bind; [apply uz_ask|]. intros []; auto. apply uz_ret. Qed.
Ltac uzo := repeat first
  [ apply uz_ret | apply uz_raise | apply uz_lift | apply uz_getA | apply uz_hasA | apply uz_getP | apply uz_ask
  | apply uz_setA; discriminate | apply uz_setP | apply uz_ensure; discriminate | apply uz_addPost | apply uz_addH5; first [left; apply seqb_neq; reflexivity | right; reflexivity]
  | apply uz_whenScan | apply uz_whenHeader | apply uz_iterM; intros
  | apply uz_bind; [|intros]
  | match goal with |- uz (match ?x with _ => _ end) => destruct x end
  | match goal with |- uz (let '(_, _) := ?x in _) => destruct x end ].
Lemma uz_X fmts text : uz (process_X_fmts fmts text).
Proof.
  induction fmts as [|f fmts IH]; cbn [process_X_fmts]; [apply uz_ret|].
  apply uz_bind; [apply uz_lift|]. intros [[|[a|a|a] [|[b|b|b] [|]]]|]; try apply uz_raise; auto.
  repeat (apply uz_bind; [apply uz_setA; discriminate|intros]). apply uz_addH5. left. apply seqb_neq; reflexivity.
Qed.
Lemma uz_process E h text : uz (process E h text).
Proof.
  destruct h; cbn [process]; try apply uz_X;
  unfold process_F, process_G, process_D, check_ts, process_C, process_I, process_J, process_j, process_L, process_M, process_T, process_N, process_O, process_o,
      process_P, process_Q, process_R, process_U, process_data, process_CALIB, process_CHANN, process_CTIME, process_ROI,
      process_VA, process_VD, process_VE, process_XPCS, process_CCD, process_MD, process_unrec, process_UIM, process_H, process_V, process_UXML, value_name; try (uzo; fail).
Qed.
Lemma uz_post E p : uz (run_post E p).
Proof.
  destruct p; cbn [run_post];
  unfold post_geo, post_counter, post_posx, post_motor, motor_row, motor_cell, add_icomment, post_data, post_unicat, unicat_row, unicat_cell, post_uxml; uzo.
Qed.

Section Uxml.
  Context (E : env) (known : list hid) (Hk : incl all_hids known).
  Lemma reg_UXML s0 s versions ks s' f r n sc v : history E known s0 -> saves E known s0 s -> save E known versions ks s = (s', f, r) ->
    dget n (scans s') = Some sc -> s_done sc = true -> s_obj sc A_UXML_root = Some v -> registered H_UXML sc.
  Proof.
    intros Hh Hs H Hd D Hv. assert (X : UR (s_obj sc)).
    2:{ destruct X as (d & A & B). exists d. split; [exact A|]. apply dget_In in B. apply (in_map snd) in B. exact B. }
    refine (post_reg E known Hk A_UXML_root PP_uxml UR (fun v => True) _ _ _ ltac:(intros h'; destruct h'; cbn; intuition discriminate) ltac:(intros p Np; destruct p; first [congruence|cbn; intuition discriminate])
      UI _ _ _ _ _ _ _ s0 s versions ks s' f r n sc v Hh Hs H Hd D Hv I).
    - intros h' text w. apply uz_process.
    - intros p w. apply uz_post.
    - intros M o o' S (d & A & B). exists d. split; [|exact B]. rewrite <- A. apply S. apply may_not; discriminate.
    - intros file. exists []. split; [reflexivity|discriminate].
    - intros h' text w. apply uz_process.
    - intros p w. apply uz_post.
    - intros M o o' S (d & A & B). assert (Eh : o' A_h5 = o A_h5) by (apply S; apply may_not; discriminate). unfold UI. rewrite Eh. exists d. auto.
    - intros w w' u Lk Z P H1 v0 _ _. cbn [run_post] in H1. unfold post_uxml in H1.
      assert (St : forall A B (m : M A) (k : A -> M B) wa r, mbind m k wa = (w', Ok r) -> uz m -> UI (me wa) -> exists a wb, UI (me wb) /\ k a wb = (w', Ok r) /\ m wa = (wb, Ok a)).
      { intros A B m k wa r0 Hb R L0. destruct (R wa) as (A1 & _). unfold mbind in Hb. destruct (m wa) as [wb [a|e]]; [|discriminate]. exists a, wb. auto. }
      apply St in H1; [|apply uz_getA|exact Z]. destruct H1 as (u1 & w1 & L1 & H1 & _). apply St in H1; [|apply uz_lift|exact L1]. destruct H1 as (ps & w2 & L2 & H1 & _).
      apply St in H1; [|apply uz_setA; discriminate|exact L2]. destruct H1 as (u3 & w3 & (d & Z1 & Z2) & H1 & _). destruct (forallb xvalid ps); [|discriminate H1].
      assert (R : UR (me (fst (addH5 UXL H_UXML w3)))).
      { unfold addH5, mbind, getA. rewrite Z1. unfold setA. cbn [fst me]. exists (dadd UXL H_UXML d). rewrite upd_same. split; [reflexivity|]. rewrite dget_dadd.
        destruct (dget UXL d) as [x|] eqn:Dg; [rewrite (Z2 x); auto|rewrite seqb_refl; reflexivity]. }
      fold UXL in H1. rewrite H1 in R. exact R.
    - intros file v0 X. cbn in X. discriminate X.
    - repeat split; discriminate.
  Qed.
End Uxml.
