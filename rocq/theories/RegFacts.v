(** The writer of the table is registered for every interpreted scan that has one *)
From Coq Require Import String.
From Verif Require Import Py PyFacts Keys Geom Handlers Reader MonadFacts FrameFacts StateFacts SpecHistory HistInv.
Import ListNotations.
Local Open Scope list_scope.

Definition SD : str := L "scan_data".
Definition lab (o : obj) : Prop := forall d, o A_h5 = Some d -> forall v, dget SD d = Some v -> v = H_data.
Definition reg (o : obj) : Prop := exists d, o A_h5 = Some d /\ dget SD d = Some H_data.
Definition posted (p : pp) (o : obj) : Prop := exists d, o A_posts = Some d /\ In p (values d).

Definition rg {A} (m : M A) : Prop := forall w, (lab (me w) -> lab (me (fst (m w)))) /\ (reg (me w) -> reg (me (fst (m w)))) /\
  forall p, posted p (me w) -> posted p (me (fst (m w))).

Lemma rg_same {A} (m : M A) : (forall w, me (fst (m w)) A_h5 = me w A_h5 /\ me (fst (m w)) A_posts = me w A_posts) -> rg m.
Proof. intros H w. destruct (H w) as [H1 H2]. unfold lab, reg, posted. rewrite H1, H2. auto. Qed.
Lemma rg_ret {A} (x : A) : rg (ret x). Proof. apply rg_same; auto. Qed.
Lemma rg_raise {A} e : rg (@raise A e). Proof. apply rg_same; auto. Qed.
Lemma rg_lift {A} (r : res A) : rg (lift r). Proof. apply rg_same; auto. Qed.
Lemma rg_getA a : rg (getA a). Proof. apply rg_same; auto. Qed.
Lemma rg_hasA a : rg (hasA a). Proof. apply rg_same; auto. Qed.
Lemma rg_getP a : rg (getP a). Proof. apply rg_same; auto. Qed.
Lemma rg_ask : rg askScan. Proof. apply rg_same; auto. Qed.
Lemma rg_setA a v : a <> A_h5 -> a <> A_posts -> rg (setA a v).
Proof. intros H1 H2. apply rg_same. intros w. unfold setA. cbn [fst me]. rewrite !upd_other by auto. auto. Qed.
Lemma rg_setP a v : rg (setP a v).
Proof. apply rg_same. intros w. unfold setP. destruct (peer w); [destruct (is_scan w)|]; split; reflexivity. Qed.
Lemma rg_bind {A B} (m : M A) (k : A -> M B) : rg m -> (forall a, rg (k a)) -> rg (mbind m k).
Proof.
  intros H1 H2 w. unfold mbind. destruct (H1 w) as (A1 & A2 & A3). destruct (m w) as [w1 [a|e]]; cbn [fst] in *; [|auto].
  destruct (H2 a w1) as (B1 & B2 & B3). auto.
Qed.
Lemma rg_iterM {A} (f : A -> M unit) l : (forall x, rg (f x)) -> rg (iterM f l).
Proof. intros H. induction l; cbn [iterM]; [apply rg_ret|apply rg_bind; auto]. Qed.
Lemma rg_ensure a i : a <> A_h5 -> a <> A_posts -> rg (ensure a i).
Proof. intros H1 H2. apply rg_bind; [apply rg_hasA|]. intros []; [apply rg_ret|apply rg_setA; auto]. Qed.
Lemma dget_dadd {V} k (v : V) d k' : dget k' (dadd k v d) = match dget k' d with Some x => Some x | None => if seqb k' k then Some v else None end.
Proof.
  unfold dadd, has. destruct (dget k d) as [x|] eqn:D.
  - destruct (dget k' d) eqn:D'; auto. destruct (seqb k' k) eqn:Es; auto. apply seqb_eq in Es. congruence.
  - rewrite dget_app. destruct (dget k' d); auto.
Qed.
Lemma rg_addH5 l h : l <> SD \/ h = H_data -> rg (addH5 l h).
Proof.
  intros Hl w. unfold addH5, mbind, getA. destruct (me w A_h5) as [d|] eqn:Ed; cbn [fst]; [|auto].
  unfold setA. cbn [fst me]. unfold lab, reg, posted. rewrite !upd_same, !upd_other by discriminate. rewrite Ed. split; [|split]; auto.
  - intros H d' Eq v. injection Eq; intros <-. rewrite dget_dadd. destruct (dget SD d) as [x|] eqn:D.
    + intros X. injection X; intros <-. eapply H; eauto.
    + destruct (seqb SD l) eqn:Es; [|discriminate]. apply seqb_eq in Es. destruct Hl as [Hl|Hl]; congruence.
  - intros (d' & Eq & D). injection Eq; intros <-. eexists. split; [reflexivity|]. rewrite dget_dadd, D. reflexivity.
Qed.
Lemma rg_addPost l f : rg (addPost l f).
Proof.
  intros w. unfold addPost, mbind, getA. destruct (me w A_posts) as [d|] eqn:Ed; cbn [fst]; [|auto].
  unfold setA. cbn [fst me]. unfold lab, reg, posted. rewrite !upd_same, !upd_other by discriminate. rewrite Ed. split; [|split]; auto.
  intros p (d' & Eq & D). injection Eq; intros <-. eexists. split; [reflexivity|]. unfold dadd. destruct (has (L l) d); auto.
  unfold values in *. rewrite map_app. apply in_app_iff; auto.
Qed.
Lemma rg_whenScan m : rg m -> rg (whenScan m).
Proof. intros H. apply rg_bind; [apply rg_ask|]. intros []; auto. apply rg_ret. Qed.
Lemma rg_whenHeader m : rg m -> rg (whenHeader m).
Proof. intros H. apply rg_bind; [apply rg_ask|]. intros []; auto. apply rg_ret. Qed.

Ltac rgo := repeat first
  [ apply rg_ret | apply rg_raise | apply rg_lift | apply rg_getA | apply rg_hasA | apply rg_getP | apply rg_ask
  | apply rg_setA; discriminate | apply rg_setP | apply rg_ensure; discriminate | apply rg_addPost
  | apply rg_addH5; first [left; apply seqb_neq; reflexivity | right; reflexivity]
  | apply rg_whenScan | apply rg_whenHeader | apply rg_iterM; intros
  | apply rg_bind; [|intros]
  | match goal with |- rg (match ?x with _ => _ end) => destruct x end
  | match goal with |- rg (let '(_, _) := ?x in _) => destruct x end ].

Lemma rg_X fmts text : rg (process_X_fmts fmts text).
Proof.
  induction fmts as [|f fmts IH]; cbn [process_X_fmts]; [apply rg_ret|].
  apply rg_bind; [apply rg_lift|]. intros [[|[a|a|a] [|[b|b|b] [|]]]|]; try apply rg_raise; auto.
  repeat (apply rg_bind; [apply rg_setA; discriminate|intros]). apply rg_addH5. left. apply seqb_neq; reflexivity.
Qed.
Lemma rg_process E h text : rg (process E h text).
Proof.
  destruct h; cbn [process];
  unfold process_F, process_D, check_ts, process_C, process_G, process_I, process_J, process_j, process_L, process_M, process_T, process_N, process_O, process_o,
      process_P, process_Q, process_R, process_U, process_data, process_CALIB, process_CHANN, process_CTIME, process_ROI,
      process_VA, process_VD, process_VE, process_XPCS, process_CCD, process_MD, process_unrec, process_UIM, process_H, process_V, process_UXML, value_name; try (rgo; fail).
Qed.
Lemma rg_post E p : rg (run_post E p).
Proof.
  destruct p; cbn [run_post];
  unfold post_geo, post_counter, post_posx, post_motor, motor_row, motor_cell, add_icomment, post_data, post_unicat, unicat_row, unicat_cell, post_uxml; rgo.
Qed.
Lemma rg_scan_line E known line : rg (scan_line E known line).
Proof.
  unfold scan_line. destruct line; [apply rg_ret|]. apply rg_bind; [apply rg_lift|]. intros [[]|]; first [apply rg_process|apply rg_ret].
Qed.

(** the table is made by the postprocessor only, which registers the writer at its end *)
Lemma post_data_reg E w w' : lab (me w) -> run_post E PP_data w = (w', Ok tt) -> reg (me w').
Proof.
  intros Hl H. cbn [run_post] in H. unfold post_data in H.
  assert (S : forall A B (m : M A) (k : A -> M B) wa wb r, rg m -> lab (me wa) -> mbind m k wa = (wb, Ok r) ->
     exists a wc, lab (me wc) /\ k a wc = (wb, Ok r)).
  { intros A B m k wa wb r Hr La Hb. unfold mbind in Hb. destruct (Hr wa) as (X & _). destruct (m wa) as [wc [a|e]]; [|discriminate].
    exists a, wc. auto. }
  apply S in H; [|apply rg_getA|auto]. destruct H as (ls & w1 & L1 & H).
  destruct (one_space_labels ls); [discriminate|].
  apply S in H; [|apply rg_getA|auto]. destruct H as (n & w2 & L2 & H).
  apply S in H; [|apply rg_lift|auto]. destruct H as (n0 & w3 & L3 & H).
  destruct (unique_labels [] ls) as [[ls' ks] r].
  apply S in H; [|apply rg_setA; discriminate|auto]. destruct H as (u1 & w4 & L4 & H).
  apply S in H; [|apply rg_setA; discriminate|auto]. destruct H as (u2 & w5 & L5 & H).
  apply S in H; [|apply rg_lift|auto]. destruct H as (u3 & w6 & L6 & H). cbv zeta in H.
  apply S in H; [|apply rg_getA|auto]. destruct H as (dl & w7 & L7 & H).
  apply S in H; [|apply rg_getA|auto]. destruct H as (dd & w8 & L8 & H).
  apply S in H; [|rgo|auto]. destruct H as (u4 & w9 & L9 & H).
  apply S in H; [|apply rg_lift|auto]. destruct H as (n1 & w10 & L10 & H).
  apply S in H; [|apply rg_lift|auto]. destruct H as (lines & w11 & L11 & H).
  apply S in H; [|rgo|auto]. destruct H as (u5 & w12 & L12 & H).
  unfold addH5, mbind, getA in H. destruct (me w12 A_h5) as [d|] eqn:Ed; [|discriminate]. unfold setA in H.
  injection H; intros <-. exists (dadd SD H_data d). split; [apply upd_same|]. rewrite dget_dadd, seqb_refl.
  destruct (dget SD d) as [v|] eqn:D; [|reflexivity]. f_equal. eapply L12; eauto.
Qed.

(** what holds of an object: a table is there only if its postprocessor is registered *)
Definition J (o : obj) : Prop := lab o /\ forall d, o A_data = Some d -> d <> [] -> posted PP_data o.
Definition Jm {A} (m : M A) : Prop := forall w, J (me w) -> J (me (fst (m w))).
Lemma Jm_frame {A} S T (m : M A) : frame S T m -> ~ In A_data S -> rg m -> Jm m.
Proof.
  intros F N R w [H1 H2]. destruct (R w) as (A1 & A2 & A3). split; auto. intros d Hd Nd. apply A3. apply (H2 d); auto.
  destruct (F w) as (_ & [X _] & _). rewrite <- X; auto.
Qed.
Lemma Jm_iterM {A} (f : A -> M unit) l : (forall x, Jm (f x)) -> Jm (iterM f l).
Proof.
  intros H. induction l as [|x l IH]; cbn [iterM]; intros w Hw; [exact Hw|]. unfold mbind. pose proof (H x w Hw) as X.
  destruct (f x w) as [w1 [u|e]]; cbn [fst] in *; auto.
Qed.
Lemma Jm_process E h text : Jm (process E h text).
Proof. apply (Jm_frame (sets h) (peer_sets h)); [apply frame_process| |apply rg_process]. destruct h; cbn; intuition discriminate. Qed.
Lemma Jm_scan_line E known line : Jm (scan_line E known line).
Proof.
  unfold scan_line. destruct line as [|c l]; [intros w H; exact H|]. intros w H. unfold mbind, lift.
  destruct (get_control_key _ _) as [k|]; [|exact H]. destruct k as [h|]; [|apply Jm_process; exact H].
  destruct h; first [exact H|apply Jm_process; exact H].
Qed.
Lemma J_post E p w : posted p (me w) -> J (me w) -> J (me (fst (run_post E p w))).
Proof.
  intros Hp Hj. destruct (rg_post E p w) as (A1 & A2 & A3).
  assert (X : p = PP_data \/ ~ In A_data (post_sets p)) by (destruct p; cbn; [right..|left|right|right]; try reflexivity; intuition discriminate).
  destruct X as [->|X]; [split; [apply A1, Hj|auto]|]. apply (Jm_frame (post_sets p) []); auto using frame_post, rg_post.
Qed.
Lemma J_posts E l : forall w, J (me w) -> (forall p, In p l -> posted p (me w)) ->
  J (me (fst (iterM (run_post E) l w))) /\ (snd (iterM (run_post E) l w) = Ok tt -> reg (me w) \/ In PP_data l -> reg (me (fst (iterM (run_post E) l w)))).
Proof.
  induction l as [|p l IH]; cbn [iterM]; intros w Hj Hp; [split; [exact Hj|intros _ [X|[]]; exact X]|].
  unfold mbind. pose proof (J_post E p w (Hp p (or_introl eq_refl)) Hj) as J1.
  pose proof (rg_post E p w) as (A1 & A2 & A3).
  destruct (run_post E p w) as [w1 [[]|e]] eqn:E1; cbn [fst snd] in *; [|split; [exact J1|discriminate]].
  destruct (IH w1 J1) as [I1 I2]. { intros q Hq. apply A3. apply Hp. right; auto. }
  split; [exact I1|]. intros Ok_ X. apply I2; [exact Ok_|]. destruct X as [X|[X|X]]; [left; auto|left|right; auto].
  subst p. eapply post_data_reg; [|exact E1]. apply Hj.
Qed.
Lemma frame_posts_only E l : (forall w w' r, iterM (run_post E) l w = (w', r) -> me w' A_posts = me w A_posts).
Proof.
  induction l as [|p l IH]; cbn [iterM]; intros w w' r H; [unfold ret in H; congruence|]. unfold mbind in H.
  destruct (frame_post E p w) as (_ & [X _] & _). destruct (run_post E p w) as [w1 [[]|e]] eqn:E1; cbn [fst] in X.
  - rewrite (IH _ _ _ H). apply X. destruct p; cbn; intuition discriminate.
  - inversion H; subst. apply X. destruct p; cbn; intuition discriminate.
Qed.

Lemma interpret_scan_J E known raw w w' r : J (me w) -> interpret_scan E known raw w = (w', r) ->
  J (me w') /\ (r = Ok tt -> forall d, me w' A_data = Some d -> d <> [] -> reg (me w')).
Proof.
  intros Hj H. unfold interpret_scan, mbind in H. pose proof (Jm_iterM _ (scan_lines raw) (Jm_scan_line E known) w Hj) as J1.
  destruct (iterM (scan_line E known) (scan_lines raw) w) as [w1 [[]|e]]; cbn [fst] in J1; [|inversion H; subst; split; [exact J1|discriminate]].
  unfold run_posts, mbind, getA in H. destruct (me w1 A_posts) as [ps|] eqn:Ep; [|inversion H; subst; split; [exact J1|discriminate]].
  destruct (J_posts E (values ps) w1 J1) as [J2 R2]. { intros p Hp. exists ps. auto. }
  destruct (iterM (run_post E) (values ps) w1) as [w2 r2] eqn:E2. cbn [fst snd] in *. inversion H; subst w2 r2.
  split; [exact J2|]. intros -> d Hd Nd. apply R2; [reflexivity|]. right. destruct J2 as [_ J2]. destruct (J2 d Hd Nd) as (ps' & P1 & P2).
  rewrite (frame_posts_only E _ _ _ _ E2), Ep in P1. injection P1; intros <-. exact P2.
Qed.

(** ** histories *)
Definition table_writer (sc : scan) : Prop := J (s_obj sc) /\ (s_done sc = true -> forall d, s_obj sc A_data = Some d -> d <> [] -> reg (s_obj sc)).
Lemma history_table_writer E known s : history E known s -> Forall (fun kv => table_writer (snd kv)) (scans s).
Proof.
  apply history_NS.
  - intros. split; [split|].
    + intros d Hd v Hv. cbn in Hd. injection Hd; intros <-. discriminate.
    + intros d Hd Nd. cbn in Hd. injection Hd; intros <-. destruct Nd; reflexivity.
    + discriminate.
  - intros l sc p [H1 H2]. cbn [with_obj s_obj s_done].
    assert (F : frame [A_date; A_epoch; A_h5] H3 (process_D E l)) by apply frame_D.
    assert (R : rg (process_D E l)) by apply (rg_process E H_D l). split.
    + apply (Jm_frame _ _ _ F); [cbn; intuition discriminate|exact R|exact H1].
    + intros D d Hd Nd. destruct (R (mk_w true (s_obj sc) p)) as (_ & A2 & _). apply A2. cbn [me]. apply (H2 D d); auto.
      destruct (F (mk_w true (s_obj sc) p)) as (_ & [X _] & _). cbn [me] in X. rewrite <- X; [exact Hd|cbn; intuition discriminate].
  - intros sc p w r [H1 H2] D H. destruct (interpret_scan_J E known _ (mk_w true (s_obj sc) p) _ _ H1 H) as [K1 K2]. split.
    + split; [exact K1|discriminate].
    + intros ->. split; [exact K1|]. intros _. apply K2. reflexivity.
Qed.
Lemma reg_In o : reg o -> exists d, o A_h5 = Some d /\ In H_data (values d).
Proof. intros (d & H1 & H2). exists d. split; auto. apply dget_In in H2. apply (in_map snd) in H2. exact H2. Qed.
