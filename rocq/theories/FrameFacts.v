(** What each handler can change, and that no attribute ever disappears. *)
From Coq Require Import String Lia.
From Verif Require Import Uni Py PyFacts Time Utils Keys Scanf GeomData Geom Handlers KeyFacts.
Import ListNotations.
Local Open Scope list_scope.

Lemma upd_same a v o : upd a v o a = Some v.
Proof. unfold upd. destruct (attr_eq_dec a a) as [e|n]; [|congruence]. rewrite (Eqdep_dec.UIP_dec attr_eq_dec e eq_refl). reflexivity. Qed.
Lemma upd_other a v o b : a <> b -> upd a v o b = o b.
Proof. intros H. unfold upd. destruct (attr_eq_dec a b); congruence. Qed.
Lemma upd_some a v o b : o b <> None -> upd a v o b <> None.
Proof. intros H. destruct (attr_eq_dec a b) as [<-|Hn]; [rewrite upd_same; discriminate|rewrite upd_other; auto]. Qed.

Definition obj_step (S : list attr) (o o' : obj) : Prop :=
  (forall a, ~ In a S -> o' a = o a) /\ (forall a, o a <> None -> o' a <> None).
Definition peer_step (S : list attr) (o o' : option obj) : Prop :=
  match o, o' with
  | Some p, Some p' => obj_step S p p'
  | None, None => True
  | _, _ => False
  end.
Definition wstep (S T : list attr) (w w' : world) : Prop :=
  is_scan w' = is_scan w /\ obj_step S (me w) (me w') /\ peer_step T (peer w) (peer w').
Definition frame (S T : list attr) {A} (m : M A) : Prop := forall w, wstep S T w (fst (m w)).

Lemma obj_step_refl S o : obj_step S o o. Proof. split; auto. Qed.
Lemma obj_step_trans S o1 o2 o3 : obj_step S o1 o2 -> obj_step S o2 o3 -> obj_step S o1 o3.
Proof. intros [H1 H2] [H3 H4]. split; auto. intros a Ha. rewrite H3, H1; auto. Qed.
Lemma obj_step_upd S a v o : In a S -> obj_step S o (upd a v o).
Proof. intros H. split; [intros b Hb; apply upd_other; congruence|intros b; apply upd_some]. Qed.
Lemma obj_step_mono S S' o o' : incl S S' -> obj_step S o o' -> obj_step S' o o'.
Proof. intros H [H1 H2]. split; auto. Qed.
Lemma peer_step_refl S o : peer_step S o o.
Proof. destruct o; simpl; auto. apply obj_step_refl. Qed.
Lemma peer_step_trans S o1 o2 o3 : peer_step S o1 o2 -> peer_step S o2 o3 -> peer_step S o1 o3.
Proof. destruct o1, o2, o3; simpl; try tauto. apply obj_step_trans. Qed.
Lemma peer_step_mono S S' o o' : incl S S' -> peer_step S o o' -> peer_step S' o o'.
Proof. intros H. destruct o, o'; simpl; auto. apply obj_step_mono; auto. Qed.
Lemma wstep_refl S T w : wstep S T w w.
Proof. split; auto. split; [apply obj_step_refl|apply peer_step_refl]. Qed.
Lemma wstep_trans S T w1 w2 w3 : wstep S T w1 w2 -> wstep S T w2 w3 -> wstep S T w1 w3.
Proof. intros (H1 & H2 & H3) (H4 & H5 & H6). split; [congruence|]. split; [eapply obj_step_trans; eauto|eapply peer_step_trans; eauto]. Qed.
Lemma wstep_mono S T S' T' w w' : incl S S' -> incl T T' -> wstep S T w w' -> wstep S' T' w w'.
Proof. intros H1 H2 (H3 & H4 & H5). split; auto. split; [eapply obj_step_mono; eauto|eapply peer_step_mono; eauto]. Qed.

Lemma frame_ret S T {A} (a : A) : frame S T (ret a). Proof. intros w; apply wstep_refl. Qed.
Lemma frame_raise S T {A} e : frame S T (@raise A e). Proof. intros w; apply wstep_refl. Qed.
Lemma frame_lift S T {A} (r : res A) : frame S T (lift r). Proof. intros w; apply wstep_refl. Qed.
Lemma frame_bind S T {A B} (m : M A) (k : A -> M B) : frame S T m -> (forall a, frame S T (k a)) -> frame S T (mbind m k).
Proof.
  intros H1 H2 w. unfold mbind. specialize (H1 w). destruct (m w) as [w' [a|e]]; simpl in *; [|auto].
  eapply wstep_trans; [exact H1|apply H2].
Qed.
Lemma frame_getA S T a : frame S T (getA a). Proof. intros w; apply wstep_refl. Qed.
Lemma frame_hasA S T a : frame S T (hasA a). Proof. intros w; apply wstep_refl. Qed.
Lemma frame_getP S T a : frame S T (getP a). Proof. intros w; apply wstep_refl. Qed.
Lemma frame_ask S T : frame S T askScan. Proof. intros w; apply wstep_refl. Qed.
Lemma frame_setA S T a v : In a S -> frame S T (setA a v).
Proof. intros H w. split; auto. split; [apply obj_step_upd; auto|apply peer_step_refl]. Qed.
Lemma frame_setP S T a v : In a T -> frame S T (setP a v).
Proof.
  intros H w. unfold setP. destruct (peer w) as [p|] eqn:E; [|apply wstep_refl]. destruct (is_scan w) eqn:F; [|apply wstep_refl].
  split; [cbn [fst is_scan]; auto|]. split; [apply obj_step_refl|]. rewrite E. cbn [fst peer peer_step]. apply obj_step_upd; auto.
Qed.
Lemma frame_iterM S T {A} (f : A -> M unit) l : (forall x, frame S T (f x)) -> frame S T (iterM f l).
Proof. intros H; induction l; simpl; [apply frame_ret|]. apply frame_bind; auto. Qed.
Lemma frame_ensure S T a i : In a S -> frame S T (ensure a i).
Proof. intros H. apply frame_bind; [apply frame_hasA|]. intros []; [apply frame_ret|apply frame_setA; auto]. Qed.
Lemma frame_addPost S T l f : In A_posts S -> frame S T (addPost l f).
Proof. intros H. apply frame_bind; [apply frame_getA|]. intros; apply frame_setA; auto. Qed.
Lemma frame_addH5 S T l f : In A_h5 S -> frame S T (addH5 l f).
Proof. intros H. apply frame_bind; [apply frame_getA|]. intros; apply frame_setA; auto. Qed.
Lemma frame_whenScan S T m : frame S T m -> frame S T (whenScan m).
Proof. intros H; apply frame_bind; [apply frame_ask|]. intros []; [auto|apply frame_ret]. Qed.
Lemma frame_whenHeader S T m : frame S T m -> frame S T (whenHeader m).
Proof. intros H; apply frame_bind; [apply frame_ask|]. intros []; [apply frame_ret|auto]. Qed.
Lemma frame_mono S T S' T' {A} (m : M A) : incl S S' -> incl T T' -> frame S T m -> frame S' T' m.
Proof. intros H1 H2 H w. eapply wstep_mono; eauto. Qed.

Ltac inS := simpl; tauto.
Ltac fr := repeat first
  [ apply frame_ret | apply frame_raise | apply frame_lift | apply frame_getA | apply frame_hasA | apply frame_getP | apply frame_ask
  | apply frame_setA; inS | apply frame_setP; inS | apply frame_ensure; inS | apply frame_addPost; inS | apply frame_addH5; inS
  | apply frame_whenScan | apply frame_whenHeader | apply frame_iterM; intros
  | apply frame_bind; [|intros]
  | match goal with |- frame _ _ (match ?x with _ => _ end) => destruct x end
  | match goal with |- frame _ _ (let '(_, _) := ?x in _) => destruct x end ].

(** the attributes a handler may set, on the object and on its peer *)
Definition sets (h : hid) : list attr :=
  match h with
  | H_F => [A_specFile] | H_E | H_S | H_atMCA => []
  | H_D => [A_date; A_epoch; A_h5] | H_C => [A_comments; A_aborted; A_h5] | H_G => [A_G; A_posts] | H_I => [A_I]
  | H_J => [A_J; A_posts] | H_j => [A_j; A_posts] | H_L => [A_L; A_column_first; A_column_last]
  | H_M => [A_M; A_monitor_name; A_h5] | H_N => [A_N] | H_O => [A_O] | H_o => [A_o; A_posts] | H_P => [A_P; A_posts]
  | H_Q => [A_Q; A_h5] | H_R => [A_R; A_h5] | H_T => [A_T; A_time_name; A_h5] | H_U => [A_U; A_h5]
  | H_X => [A_TEMP_SP; A_DEGC_SP; A_h5] | H_data | H_atA => [A_data_lines; A_posts]
  | H_CALIB | H_CHANN | H_CTIME => [A_MCA; A_h5] | H_ROI => [A_MCA]
  | H_VA => [A_VA; A_h5] | H_VD => [A_VD; A_h5] | H_VE => [A_VE; A_h5] | H_XPCS => [A_XPCS; A_h5] | H_CCD => [A_CCD; A_h5]
  | H_MD => [A_MD; A_h5] | H_unrec => [A_unrec; A_h5] | H_UIM => [A_UIM] | H_H => [A_H] | H_V => [A_V; A_posts] | H_UXML => [A_UXML; A_posts]
  end.
Definition peer_sets (h : hid) : list attr :=
  match h with H_D => [A_date; A_epoch] | H_O => [A_O] | _ => [] end.
Definition post_sets (p : pp) : list attr :=
  match p with
  | PP_geo => [A_h5; A_diffractometer] | PP_counter _ => [A_counter_xref; A_h5] | PP_posx => [A_positioner_xref; A_h5]
  | PP_motor => [A_positioner; A_icomments; A_h5] | PP_data => [A_L; A_data; A_h5] | PP_unicat => [A_metadata; A_h5] | PP_uxml => [A_UXML_root; A_h5]
  end.

Lemma frame_X fmts S T text : In A_TEMP_SP S -> In A_DEGC_SP S -> In A_h5 S -> frame S T (process_X_fmts fmts text).
Proof.
  intros H1 H2 H3. induction fmts as [|f fmts IH]; cbn [process_X_fmts]; [apply frame_ret|].
  apply frame_bind; [apply frame_lift|]. intros [[|[a|a|a] [|[b|b|b] [|]]]|]; try apply frame_raise; auto.
  repeat (apply frame_bind; [apply frame_setA; auto|intros]). apply frame_addH5; auto.
Qed.
Lemma frame_process E h text : frame (sets h) (peer_sets h) (process E h text).
Proof.
  destruct h; cbn [process sets peer_sets];
  unfold process_F, process_D, check_ts, process_C, process_G, process_I, process_J, process_j, process_L, process_M, process_T, process_N, process_O, process_o,
      process_P, process_Q, process_R, process_U, process_X, process_data, process_CALIB, process_CHANN, process_CTIME, process_ROI,
      process_VA, process_VD, process_VE, process_XPCS, process_CCD, process_MD, process_unrec, process_UIM, process_H, process_V, process_UXML, value_name; fr.
Qed.
Lemma frame_post E p : frame (post_sets p) [] (run_post E p).
Proof.
  destruct p; cbn [run_post post_sets];
  unfold post_geo, post_counter, post_posx, post_motor, motor_row, motor_cell, add_icomment, post_data, post_unicat, unicat_row, unicat_cell, post_uxml; fr.
Qed.
