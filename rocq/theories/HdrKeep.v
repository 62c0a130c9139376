(** What interpreting and saving scans leaves of their headers: the writers and the cross references *)
From Coq Require Import String Lia.
From Verif Require Import Py PyFacts Utils Keys Geom Handlers Reader SpecHistory SpecWriter SpecTables H5 SpecH5 FrameH5 Writer DataWrite KeepFacts EntryData FrameFacts StateFacts AgainFacts LinkFacts.
Import ListNotations.
Local Open Scope list_scope.

Definition hstep (o o' : obj) : Prop := o' A_h5 = o A_h5 /\
  (o' A_counter_xref = o A_counter_xref \/ (o A_counter_xref = None /\ o' A_counter_xref = Some [])) /\
  (o' A_positioner_xref = o A_positioner_xref \/ (o A_positioner_xref = None /\ o' A_positioner_xref = Some [])).
Lemma hs_refl o : hstep o o. Proof. split; auto. Qed.
Lemma hs_trans o p q : hstep o p -> hstep p q -> hstep o q.
Proof.
  intros (A & B & C) (A' & B' & C'). split; [rewrite A'; exact A|]. split.
  - destruct B' as [B'|[B1 B2]].
    + rewrite B'. exact B.
    + destruct B as [B|[_ B]]; [right; split; [rewrite <- B; exact B1|exact B2]|rewrite B1 in B; discriminate B].
  - destruct C' as [C'|[C1 C2]].
    + rewrite C'. exact C.
    + destruct C as [C|[_ C]]; [right; split; [rewrite <- C; exact C1|exact C2]|rewrite C1 in C; discriminate C].
Qed.
Lemma hs_step o o' : obj_step H3 o o' -> hstep o o'.
Proof.
  intros [A _]. split; [apply A; simpl; intros Q; decompose [or] Q; try discriminate; auto|].
  split; left; apply A; simpl; intros Q; decompose [or] Q; try discriminate; auto.
Qed.

Definition hg {A} (m : WM A) : Prop := forall w, hstep (w_hdr w) (w_hdr (fst (m w))).
Lemma hg_id {A} (m : WM A) : (forall w, fst (m w) = w) -> hg m. Proof. intros H w. rewrite H. apply hs_refl. Qed.
Lemma hg_ret {A} (x : A) : hg (sret x). Proof. apply hg_id; auto. Qed.
Lemma hg_raise {A} e : hg (@sraise wst A e). Proof. apply hg_id; auto. Qed.
Lemma hg_lift {A} (r : res A) : hg (slift r). Proof. apply hg_id; auto. Qed.
Lemma hg_rd o a : hg (rd o a). Proof. apply hg_id; auto. Qed.
Lemma hg_has o a : hg (hasW o a). Proof. apply hg_id; auto. Qed.
Lemma hg_hdf {A} (m : HM A) : hg (hdf m). Proof. intros w. unfold hdf. destruct (m (w_h5 w)); cbn. apply hs_refl. Qed.
Lemma hg_L v : hg (wr Scn A_L v). Proof. intros w. apply hs_refl. Qed.
Lemma hg_bind {A B} (m : WM A) (k : A -> WM B) : hg m -> (forall x, hg (k x)) -> hg (sbind m k).
Proof.
  intros H K w. rewrite sbind_eq. pose proof (H w) as A1. destruct (m w) as [w1 [x|e]]; cbn [fst] in *; [|auto].
  eapply hs_trans; [exact A1|apply K].
Qed.
Lemma hg_iter {A} (g : A -> WM unit) l : (forall x, hg (g x)) -> hg (siter g l).
Proof. induction l as [|x l IH]; intros H; cbn [siter]; [apply hg_ret|]. apply hg_bind; auto. Qed.
Lemma hg_fun {A} (F : wst -> WM A) : (forall w, hg (F w)) -> hg (fun w => F w w). Proof. intros H w. apply H. Qed.
Lemma hg_cx o : hg (ensureW o A_counter_xref []).
Proof.
  intros w. unfold ensureW. rewrite sbind_eq. unfold hasW. destruct (obj_of o w A_counter_xref) eqn:Eo; [apply hs_refl|].
  unfold wr. destruct o; cbn [fst w_hdr w_scan]; [|apply hs_refl]. cbn [obj_of] in Eo.
  split; [apply upd_other; discriminate|]. split; [right; rewrite upd_same; auto|left; apply upd_other; discriminate].
Qed.
Lemma hg_px o : hg (ensureW o A_positioner_xref []).
Proof.
  intros w. unfold ensureW. rewrite sbind_eq. unfold hasW. destruct (obj_of o w A_positioner_xref) eqn:Eo; [apply hs_refl|].
  unfold wr. destruct o; cbn [fst w_hdr w_scan]; [|apply hs_refl]. cbn [obj_of] in Eo.
  split; [apply upd_other; discriminate|]. split; [left; apply upd_other; discriminate|right; rewrite upd_same; auto].
Qed.
Ltac k1 := first
    [ apply hg_ret | apply hg_raise | apply hg_lift | apply hg_rd | apply hg_has | apply hg_hdf | apply hg_cx | apply hg_px | apply hg_L
    | match goal with
      | |- hg (sbind _ _) => apply hg_bind; [|intros ?]
      | |- hg (siter _ _) => apply hg_iter; intros ?
      | |- hg (match ?x with _ => _ end) => destruct x
      | |- hg (if ?x then _ else _) => destruct x
      | |- hg (let _ := _ in _) => cbv zeta
      end ].
Ltac kk := repeat k1.
Lemma hg_wds g n d l : hg (wds g n d l). Proof. unfold wds. kk. Qed.
Lemma hg_write_ds g n d l : hg (write_ds g n d l). Proof. unfold write_ds. kk; apply hg_wds. Qed.
Lemma hg_dict g d : hg (save_dict g d). Proof. unfold save_dict. kk; apply hg_write_ds. Qed.
Lemma hg_unit {A} (m : WM A) : hg m -> hg (unit_of m). Proof. intros H. unfold unit_of. kk; auto. Qed.
Ltac k2 := first [apply hg_wds | apply hg_write_ds | apply hg_dict | apply hg_unit | k1].
Ltac kz := repeat k2.
Lemma hg_mca_oneD g ax cal ks : hg (mca_oneD g ax cal ks). Proof. unfold mca_oneD. kz. Qed.
Lemma hg_spectra g ax : hg (mca_spectra g ax).
Proof.
  unfold mca_spectra. apply hg_bind; [apply hg_rd|]. intros d. destruct (dget (L "_mca_") d) as [[|m]|]; kz.
  apply (hg_fun (fun w => siter (mca_oneD g ax (calibration (w_scan w A_MCA))) (sorted_items m))).
  intros w. apply hg_iter. intros ks. apply hg_mca_oneD.
Qed.
Lemma hg_oneD g : hg (oneD g). Proof. unfold oneD. kz; apply hg_spectra. Qed.
Lemma hg_mca_mesh g ax l : forall sh, hg (mca_mesh g ax sh l).
Proof. induction l as [|[k s] l IH]; intros sh; cbn [mca_mesh]; kz; apply IH. Qed.
Lemma hg_mesh_grid g cmd l1 l2 n : hg (mesh_grid g cmd l1 l2 n). Proof. unfold mesh_grid. kz. Qed.
Lemma hg_mesh g cmd : hg (mesh g cmd).
Proof.
  unfold mesh. destruct (skipn 1 (words cmd)) as [|a1 [|a2 [|a3 [|a4 [|a5 [|a6 [|a7 [|a8 [|a9 [|]]]]]]]]]]; try apply hg_raise.
  kz; first [apply hg_oneD | apply hg_mesh_grid | apply hg_mca_mesh | idtac].
Qed.
Lemma hg_save_data g cmd : hg (save_data g cmd).
Proof. unfold save_data. kz; first [apply hg_mesh|apply hg_oneD]. Qed.
Lemma hg_w_data e cmd : hg (w_data e cmd). Proof. unfold w_data. kz; apply hg_save_data; auto. Qed.
Lemma hg_lattice e l : hg (w_lattice e l). Proof. unfold w_lattice. kz. Qed.
Lemma hg_refl s ir : hg (w_refl s ir). Proof. unfold w_refl. kz. Qed.
Lemma hg_diffr e d : hg (w_diffr e d). Proof. unfold w_diffr. destruct (d_gpar d); kz; first [apply hg_lattice|apply hg_refl|idtac]. Qed.
Lemma hg_counters e x : hg (w_counters e x). Proof. unfold w_counters. kz. Qed.
Lemma hg_positioner g iv : hg (w_positioner g iv). Proof. unfold w_positioner. kz. Qed.
Lemma hg_user e o a b c l : hg (w_user e o a b c l). Proof. unfold w_user. kz. Qed.
Lemma hg_nums g m l ks : hg (w_mca_nums g m l ks). Proof. unfold w_mca_nums. kz. Qed.
Lemma hg_link_mca e g : hg (link_mca e g). Proof. unfold link_mca. kz. Qed.
Lemma hg_V_ e a b d : hg (w_V_ e a b d). Proof. unfold w_V_. kz. Qed.
Lemma hg_writer cmd h e o : hg (writer_of cmd h e o).
Proof.
  destruct h; cbn [writer_of]; try apply hg_raise; try apply hg_ret;
    try (destruct o; [apply hg_raise|apply hg_w_data; auto]);
    unfold w_D, w_C, w_G, w_J, w_j, w_M, w_o, w_P, w_Q, w_R, w_T, w_U, w_X, w_CALIB, w_CHANN, w_CTIME,
      w_VA, w_VD, w_VE, w_MD, w_unrec, w_V, w_UXML, mca_group;
    repeat first [ apply hg_diffr | apply hg_counters | apply hg_positioner | apply hg_user | apply hg_nums
                 | apply hg_link_mca | apply hg_V_ | k2 ].
Qed.
Lemma hg_save_objs e sc : hg (save_objs e sc). Proof. unfold save_objs. kz; apply hg_writer. Qed.

(** ** states *)
Definition hrel (h h' : header) : Prop := h_raw h' = h_raw h /\ hstep (h_obj h) (h_obj h').
Definition hlater (s s' : sdf) : Prop := Forall2 hrel (headers s) (headers s').
Lemma hrel_refl h : hrel h h. Proof. split; [auto|apply hs_refl]. Qed.
Lemma hrel_trans a b c : hrel a b -> hrel b c -> hrel a c.
Proof. intros [A B] [C D]. split; [congruence|eapply hs_trans; eauto]. Qed.
Lemma hl_refl s : hlater s s. Proof. unfold hlater. induction (headers s); constructor; auto. apply hrel_refl. Qed.
Lemma hl_same s s' : headers s' = headers s -> hlater s s'. Proof. intros H. unfold hlater. rewrite H. apply hl_refl. Qed.
Lemma hl_trans a b c : hlater a b -> hlater b c -> hlater a c. Proof. unfold hlater. apply F2_trans. intros x y z. apply hrel_trans. Qed.
Lemma hl_nth s s' i h : hlater s s' -> nth_error (headers s) i = Some h -> exists h', nth_error (headers s') i = Some h' /\ hrel h h'.
Proof.
  unfold hlater. intros F. revert i. induction F as [|x y l l' H F IH]; intros [|i] E; try discriminate; cbn [nth_error] in *; [injection E; intros <-; eauto|eauto].
Qed.
Lemma hl_nth' s s' i h' : hlater s s' -> nth_error (headers s') i = Some h' -> exists h, nth_error (headers s) i = Some h /\ hrel h h'.
Proof.
  unfold hlater. intros F. revert i. induction F as [|x y l l' H F IH]; intros [|i] E; try discriminate; cbn [nth_error] in *; [injection E; intros <-; eauto|eauto].
Qed.

Section States.
  Context (E : env) (known : list hid).
  Lemma interpret_hl name s s' r : interpret E known name s = (s', r) -> hlater s s'.
  Proof.
    unfold interpret. destruct (dget name (scans s)) as [sc|] eqn:Eg; [|intros H; inversion H; subst; apply hl_refl].
    destruct (s_done sc) eqn:Ed; [intros H; inversion H; subst; apply hl_refl|].
    cbv zeta. unfold run_on_scan.
    destruct (nth_error (headers s) (s_hdr (with_flags false false sc))) as [h|] eqn:En; cbn [option_map].
    - destruct (interpret_scan E known _ _) as [w r0] eqn:Ei.
      pose proof (frame_interpret E known (s_raw (with_flags false false sc)) (mk_w true (s_obj (with_flags false false sc)) (Some (h_obj h)))) as F.
      rewrite Ei in F. cbn [fst] in F. destruct F as (_ & _ & F). cbn [peer peer_step] in F.
      destruct (peer w) as [p|]; [|destruct F].
      assert (L1 : Forall2 hrel (headers s) (set_nth (s_hdr (with_flags false false sc)) (mk_header (h_raw h) p) (headers s))).
      { eapply set_nth_self; [apply hrel_refl|exact En|]. split; [reflexivity|apply hs_step; exact F]. }
      destruct r0; intros H; inversion H; subst; exact L1.
    - destruct (interpret_scan E known _ _) as [w r0] eqn:Ei. destruct (peer w); destruct r0; intros H; inversion H; subst; apply hl_same; reflexivity.
  Qed.
  Lemma save_scan_hl e name s f s' f' r : save_scan E known e name s f = (s', f', r) -> hlater s s'.
  Proof.
    unfold save_scan. destruct (interpret E known name s) as [s1 [x|]] eqn:Ei; pose proof (interpret_hl _ _ _ _ Ei) as L1.
    { intros H; inversion H; subst. auto. }
    destruct (dget name (scans s1)) as [sc|] eqn:Eg; [|intros H; inversion H; subst; auto].
    destruct (nth_error (headers s1) (s_hdr sc)) as [h|] eqn:En; [|intros H; inversion H; subst; auto].
    destruct (save_objs e sc (mk_ws (s_obj sc) (h_obj h) f)) as [w r0] eqn:Es.
    pose proof (hg_save_objs e sc (mk_ws (s_obj sc) (h_obj h) f)) as K1. rewrite Es in K1. cbn [fst w_hdr] in K1.
    intros H; inversion H; subst; clear H. eapply hl_trans; [exact L1|].
    unfold hlater. cbn [set_headers headers]. eapply set_nth_self; [apply hrel_refl|exact En|]. split; [reflexivity|exact K1].
  Qed.
  Lemma save_key_hl first k s f s' f' r : save_key E known first k s f = (s', f', r) -> hlater s s'.
  Proof.
    unfold save_key. destruct (sbind _ _ f) as [f1 [e|x]]; [|intros H; inversion H; subst; apply hl_refl].
    destruct (getScan k s) as [[sc|]|x]; try (intros H; inversion H; subst; apply hl_refl).
    destruct (save_scan E known e (s_num sc) s f1) as [[s2 f2] r2] eqn:Es. pose proof (save_scan_hl _ _ _ _ _ _ _ Es) as L.
    destruct r2; [intros H; inversion H; subst; auto|]. destruct (sbind _ _ f2) as [f3 [u|x]]; intros H; inversion H; subst; auto.
  Qed.
  Lemma save_keys_hl ks : forall first s f s' f' r, save_keys E known first ks s f = (s', f', r) -> hlater s s'.
  Proof.
    induction ks as [|k ks IH]; intros first s f s' f' r; cbn [save_keys]; [intros H; inversion H; subst; apply hl_refl|].
    destruct (save_key E known first k s f) as [[s1 f1] r1] eqn:E1. pose proof (save_key_hl _ _ _ _ _ _ _ E1) as L1.
    destruct r1; [intros H; inversion H; subst; auto|]. intros H. eapply hl_trans; [exact L1|eapply IH; eauto].
  Qed.
  Lemma save_hl versions ks s s' f r : save E known versions ks s = (s', f, r) -> hlater s s'.
  Proof.
    unfold save. destruct (root_attributes versions s) as [l|x]; [|intros H; inversion H; subst; apply hl_refl].
    destruct (addAttributes root l new_file) as [f0 [u|x]]; [|intros H; inversion H; subst; apply hl_refl].
    apply save_keys_hl.
  Qed.
  Lemma saves_hl s s' : saves E known s s' -> hlater s s'.
  Proof.
    induction 1 as [|s1 versions ks _ IH _]; [apply hl_refl|]. eapply hl_trans; [exact IH|].
    destruct (save E known versions ks s1) as [[s2 f] r] eqn:Es. cbn [fst]. eapply save_hl; eauto.
  Qed.
End States.
