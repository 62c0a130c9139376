(** Which attributes of the scan and of its header the writers change *)
From Coq Require Import String Lia.
From Verif Require Import Py PyFacts Utils Keys Geom Handlers Reader H5 FrameH5 Writer DataWrite.
Import ListNotations.
Local Open Scope list_scope.

Section Keep.
  Context (M : Prop).        (* the command of the scan is a mesh *)
  Definition may_change (x : attr) : Prop := x = A_counter_xref \/ x = A_positioner_xref \/ (M /\ x = A_L).
  Definition same_but (o o' : obj) : Prop := forall x, ~ may_change x -> o' x = o x.
  Definition hdr_but (o o' : obj) : Prop := forall x, x <> A_counter_xref -> x <> A_positioner_xref -> o' x = o x.
  Definition kp {A} (m : WM A) : Prop := forall w, same_but (w_scan w) (w_scan (fst (m w))) /\ hdr_but (w_hdr w) (w_hdr (fst (m w))).

  Lemma same_refl o : same_but o o. Proof. intros x _. reflexivity. Qed.
  Lemma same_trans o p q : same_but o p -> same_but p q -> same_but o q.
  Proof. intros A B x N. rewrite B, A; auto. Qed.
  Lemma hb_refl o : hdr_but o o. Proof. intros x _ _. reflexivity. Qed.
  Lemma hb_trans o p q : hdr_but o p -> hdr_but p q -> hdr_but o q.
  Proof. intros A B x N1 N2. rewrite B, A; auto. Qed.

  Lemma kp_id {A} (m : WM A) : (forall w, fst (m w) = w) -> kp m.
  Proof. intros H w. rewrite H. split; [apply same_refl|apply hb_refl]. Qed.
  Lemma kp_ret {A} (x : A) : kp (sret x). Proof. apply kp_id; auto. Qed.
  Lemma kp_raise {A} e : kp (@sraise wst A e). Proof. apply kp_id; auto. Qed.
  Lemma kp_lift {A} (r : res A) : kp (slift r). Proof. apply kp_id; auto. Qed.
  Lemma kp_rd o a : kp (rd o a). Proof. apply kp_id; auto. Qed.
  Lemma kp_has o a : kp (hasW o a). Proof. apply kp_id; auto. Qed.
  Lemma kp_hdf {A} (m : HM A) : kp (hdf m).
  Proof. intros w. unfold hdf. destruct (m (w_h5 w)); cbn. split; [apply same_refl|apply hb_refl]. Qed.
  Lemma kp_bind {A B} (m : WM A) (k : A -> WM B) : kp m -> (forall x, kp (k x)) -> kp (sbind m k).
  Proof.
    intros H K w. rewrite sbind_eq. destruct (H w) as [A1 A2]. destruct (m w) as [w1 [x|e]]; cbn [fst] in *; [|split; auto].
    destruct (K x w1) as [B1 B2]. split; [eapply same_trans; eauto|eapply hb_trans; eauto].
  Qed.
  Lemma kp_iter {A} (g : A -> WM unit) l : (forall x, kp (g x)) -> kp (siter g l).
  Proof. induction l as [|x l IH]; intros H; cbn [siter]; [apply kp_ret|]. apply kp_bind; auto. Qed.
  Lemma kp_fun {A} (F : wst -> WM A) : (forall w, kp (F w)) -> kp (fun w => F w w).
  Proof. intros H w. apply H. Qed.
  Lemma kp_ensure o a init : a = A_counter_xref \/ a = A_positioner_xref -> kp (ensureW o a init).
  Proof.
    intros Ha. unfold ensureW. apply kp_bind; [apply kp_has|]. intros [|]; [apply kp_ret|].
    intros w. unfold wr. destruct o; cbn [fst w_scan w_hdr]; (split; [|try apply same_refl; try apply hb_refl]); try apply same_refl; try apply hb_refl.
    - intros x N1 N2. unfold upd. destruct (attr_eq_dec a x); [destruct Ha; congruence|auto].
    - intros x N. unfold upd. destruct (attr_eq_dec a x) as [e|]; [|auto]. exfalso. apply N. unfold may_change. rewrite <- e. tauto.
  Qed.
  Lemma kp_L v : M -> kp (wr Scn A_L v).
  Proof.
    intros HM w. unfold wr. cbn [fst w_scan w_hdr]. split; [|apply hb_refl]. intros x N. unfold upd.
    destruct (attr_eq_dec A_L x) as [e|]; [|auto]. exfalso. apply N. unfold may_change. rewrite <- e. tauto.
  Qed.

  Ltac k1 := first
    [ apply kp_ret | apply kp_raise | apply kp_lift | apply kp_rd | apply kp_has | apply kp_hdf
    | apply kp_ensure; tauto
    | apply kp_L; assumption
    | match goal with
      | |- kp (sbind _ _) => apply kp_bind; [|intros ?]
      | |- kp (siter _ _) => apply kp_iter; intros ?
      | |- kp (match ?x with _ => _ end) => destruct x
      | |- kp (if ?x then _ else _) => destruct x
      | |- kp (let _ := _ in _) => cbv zeta
      end ].
  Ltac kk := repeat k1.

  Lemma kp_wds g n d l : kp (wds g n d l). Proof. unfold wds. kk. Qed.
  Lemma kp_write_ds g n d l : kp (write_ds g n d l). Proof. unfold write_ds. kk; apply kp_wds. Qed.
  Lemma kp_dict g d : kp (save_dict g d). Proof. unfold save_dict. kk; apply kp_write_ds. Qed.
  Lemma kp_unit {A} (m : WM A) : kp m -> kp (unit_of m). Proof. intros H. unfold unit_of. kk; auto. Qed.
  Ltac k2 := first [apply kp_wds | apply kp_write_ds | apply kp_dict | apply kp_unit | k1].
  Ltac kz := repeat k2.

  Lemma kp_mca_oneD g ax cal ks : kp (mca_oneD g ax cal ks). Proof. unfold mca_oneD. kz. Qed.
  Lemma kp_spectra g ax : kp (mca_spectra g ax).
  Proof.
    unfold mca_spectra. apply kp_bind; [apply kp_rd|]. intros d. destruct (dget (L "_mca_") d) as [[|m]|]; kz.
    apply (kp_fun (fun w => siter (mca_oneD g ax (calibration (w_scan w A_MCA))) (sorted_items m))).
    intros w. apply kp_iter. intros ks. apply kp_mca_oneD.
  Qed.
  Lemma kp_oneD g : kp (oneD g). Proof. unfold oneD. kz; apply kp_spectra. Qed.
  Lemma kp_mca_mesh g ax l : forall sh, kp (mca_mesh g ax sh l).
  Proof. induction l as [|[k s] l IH]; intros sh; cbn [mca_mesh]; kz; apply IH. Qed.
  Lemma kp_mesh_grid g cmd l1 l2 n : M -> kp (mesh_grid g cmd l1 l2 n). Proof. intros HM. unfold mesh_grid. kz. Qed.
  Lemma kp_mesh g cmd : M -> kp (mesh g cmd).
  Proof.
    intros HM. unfold mesh. destruct (skipn 1 (words cmd)) as [|a1 [|a2 [|a3 [|a4 [|a5 [|a6 [|a7 [|a8 [|a9 [|]]]]]]]]]]; try apply kp_raise.
    kz; first [apply kp_oneD | apply kp_mesh_grid; assumption | apply kp_mca_mesh | idtac].
  Qed.
  Definition mesh_cmd (cmd : str) : Prop := exists w ws, words cmd = w :: ws /\ (w = L "mesh" \/ w = L "hklmesh").
  Lemma kp_save_data g cmd : (mesh_cmd cmd -> M) -> kp (save_data g cmd).
  Proof.
    intros HM w. unfold save_data. rewrite sbind_eq. unfold slift at 1 3. unfold mesh_cmd in HM.
    destruct (words cmd) as [|st rest]; [cbn; split; [apply same_refl|apply hb_refl]|].
    change (index 0 (st :: rest)) with (@Ok str st). cbv iota beta.
    assert (K : kp (if mem st (map L ["mesh"; "hklmesh"]%string) then mesh g cmd
              else if mem st (map L ["hscan"; "kscan"; "lscan"; "hklscan"]%string) then
                let* sa := oneD g in
                let* axes := slift (hkl_axes cmd) in
                sret (fst sa, axes)
              else oneD g)).
    { destruct (mem st (map L ["mesh"; "hklmesh"]%string)) eqn:Em.
      - apply kp_mesh. apply HM. exists st, rest. split; auto. apply mem_In in Em. destruct Em as [<-|[<-|[]]]; auto.
      - kz; apply kp_oneD. }
    refine (kp_bind _ _ K _ w). intros [sg ax]. cbv zeta. kz.
  Qed.
  Lemma kp_w_data e cmd : (mesh_cmd cmd -> M) -> kp (w_data e cmd).
  Proof. intros HM. unfold w_data. kz; apply kp_save_data; auto. Qed.

  Lemma kp_lattice e l : kp (w_lattice e l). Proof. unfold w_lattice. kz. Qed.
  Lemma kp_refl s ir : kp (w_refl s ir). Proof. unfold w_refl. kz. Qed.
  Lemma kp_diffr e d : kp (w_diffr e d).
  Proof. unfold w_diffr. destruct (d_gpar d); kz; first [apply kp_lattice|apply kp_refl|idtac]. Qed.
  Lemma kp_counters e x : kp (w_counters e x). Proof. unfold w_counters. kz. Qed.
  Lemma kp_positioner g iv : kp (w_positioner g iv). Proof. unfold w_positioner. kz. Qed.
  Lemma kp_user e o a b c l : kp (w_user e o a b c l). Proof. unfold w_user. kz. Qed.
  Lemma kp_nums g m l ks : kp (w_mca_nums g m l ks). Proof. unfold w_mca_nums. kz. Qed.
  Lemma kp_link_mca e g : kp (link_mca e g). Proof. unfold link_mca. kz. Qed.
  Lemma kp_V_ e a b d : kp (w_V_ e a b d). Proof. unfold w_V_. kz. Qed.
  Lemma kp_writer cmd h e o : (h = H_data -> mesh_cmd cmd -> M) -> kp (writer_of cmd h e o).
  Proof.
    intros HM. destruct h; cbn [writer_of]; try apply kp_raise; try apply kp_ret;
      try (destruct o; [apply kp_raise|apply kp_w_data; auto]);
      unfold w_D, w_C, w_G, w_J, w_j, w_M, w_o, w_P, w_Q, w_R, w_T, w_U, w_X, w_CALIB, w_CHANN, w_CTIME,
        w_VA, w_VD, w_VE, w_MD, w_unrec, w_V, w_UXML, mca_group;
      repeat first [ apply kp_diffr | apply kp_counters | apply kp_positioner | apply kp_user | apply kp_nums
                   | apply kp_link_mca | apply kp_V_ | k2 ].
  Qed.
  Lemma kp_save_objs e sc : (mesh_cmd (s_cmd sc) -> M) -> kp (save_objs e sc).
  Proof. intros HM. unfold save_objs. kz; apply kp_writer; auto. Qed.
End Keep.
