(** Saving scans leaves no trace that a later save could show *)
From Coq Require Import String Lia.
From Verif Require Import Py PyFacts Utils Keys Geom Handlers Reader FrameFacts StateFacts H5 FrameH5 Writer DataWrite KeepFacts EntryData.
Import ListNotations.
Local Open Scope list_scope.

(** [o'] is [o], perhaps with empty cross references where [o] has none (those that [D] allows) *)
Record obj_rel (D : attr -> Prop) (o o' : obj) : Prop := mk_or {
  or_same : forall x, x <> A_counter_xref -> x <> A_positioner_xref -> o' x = o x;
  or_cx : o' A_counter_xref = o A_counter_xref \/ (D A_counter_xref /\ o A_counter_xref = None /\ o' A_counter_xref = Some []);
  or_px : o' A_positioner_xref = o A_positioner_xref \/ (D A_positioner_xref /\ o A_positioner_xref = None /\ o' A_positioner_xref = Some []) }.
Lemma or_refl D o : obj_rel D o o. Proof. constructor; auto. Qed.
Lemma or_trans (D : attr -> Prop) o p q : obj_rel D o p -> obj_rel D p q -> obj_rel D o q.
Proof.
  intros [A1 A2 A3] [B1 B2 B3]. constructor.
  - intros x N1 N2. rewrite B1, A1; auto.
  - destruct B2 as [->|(X & Y & Z)]; auto. destruct A2 as [A|(A & A' & A'')]; [right; rewrite <- A; auto|congruence].
  - destruct B3 as [->|(X & Y & Z)]; auto. destruct A3 as [A|(A & A' & A'')]; [right; rewrite <- A; auto|congruence].
Qed.
Lemma or_weak (D D' : attr -> Prop) o o' : (forall x, D x -> D' x) -> obj_rel D o o' -> obj_rel D' o o'.
Proof. intros H [A B C]. constructor; auto; [destruct B as [|(? & ? & ?)]|destruct C as [|(? & ? & ?)]]; auto. Qed.
Definition none : attr -> Prop := fun _ => False.
Lemma or_none o o' x : obj_rel none o o' -> o' x = o x.
Proof.
  intros [A B C]. destruct (attr_eq_dec x A_counter_xref) as [->|N1]; [destruct B as [|([] & _)]; auto|].
  destruct (attr_eq_dec x A_positioner_xref) as [->|N2]; [destruct C as [|([] & _)]; auto|]. auto.
Qed.
(** [D] holds of no attribute that is missing *)
Lemma or_tight (D : attr -> Prop) o o' : (D A_counter_xref -> o A_counter_xref <> None) -> (D A_positioner_xref -> o A_positioner_xref <> None) ->
  obj_rel D o o' -> obj_rel none o o'.
Proof. intros H1 H2 [A B C]. constructor; auto; [destruct B as [|(X & Y & Z)]|destruct C as [|(X & Y & Z)]]; auto; exfalso; [exact (H1 X Y)|exact (H2 X Y)]. Qed.

Section Sim.
  Context (Ds Dh : attr -> Prop).
  Record wrel (w w2 : wst) : Prop := mk_wr { wr_s : obj_rel Ds (w_scan w) (w_scan w2); wr_h : obj_rel Dh (w_hdr w) (w_hdr w2); wr_f : w_h5 w2 = w_h5 w }.
  Definition sim {A} (m : WM A) : Prop := forall w w2, wrel w w2 -> snd (m w2) = snd (m w) /\ wrel (fst (m w)) (fst (m w2)).
  Definition who_rel (o : who) := match o with Hdr => Dh | Scn => Ds end.

  Lemma sim_ret {A} (x : A) : sim (sret x). Proof. intros w w2 H. split; auto. Qed.
  Lemma sim_raise {A} e : sim (@sraise wst A e). Proof. intros w w2 H. split; auto. Qed.
  Lemma sim_lift {A} (r : res A) : sim (slift r). Proof. intros w w2 H. split; auto. Qed.
  Lemma sim_hdf {A} (m : HM A) : sim (hdf m).
  Proof. intros w w2 [A1 A2 A3]. unfold hdf. rewrite A3. destruct (m (w_h5 w)) as [f r]. cbn [fst snd]. split; auto. constructor; auto. Qed.
  Lemma sim_bind {A B} (m : WM A) (k : A -> WM B) : sim m -> (forall x, sim (k x)) -> sim (sbind m k).
  Proof.
    intros H K w w2 R. rewrite !sbind_eq. destruct (H w w2 R) as [E1 R1]. destruct (m w) as [w1 r1], (m w2) as [w3 r3]. cbn [fst snd] in *. subst r3.
    destruct r1 as [x|e]; [apply K; auto|]. split; auto.
  Qed.
  Lemma sim_iter {A} (g : A -> WM unit) l : (forall x, sim (g x)) -> sim (siter g l).
  Proof. induction l as [|x l IH]; intros H; cbn [siter]; [apply sim_ret|]. apply sim_bind; auto. Qed.
  Lemma obj_of_rel o w w2 : wrel w w2 -> obj_rel (who_rel o) (obj_of o w) (obj_of o w2).
  Proof. intros [A B C]. destruct o; auto. Qed.
  Lemma sim_rd o a : a <> A_counter_xref -> a <> A_positioner_xref -> sim (rd o a).
  Proof. intros N1 N2 w w2 R. unfold rd. cbn [fst snd]. split; auto. rewrite (or_same _ _ _ (obj_of_rel o w w2 R) a N1 N2). reflexivity. Qed.
  Lemma sim_wr o a v : a <> A_counter_xref -> a <> A_positioner_xref -> sim (wr o a v).
  Proof.
    intros N1 N2 w w2 [A B C].
    assert (U : forall D p q, obj_rel D p q -> obj_rel D (upd a v p) (upd a v q)).
    { intros D p q [X Y Z]. constructor.
      - intros x M1 M2. unfold upd. destruct (attr_eq_dec a x); auto.
      - rewrite !upd_other by auto. auto.
      - rewrite !upd_other by auto. auto. }
    unfold wr. destruct o; (split; [reflexivity|constructor; cbn; auto]).
  Qed.
  Lemma sim_has o a : a <> A_counter_xref -> a <> A_positioner_xref -> sim (hasW o a).
  Proof. intros N1 N2 w w2 R. unfold hasW. cbn [fst snd]. split; auto. rewrite (or_same _ _ _ (obj_of_rel o w w2 R) a N1 N2). reflexivity. Qed.
  Lemma sim_fun {A} (F : wst -> WM A) : (forall w w2, wrel w w2 -> F w2 = F w) -> (forall w, sim (F w)) -> sim (fun w => F w w).
  Proof. intros H1 H2 w w2 R. rewrite (H1 w w2 R). apply H2. auto. Qed.
  (** the cross reference is made if needed, then read *)
  Definition put_on (o : who) (a : attr) (v : ty a) (w : wst) : wst :=
    match o with Hdr => mk_ws (w_scan w) (upd a v (w_hdr w)) (w_h5 w) | Scn => mk_ws (upd a v (w_scan w)) (w_hdr w) (w_h5 w) end.
  Lemma put_on_obj o a v w : obj_of o (put_on o a v w) = upd a v (obj_of o w). Proof. destruct o; reflexivity. Qed.
  Lemma ens_eq {A} o a v (k : ty a -> WM A) w : (ensureW o a v >>> let* x := rd o a in k x) w =
    match obj_of o w a with Some x => k x w | None => k v (put_on o a v w) end.
  Proof.
    unfold ensureW. rewrite !sbind_eq. unfold hasW. destruct (obj_of o w a) as [x|] eqn:Ex.
    - unfold sret at 1. rewrite sbind_eq. unfold rd. rewrite Ex. reflexivity.
    - unfold wr. change (match o with Hdr => _ | Scn => _ end) with (put_on o a v w). rewrite sbind_eq. unfold rd.
      rewrite put_on_obj, upd_same. reflexivity.
  Qed.
  Lemma wrel_set o (w w2 : wst) p : wrel w w2 -> obj_rel (who_rel o) p (obj_of o w2) ->
    wrel (match o with Hdr => mk_ws (w_scan w) p (w_h5 w) | Scn => mk_ws p (w_hdr w) (w_h5 w) end) w2.
  Proof. intros [A B C] H. destruct o; constructor; cbn in *; auto. Qed.
  Lemma wrel_set2 o (w w2 : wst) p q : wrel w w2 -> obj_rel (who_rel o) p q ->
    wrel (match o with Hdr => mk_ws (w_scan w) p (w_h5 w) | Scn => mk_ws p (w_hdr w) (w_h5 w) end)
         (match o with Hdr => mk_ws (w_scan w2) q (w_h5 w2) | Scn => mk_ws q (w_hdr w2) (w_h5 w2) end).
  Proof. intros [A B C] H. destruct o; constructor; cbn in *; auto. Qed.
  Lemma sim_cx {A} o (k : dict str -> WM A) : (forall x, sim (k x)) -> sim (ensureW o A_counter_xref [] >>> let* x := rd o A_counter_xref in k x).
  Proof.
    intros K w w2 R. rewrite !ens_eq. pose proof (obj_of_rel o w w2 R) as O. pose proof O as [O1 O2 O3].
    destruct (obj_of o w A_counter_xref) as [x|] eqn:Ex.
    - destruct O2 as [O2|(_ & X & _)]; [|discriminate X]. rewrite O2. apply K. auto.
    - destruct O2 as [O2|(_ & _ & O2)]; rewrite O2; apply K.
      + unfold put_on. destruct o; (apply (wrel_set2 Hdr) || apply (wrel_set2 Scn)); auto; (constructor;
          [intros x N1 N2; rewrite !upd_other by auto; auto|left; rewrite !upd_same; reflexivity|rewrite !upd_other by discriminate; auto]).
      + unfold put_on. destruct o; [apply (wrel_set Hdr)|apply (wrel_set Scn)]; auto; (constructor;
          [intros x N1 N2; rewrite !upd_other by auto; auto|left; rewrite upd_same; auto|rewrite upd_other by discriminate; auto]).
  Qed.
  Lemma sim_px {A} o (k : dict str -> WM A) : (forall x, sim (k x)) -> sim (ensureW o A_positioner_xref [] >>> let* x := rd o A_positioner_xref in k x).
  Proof.
    intros K w w2 R. rewrite !ens_eq. pose proof (obj_of_rel o w w2 R) as O. pose proof O as [O1 O2 O3].
    destruct (obj_of o w A_positioner_xref) as [x|] eqn:Ex.
    - destruct O3 as [O3|(_ & X & _)]; [|discriminate X]. rewrite O3. apply K. auto.
    - destruct O3 as [O3|(_ & _ & O3)]; rewrite O3; apply K.
      + unfold put_on. destruct o; (apply (wrel_set2 Hdr) || apply (wrel_set2 Scn)); auto; (constructor;
          [intros x N1 N2; rewrite !upd_other by auto; auto|rewrite !upd_other by discriminate; auto|left; rewrite !upd_same; reflexivity]).
      + unfold put_on. destruct o; [apply (wrel_set Hdr)|apply (wrel_set Scn)]; auto; (constructor;
          [intros x N1 N2; rewrite !upd_other by auto; auto|rewrite upd_other by discriminate; auto|left; rewrite upd_same; auto]).
  Qed.

  Ltac k1 := first
    [ apply sim_ret | apply sim_raise | apply sim_lift | apply sim_rd; discriminate | apply sim_has; discriminate | apply sim_hdf
    | apply sim_wr; discriminate | apply sim_cx; intros ? | apply sim_px; intros ?
    | match goal with
      | |- sim (sbind _ _) => apply sim_bind; [|intros ?]
      | |- sim (siter _ _) => apply sim_iter; intros ?
      | |- sim (match ?x with _ => _ end) => destruct x
      | |- sim (if ?x then _ else _) => destruct x
      | |- sim (let _ := _ in _) => cbv zeta
      end ].
  Ltac kk := repeat k1.

  Lemma sim_wds g n d l : sim (wds g n d l). Proof. unfold wds. kk. Qed.
  Lemma sim_write_ds g n d l : sim (write_ds g n d l). Proof. unfold write_ds. kk; apply sim_wds. Qed.
  Lemma sim_dict g d : sim (save_dict g d). Proof. unfold save_dict. kk; apply sim_write_ds. Qed.
  Lemma sim_unit {A} (m : WM A) : sim m -> sim (unit_of m). Proof. intros H. unfold unit_of. kk; auto. Qed.
  Ltac k2 := first [apply sim_wds | apply sim_write_ds | apply sim_dict | apply sim_unit | k1].
  Ltac kz := repeat k2.

  Lemma sim_mca_oneD g ax cal ks : sim (mca_oneD g ax cal ks). Proof. unfold mca_oneD. kz. Qed.
  Lemma sim_spectra g ax : sim (mca_spectra g ax).
  Proof.
    unfold mca_spectra. apply sim_bind; [apply sim_rd; discriminate|]. intros d. destruct (dget (L "_mca_") d) as [[|m]|]; kz.
    apply (sim_fun (fun w => siter (mca_oneD g ax (calibration (w_scan w A_MCA))) (sorted_items m))).
    - intros w w2 [[R _ _] _ _]. rewrite R by discriminate. reflexivity.
    - intros w. apply sim_iter. intros ks. apply sim_mca_oneD.
  Qed.
  Lemma sim_oneD g : sim (oneD g). Proof. unfold oneD. kz; apply sim_spectra. Qed.
  Lemma sim_mca_mesh g ax l : forall sh, sim (mca_mesh g ax sh l).
  Proof. induction l as [|[k s] l IH]; intros sh; cbn [mca_mesh]; kz; apply IH. Qed.
  Lemma sim_mesh_grid g cmd l1 l2 n : sim (mesh_grid g cmd l1 l2 n). Proof. unfold mesh_grid. kz. Qed.
  Lemma sim_mesh g cmd : sim (mesh g cmd).
  Proof.
    unfold mesh. destruct (skipn 1 (words cmd)) as [|a1 [|a2 [|a3 [|a4 [|a5 [|a6 [|a7 [|a8 [|a9 [|]]]]]]]]]]; try apply sim_raise.
    kz; first [apply sim_oneD | apply sim_mesh_grid | apply sim_mca_mesh | idtac].
  Qed.
  Lemma sim_save_data g cmd : sim (save_data g cmd).
  Proof. unfold save_data. kz; first [apply sim_mesh|apply sim_oneD]. Qed.
  Lemma sim_w_data e cmd : sim (w_data e cmd).
  Proof. unfold w_data. kz; apply sim_save_data; auto. Qed.
  Lemma sim_lattice e l : sim (w_lattice e l). Proof. unfold w_lattice. kz. Qed.
  Lemma sim_refl s ir : sim (w_refl s ir). Proof. unfold w_refl. kz. Qed.
  Lemma sim_diffr e d : sim (w_diffr e d).
  Proof. unfold w_diffr. destruct (d_gpar d); kz; first [apply sim_lattice|apply sim_refl|idtac]. Qed.
  Lemma sim_counters e x : sim (w_counters e x). Proof. unfold w_counters. kz. Qed.
  Lemma sim_user e o a b c l : sim (w_user e o a b c l). Proof. unfold w_user. kz. Qed.
  Lemma sim_nums g m l ks : sim (w_mca_nums g m l ks). Proof. unfold w_mca_nums. kz. Qed.
  Lemma sim_link_mca e g : sim (link_mca e g). Proof. unfold link_mca. kz. Qed.
  Lemma sim_V_ e a b d : sim (w_V_ e a b d). Proof. unfold w_V_. kz. Qed.
  Lemma sim_writer cmd h e o : (o = Scn -> h = H_P -> forall x, ~ Dh x) -> sim (writer_of cmd h e o).
  Proof.
    intros HP. destruct h; cbn [writer_of]; try apply sim_raise; try apply sim_ret;
      try (destruct o; [apply sim_raise|apply sim_w_data; auto]);
      unfold w_D, w_C, w_G, w_J, w_j, w_M, w_o, w_P, w_Q, w_R, w_T, w_U, w_X, w_CALIB, w_CHANN, w_CTIME,
        w_VA, w_VD, w_VE, w_MD, w_unrec, w_V, w_UXML, mca_group;
      repeat first [ apply sim_diffr | apply sim_counters | apply sim_user | apply sim_nums
                   | apply sim_link_mca | apply sim_V_ | k2 ].
    (* positioners: the scan looks at the cross reference of its header *)
    all: unfold w_positioner; match goal with iv : (nat * (str * fl))%type |- _ => destruct iv as [i [n v]] end; kz.
    - intros w w2 R. unfold hasW, obj_of. cbn [fst snd]. split; [|exact R]. destruct R as [_ [_ _ X] _].
      destruct X as [->|(X & _)]; [reflexivity|]. destruct (HP eq_refl eq_refl _ X).
    - intros w w2 R. unfold rd, obj_of. cbn [fst snd]. split; [|exact R]. destruct R as [_ [_ _ X] _].
      destruct X as [->|(X & _)]; [reflexivity|]. destruct (HP eq_refl eq_refl _ X).
  Qed.
End Sim.

(* ------------------------------------------------------------------ *)
(** ** what a save adds to the objects *)
Section Grow.
  Context (Ds Dh : attr -> Prop).
  Definition gr {A} (m : WM A) : Prop := forall w, obj_rel Ds (w_scan w) (w_scan (fst (m w))) /\ obj_rel Dh (w_hdr w) (w_hdr (fst (m w))).
  Lemma gr_id {A} (m : WM A) : (forall w, fst (m w) = w) -> gr m.
  Proof. intros H w. rewrite H. split; apply or_refl. Qed.
  Lemma gr_ret {A} (x : A) : gr (sret x). Proof. apply gr_id; auto. Qed.
  Lemma gr_raise {A} e : gr (@sraise wst A e). Proof. apply gr_id; auto. Qed.
  Lemma gr_lift {A} (r : res A) : gr (slift r). Proof. apply gr_id; auto. Qed.
  Lemma gr_rd o a : gr (rd o a). Proof. apply gr_id; auto. Qed.
  Lemma gr_has o a : gr (hasW o a). Proof. apply gr_id; auto. Qed.
  Lemma gr_hdf {A} (m : HM A) : gr (hdf m).
  Proof. intros w. unfold hdf. destruct (m (w_h5 w)); cbn. split; apply or_refl. Qed.
  Lemma gr_bind {A B} (m : WM A) (k : A -> WM B) : gr m -> (forall x, gr (k x)) -> gr (sbind m k).
  Proof.
    intros H K w. rewrite sbind_eq. destruct (H w) as [A1 A2]. destruct (m w) as [w1 [x|e]]; cbn [fst] in *; [|split; auto].
    destruct (K x w1) as [B1 B2]. split; eapply or_trans; eauto.
  Qed.
  Lemma gr_iter {A} (g : A -> WM unit) l : (forall x, In x l -> gr (g x)) -> gr (siter g l).
  Proof. induction l as [|x l IH]; intros H; cbn [siter]; [apply gr_ret|]. apply gr_bind; [apply H; left; auto|intros _; apply IH; intros; apply H; right; auto]. Qed.
  Lemma gr_fun {A} (F : wst -> WM A) : (forall w, gr (F w)) -> gr (fun w => F w w).
  Proof. intros H w. apply H. Qed.
  Lemma upd_cx (D : attr -> Prop) p : D A_counter_xref -> p A_counter_xref = None -> obj_rel D p (upd A_counter_xref [] p).
  Proof. intros H N. constructor; [intros x N1 N2; apply upd_other; auto|right; rewrite upd_same; auto|left; apply upd_other; discriminate]. Qed.
  Lemma upd_px (D : attr -> Prop) p : D A_positioner_xref -> p A_positioner_xref = None -> obj_rel D p (upd A_positioner_xref [] p).
  Proof. intros H N. constructor; [intros x N1 N2; apply upd_other; auto|left; apply upd_other; discriminate|right; rewrite upd_same; auto]. Qed.
  Lemma gr_cx o : who_rel Ds Dh o A_counter_xref -> gr (ensureW o A_counter_xref []).
  Proof.
    intros H w. unfold ensureW. rewrite sbind_eq. unfold hasW. destruct (obj_of o w A_counter_xref) eqn:Eo; [split; apply or_refl|].
    unfold wr. destruct o; cbn in *; (split; [try apply or_refl|try apply or_refl]); apply upd_cx; auto.
  Qed.
  Lemma gr_px o : who_rel Ds Dh o A_positioner_xref -> gr (ensureW o A_positioner_xref []).
  Proof.
    intros H w. unfold ensureW. rewrite sbind_eq. unfold hasW. destruct (obj_of o w A_positioner_xref) eqn:Eo; [split; apply or_refl|].
    unfold wr. destruct o; cbn in *; (split; [try apply or_refl|try apply or_refl]); apply upd_px; auto.
  Qed.
  Ltac k1 := first
    [ apply gr_ret | apply gr_raise | apply gr_lift | apply gr_rd | apply gr_has | apply gr_hdf
    | apply gr_cx; solve [auto] | apply gr_px; solve [auto]
    | match goal with
      | |- gr (sbind _ _) => apply gr_bind; [|intros ?]
      | |- gr (siter _ _) => apply gr_iter; intros ? _
      | |- gr (match ?x with _ => _ end) => destruct x
      | |- gr (if ?x then _ else _) => destruct x
      | |- gr (let _ := _ in _) => cbv zeta
      end ].
  Ltac kk := repeat k1.
  Lemma gr_wds g n d l : gr (wds g n d l). Proof. unfold wds. kk. Qed.
  Lemma gr_write_ds g n d l : gr (write_ds g n d l). Proof. unfold write_ds. kk; apply gr_wds. Qed.
  Lemma gr_dict g d : gr (save_dict g d). Proof. unfold save_dict. kk; apply gr_write_ds. Qed.
  Lemma gr_unit {A} (m : WM A) : gr m -> gr (unit_of m). Proof. intros H. unfold unit_of. kk; auto. Qed.
  Ltac k2 := first [apply gr_wds | apply gr_write_ds | apply gr_dict | apply gr_unit | k1].
  Ltac kz := repeat k2.
  Lemma gr_mca_oneD g ax cal ks : gr (mca_oneD g ax cal ks). Proof. unfold mca_oneD. kz. Qed.
  Lemma gr_spectra g ax : gr (mca_spectra g ax).
  Proof.
    unfold mca_spectra. apply gr_bind; [apply gr_rd|]. intros d. destruct (dget (L "_mca_") d) as [[|m]|]; kz.
    apply (gr_fun (fun w => siter (mca_oneD g ax (calibration (w_scan w A_MCA))) (sorted_items m))).
    intros w. apply gr_iter. intros ks _. apply gr_mca_oneD.
  Qed.
  Lemma gr_oneD g : gr (oneD g). Proof. unfold oneD. kz; apply gr_spectra. Qed.
  Lemma gr_save_data g cmd : ~ mesh_cmd cmd -> gr (save_data g cmd).
  Proof.
    intros HM w. unfold save_data. rewrite sbind_eq. unfold slift at 1 3. unfold mesh_cmd in HM.
    destruct (words cmd) as [|st rest]; [cbn; split; apply or_refl|].
    change (index 0 (st :: rest)) with (@Ok str st). cbv iota beta.
    assert (Em : mem st (map L ["mesh"; "hklmesh"]%string) = false).
    { apply not_true_iff_false. intros X. apply mem_In in X. apply HM. exists st, rest. split; auto. destruct X as [<-|[<-|[]]]; auto. }
    rewrite Em.
    assert (K : gr (if mem st (map L ["hscan"; "kscan"; "lscan"; "hklscan"]%string) then
                let* sa := oneD g in
                let* axes := slift (hkl_axes cmd) in
                sret (fst sa, axes)
              else oneD g)) by (kz; apply gr_oneD).
    refine (gr_bind _ _ K _ w). intros [sg ax]. cbv zeta. kz.
  Qed.
  Lemma gr_w_data e cmd : ~ mesh_cmd cmd -> gr (w_data e cmd).
  Proof. intros HM. unfold w_data. kz; apply gr_save_data; auto. Qed.
  Lemma gr_lattice e l : gr (w_lattice e l). Proof. unfold w_lattice. kz. Qed.
  Lemma gr_refl s ir : gr (w_refl s ir). Proof. unfold w_refl. kz. Qed.
  Lemma gr_diffr e d : gr (w_diffr e d).
  Proof. unfold w_diffr. destruct (d_gpar d); kz; first [apply gr_lattice|apply gr_refl|idtac]. Qed.
  Lemma gr_counters e x : gr (w_counters e x). Proof. unfold w_counters. kz. Qed.
  Lemma gr_positioner g iv : gr (w_positioner g iv). Proof. unfold w_positioner. kz. Qed.
  Lemma gr_user e o a b c l : gr (w_user e o a b c l). Proof. unfold w_user. kz. Qed.
  Lemma gr_nums g m l ks : gr (w_mca_nums g m l ks). Proof. unfold w_mca_nums. kz. Qed.
  Lemma gr_link_mca e g : gr (link_mca e g). Proof. unfold link_mca. kz. Qed.
  Lemma gr_V_ e a b d : gr (w_V_ e a b d). Proof. unfold w_V_. kz. Qed.
  Lemma gr_writer cmd h e o : (o = Scn -> ~ mesh_cmd cmd) -> (h = H_J \/ h = H_j -> who_rel Ds Dh o A_counter_xref) ->
    (h = H_o -> who_rel Ds Dh o A_positioner_xref) -> gr (writer_of cmd h e o).
  Proof.
    intros HM HJ Ho. destruct h; cbn [writer_of]; try apply gr_raise; try apply gr_ret;
      try (destruct o; [apply gr_raise|apply gr_w_data; auto]);
      unfold w_D, w_C, w_G, w_J, w_j, w_M, w_o, w_P, w_Q, w_R, w_T, w_U, w_X, w_CALIB, w_CHANN, w_CTIME,
        w_VA, w_VD, w_VE, w_MD, w_unrec, w_V, w_UXML, mca_group;
      repeat first [ apply gr_diffr | apply gr_counters | apply gr_positioner | apply gr_user | apply gr_nums
                   | apply gr_link_mca | apply gr_V_ | k2 ].
  Qed.
End Grow.

(** the cross references that the writers of a header make if there are none *)
Definition adds (h : obj) (x : attr) : Prop := exists hw, h A_h5 = Some hw /\
  ((x = A_counter_xref /\ (In H_J (values hw) \/ In H_j (values hw))) \/ (x = A_positioner_xref /\ In H_o (values hw))).
Definition any : attr -> Prop := fun _ => True.
Lemma adds_same h h' x : h' A_h5 = h A_h5 -> adds h x -> adds h' x.
Proof. intros H (hw & A & B). exists hw. rewrite H. auto. Qed.
Lemma or_h5 D o o' : obj_rel D o o' -> o' A_h5 = o A_h5.
Proof. intros [A _ _]. apply A; discriminate. Qed.
Lemma or_some D o o' x : x = A_counter_xref \/ x = A_positioner_xref -> obj_rel D o o' -> o x <> None -> o' x <> None.
Proof. intros [->| ->] [A B C] N; [destruct B as [->|(_ & X & _)]|destruct C as [->|(_ & X & _)]]; auto. Qed.


Lemma hdr_writer cmd h e (D : attr -> Prop) : (h = H_J \/ h = H_j -> D A_counter_xref) -> (h = H_o -> D A_positioner_xref) -> gr none D (writer_of cmd h e Hdr).
Proof. intros H1 H2. apply gr_writer; auto. discriminate. Qed.
Lemma hdr_writers cmd e hw (D : attr -> Prop) : (In H_J (values hw) \/ In H_j (values hw) -> D A_counter_xref) -> (In H_o (values hw) -> D A_positioner_xref) ->
  gr none D (siter (fun h => writer_of cmd h e Hdr) (values hw)).
Proof. intros H1 H2. apply gr_iter. intros h Hh. apply hdr_writer; [intros [->| ->]; auto|intros ->; auto]. Qed.
Lemma hdr_set cmd e l : forall w w' u, siter (fun h => writer_of cmd h e Hdr) l w = (w', Ok u) ->
  (In H_J l \/ In H_j l -> w_hdr w' A_counter_xref <> None) /\ (In H_o l -> w_hdr w' A_positioner_xref <> None).
Proof.
  induction l as [|h l IH]; intros w w' u H; [split; [intros [[]|[]]|intros []]|]. cbn [siter] in H. rewrite sbind_eq in H.
  destruct (writer_of cmd h e Hdr w) as [w1 [u1|x]] eqn:E1; [|discriminate]. destruct (IH w1 w' u H) as [I1 I2].
  assert (G : gr none any (siter (fun h => writer_of cmd h e Hdr) l)) by (apply gr_iter; intros; apply hdr_writer; intros; exact I).
  destruct (G w1) as [_ G1]. rewrite H in G1. cbn [fst] in G1.
  assert (C : forall x, x = A_counter_xref \/ x = A_positioner_xref -> w_hdr w1 x <> None -> w_hdr w' x <> None) by (intros x Hx; eapply or_some; eauto).
  assert (S : forall a v (k : ty a -> WM unit), (forall x, gr none any (k x)) -> a = A_counter_xref \/ a = A_positioner_xref ->
     (ensureW Hdr a v >>> let* x := rd Hdr a in k x) w = (w1, Ok u1) -> w_hdr w1 a <> None).
  { intros a v k K Ha. rewrite ens_eq. cbn [obj_of]. destruct (w_hdr w a) as [x|] eqn:Ex; intros X.
    - destruct (K x w) as [_ Y]. rewrite X in Y. cbn [fst] in Y. eapply or_some; [exact Ha|exact Y|congruence].
    - destruct (K v (put_on Hdr a v w)) as [_ Y]. rewrite X in Y. cbn [fst] in Y. eapply or_some; [exact Ha|exact Y|].
      cbn [put_on w_hdr]. rewrite upd_same. discriminate. }
  split.
  - intros Hin. destruct h; try (apply I1; cbn [In] in Hin; destruct Hin as [[X|X]|[X|X]]; try discriminate X; auto; fail).
    + apply C; auto. apply (S A_counter_xref [] (fun x => match x with [] => sret tt | _ => w_counters e x end)); auto.
      intros [|]; [apply gr_ret|apply gr_counters].
    + apply C; auto. apply (S A_counter_xref [] (fun x => w_counters e x)); auto. intros x. apply gr_counters.
  - intros Hin. destruct h; try (apply I2; cbn [In] in Hin; destruct Hin as [X|X]; try discriminate X; auto; fail).
    apply C; auto. cbn [writer_of] in E1. unfold w_o in E1. eapply (S A_positioner_xref []); [|auto|exact E1].
    intros x. destruct x; [apply gr_ret|]. apply gr_bind; [apply gr_hdf|]. intros g. apply gr_iter. intros kv _. apply gr_bind; [apply gr_lift|]. intros c. apply gr_wds.
Qed.

Definition scan_part (e : handle) (sc : scan) : WM unit :=
  let* sw := rd Scn A_h5 in siter (fun h => writer_of (s_cmd sc) h e Scn) (values sw) >>> hdf (final_links e).
Definition hdr_part (e : handle) (sc : scan) : WM unit :=
  let* hw := rd Hdr A_h5 in siter (fun h => writer_of (s_cmd sc) h e Hdr) (values hw) >>> scan_part e sc.
Lemma save_objs_parts e sc : save_objs e sc = (hdf (entry_fields e (s_S sc) (s_num sc) (s_cmd sc)) >>> hdr_part e sc).
Proof. reflexivity. Qed.
Lemma hdr_part_sim e sc w w2 : wrel any (adds (w_hdr w)) w w2 ->
  snd (hdr_part e sc w2) = snd (hdr_part e sc w) /\ wrel any (adds (w_hdr w)) (fst (hdr_part e sc w)) (fst (hdr_part e sc w2)).
Proof.
  intros R. unfold hdr_part. rewrite !sbind_eq. unfold rd. cbn [obj_of]. rewrite (or_h5 _ _ _ (wr_h _ _ _ _ R)).
  destruct (w_hdr w A_h5) as [hw|] eqn:Ehw; [|cbn; auto].
  assert (S1 : sim any (adds (w_hdr w)) (siter (fun h => writer_of (s_cmd sc) h e Hdr) (values hw))).
  { apply sim_iter. intros h. apply sim_writer. discriminate. }
  destruct (S1 w w2 R) as [E2 R2]. rewrite !sbind_eq.
  assert (A1 : forall x, adds (w_hdr w) x -> (x = A_counter_xref /\ (In H_J (values hw) \/ In H_j (values hw))) \/ (x = A_positioner_xref /\ In H_o (values hw))).
  { intros x (hw' & X & Y). rewrite Ehw in X. injection X; intros <-. exact Y. }
  pose proof (hdr_set (s_cmd sc) e (values hw) w) as HS.
  destruct (siter (fun h => writer_of (s_cmd sc) h e Hdr) (values hw) w) as [w3 r3], (siter (fun h => writer_of (s_cmd sc) h e Hdr) (values hw) w2) as [w32 r32].
  cbn [fst snd] in E2, R2. subst r32. destruct r3 as [u3|x3]; [|cbn; auto].
  destruct (HS w3 u3 eq_refl) as [HS1 HS2].
  assert (R3 : wrel any none w3 w32).
  { destruct R2 as [X Y Z]. constructor; auto. eapply or_tight; [| |exact Y].
    - intros X1. destruct (A1 _ X1) as [[_ ?]|[? _]]; [auto|discriminate].
    - intros X1. destruct (A1 _ X1) as [[? _]|[_ ?]]; [discriminate|auto]. }
  assert (S2 : sim any none (scan_part e sc)).
  { apply sim_bind; [apply sim_rd; discriminate|]. intros sw. apply sim_bind; [|intros _; apply sim_hdf]. apply sim_iter. intros h. apply sim_writer.
    intros _ _ x []. }
  destruct (S2 w3 w32 R3) as [E4 R4]. split; [exact E4|]. destruct R4 as [X Y Z]. constructor; auto. eapply or_weak; [|exact Y]. intros x [].
Qed.
Lemma save_objs_sim e sc w w2 : wrel any (adds (w_hdr w)) w w2 ->
  snd (save_objs e sc w2) = snd (save_objs e sc w) /\ wrel any (adds (w_hdr w)) (fst (save_objs e sc w)) (fst (save_objs e sc w2)).
Proof.
  intros R. rewrite save_objs_parts. rewrite !sbind_eq.
  destruct (sim_hdf any (adds (w_hdr w)) (entry_fields e (s_S sc) (s_num sc) (s_cmd sc)) w w2 R) as [E1 R1].
  assert (H1 : w_hdr (fst (hdf (entry_fields e (s_S sc) (s_num sc) (s_cmd sc)) w)) = w_hdr w) by (unfold hdf; destruct (entry_fields _ _ _ _ _); reflexivity).
  destruct (hdf _ w) as [w1 r1], (hdf _ w2) as [w12 r12]. cbn [fst snd] in E1, R1, H1. subst r12. destruct r1 as [u1|x1]; [|cbn; auto].
  rewrite <- H1 in R1 |- *. apply hdr_part_sim. auto.
Qed.

Lemma save_objs_grow e sc w : ~ mesh_cmd (s_cmd sc) ->
  obj_rel any (w_scan w) (w_scan (fst (save_objs e sc w))) /\ obj_rel (adds (w_hdr w)) (w_hdr w) (w_hdr (fst (save_objs e sc w))).
Proof.
  intros HM. unfold save_objs. rewrite sbind_eq.
  assert (H1 : w_hdr (fst (hdf (entry_fields e (s_S sc) (s_num sc) (s_cmd sc)) w)) = w_hdr w /\ w_scan (fst (hdf (entry_fields e (s_S sc) (s_num sc) (s_cmd sc)) w)) = w_scan w)
    by (unfold hdf; destruct (entry_fields _ _ _ _ _); auto).
  destruct (hdf _ w) as [w1 r1]. cbn [fst] in H1. destruct H1 as [H1 H2]. destruct r1 as [u1|x1]; [|cbn; rewrite H1, H2; split; apply or_refl].
  rewrite sbind_eq. unfold rd at 1 3. cbn [obj_of]. rewrite H1. destruct (w_hdr w A_h5) as [hw|] eqn:Ehw; [|cbn; rewrite H1, H2; split; apply or_refl].
  rewrite <- H2, <- H1. set (D := adds (w_hdr w1)).
  assert (G : gr any D (siter (fun h => writer_of (s_cmd sc) h e Hdr) (values hw) >>>
     let* sw := rd Scn A_h5 in siter (fun h => writer_of (s_cmd sc) h e Scn) (values sw) >>> hdf (final_links e))).
  { apply gr_bind; [|intros _; apply gr_bind; [apply gr_rd|]; intros sw; apply gr_bind; [|intros _; apply gr_hdf]].
    - apply gr_iter. intros h Hh. apply gr_writer; [discriminate| |].
      + intros X. exists hw. split; [rewrite H1; auto|]. left. split; auto. destruct X as [<-|<-]; auto.
      + intros ->. exists hw. split; [rewrite H1; auto|]. right. auto.
    - apply gr_iter. intros h Hh. apply gr_writer; auto; intros; exact I. }
  apply G.
Qed.

(* ------------------------------------------------------------------ *)
(** ** states *)
Definition scan_rel (a b : scan) : Prop :=
  s_raw b = s_raw a /\ s_S b = s_S a /\ s_num b = s_num a /\ s_cmd b = s_cmd a /\ s_hdr b = s_hdr a /\ s_lazy b = s_lazy a /\
  s_done a = true /\ s_done b = true /\ obj_rel any (s_obj a) (s_obj b).
Definition hdr_rel (a b : header) : Prop := h_raw b = h_raw a /\ obj_rel (adds (h_obj a)) (h_obj a) (h_obj b).
Record srel (s s2 : sdf) : Prop := mk_sr {
  sr_scans : Forall2 (fun a b => fst a = fst b /\ scan_rel (snd a) (snd b)) (scans s) (scans s2);
  sr_hdrs : Forall2 hdr_rel (headers s) (headers s2);
  sr_file : specFile s2 = specFile s }.
Definition all_done (s : sdf) : Prop := Forall (fun kv => s_done (snd kv) = true) (scans s).

Lemma scan_rel_refl a : s_done a = true -> scan_rel a a.
Proof. intros H. unfold scan_rel. do 8 (split; [auto|]). apply or_refl. Qed.
Lemma scan_rel_trans a b c : scan_rel a b -> scan_rel b c -> scan_rel a c.
Proof.
  intros (A1 & A2 & A3 & A4 & A5 & A6 & A7 & A8 & A9) (B1 & B2 & B3 & B4 & B5 & B6 & B7 & B8 & B9).
  unfold scan_rel. do 8 (split; [congruence|]). eapply or_trans; eauto.
Qed.
Lemma hdr_rel_refl a : hdr_rel a a. Proof. split; [auto|apply or_refl]. Qed.
Lemma hdr_rel_trans a b c : hdr_rel a b -> hdr_rel b c -> hdr_rel a c.
Proof.
  intros [A1 A2] [B1 B2]. split; [congruence|]. eapply or_trans; [exact A2|]. eapply or_weak; [|exact B2].
  intros x. apply adds_same. symmetry. eapply or_h5; eauto.
Qed.
Lemma srel_refl s : all_done s -> srel s s.
Proof.
  intros H. constructor; auto.
  - unfold all_done in H. induction H; constructor; auto. split; [auto|apply scan_rel_refl; auto].
  - induction (headers s); constructor; auto. apply hdr_rel_refl.
Qed.
Lemma srel_trans a b c : srel a b -> srel b c -> srel a c.
Proof.
  intros [A1 A2 A3] [B1 B2 B3]. constructor; [| |congruence].
  - eapply F2_trans; [|exact A1|exact B1]. intros x y z [X1 X2] [Y1 Y2]. split; [congruence|eapply scan_rel_trans; eauto].
  - eapply F2_trans; [|exact A2|exact B2]. intros x y z. apply hdr_rel_trans.
Qed.
Lemma srel_done s s2 : srel s s2 -> all_done s2.
Proof.
  intros [A _ _]. unfold all_done. induction A as [|a b l l2 [_ (_ & _ & _ & _ & _ & _ & _ & D & _)] F IH]; constructor; auto.
Qed.
Lemma srel_later s s2 : srel s s2 -> later s s2.
Proof.
  intros [A _ _]. unfold later. induction A as [|a b l l2 [K (A1 & A2 & A3 & A4 & A5 & A6 & A7 & A8 & [B _ _])] F IH]; constructor; auto.
  split; [auto|]. unfold later_scan. do 5 (split; [congruence|]). intros _. split; [auto|split; [auto|]].
  intros x N. apply B; intros X; apply N; [left|right; left]; auto.
Qed.
Lemma F2_dget {V} (R : V -> V -> Prop) (d d2 : dict V) : Forall2 (fun a b => fst a = fst b /\ R (snd a) (snd b)) d d2 ->
  forall n, match dget n d, dget n d2 with Some a, Some b => R a b | None, None => True | _, _ => False end.
Proof.
  induction 1 as [|[k a] [k2 b] l l2 [H1 H2] F IH]; intros n; cbn [dget]; auto. cbn [fst snd] in *. subst k2. destruct (seqb n k); [auto|apply IH].
Qed.
Lemma F2_dset {V} (R : V -> V -> Prop) (d d2 : dict V) n a b : Forall2 (fun a b => fst a = fst b /\ R (snd a) (snd b)) d d2 -> R a b ->
  Forall2 (fun a b => fst a = fst b /\ R (snd a) (snd b)) (dset n a d) (dset n b d2).
Proof.
  intros F H. induction F as [|[k x] [k2 y] l l2 [H1 H2] F IH]; cbn [dset]; [constructor; auto|]. cbn [fst snd] in *. subst k2.
  destruct (seqb n k); constructor; auto.
Qed.
Lemma F2_nth_error {A} (R : A -> A -> Prop) l l2 : Forall2 R l l2 -> forall n, match nth_error l n, nth_error l2 n with Some a, Some b => R a b | None, None => True | _, _ => False end.
Proof. induction 1; intros [|n]; cbn [nth_error]; auto. apply IHForall2. Qed.
Lemma F2_set_nth {A} (R : A -> A -> Prop) l l2 n a b : Forall2 R l l2 -> R a b -> Forall2 R (set_nth n a l) (set_nth n b l2).
Proof. intros F H. revert n. induction F; intros [|n]; cbn [set_nth]; try constructor; auto. Qed.

Lemma done_dget s name sc : all_done s -> dget name (scans s) = Some sc -> s_done sc = true.
Proof.
  unfold all_done. induction 1 as [|[k x] l H F IH]; cbn [dget]; [discriminate|]. destruct (seqb name k); auto. intros X; inversion X; subst. auto.
Qed.
Lemma dset_self {V} n (d : dict V) : forall a, dget n d = Some a -> forall (R : V -> V -> Prop) b, Forall (fun kv => R (snd kv) (snd kv)) d -> R a b ->
  Forall2 (fun a b => fst a = fst b /\ R (snd a) (snd b)) d (dset n b d).
Proof.
  induction d as [|[k x] d IH]; intros a H R b R0 Hb; [discriminate|]. cbn [dget dset] in *. inversion R0 as [|? ? X Y]; subst. destruct (seqb n k) eqn:Ek.
  - constructor; [|clear - Y; induction Y; constructor; auto]. inversion H; subst. split; auto.
  - constructor; [auto|]. eapply IH; eauto.
Qed.
Lemma set_nth_self {A} (R : A -> A -> Prop) (l : list A) : (forall x, R x x) -> forall n a b, nth_error l n = Some a -> R a b -> Forall2 R l (set_nth n b l).
Proof.
  intros R0. induction l as [|x l IH]; intros [|n] a b H Hb; try discriminate; cbn [set_nth nth_error] in *.
  - constructor; [congruence|]. clear - R0. induction l; constructor; auto.
  - constructor; eauto.
Qed.
Section Again.
  Context (E : env) (known : list hid).
  Lemma interpret_all_done s name : all_done s -> interpret E known name s = (s, match dget name (scans s) with Some _ => None | None => Some KeyError end).
  Proof.
    intros H. unfold interpret. destruct (dget name (scans s)) as [sc|] eqn:Eg; auto. rewrite (done_dget s name sc H Eg). reflexivity.
  Qed.
  Lemma save_scan_again e name s s2 f : srel s s2 -> let r := save_scan E known e name s f in let r2 := save_scan E known e name s2 f in
    snd r2 = snd r /\ snd (fst r2) = snd (fst r) /\ srel (fst (fst r)) (fst (fst r2)).
  Proof.
    intros R. cbv zeta. unfold save_scan. assert (D1 : all_done s) by (destruct R as [F _ _]; unfold all_done; clear - F;
      induction F as [|a b l l2 [_ (_ & _ & _ & _ & _ & _ & D & _)] F IH]; constructor; auto).
    rewrite (interpret_all_done s name D1), (interpret_all_done s2 name (srel_done _ _ R)).
    pose proof R as [F1 F2 F3]. pose proof (F2_dget _ _ _ F1 name) as G.
    destruct (dget name (scans s)) as [sc|] eqn:Eg, (dget name (scans s2)) as [sc2|] eqn:Eg2; try contradiction; [|cbn; auto].
    pose proof G as (A1 & A2 & A3 & A4 & A5 & A6 & A7 & A8 & A9).
    rewrite A5. pose proof (F2_nth_error _ _ _ F2 (s_hdr sc)) as N.
    destruct (nth_error (headers s) (s_hdr sc)) as [h|], (nth_error (headers s2) (s_hdr sc)) as [h2|]; try contradiction; [|cbn; auto].
    destruct N as [N1 N2].
    assert (W : wrel any (adds (h_obj h)) (mk_ws (s_obj sc) (h_obj h) f) (mk_ws (s_obj sc2) (h_obj h2) f)) by (constructor; auto).
    destruct (save_objs_sim e sc (mk_ws (s_obj sc) (h_obj h) f) (mk_ws (s_obj sc2) (h_obj h2) f) W) as [S1 S2].
    assert (Es : save_objs e sc2 = save_objs e sc) by (unfold save_objs; rewrite A2, A3, A4; reflexivity). rewrite Es.
    assert (GH : w_hdr (fst (save_objs e sc (mk_ws (s_obj sc) (h_obj h) f))) A_h5 = h_obj h A_h5).
    { destruct (kp_save_objs True e sc (fun _ => I) (mk_ws (s_obj sc) (h_obj h) f)) as [_ X]. apply X; discriminate. }
    destruct (save_objs e sc (mk_ws (s_obj sc) (h_obj h) f)) as [w r], (save_objs e sc (mk_ws (s_obj sc2) (h_obj h2) f)) as [w2 r2].
    cbn [fst snd] in *. subst r2. destruct S2 as [X Y Z]. split; [auto|]. split; [auto|].
    constructor; cbn [scans headers specFile set_scans set_headers]; auto.
    - apply F2_dset; auto. unfold scan_rel, with_obj in *. cbn. do 8 (split; [auto|]). exact X.
    - apply F2_set_nth; auto. split; [auto|]. cbn [h_obj]. eapply or_weak; [|exact Y]. intros x. apply adds_same. exact GH.
  Qed.

  Definition same_outcome (r r2 : sdf * h5 * option exn) : Prop := snd r2 = snd r /\ snd (fst r2) = snd (fst r) /\ srel (fst (fst r)) (fst (fst r2)).
  Lemma srel_done1 s s2 : srel s s2 -> all_done s.
  Proof. intros [F _ _]. unfold all_done. induction F as [|a b l l2 [_ (_ & _ & _ & _ & _ & _ & D & _)] F IH]; constructor; auto. Qed.
  Lemma save_key_again first k s s2 f : srel s s2 -> same_outcome (save_key E known first k s f) (save_key E known first k s2 f).
  Proof.
    intros R. unfold save_key. destruct (sbind _ _ f) as [f1 [e|x]]; [|split; [reflexivity|split; [reflexivity|exact R]]].
    pose proof (getScan_later k s s2 (srel_later _ _ R)) as G.
    destruct (getScan k s) as [[sc|]|x], (getScan k s2) as [[sc2|]|x2]; try contradiction; try (split; [cbn; congruence|split; [reflexivity|exact R]]).
    rewrite <- G. destruct (save_scan_again e (s_num sc) s s2 f1 R) as (A & B & C).
    destruct (save_scan E known e (s_num sc) s f1) as [[s3 f3] r3], (save_scan E known e (s_num sc) s2 f1) as [[s4 f4] r4]. cbn [fst snd] in A, B, C. subst r4 f4.
    destruct r3 as [x|]; [split; [reflexivity|split; [reflexivity|exact C]]|].
    destruct (sbind _ _ f3) as [f5 [u|x]]; (split; [reflexivity|split; [reflexivity|exact C]]).
  Qed.
  Lemma save_keys_again ks : forall first s s2 f, srel s s2 -> same_outcome (save_keys E known first ks s f) (save_keys E known first ks s2 f).
  Proof.
    induction ks as [|k ks IH]; intros first s s2 f R; cbn [save_keys]; [split; [reflexivity|split; [reflexivity|exact R]]|].
    destruct (save_key_again first k s s2 f R) as (A & B & C).
    destruct (save_key E known first k s f) as [[s3 f3] r3], (save_key E known first k s2 f) as [[s4 f4] r4]. cbn [fst snd] in A, B, C. subst r4 f4.
    destruct r3 as [x|]; [split; [reflexivity|split; [reflexivity|exact C]]|]. apply IH. exact C.
  Qed.
  Lemma root_again v s s2 : srel s s2 -> root_attributes v s2 = root_attributes v s.
  Proof.
    intros [_ F G]. unfold root_attributes. rewrite G.
    assert (Hl : len (headers s2) = len (headers s)) by (unfold len; clear - F; f_equal; induction F; cbn; auto). rewrite Hl.
    destruct F as [|h h2 l l2 [_ [O _ _]] F]; [reflexivity|].
    change (index 0 (h2 :: l2)) with (@Ok header h2). change (index 0 (h :: l)) with (@Ok header h). cbn [bind].
    rewrite !O by discriminate. reflexivity.
  Qed.
  Lemma save_again_same v ks s s2 : srel s s2 -> same_outcome (save E known v ks s) (save E known v ks s2).
  Proof.
    intros R. unfold save. rewrite (root_again v s s2 R). destruct (root_attributes v s) as [l|x]; [|split; [reflexivity|split; [reflexivity|exact R]]].
    destruct (addAttributes root l new_file) as [f [u|x]]; [|split; [reflexivity|split; [reflexivity|exact R]]]. apply save_keys_again. auto.
  Qed.

  (** saving scans that are not meshes only makes empty cross references *)
  Definition flat_key (k : skey) (s : sdf) : Prop := forall sc0 sc, getScan k s = Ok (Some sc0) -> dget (s_num sc0) (scans s) = Some sc -> ~ mesh_cmd (s_cmd sc).
  Lemma flat_srel k s s2 : srel s s2 -> flat_key k s -> flat_key k s2.
  Proof.
    intros R H sc0 sc A B. pose proof (getScan_later k s s2 (srel_later _ _ R)) as G. rewrite A in G.
    destruct (getScan k s) as [[sc1|]|x] eqn:E1; try contradiction. rewrite <- G in B.
    pose proof R as [F _ _]. pose proof (F2_dget _ _ _ F (s_num sc1)) as X. rewrite B in X.
    destruct (dget (s_num sc1) (scans s)) as [sc2|] eqn:E2; [|contradiction].
    destruct X as (_ & _ & _ & X & _). rewrite X. exact (H sc1 sc2 E1 E2).
  Qed.
  Lemma save_scan_grow e name s f : all_done s -> (forall sc, dget name (scans s) = Some sc -> ~ mesh_cmd (s_cmd sc)) ->
    srel s (fst (fst (save_scan E known e name s f))).
  Proof.
    intros D H. unfold save_scan. rewrite (interpret_all_done s name D). destruct (dget name (scans s)) as [sc|] eqn:Eg; [|apply srel_refl; auto].
    destruct (nth_error (headers s) (s_hdr sc)) as [h|] eqn:Eh; [|apply srel_refl; auto].
    destruct (save_objs_grow e sc (mk_ws (s_obj sc) (h_obj h) f) (H sc eq_refl)) as [G1 G2].
    destruct (save_objs e sc (mk_ws (s_obj sc) (h_obj h) f)) as [w r]. cbn [fst snd w_scan w_hdr] in *.
    pose proof (done_dget s name sc D Eg) as Ds.
    constructor; cbn [scans headers specFile set_scans set_headers]; auto.
    - eapply dset_self; [exact Eg| |].
      + unfold all_done in D. clear - D. induction D; constructor; auto. apply scan_rel_refl; auto.
      + unfold scan_rel, with_obj. cbn. do 8 (split; [auto|]). exact G1.
    - eapply set_nth_self; [apply hdr_rel_refl|exact Eh|]. split; [auto|exact G2].
  Qed.
  Lemma save_key_grow first k s f : all_done s -> flat_key k s -> srel s (fst (fst (save_key E known first k s f))).
  Proof.
    intros D H. unfold save_key. destruct (sbind _ _ f) as [f1 [e|x]]; [|apply srel_refl; auto].
    destruct (getScan k s) as [[sc|]|x] eqn:Eg; try (apply srel_refl; auto).
    pose proof (save_scan_grow e (s_num sc) s f1 D (fun sc' => H sc sc' Eg)) as G.
    destruct (save_scan E known e (s_num sc) s f1) as [[s3 f3] [x|]]; [exact G|].
    destruct (sbind _ _ f3) as [f5 [u|x]]; exact G.
  Qed.
  Lemma save_keys_grow ks : forall first s f, all_done s -> Forall (fun k => flat_key k s) ks -> srel s (fst (fst (save_keys E known first ks s f))).
  Proof.
    induction ks as [|k ks IH]; intros first s f D H; cbn [save_keys]; [apply srel_refl; auto|]. inversion H as [|? ? H1 H2]; subst.
    pose proof (save_key_grow first k s f D H1) as G. destruct (save_key E known first k s f) as [[s3 f3] [x|]]; [exact G|]. cbn [fst] in G.
    eapply srel_trans; [exact G|]. apply IH; [eapply srel_done; eauto|]. eapply Forall_impl; [|exact H2]. intros a. apply flat_srel. exact G.
  Qed.
  Lemma save_grow v ks s : all_done s -> Forall (fun k => flat_key k s) ks -> srel s (fst (fst (save E known v ks s))).
  Proof.
    intros D H. unfold save. destruct (root_attributes v s) as [l|x]; [|apply srel_refl; auto].
    destruct (addAttributes root l new_file) as [f [u|x]]; [|apply srel_refl; auto]. apply save_keys_grow; auto.
  Qed.
  Theorem save_leaves_no_trace v ks s v2 ks2 : all_done s -> Forall (fun k => flat_key k s) ks ->
    let r := save E known v2 ks2 s in let r2 := save E known v2 ks2 (fst (fst (save E known v ks s))) in
    snd r2 = snd r /\ snd (fst r2) = snd (fst r).
  Proof. intros D H. destruct (save_again_same v2 ks2 _ _ (save_grow v ks s D H)) as (A & B & _). split; auto. Qed.
End Again.
