(** Detector lines; keyed lines. *)
From Coq Require Import String Lia.
From Verif Require Import Uni Py PyFacts NumFacts Utils Keys Handlers Geom Reader SpecText SpecUtils SpecReader SpecNum SpecHistory SpecKeys SpecInterp SpecData SpecMeta SpecMca
  TextFacts UtilsFacts KeyFacts ReaderFacts2 ReaderFacts4 ReaderFacts5 DispatchFacts FrameFacts StateFacts InterpFacts MonadFacts HandlerFacts PostFacts DataFacts DataFacts2 LastFacts MetaFacts MetaLineFacts CliFacts.
Import ListNotations.
Local Open Scope list_scope.

Section Views.
  Context (E : env) (known : list hid) (Hk : incl all_hids known).

  (** the last line of a handler, for a view that only this handler changes *)
  Lemma last_view {X} (view : world -> X) (I : world -> Prop) h lines :
    (forall h' line w w', h' <> h -> process E h' line w = (w', Ok tt) -> view w' = view w) ->
    (forall h' line w w', I w -> process E h' line w = (w', Ok tt) -> I w') ->
    forall w w', I w -> iterM (scan_line E known) lines w = (w', Ok tt) ->
    (Forall (fun l => eff known l <> Some h) lines /\ view w' = view w) \/
    exists pre l post wa wb, lines = pre ++ l :: post /\ eff known l = Some h /\ Forall (fun l => eff known l <> Some h) post /\
      I wa /\ process E h l wa = (wb, Ok tt) /\ view w' = view wb.
  Proof.
    intros HS HI. induction lines as [|l lines IH]; intros w w' Hw H.
    - inversion H; subst. left. auto.
    - apply iter_bind in H. destruct H as (w1 & H1 & H2). rewrite (scan_line_eff E known Hk) in H1.
      assert (Hw1 : I w1). { destruct (eff known l) as [h'|]; [eapply HI; eauto|inversion H1; subst; auto]. }
      destruct (IH _ _ Hw1 H2) as [[I1 I2]|(pre & l' & post & wa & wb & I1 & I2 & I3 & I4 & I5 & I6)].
      + destruct (eff known l) as [h'|] eqn:El.
        * destruct (hid_eq_dec h' h) as [->|Hn].
          -- right. exists [], l, lines, w, w1. repeat split; auto.
          -- left. split; [constructor; auto; congruence|]. rewrite I2. eapply HS; eauto.
        * inversion H1; subst. left. split; [constructor; auto; congruence|auto].
      + right. exists (l :: pre), l', post, wa, wb. repeat split; auto. rewrite I1; reflexivity.
  Qed.
  (** in terms of the lines of the scan *)
  Lemma last_seen {X} (view : world -> X) (I : world -> Prop) h s sc s' sc' w0 w1 w : h <> H_unrec -> h <> H_S ->
    (forall h' line w w', h' <> h -> process E h' line w = (w', Ok tt) -> view w' = view w) ->
    (forall h' line w w', I w -> process E h' line w = (w', Ok tt) -> I w') -> I w0 -> ran E known s sc s' sc' w0 w1 w ->
    (Forall (fun l => ~ control h l) (Handlers.scan_lines (s_raw sc)) /\ view w1 = view w0) \/
    exists l wa wb, last_line_of h (Handlers.scan_lines (s_raw sc)) l /\ I wa /\ process E h l wa = (wb, Ok tt) /\ view w1 = view wb.
  Proof.
    intros Hu HS HV HI H0 R. pose proof (scan_lines_no_lf (s_raw sc)) as N. rewrite Forall_forall in N.
    destruct (last_view view I h _ HV HI _ _ H0 (ran_lines _ _ _ _ _ _ _ _ _ R)) as [[I1 I2]|(pre & l & post & wa & wb & I1 & I2 & I3 & I4 & I5 & I6)].
    - left. split; auto. rewrite Forall_forall in *. intros l Hl Q. apply (I1 _ Hl). apply (eff_control known Hk); auto.
    - right. exists l, wa, wb. split; [|split; [|split; auto]]; auto. exists pre, post. split; auto. split; [apply (eff_control known Hk); auto; apply N; rewrite I1; apply in_elt|].
      rewrite Forall_forall in *. intros x Hx Q. apply (I3 _ Hx). apply (eff_control known Hk); auto. apply N. rewrite I1. apply in_or_app. right; right; auto.
  Qed.

  (** a dictionary filled by the lines of one handler *)
  Lemma dict_view {V} (view : world -> option (dict V)) (kf : str -> str) (vf : str -> V) (good : str -> Prop) h lines :
    (forall line w w', process E h line w = (w', Ok tt) -> good line /\ view w' = Some (dset (kf line) (vf line) (orn (view w)))) ->
    (forall h' line w w', h' <> h -> process E h' line w = (w', Ok tt) -> view w' = view w) ->
    forall w w', view w = None -> iterM (scan_line E known) lines w = (w', Ok tt) ->
    let rs := lines_h known (only h) lines in
    Forall good rs /\ view w' = match rs with [] => None | _ => Some (fold_left (fun d l => dset (kf l) (vf l) d) rs []) end.
  Proof.
    intros H1 H2 w w' Hw H.
    pose (Inv := fun (done : list str) (w : world) => Forall good done /\
      view w = match done with [] => None | _ => Some (fold_left (fun d l => dset (kf l) (vf l) d) done []) end).
    pose proof (iter_inv E (scan_line E known) (eff known) (scan_step E known Hk) (only h) Inv) as IV.
    assert (I1 : forall h' line u u' done, only h h' = true -> Inv done u -> process E h' line u = (u', Ok tt) -> Inv (done ++ [line]) u').
    { intros h' line u u' done Hh [Hi1 Hi2] Hpr. apply only_true in Hh. subst h'. destruct (H1 _ _ _ Hpr) as [G1 G2]. split; [apply Forall_app; auto|].
      rewrite G2, Hi2. destruct done as [|x done]; [reflexivity|]. cbn [app orn]. change (x :: done ++ [line]) with ((x :: done) ++ [line]). rewrite fold_left_app. reflexivity. }
    assert (I2 : forall h' line u u' done, only h h' = false -> Inv done u -> process E h' line u = (u', Ok tt) -> Inv done u').
    { intros h' line u u' done Hh [Hi1 Hi2] Hpr. split; auto. rewrite <- Hi2. eapply H2; [|exact Hpr]. intros ->. assert (only h h = true) by (apply only_true; auto). congruence. }
    specialize (IV I1 I2 _ _ _ [] H ltac:(split; auto)). cbn [app] in IV. exact IV.
  Qed.
  Lemma fold_nodup {V} (kf : str -> str) (vf : str -> V) ls d : NoDup (keys d) -> NoDup (keys (fold_left (fun d l => dset (kf l) (vf l) d) ls d)).
  Proof. revert d; induction ls as [|l ls IH]; intros d Hd; [exact Hd|]. cbn [fold_left]. apply IH. apply NoDup_dset; auto. Qed.
  Lemma from_fold {V} (key : str -> str -> Prop) (value : str -> V -> Prop) kf vf (o : option (dict V)) rs :
    o = match rs with [] => None | _ => Some (fold_left (fun d l => dset (kf l) (vf l) d) rs []) end ->
    (forall l k, In l rs -> (key l k <-> kf l = k)) -> (forall l v, In l rs -> (value l v <-> v = vf l)) -> from_lines o rs key value.
  Proof.
    intros H H1 H2. destruct rs as [|r rs]; [left; auto|right]. split; [discriminate|]. eexists. split; [exact H|]. split; [apply fold_nodup; constructor|].
    intros k v. rewrite (find_last key kf vf) by auto. split; intros (l & Hl & Hv); exists l; (split; [auto|]); apply H2; auto; destruct Hl as (p & q & -> & _); apply in_elt.
  Qed.
End Views.

(** the dictionary of the detector, key by key *)
Definition mca_get (k : str) (w : world) : option mcaval := match me w A_MCA with Some m => dget k m | None => None end.
Lemma mca_none k w : me w A_MCA = None -> mca_get k w = None.
Proof. unfold mca_get. intros ->. reflexivity. Qed.

Section Detector.
  Context (E : env) (known : list hid) (Hk : incl all_hids known).

  Lemma mca_frame h line w w' k : h <> H_CALIB -> h <> H_CHANN -> h <> H_CTIME -> h <> H_ROI -> process E h line w = (w', Ok tt) -> mca_get k w' = mca_get k w.
  Proof.
    intros N1 N2 N3 N4 H. unfold mca_get. pose proof (frame_process E h line w) as (_ & [F _] & _). rewrite H in F. cbn [fst] in F. rewrite F; [reflexivity|].
    destruct h; try congruence; cbn; intros Q; decompose [or] Q; try discriminate; auto.
  Qed.
  (** what the four handlers do to the dictionary *)
  Definition mca_was (w : world) : dict mcaval := match me w A_MCA with Some m => m | None => [] end.
  Lemma mca_get_was k w : mca_get k w = dget k (mca_was w).
  Proof. unfold mca_get, mca_was. destruct (me w A_MCA); reflexivity. Qed.
  Lemma mca_get_is k w m : me w A_MCA = Some m -> mca_get k w = dget k m.
  Proof. unfold mca_get. intros ->. reflexivity. Qed.
  Lemma calib_ok line w w' : process_CALIB line w = (w', Ok tt) -> exists wa wb wc rest a b c,
    words (strip_first_word line) = wa :: wb :: wc :: rest /\ py_float wa = Ok a /\ py_float wb = Ok b /\ py_float wc = Ok c /\
    me w' A_MCA = Some (dset (L "CALIB") (MCalib (dset (L "c") (NF c) (dset (L "b") (NF b) (dset (L "a") (NF a)
      (match mca_get (L "CALIB") w with Some (MCalib d) => d | _ => [] end))))) (mca_was w)).
  Proof.
    unfold process_CALIB. intros H. apply mbind_ok in H. destruct H as (w1 & v & G & H). apply lift_ok in G. destruct G as [-> G].
    destruct v as [|a [|b [|c [|? ?]]]]; try (apply raise_ok in H; destruct H). apply mapM_F2 in G.
    assert (G' : Forall2 (fun w z => py_float w = Ok z) (firstn 3 (words (strip_first_word line))) [a; b; c]) by exact G.
    destruct (words (strip_first_word line)) as [|wa [|wb [|wc rest]]]; cbn [firstn] in G'; inversion G' as [|? ? ? ? K1 G2]; subst; inversion G2 as [|? ? ? ? K2 G3]; subst; inversion G3 as [|? ? ? ? K3 G4]; subst.
    exists wa, wb, wc, rest, a, b, c. split; [reflexivity|]. split; [auto|]. split; [auto|]. split; [auto|]. mgo H.
    rewrite mca_get_was. unfold mca_was. destruct (me w A_MCA); mfin.
  Qed.
  Lemma chann_ok line w w' : process_CHANN line w = (w', Ok tt) -> exists wa wb wc rest a b c r,
    words (strip_first_word line) = wa :: wb :: wc :: rest /\ py_int wa = Ok a /\ py_int wb = Ok b /\ py_int wc = Ok c /\ py_float (last rest wc) = Ok r /\
    me w' A_MCA = Some (dset (L "reduction_coef") (MNum (NF r)) (dset (L "last_saved") (MNum (NI c))
                 (dset (L "first_saved") (MNum (NI b)) (dset (L "number_saved") (MNum (NI a)) (mca_was w))))).
  Proof.
    unfold process_CHANN. intros H. apply mbind_ok in H. destruct H as (w1 & v & G & H). apply lift_ok in G. destruct G as [-> G].
    destruct v as [|a [|b [|c [|? ?]]]]; try (apply raise_ok in H; destruct H). apply mapM_F2 in G.
    assert (G' : Forall2 (fun w z => py_int w = Ok z) (firstn 3 (words (strip_first_word line))) [a; b; c]) by exact G.
    apply mbind_ok in H. destruct H as (w1 & v & Hi & H). apply lift_ok in Hi. destruct Hi as [-> Hi].
    apply mbind_ok in H. destruct H as (w1 & r & Hr & H). apply lift_ok in Hr. destruct Hr as [-> Hr].
    destruct (words (strip_first_word line)) as [|wa [|wb [|wc rest]]]; cbn [firstn] in G'; inversion G' as [|? ? ? ? K1 G2]; subst; inversion G2 as [|? ? ? ? K2 G3]; subst; inversion G3 as [|? ? ? ? K3 G4]; subst.
    exists wa, wb, wc, rest, a, b, c, r. split; [reflexivity|]. split; [auto|]. split; [auto|]. split; [auto|].
    split.
    { assert (Ev : v = last rest wc); [|congruence]. revert Hi. clear. rewrite index_m1. cbn [rev]. intros Hi.
      destruct rest as [|x rest _] using rev_ind; [cbn in Hi |- *; congruence|]. rewrite last_last. rewrite rev_unit in Hi. cbn [app] in Hi. congruence. }
    mgo H. unfold mca_was. destruct (me w A_MCA); mfin.
  Qed.
  Lemma ctime_ok line w w' : process_CTIME line w = (w', Ok tt) -> exists wa wb wc a b c,
    words (strip_first_word line) = [wa; wb; wc] /\ py_float wa = Ok a /\ py_float wb = Ok b /\ py_float wc = Ok c /\
    me w' A_MCA = Some (dset (L "elapsed_real_time") (MNum (NF c)) (dset (L "elapsed_live_time") (MNum (NF b)) (dset (L "preset_time") (MNum (NF a)) (mca_was w)))).
  Proof.
    unfold process_CTIME. intros H. apply mbind_ok in H. destruct H as (w1 & v & G & H). apply lift_ok in G. destruct G as [-> G].
    destruct v as [|a [|b [|c [|? ?]]]]; try (apply raise_ok in H; destruct H). apply mapM_F2 in G.
    assert (G' : Forall2 (fun w z => py_float w = Ok z) (words (strip_first_word line)) [a; b; c]) by exact G.
    destruct (words (strip_first_word line)) as [|wa [|wb [|wc rest]]]; inversion G' as [|? ? ? ? K1 G2]; subst; inversion G2 as [|? ? ? ? K2 G3]; subst; inversion G3 as [|? ? ? ? K3 G4]; subst. inversion G4; subst.
    exists wa, wb, wc, a, b, c. split; [reflexivity|]. split; [auto|]. split; [auto|]. split; [auto|]. mgo H.
    unfold mca_was. destruct (me w A_MCA); mfin.
  Qed.
  (** the text of a region *)
  Definition roi_parse (line : str) : option (str * (Z * Z)) :=
    let text := strip_first_word line in
    let pos := pos_of (rfind_c SP text) in
    match py_int (slice_from pos text) with
    | Ok z =>
        let text := slice_to pos text in
        let pos := pos_of (rfind_c SP text) in
        match py_int (slice_from pos text) with
        | Ok f => Some (strip (slice_to pos text), (f, z))
        | _ => None
        end
    | _ => None
    end.
  Lemma roi_ok line w w' : process_ROI line w = (w', Ok tt) -> exists nm fz, roi_parse line = Some (nm, fz) /\
    me w' A_MCA = Some (dset (L "ROI") (MRoi (dset nm fz (match mca_get (L "ROI") w with Some (MRoi d) => d | _ => [] end))) (mca_was w)).
  Proof.
    unfold process_ROI, roi_parse. cbv zeta. intros H. apply mbind_ok in H. destruct H as (w1 & z & G & H). apply lift_ok in G. destruct G as [-> G]. rewrite G.
    apply mbind_ok in H. destruct H as (w1 & f & G2 & H). apply lift_ok in G2. destruct G2 as [-> G2]. rewrite G2.
    eexists. eexists. split; [reflexivity|]. mgo H. rewrite mca_get_was. unfold mca_was. destruct (me w A_MCA); mfin.
  Qed.

  Definition owner (k : str) : option hid :=
    if seqb k (L "CALIB") then Some H_CALIB else if seqb k (L "ROI") then Some H_ROI else
    if seqb k (L "number_saved") || seqb k (L "first_saved") || seqb k (L "last_saved") || seqb k (L "reduction_coef") then Some H_CHANN else
    if seqb k (L "preset_time") || seqb k (L "elapsed_live_time") || seqb k (L "elapsed_real_time") then Some H_CTIME else None.
  Lemma owner_other k k' h h' : owner k = Some h -> owner k' = Some h' -> h <> h' -> k <> k'.
  Proof. congruence. Qed.
  Lemma mca_keep k h h' line w w' : owner k = Some h -> h' <> h -> process E h' line w = (w', Ok tt) -> mca_get k w' = mca_get k w.
  Proof.
    intros Ho Hn H. destruct (hid_eq_dec h' H_CALIB) as [->|N1]; [|destruct (hid_eq_dec h' H_CHANN) as [->|N2]; [|destruct (hid_eq_dec h' H_CTIME) as [->|N3]; [|destruct (hid_eq_dec h' H_ROI) as [->|N4]; [|eapply mca_frame; eauto]]]].
    - apply calib_ok in H. destruct H as (? & ? & ? & ? & ? & ? & ? & _ & _ & _ & _ & H). rewrite (mca_get_is _ _ _ H), dget_dset_other, mca_get_was; auto.
      eapply owner_other; eauto; reflexivity.
    - apply chann_ok in H. destruct H as (? & ? & ? & ? & ? & ? & ? & ? & _ & _ & _ & _ & _ & H). rewrite (mca_get_is _ _ _ H), !dget_dset_other, mca_get_was; auto; eapply owner_other; eauto; reflexivity.
    - apply ctime_ok in H. destruct H as (? & ? & ? & ? & ? & ? & _ & _ & _ & _ & H). rewrite (mca_get_is _ _ _ H), !dget_dset_other, mca_get_was; auto; eapply owner_other; eauto; reflexivity.
    - apply roi_ok in H. destruct H as (? & ? & _ & H). rewrite (mca_get_is _ _ _ H), dget_dset_other, mca_get_was; auto. eapply owner_other; eauto; reflexivity.
  Qed.

  (** the finished scan *)
  Lemma det_ran s sc s' sc' w0 w1 w : ran E known s sc s' sc' w0 w1 w ->
    (forall k, mca_get k w0 = None) /\ forall k v, detector sc' k v <-> mca_get (L k) w1 = Some v.
  Proof.
    intros R. destruct (ran_w0 _ _ _ _ _ _ _ _ _ R) as (_ & Hm & _). split.
    - intros k. apply mca_none. rewrite Hm. refine (untouched_none _ _ A_MCA (ran_fresh _ _ _ _ _ _ _ _ _ R) _ _); [cbn; intros Q; decompose [or] Q; try discriminate; auto|reflexivity].
    - intros k v. unfold detector, attr_is, mca_get. rewrite (ran_obj _ _ _ _ _ _ _ _ _ R).
      rewrite (posts_keep E A_MCA w1 w (Ok tt) ltac:(intros p; destruct p; cbn; intros Q; decompose [or] Q; try discriminate; auto) (ran_posts _ _ _ _ _ _ _ _ _ R)).
      destruct (me w1 A_MCA) as [m|]; split.
      + intros (m' & Q & H). apply Some_inj in Q. rewrite Q. exact H.
      + intros H. exists m. auto.
      + intros (m' & Q & _). discriminate Q.
      + discriminate.
  Qed.

  Definition calib_like (o : option mcaval) : Prop := o = None \/ exists a b c, o = Some (MCalib [(L "a", a); (L "b", b); (L "c", c)]).
  Lemma calib_step (o : option mcaval) a b c : calib_like o -> dset (L "c") c (dset (L "b") b (dset (L "a") a (match o with Some (MCalib d) => d | _ => [] end))) = [(L "a", a); (L "b", b); (L "c", c)].
  Proof. intros [->|(a' & b' & c' & ->)]; reflexivity. Qed.
  Lemma C86_calib_lemma s name sc s' sc' ls : first_interpret E known s name sc s' sc' -> lines_of (s_raw sc) ls ->
    (Forall (fun l => ~ control H_CALIB l) ls /\ no_detector sc' "CALIB") \/
    exists l t wa wb wc rest a b c, last_line_of H_CALIB ls l /\ content l t /\ fields t (wa :: wb :: wc :: rest) /\
      py_float wa = Ok a /\ py_float wb = Ok b /\ py_float wc = Ok c /\
      detector sc' "CALIB" (MCalib [(L "a", NF a); (L "b", NF b); (L "c", NF c)]).
  Proof.
    intros Hf Hl. apply lines_of_scan_lines in Hl. subst ls. destruct (first_interpret_ran _ _ _ _ _ _ _ Hf) as (w0 & w1 & w & R).
    destruct (det_ran _ _ _ _ _ _ _ R) as [D0 D1].
    destruct (last_seen E known Hk (mca_get (L "CALIB")) (fun w => calib_like (mca_get (L "CALIB") w)) H_CALIB s sc s' sc' w0 w1 w ltac:(discriminate) ltac:(discriminate)) with (4 := R) as [[H1 H2]|(l & u & u' & H1 & H2 & H3 & H4)].
    - intros h' line v v' Hn Hp. eapply mca_keep; [|exact Hn|exact Hp]. reflexivity.
    - intros h' line v v' Hv Hp. destruct (hid_eq_dec h' H_CALIB) as [->|Hn]; [|rewrite (mca_keep (L "CALIB") H_CALIB _ _ _ _ eq_refl Hn Hp); exact Hv].
      apply calib_ok in Hp. destruct Hp as (? & ? & ? & ? & a & b & c & _ & _ & _ & _ & Hp). right. exists (NF a), (NF b), (NF c). rewrite (mca_get_is _ _ _ Hp), dget_dset_same, calib_step; auto.
    - left. apply D0.
    - left. split; auto. intros v Hv. apply D1 in Hv. rewrite H2, D0 in Hv. discriminate.
    - right. cbn [process] in H3. apply calib_ok in H3. destruct H3 as (wa & wb & wc & rest & a & b & c & K1 & K2 & K3 & K4 & K5).
      exists l, (strip_first_word l), wa, wb, wc, rest, a, b, c. split; auto. split; [eapply last_content; eauto|]. split; [apply fields_words; auto|].
      split; auto. split; auto. split; auto. apply D1. rewrite H4, (mca_get_is _ _ _ K5), dget_dset_same, calib_step; auto.
  Qed.
  Definition TrueI (w : world) : Prop := True.
  Lemma C86_chann_lemma s name sc s' sc' ls : first_interpret E known s name sc s' sc' -> lines_of (s_raw sc) ls ->
    (Forall (fun l => ~ control H_CHANN l) ls /\ no_detector sc' "number_saved" /\ no_detector sc' "first_saved" /\ no_detector sc' "last_saved" /\ no_detector sc' "reduction_coef") \/
    exists l t wa wb wc rest a b c r, last_line_of H_CHANN ls l /\ content l t /\ fields t (wa :: wb :: wc :: rest) /\
      py_int wa = Ok a /\ py_int wb = Ok b /\ py_int wc = Ok c /\ py_float (last rest wc) = Ok r /\
      detector sc' "number_saved" (MNum (NI a)) /\ detector sc' "first_saved" (MNum (NI b)) /\ detector sc' "last_saved" (MNum (NI c)) /\ detector sc' "reduction_coef" (MNum (NF r)).
  Proof.
    intros Hf Hl. apply lines_of_scan_lines in Hl. subst ls. destruct (first_interpret_ran _ _ _ _ _ _ _ Hf) as (w0 & w1 & w & R).
    destruct (det_ran _ _ _ _ _ _ _ R) as [D0 D1].
    destruct (last_seen E known Hk (fun w => (mca_get (L "number_saved") w, mca_get (L "first_saved") w, mca_get (L "last_saved") w, mca_get (L "reduction_coef") w)) TrueI H_CHANN s sc s' sc' w0 w1 w ltac:(discriminate) ltac:(discriminate)) with (4 := R) as [[H1 H2]|(l & u & u' & H1 & H2 & H3 & H4)]; try exact I.
    - intros h' line v v' Hn Hp. rewrite !(mca_keep _ H_CHANN h' line v v') by (first [exact Hn|exact Hp|reflexivity]). reflexivity.
    - intros; exact I.
    - left. rewrite !D0 in H2. injection H2 as E1 E2 E3 E4. split; auto. repeat split; intros v Hv; apply D1 in Hv; congruence.
    - right. cbn [process] in H3. apply chann_ok in H3. destruct H3 as (wa & wb & wc & rest & a & b & c & r & K1 & K2 & K3 & K4 & K5 & K6).
      exists l, (strip_first_word l), wa, wb, wc, rest, a, b, c, r. split; auto. split; [eapply last_content; eauto|]. split; [apply fields_words; auto|].
      split; auto. split; auto. split; auto. split; auto. injection H4 as E1 E2 E3 E4.
      split; [|split; [|split]]; apply D1; [rewrite E1|rewrite E2|rewrite E3|rewrite E4]; rewrite (mca_get_is _ _ _ K6);
        repeat first [apply dget_dset_same|rewrite dget_dset_other by (apply seqb_neq; reflexivity)].
  Qed.
  Lemma C86_ctime_lemma s name sc s' sc' ls : first_interpret E known s name sc s' sc' -> lines_of (s_raw sc) ls ->
    (Forall (fun l => ~ control H_CTIME l) ls /\ no_detector sc' "preset_time" /\ no_detector sc' "elapsed_live_time" /\ no_detector sc' "elapsed_real_time") \/
    exists l t wa wb wc a b c, last_line_of H_CTIME ls l /\ content l t /\ fields t [wa; wb; wc] /\
      py_float wa = Ok a /\ py_float wb = Ok b /\ py_float wc = Ok c /\
      detector sc' "preset_time" (MNum (NF a)) /\ detector sc' "elapsed_live_time" (MNum (NF b)) /\ detector sc' "elapsed_real_time" (MNum (NF c)).
  Proof.
    intros Hf Hl. apply lines_of_scan_lines in Hl. subst ls. destruct (first_interpret_ran _ _ _ _ _ _ _ Hf) as (w0 & w1 & w & R).
    destruct (det_ran _ _ _ _ _ _ _ R) as [D0 D1].
    destruct (last_seen E known Hk (fun w => (mca_get (L "preset_time") w, mca_get (L "elapsed_live_time") w, mca_get (L "elapsed_real_time") w)) TrueI H_CTIME s sc s' sc' w0 w1 w ltac:(discriminate) ltac:(discriminate)) with (4 := R) as [[H1 H2]|(l & u & u' & H1 & H2 & H3 & H4)]; try exact I.
    - intros h' line v v' Hn Hp. rewrite !(mca_keep _ H_CTIME h' line v v') by (first [exact Hn|exact Hp|reflexivity]). reflexivity.
    - intros; exact I.
    - left. rewrite !D0 in H2. injection H2 as E1 E2 E3. split; auto. repeat split; intros v Hv; apply D1 in Hv; congruence.
    - right. cbn [process] in H3. apply ctime_ok in H3. destruct H3 as (wa & wb & wc & a & b & c & K1 & K2 & K3 & K4 & K6).
      exists l, (strip_first_word l), wa, wb, wc, a, b, c. split; auto. split; [eapply last_content; eauto|]. split; [apply fields_words; auto|].
      split; auto. split; auto. split; auto. injection H4 as E1 E2 E3.
      split; [|split]; apply D1; [rewrite E1|rewrite E2|rewrite E3]; rewrite (mca_get_is _ _ _ K6);
        repeat first [apply dget_dset_same|rewrite dget_dset_other by (apply seqb_neq; reflexivity)].
  Qed.

  (** regions *)
  Lemma py_int_sp a : py_int (SP :: a) = py_int a.
  Proof. unfold py_int. replace (strip_by num_space (SP :: a)) with (strip_by num_space a); [reflexivity|]. unfold strip_by. cbn [lstrip_by]. reflexivity. Qed.
  Lemma rfind_at a b : ~ In SP b -> rfind_c SP (a ++ SP :: b) = Some (List.length a).
  Proof.
    intros Hb. assert (N : rfind_c SP b = None).
    { destruct (rfind_c SP b) as [n|] eqn:E1; auto. apply rfind_some in E1. destruct E1 as (x & y & -> & _). exfalso. apply Hb. apply in_elt. }
    induction a as [|c a IH]; cbn [app rfind_c]; [rewrite N; reflexivity|rewrite IH; reflexivity].
  Qed.
  Lemma roi_text n a b : ~ In SP a -> ~ In SP b -> forall line, strip_first_word line = n ++ SP :: a ++ SP :: b ->
    roi_parse line = match py_int b with Ok z => match py_int a with Ok f => Some (strip n, (f, z)) | _ => None end | _ => None end.
  Proof.
    intros Ha Hb line El. unfold roi_parse. cbv zeta. rewrite El.
    replace (n ++ SP :: a ++ SP :: b) with ((n ++ SP :: a) ++ SP :: b) by (rewrite <- app_assoc; reflexivity).
    rewrite (rfind_at (n ++ SP :: a) b Hb). cbn [pos_of]. rewrite slice_to_nat, slice_from_nat, firstn_app, skipn_app, Nat.sub_diag, firstn_all, skipn_all. cbn [firstn skipn app]. rewrite app_nil_r, py_int_sp.
    rewrite (rfind_at n a Ha). cbn [pos_of]. rewrite slice_to_nat, slice_from_nat, firstn_app, skipn_app, Nat.sub_diag, firstn_all, skipn_all. cbn [firstn skipn app]. rewrite app_nil_r, py_int_sp. reflexivity.
  Qed.
  Lemma last_two t : (exists x y z, t = x ++ SP :: y ++ SP :: z) -> exists n a b, t = n ++ SP :: a ++ SP :: b /\ ~ In SP a /\ ~ In SP b.
  Proof.
    intros (x & y & z & ->). destruct (rfind_c SP (x ++ SP :: y ++ SP :: z)) as [n|] eqn:E1.
    - apply rfind_some in E1. destruct E1 as (u & b & E1 & _ & Hb). assert (Hu : In SP u).
      { destruct (in_dec N.eq_dec SP u) as [H|H]; auto. exfalso. apply (f_equal (count_occ N.eq_dec)) in E1. apply (f_equal (fun f => f SP)) in E1.
        rewrite !count_occ_app in E1. cbn [count_occ] in E1. destruct (N.eq_dec SP SP); [|congruence]. rewrite !count_occ_app in E1. cbn [count_occ] in E1. destruct (N.eq_dec SP SP); [|congruence].
        apply (count_occ_not_In N.eq_dec) in H. apply (count_occ_not_In N.eq_dec) in Hb. lia. }
      destruct (rfind_c SP u) as [m|] eqn:E2; [|apply rfind_none in E2; congruence]. apply rfind_some in E2. destruct E2 as (n' & a & E2 & _ & Ha).
      exists n', a, b. rewrite E1, E2, <- app_assoc. auto.
    - apply rfind_none in E1. exfalso. apply E1. apply in_elt.
  Qed.
  Lemma roi_line_iff l nm f z : control H_ROI l -> two_blanks l -> (roi_line l nm f z <-> roi_parse l = Some (nm, (f, z))).
  Proof.
    intros Hc (x & y & v & Ht). apply content_strip in Ht; [|eapply control_SP; eauto]. split.
    - intros (n & a & b & H1 & H2 & H3 & H4 & H5 & H6). apply content_strip in H1; [|eapply control_SP; eauto]. rewrite (roi_text n a b H2 H3 l (eq_sym H1)), H5, H6. apply trimmed_strip in H4. rewrite H4. reflexivity.
    - intros H. destruct (last_two (strip_first_word l)) as (n & a & b & El & Ha & Hb); [exists x, y, v; auto|]. rewrite (roi_text n a b Ha Hb l El) in H.
      destruct (py_int b) as [z'|] eqn:Eb; [|discriminate]. destruct (py_int a) as [f'|] eqn:Ea; [|discriminate]. injection H as <- <- <-.
      exists n, a, b. split; [apply content_strip; [eapply control_SP; eauto|auto]|]. split; auto. split; auto. split; [apply trimmed_strip; reflexivity|auto].
  Qed.
  Definition roi_view (w : world) : option (dict (Z * Z)) := match mca_get (L "ROI") w with Some (MRoi d) => Some d | _ => None end.
  Definition roi_like (w : world) : Prop := mca_get (L "ROI") w = option_map MRoi (roi_view w).
  Lemma C87_lemma s name sc s' sc' ls : first_interpret E known s name sc s' sc' -> lines_of (s_raw sc) ls ->
    Forall (fun l => control H_ROI l -> two_blanks l) ls ->
    exists rs o, Keeps (control H_ROI) ls rs /\ Forall (fun l => exists nm f z, roi_line l nm f z) rs /\ (forall v, detector sc' "ROI" v <-> exists d, o = Some d /\ v = MRoi d) /\
      from_lines o rs (fun l k => exists f z, roi_line l k f z) (fun l v => exists k, roi_line l k (fst v) (snd v)).
  Proof.
    intros Hf Hl Hb. apply lines_of_scan_lines in Hl. subst ls. destruct (first_interpret_ran _ _ _ _ _ _ _ Hf) as (w0 & w1 & w & R).
    destruct (det_ran _ _ _ _ _ _ _ R) as [D0 D1].
    pose proof (keeps_control known Hk H_ROI (s_raw sc) ltac:(discriminate) ltac:(discriminate)) as K.
    set (rs := lines_h known (only H_ROI) (Handlers.scan_lines (s_raw sc))) in *. destruct (Keeps_incl _ _ _ K) as [Ki Kc]. rewrite Forall_forall in Kc, Hb.
    destruct (dict_view E known Hk roi_view (fun l => match roi_parse l with Some (n, _) => n | None => [] end) (fun l => match roi_parse l with Some (_, v) => v | None => (0, 0)%Z end)
      (fun l => roi_parse l <> None) H_ROI (Handlers.scan_lines (s_raw sc))) with (w := w0) (w' := w1) as [Hg Hv].
    - intros line v v' Hp. cbn [process] in Hp. apply roi_ok in Hp. destruct Hp as (nm & fz & Hp1 & Hp2). rewrite Hp1. split; [discriminate|].
      unfold roi_view at 1. rewrite (mca_get_is _ _ _ Hp2), dget_dset_same. unfold roi_view, orn. destruct (mca_get (L "ROI") v) as [[| |]|]; reflexivity.
    - intros h' line v v' Hn Hp. unfold roi_view. rewrite (mca_keep (L "ROI") H_ROI h' line v v' eq_refl Hn Hp). reflexivity.
    - unfold roi_view. rewrite D0. reflexivity.
    - exact (ran_lines _ _ _ _ _ _ _ _ _ R).
    - fold rs in Hg, Hv. rewrite Forall_forall in Hg. exists rs, (roi_view w1). split; [exact K|].
      assert (T : forall l, In l rs -> two_blanks l) by (intros l Hl; apply Hb; auto). split; [|split].
      + apply Forall_forall. intros l Hl. destruct (roi_parse l) as [[nm [f z]]|] eqn:Ep; [|exfalso; apply (Hg l Hl); exact Ep]. exists nm, f, z. apply roi_line_iff; auto.
      + intros v. rewrite D1. assert (Hlike : roi_like w1).
        { destruct (last_seen E known Hk (fun w => mca_get (L "ROI") w) TrueI H_ROI s sc s' sc' w0 w1 w ltac:(discriminate) ltac:(discriminate)) with (4 := R) as [[H1 H2]|(l & u & u' & H1 & H2 & H3 & H4)]; try exact I.
          - intros h' line v0 v' Hn Hp. exact (mca_keep (L "ROI") H_ROI h' line v0 v' eq_refl Hn Hp).
          - intros; exact I.
          - unfold roi_like, roi_view. rewrite H2, D0. reflexivity.
          - cbn [process] in H3. apply roi_ok in H3. destruct H3 as (nm & fz & _ & H3). unfold roi_like, roi_view. rewrite H4, (mca_get_is _ _ _ H3), dget_dset_same. reflexivity. }
        rewrite Hlike. destruct (roi_view w1) as [d|]; cbn [option_map]; split.
        * intros Q. exists d. split; congruence.
        * intros (d' & Q1 & Q2). congruence.
        * discriminate.
        * intros (d' & Q1 & Q2). discriminate.
      + eapply from_fold; [exact Hv| |]; cbv beta.
        * intros l k Hl. destruct (roi_parse l) as [[nm [f z]]|] eqn:Ep; [|exfalso; apply (Hg l Hl); exact Ep]. split.
          -- intros (f' & z' & Q). apply roi_line_iff in Q; auto. congruence.
          -- intros <-. exists f, z. apply roi_line_iff; auto.
        * intros l [f' z'] Hl. destruct (roi_parse l) as [[nm [f z]]|] eqn:Ep; [|exfalso; apply (Hg l Hl); exact Ep]. cbn [fst snd]. split.
          -- intros (k & Q). apply roi_line_iff in Q; auto. congruence.
          -- intros Q. injection Q as -> ->. exists nm. apply roi_line_iff; auto.
  Qed.
End Detector.
