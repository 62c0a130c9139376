(** C30: UNICAT metadata, #H and #V lines. *)
From Coq Require Import String Lia Sorted.
From Verif Require Import Uni Py PyFacts NumFacts Keys Handlers Reader SpecText SpecUtils SpecReader SpecNum SpecHistory SpecKeys SpecInterp SpecData SpecTables
  TextFacts UtilsFacts KeyFacts ReaderFacts2 ReaderFacts4 ReaderFacts5 DispatchFacts FrameFacts StateFacts InterpFacts MonadFacts HandlerFacts PostFacts DataFacts DataFacts2 LastFacts TablesFacts.
Import ListNotations.
Local Open Scope list_scope.

(** ** cutting texts *)
Lemma cut_blanks t : cut_at_blanks t (split_c SP t).
Proof.
  split; [apply split_c_ne|]. split; [|apply split_c_Forall]. induction t as [|c t IH]; [reflexivity|]. cbn [split_c].
  pose proof (split_c_ne SP t) as Hn. destruct (split_c SP t) as [|p ps]; [congruence|]. destruct (c =? SP)%N eqn:Ec.
  - apply N.eqb_eq in Ec. subst c. rewrite IH. cbn [join]. reflexivity.
  - rewrite IH. cbn [cons_hd join]. destruct ps; reflexivity.
Qed.
Lemma cut_double t : cut_at_double_blanks t (split_sub [SP; SP] t).
Proof.
  unfold split_sub. remember (List.length t) as n. assert (Hn : List.length t <= n) by lia. clear Heqn. revert t Hn.
  induction n as [|n IH]; intros t Hn.
  - destruct t; [|simpl in Hn; lia]. cbn. apply Cut_last. intros a b Q. destruct a; discriminate.
  - destruct t as [|c t]; [cbn; apply Cut_last; intros a b Q; destruct a; discriminate|]. cbn [split_sub_aux].
    destruct (prefixb [SP; SP] (c :: t)) eqn:P.
    + apply prefixb_spec in P. destruct P as (u & P). change ([SP; SP] ++ u) with (SP :: SP :: u) in P. injection P as -> ->. cbn [List.length Nat.sub split_sub_aux].
      apply (Cut_more []); [intros a b Q; destruct a; discriminate|intros q Q; destruct q; discriminate|]. apply IH. simpl in Hn; lia.
    + assert (Hc : cut_at_double_blanks t (split_sub_aux [SP; SP] 0 t)) by (apply IH; simpl in Hn; lia).
      assert (Hp : forall u, c :: t <> SP :: SP :: u).
      { intros u Q. rewrite <- not_true_iff_false in P. apply P. apply prefixb_spec. exists u. exact Q. }
      assert (ND : forall p tl, t = p ++ tl -> no_double_blank p -> no_double_blank (c :: p)).
      { intros p tl Et Hd [|a0 a] b Q; injection Q as -> Q; [|apply (Hd _ _ Q)]. apply (Hp (b ++ tl)). rewrite Et, Q. reflexivity. }
      inversion Hc as [p Hd Q1 Q2|p u ps Hd He Hr Q1 Q2].
      * cbn [cons_hd]. apply Cut_last. apply (ND t []); [rewrite app_nil_r|]; auto.
      * cbn [cons_hd]. change (c :: p ++ SP :: SP :: u) with ((c :: p) ++ SP :: SP :: u). apply Cut_more; [| |exact Hr].
        -- apply (ND p (SP :: SP :: u)); auto.
        -- intros [|q0 q] Q; injection Q as Qa Qb; [|eapply He; eauto]. subst p. apply (Hp (SP :: u)). rewrite <- Q1, Qa. reflexivity.
Qed.
Lemma value_row_ok labels t : value_row labels t (if (List.length labels =? List.length (split_sub [SP; SP] t))%nat then split_sub [SP; SP] t else split_c SP t).
Proof.
  exists (split_sub [SP; SP] t). split; [apply cut_double|]. destruct (List.length labels =? _)%nat eqn:Eq.
  - apply Nat.eqb_eq in Eq. left; auto.
  - apply Nat.eqb_neq in Eq. right. split; [congruence|apply cut_blanks].
Qed.

(** ** unicat_row *)
Definition meta_of (w : str) : mdval := match py_float w with Ok f => MdF f | Raise _ => MdS w end.
Lemma meta_of_spec w v : meta_value w v <-> v = meta_of w.
Proof.
  unfold meta_value, meta_of, number. destruct (py_float w) as [f|e]; split.
  - intros [(f' & Q & ->)|[Q _]]; [congruence|exfalso; eapply Q; reflexivity].
  - intros ->. left; eauto.
  - intros [(f' & Q & ->)|[_ ->]]; [discriminate|reflexivity].
  - intros ->. right. split; [discriminate|reflexivity].
Qed.
Lemma unicat_cells labels r : forall row c w w' m, iterM (unicat_cell labels) (combine (seq c (List.length row)) row) w = (w', Ok tt) -> me w A_metadata = Some m ->
  is_scan w' = is_scan w /\ peer w' = peer w /\
  me w' A_metadata = Some (fold_left (fun d x => dset (snd (snd x)) (meta_of (fst (snd x))) d) (cell_row labels r c row) m) /\
  forall i d, nth_error row i = Some d -> exists t, nth_error labels (c + i) = Some t.
Proof.
  induction row as [|x row IH]; intros c w w' m H Hm.
  - inversion H; subst. cbn. repeat split; auto. intros [|i] d Q; discriminate.
  - cbn [List.length seq combine] in H. apply iter_bind in H. destruct H as (w1 & Ha & Hb). cbn [cell_row].
    unfold unicat_cell in Ha. cbn [fst snd] in Ha. destruct (nth_error labels c) as [label|] eqn:En; [|destruct (raise_ok _ _ _ _ Ha)].
    cbv zeta in Ha. apply mbind_ok in Ha. destruct Ha as (w2 & m0 & A1 & A2). apply getA_ok in A1. destruct A1 as [-> A1]. rewrite Hm in A1. apply Some_inj in A1. subst m0.
    apply setA_ok in A2. fold (meta_of x) in A2.
    assert (S1 : me w1 A_metadata = Some (dset label (meta_of x) m)) by (subst w1; cbn [me]; apply upd_same).
    destruct (IH _ _ _ _ Hb S1) as (I1 & I2 & I3 & I4). split; [rewrite I1; subst w1; reflexivity|]. split; [rewrite I2; subst w1; reflexivity|].
    cbn [app fold_left snd fst]. split; [exact I3|]. intros [|i] d Q; [rewrite Nat.add_0_r; eauto|]. rewrite Nat.add_succ_r. eapply (I4 i); eauto.
Qed.
Lemma unicat_rows H : forall V r w w' m hd, iterM unicat_row (combine (seq r (List.length V)) V) w = (w', Ok tt) -> me w A_metadata = Some m ->
  peer w = Some hd -> hd A_H = Some H ->
  me w' A_metadata = Some (fold_left (fun d x => dset (snd (snd x)) (meta_of (fst (snd x))) d) (cells H r V) m) /\
  forall i c d, at_cell V i c d -> exists t, at_cell H (r + i) c t.
Proof.
  induction V as [|row V IH]; intros r w w' m hd Hi Hm Hp HH.
  - inversion Hi; subst. cbn. split; auto. intros [|i] c d (row & Q & _); discriminate.
  - cbn [List.length seq combine] in Hi. apply iter_bind in Hi. destruct Hi as (w1 & Ha & Hb). cbn [cells].
    unfold unicat_row in Ha. cbn [fst snd] in Ha. apply mbind_ok in Ha. destruct Ha as (w2 & o & A1 & A2). apply getP_ok in A1.
    destruct A1 as (-> & A1 & p & A3 & A4). rewrite Hp in A3. injection A3 as <-. rewrite HH in A4. apply Some_inj in A4. subst o.
    destruct (nth_error H r) as [labels|] eqn:En; [|destruct (raise_ok _ _ _ _ A2)].
    destruct (unicat_cells labels r _ _ _ _ _ A2 Hm) as (B1 & B2 & B3 & B4).
    destruct (IH _ _ _ _ hd Hb B3 ltac:(congruence) HH) as (I3 & I4). rewrite fold_left_app. split; [exact I3|].
    intros [|i] c d (row' & Q1 & Q2).
    + cbn in Q1. injection Q1 as <-. destruct (B4 _ _ Q2) as (t & Q3). exists t. rewrite Nat.add_0_r. exists labels. auto.
    + rewrite Nat.add_succ_r. apply (I4 i c d). exists row'. auto.
Qed.

(** ** invariants over lines *)
Section Inv.
  Context (E : env) (step : str -> M unit) (ef : str -> option hid)
    (Hstep : forall l w w', step l w = (w', Ok tt) -> match ef l with None => w' = w | Some h => process E h l w = (w', Ok tt) end).
  Definition chosen (hs : hid -> bool) (l : str) : bool := match ef l with Some h => hs h | None => false end.
  Lemma iter_inv' (hs : hid -> bool) (Inv : list str -> world -> Prop) :
    (forall h line w w' done, ef line = Some h -> hs h = true -> Inv done w -> process E h line w = (w', Ok tt) -> Inv (done ++ [line]) w') ->
    (forall h line w w' done, ef line = Some h -> hs h = false -> Inv done w -> process E h line w = (w', Ok tt) -> Inv done w') ->
    forall lines w w' done, iterM step lines w = (w', Ok tt) -> Inv done w -> Inv (done ++ List.filter (chosen hs) lines) w'.
  Proof.
    intros H1 H2. induction lines as [|l lines IH]; intros w w' done H Hi.
    - inversion H; subst. cbn. rewrite app_nil_r. exact Hi.
    - apply iter_bind in H. destruct H as (w1 & Ha & Hb). apply Hstep in Ha. cbn [List.filter]. unfold chosen at 1. destruct (ef l) as [h|] eqn:El.
      + destruct (hs h) eqn:Eh.
        * change (done ++ l :: ?x) with (done ++ [l] ++ x). rewrite app_assoc. eapply IH; [exact Hb|]. eapply H1; eauto.
        * eapply IH; [exact Hb|]. eapply H2; eauto.
      + subst w1. eapply IH; eauto.
  Qed.
  Lemma iter_inv (hs : hid -> bool) (Inv : list str -> world -> Prop) :
    (forall h line w w' done, hs h = true -> Inv done w -> process E h line w = (w', Ok tt) -> Inv (done ++ [line]) w') ->
    (forall h line w w' done, hs h = false -> Inv done w -> process E h line w = (w', Ok tt) -> Inv done w') ->
    forall lines w w' done, iterM step lines w = (w', Ok tt) -> Inv done w -> Inv (done ++ List.filter (chosen hs) lines) w'.
  Proof. intros H1 H2. apply iter_inv'; intros h line w w' done _; [apply H1|apply H2]. Qed.
End Inv.

Section Meta.
  Context (E : env) (known : list hid) (Hk : incl all_hids known).
  Lemma scan_step l w w' : scan_line E known l w = (w', Ok tt) -> match eff known l with None => w' = w | Some h => process E h l w = (w', Ok tt) end.
  Proof. rewrite (scan_line_eff E known Hk). destruct (eff known l); [auto|]. intros Q; inversion Q; auto. Qed.
  (** attributes no line sets *)
  Lemma not_set (a : attr) lines w w' : (forall h, ~ In a (sets h)) -> iterM (scan_line E known) lines w = (w', Ok tt) -> me w' a = me w a.
  Proof.
    intros Ha H. refine (iter_inv E (scan_line E known) (eff known) scan_step (fun _ => false) (fun _ w' => me w' a = me w a) _ _ lines w w' [] H eq_refl).
    - discriminate.
    - intros h line u u' _ _ Hu Hp. pose proof (frame_process E h line u) as (_ & [F _] & _). rewrite Hp in F. cbn [fst] in F. rewrite F; auto.
  Qed.
  Lemma initial (a : attr) s sc s' sc' w0 w1 w : ran E known s sc s' sc' w0 w1 w -> (forall h, ~ In a (sets h)) -> ~ In a D3 -> me w1 a = scan_init (fileName s) a.
  Proof.
    intros R H1 H2. rewrite (not_set a _ _ _ H1 (ran_lines _ _ _ _ _ _ _ _ _ R)). destruct (ran_w0 _ _ _ _ _ _ _ _ _ R) as (_ & -> & _).
    destruct (ran_fresh _ _ _ _ _ _ _ _ _ R) as [U _]. apply U; auto.
  Qed.

  (** the rows of #V lines *)
  Definition v_row (labels : list str) (line : str) : list str :=
    let t := Utils.strip_first_word line in if (List.length labels =? List.length (split_sub [SP; SP] t))%nat then split_sub [SP; SP] t else split_c SP t.
  Definition v_inv (H : list (list str)) (done : list str) (w : world) : Prop :=
    is_scan w = true /\ (exists p, peer w = Some p /\ p A_H = Some H) /\
    exists V, me w A_V = Some V /\ List.length V = List.length done /\
      forall r l, nth_error done r = Some l -> exists labels, nth_error H r = Some labels /\ nth_error V r = Some (v_row labels l).
  Lemma v_step H line w w' done : v_inv H done w -> process E H_V line w = (w', Ok tt) -> v_inv H (done ++ [line]) w'.
  Proof.
    intros (I1 & (p & I2 & I3) & V & I4 & I5 & I6) Hp. cbn [process] in Hp. unfold process_V in Hp.
    apply mbind_ok in Hp. destruct Hp as (wa & V' & A1 & A2). apply getA_ok in A1. destruct A1 as [-> A1]. rewrite I4 in A1. apply Some_inj in A1. subst V'.
    cbv zeta in A2. apply mbind_ok in A2. destruct A2 as (wa & H' & A1 & A2). apply getP_ok in A1. destruct A1 as (-> & _ & p' & B1 & B2).
    rewrite I2 in B1. injection B1 as <-. rewrite I3 in B2. apply Some_inj in B2. subst H'.
    apply mbind_ok in A2. destruct A2 as (wa & hr & A1 & A2). apply lift_ok in A1. destruct A1 as [-> A1].
    apply mbind_ok in A2. destruct A2 as (wb & [] & A3 & A4). apply setA_ok in A3. apply addPost_ok in A4. destruct A4 as (C1 & C2 & C3 & _).
    assert (EV : me w' A_V = Some (V ++ [v_row hr line])) by (rewrite C3 by discriminate; subst wb; cbn [me]; apply upd_same).
    split; [rewrite C1; subst wb; exact I1|]. split; [exists p; split; [rewrite C2; subst wb; exact I2|exact I3]|].
    exists (V ++ [v_row hr line]). split; [exact EV|]. split; [rewrite !app_length; cbn; lia|]. intros r l Hr.
    destruct (Nat.lt_ge_cases r (List.length done)) as [Hlt|Hge].
    - rewrite nth_error_app1 in Hr by auto. destruct (I6 _ _ Hr) as (labels & G1 & G2). exists labels. split; auto. rewrite nth_error_app1; auto. lia.
    - rewrite nth_error_app2 in Hr by auto. destruct (r - List.length done) as [|k] eqn:Ek; [|destruct k; discriminate Hr]. cbn in Hr. injection Hr as <-.
      assert (Er : r = List.length V) by lia. subst r. exists hr. split.
      + unfold len in A1. rewrite index_nat in A1. destruct (nth_error H (List.length V)); cbn [of_opt] in A1; [congruence|discriminate].
      + rewrite nth_error_app2 by lia. rewrite Nat.sub_diag. reflexivity.
  Qed.
  Lemma peer_H h line w w' H : h <> H_V -> process E h line w = (w', Ok tt) -> forall done, v_inv H done w -> v_inv H done w'.
  Proof.
    intros Hh Hp done (I1 & (p & I2 & I3) & V & I4 & I5 & I6). pose proof (frame_process E h line w) as (F1 & [F2 _] & F3). rewrite Hp in F1, F2, F3. cbn [fst] in *.
    split; [congruence|]. split.
    - rewrite I2 in F3. cbn [peer_step] in F3. destruct (peer w') as [p'|]; [|destruct F3]. exists p'. split; auto. destruct F3 as [F3 _]. rewrite F3; auto.
      destruct h; cbn; intros Q; decompose [or] Q; try discriminate; auto.
    - exists V. split; [|split; auto]. rewrite F2; auto. destruct h; cbn; intros Q; try congruence; decompose [or] Q; try discriminate; auto.
  Qed.

  Lemma C30_lemma s name sc s' sc' ls : first_interpret E known s name sc s' sc' -> lines_of (s_raw sc) ls ->
    exists o H cs V, header_is s' sc' o /\ o A_H = Some H /\ Keeps (control H_V) ls cs /\ attr_is sc' A_V V /\ List.length V = List.length cs /\
      (forall r l, nth_error cs r = Some l -> exists labels t row, nth_error H r = Some labels /\ content l t /\ nth_error V r = Some row /\ value_row labels t row) /\
      (forall r c w, at_cell V r c w -> exists k, at_cell H r c k) /\
      ((cs = [] /\ s_obj sc' A_metadata = None) \/
       (cs <> [] /\ exists m, attr_is sc' A_metadata m /\ NoDup (keys m) /\ forall k v, dget k m = Some v <-> exists w, last_pair H V k w /\ meta_value w v)).
  Proof.
    intros Hf Hl. destruct (first_interpret_ran _ _ _ _ _ _ _ Hf) as (w0 & w1 & w & R). destruct (ran_peer _ _ _ _ _ _ _ _ _ R) as (o & Ho & Hp).
    assert (HH : o A_H <> None) by (eapply header_has; [eapply history_read; eauto|eauto|discriminate]).
    destruct (o A_H) as [H|] eqn:EH; [|congruence]. apply lines_of_scan_lines in Hl. subst ls.
    pose proof (keeps_control known Hk H_V (s_raw sc) ltac:(discriminate) ltac:(discriminate)) as K.
    set (cs := lines_h known (only H_V) (scan_lines (s_raw sc))) in *.
    assert (N : Forall (fun l => control H_V l) cs) by (apply (Keeps_incl _ _ _ K)). rewrite Forall_forall in N.
    destruct (ran_w0 _ _ _ _ _ _ _ _ _ R) as (Hw & Hm & hd0 & Hn0 & Hp0).
    assert (Hinit : v_inv H [] w0).
    { split; auto. split.
      - exists (h_obj hd0). split; auto.
        (* H is not changed by the scan *)
        assert (F1 : frame all_sets H3 (iterM (scan_line E known) (scan_lines (s_raw sc)))) by (apply frame_iterM; intros l; apply frame_scan_line; apply sets_all).
        specialize (F1 w0). rewrite (ran_lines _ _ _ _ _ _ _ _ _ R) in F1. cbn [fst] in F1. destruct F1 as (_ & _ & F1).
        pose proof (frame_run_posts E H3 w1) as (_ & _ & F2). rewrite (ran_posts _ _ _ _ _ _ _ _ _ R) in F2. cbn [fst] in F2.
        pose proof (peer_step_trans _ _ _ _ F1 F2) as F. rewrite Hp0, Hp in F. destruct F as [F _]. rewrite <- F; [exact EH|]. cbn. intros Q; decompose [or] Q; try discriminate; auto.
      - exists []. split; [|split; [reflexivity|intros [|r] l Q; discriminate]]. rewrite Hm. destruct (ran_fresh _ _ _ _ _ _ _ _ _ R) as [U _]. rewrite U; [reflexivity|].
        cbn. intros Q; decompose [or] Q; try discriminate; auto. }
    pose proof (iter_inv E (scan_line E known) (eff known) scan_step (only H_V) (v_inv H)) as IV. specialize (IV ltac:(intros h line u u' done Hh Hi Hpr; apply only_true in Hh; subst h; eapply v_step; eauto)).
    specialize (IV ltac:(intros h line u u' done Hh Hi Hpr; eapply peer_H; eauto; intros ->; discriminate Hh) _ _ _ [] (ran_lines _ _ _ _ _ _ _ _ _ R) Hinit).
    cbn [app] in IV. change (List.filter (chosen (eff known) (only H_V)) (scan_lines (s_raw sc))) with cs in IV.
    destruct IV as (J1 & (p1 & J2 & J3) & V & J4 & J5 & J6).
    assert (EV : s_obj sc' A_V = Some V).
    { rewrite (ran_obj _ _ _ _ _ _ _ _ _ R), (posts_keep E A_V w1 w (Ok tt)); auto; [|apply (ran_posts _ _ _ _ _ _ _ _ _ R)].
      intros p; destruct p; cbn; intros Q; decompose [or] Q; try discriminate; auto. }
    assert (Hrow : forall r l, nth_error cs r = Some l -> exists labels t row, nth_error H r = Some labels /\ content l t /\ nth_error V r = Some row /\ value_row labels t row).
    { intros r l Hr. destruct (J6 _ _ Hr) as (labels & G1 & G2). exists labels, (Utils.strip_first_word l), (v_row labels l). split; auto.
      split; [apply content_strip; auto; eapply control_SP; apply N; eapply nth_error_In; eauto|]. split; auto. apply value_row_ok. }
    exists o, H, cs, V. split; auto. split; auto. split; auto. split; auto. split; auto. split; auto.
    destruct cs as [|c0 cs0] eqn:Ecs.
    - cbn in J5. destruct V; [|discriminate]. split; [intros r c x (row & Q & _); destruct r; discriminate|]. left. split; auto.
      rewrite (ran_obj _ _ _ _ _ _ _ _ _ R), (ran_no_post E known Hk A_metadata _ _ _ _ _ _ _ R).
      + rewrite (initial A_metadata _ _ _ _ _ _ _ R); [reflexivity| |cbn; intros Q; decompose [or] Q; try discriminate; auto].
        intros h; destruct h; cbn; intros Q; decompose [or] Q; try discriminate; auto.
      + intros l h p Hin He Hpo Q. destruct p; cbn in Q; decompose [or] Q; try discriminate; auto. destruct h; try discriminate Hpo.
        assert (G : In l cs) by (unfold cs, lines_h; apply filter_In; split; auto; unfold of_h; rewrite He; reflexivity). rewrite Ecs in G. destruct G.
    - destruct (ran_post E known Hk [A_metadata; A_V] _ _ _ _ _ _ _ H_V PP_unicat R) as (wa & wb & B1 & B2 & B3 & B4 & B5 & B6).
      + intros q Hq a Ha Q. destruct q; cbn in Q; decompose [or] Q; subst; cbn in Ha; decompose [or] Ha; try discriminate; auto.
      + reflexivity.
      + discriminate.
      + exists c0. destruct (Keeps_incl _ _ _ K) as [Hi _]. split; [apply Hi; left; auto|].
        apply (eff_control known Hk); try discriminate; [|apply N; left; auto].
        pose proof (scan_lines_no_lf (s_raw sc)) as NL. rewrite Forall_forall in NL. apply NL, Hi; left; auto.
      + assert (Hpa : exists hd, peer wa = Some hd /\ hd A_H = Some H).
        { rewrite J2 in B4. cbn [peer_step] in B4. destruct (peer wa) as [pa|]; [|destruct B4]. exists pa. split; auto. destruct B4 as [B4 _]. rewrite B4; auto. }
        destruct Hpa as (hda & Hpa1 & Hpa2). cbn [run_post] in B1. unfold post_unicat in B1.
        apply mbind_ok in B1. destruct B1 as (wc & [] & C1 & C2). apply setA_ok in C1.
        apply mbind_ok in C2. destruct C2 as (wd & V' & C2 & C3). apply getA_ok in C2. destruct C2 as [-> C2].
        apply mbind_ok in C3. destruct C3 as (we & [] & C3 & C4).
        assert (EV' : V' = V). { apply Some_inj. transitivity (me wc A_V); [symmetry; exact C2|]. transitivity (me w1 A_V); [|exact J4]. rewrite <- B3 by (simpl; auto). subst wc. cbn [me]. apply upd_other. discriminate. }
        subst V'.
        destruct (unicat_rows H V 0 wc we [] hda C3) as [M1 M2]; [subst wc; apply upd_same|subst wc; exact Hpa1|exact Hpa2|].
        split; [exact M2|]. right. split; [discriminate|].
        exists (fold_left (fun d x => dset (snd (snd x)) (meta_of (fst (snd x))) d) (cells H 0 V) []). split.
        * unfold attr_is. rewrite (ran_obj _ _ _ _ _ _ _ _ _ R), !B5 by (simpl; auto). apply addH5_ok in C4. destruct C4 as (_ & _ & C4 & _). rewrite !C4 by discriminate. exact M1.
        * split; [apply (fold_nodup (fun x => snd (snd x)) (fun x => meta_of (fst (snd x)))); constructor|].
          intros k v. rewrite (last_cell snd (fun x => meta_of (fst x))). cbn [fst snd]. split.
          -- intros (r & c & d & t & H1 & H2 & <- & <- & Hmx). exists d. split; [|apply meta_of_spec; auto].
             exists r, c. split; auto. split; auto. intros r' c' v' H1' H2'. eapply Hmx; eauto.
          -- intros (x & (r & c & H1 & H2 & Hmx) & Hn). exists r, c, x, k. split; auto. split; auto. split; auto.
             split; [apply meta_of_spec in Hn; auto|]. intros r' c' d' t' H1' H2' <-. eapply Hmx; eauto.
  Qed.
End Meta.
