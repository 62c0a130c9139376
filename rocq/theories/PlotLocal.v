(** Plotting one scan neither depends on the other scans nor changes them (if no scan has #O lines). *)
From Coq Require Import String Lia.
From Verif Require Import Py PyFacts Time Utils Keys Handlers Reader H5 Writer Plot SpecPlot SpecHistory SpecInterp SpecTables LinkFacts UseFacts.
Import ListNotations.
Local Open Scope list_scope.

Section Local.
  Context (E : env) (known : list hid) (draw : image -> option exn) (Hk : incl all_hids known).
  Context (name : str).

  (** ** the outcome depends on this scan, the headers and the file name only *)
  Definition near (s t : pst) : Prop :=
    dget name (scans (ps_sdf s)) = dget name (scans (ps_sdf t)) /\ headers (ps_sdf s) = headers (ps_sdf t) /\ fileName (ps_sdf s) = fileName (ps_sdf t) /\ ps_plotter s = ps_plotter t.
  Definition det {A} (m : PM A) : Prop := forall s t, near s t -> near (fst (m s)) (fst (m t)) /\ snd (m s) = snd (m t).

  Lemma det_ret {A} (a : A) : det (sret a). Proof. intros s t H. split; [exact H|reflexivity]. Qed.
  Lemma det_raise {A} e : det (@sraise pst A e). Proof. intros s t H. split; [exact H|reflexivity]. Qed.
  Lemma det_lift {A} (r : res A) : det (slift r). Proof. intros s t H. split; [exact H|reflexivity]. Qed.
  Lemma det_bind {A B} (m : PM A) (k : A -> PM B) : det m -> (forall a, det (k a)) -> det (sbind m k).
  Proof.
    intros H1 H2 s t H. unfold sbind. destruct (H1 s t H) as [Q1 Q2]. destruct (m s) as [s1 r1], (m t) as [t1 r2]. cbn [fst snd] in *. subst r2.
    destruct r1 as [a|e]; [apply H2; exact Q1|split; [exact Q1|reflexivity]].
  Qed.
  Lemma det_get {A} (f : plotter -> A) : det (get_p f).
  Proof. intros s t (H1 & H2 & H3 & H4). split; [split; auto|]. cbn. rewrite H4. reflexivity. Qed.
  Lemma det_set f : det (put_set f).
  Proof. intros s t (H1 & H2 & H3 & H4). unfold put_set. cbn [fst snd]. rewrite H4. split; [|reflexivity]. unfold near. cbn [ps_sdf ps_plotter]. auto. Qed.
  Lemma det_signal v : det (put_signal v).
  Proof. intros s t (H1 & H2 & H3 & H4). unfold put_signal. cbn [fst snd]. rewrite H4. split; [|reflexivity]. unfold near. cbn [ps_sdf ps_plotter]. auto. Qed.
  Lemma det_axes v : det (put_axes v).
  Proof. intros s t (H1 & H2 & H3 & H4). unfold put_axes. cbn [fst snd]. rewrite H4. split; [|reflexivity]. unfold near. cbn [ps_sdf ps_plotter]. auto. Qed.
  Lemma det_alld v : det (put_all_data v).
  Proof. intros s t (H1 & H2 & H3 & H4). unfold put_all_data. cbn [fst snd]. rewrite H4. split; [|reflexivity]. unfold near. cbn [ps_sdf ps_plotter]. auto. Qed.
  Lemma det_data k v : det (put_data k v).
  Proof. apply det_bind; [apply det_get|]. intros d. apply det_alld. Qed.
  Lemma det_iter {A} (c : A -> PM unit) l : (forall x, det (c x)) -> det (siter c l).
  Proof. intros H. induction l as [|x l IH]; cbn [siter]; [apply det_ret|]. apply det_bind; auto. Qed.
  Lemma interp_near s t : dget name (scans s) = dget name (scans t) -> headers s = headers t -> fileName s = fileName t ->
    dget name (scans (fst (interpret E known name s))) = dget name (scans (fst (interpret E known name t))) /\ headers (fst (interpret E known name s)) = headers (fst (interpret E known name t)) /\
    fileName (fst (interpret E known name s)) = fileName (fst (interpret E known name t)) /\ snd (interpret E known name s) = snd (interpret E known name t).
  Proof.
    intros H1 H2 H3. unfold interpret. rewrite <- H1. destruct (dget name (scans s)) as [sc|] eqn:Eg; [|cbn; rewrite Eg; auto].
    destruct (s_done sc); [cbn [fst snd]; rewrite Eg; auto|].
    unfold run_on_scan. cbn [with_flags s_raw s_obj s_hdr]. rewrite <- H2. destruct (interpret_scan E known (s_raw sc) _) as [w [[]|e]];
    cbn [fst snd set_headers set_scans scans headers fileName]; rewrite !dget_dset_same; auto.
  Qed.
  Lemma det_attr nm a : det (attr_get E known nm a name).
  Proof.
    intros s t (H1 & H2 & H3 & H4). unfold attr_get, get_attr. rewrite <- H1. destruct (dget name (scans (ps_sdf s))) as [sc|] eqn:Eg.
    - destruct (mem _ _ && s_lazy sc).
      + destruct (interp_near (ps_sdf s) (ps_sdf t)) as (I1 & I2 & I3 & I4); [congruence|auto|auto|]. destruct (interpret E known name (ps_sdf s)) as [s1 r1], (interpret E known name (ps_sdf t)) as [t1 r2].
        cbn [fst snd] in *. subst r2. destruct r1 as [e|]; [cbn; unfold near; cbn; auto|]. rewrite <- I1. destruct (dget name (scans s1)) as [sc1|] eqn:E1; cbn [fst snd]; (split; [|reflexivity]); unfold near; cbn [ps_sdf ps_plotter]; rewrite <- ?I1; rewrite ?E1; auto.
      + rewrite <- H1, Eg. cbn [fst snd]. split; [|reflexivity]. unfold near. cbn [ps_sdf ps_plotter]. rewrite <- ?H1; rewrite ?Eg; auto.
    - cbn [fst snd]. split; [|reflexivity]. unfold near. cbn [ps_sdf ps_plotter]. rewrite <- ?H1; rewrite ?Eg; auto.
  Qed.
  Lemma det_put a v : det (attr_put a v name).
  Proof.
    intros s t (H1 & H2 & H3 & H4). unfold attr_put. rewrite <- H1. destruct (dget name (scans (ps_sdf s))) as [sc|] eqn:Eg; cbn [fst snd]; (split; [|reflexivity]); unfold near; cbn [ps_sdf ps_plotter set_scans scans headers fileName].
    - rewrite !dget_dset_same. auto.
    - rewrite <- ?H1; rewrite ?Eg; auto.
  Qed.
  Lemma det_aborted : det (aborted name).
  Proof. intros s t (H1 & H2 & H3 & H4). unfold aborted. rewrite <- H1. split; [|reflexivity]. unfold near. auto. Qed.
  Lemma det_catch m : det m -> det (catch_key name m).
  Proof.
    intros H s t Hn. unfold catch_key. destruct (H s t Hn) as [Q1 Q2]. destruct (m s) as [s1 r1], (m t) as [t1 r2]. cbn [fst snd] in *. subst r2.
    destruct r1 as [a|[]]; try (split; [exact Q1|reflexivity]). destruct (det_aborted s1 t1 Q1) as [Q3 Q4]. destruct (aborted name s1) as [s2 o1], (aborted name t1) as [t2 o2]. cbn [fst snd] in *. subst o2.
    destruct o1 as [[x|]|e]; (split; [exact Q3|reflexivity]).
  Qed.
  Ltac dt := repeat first
    [ apply det_ret | apply det_raise | apply det_lift | apply det_get | apply det_set | apply det_signal | apply det_axes | apply det_alld | apply det_data | apply det_attr | apply det_put | apply det_aborted
    | apply det_catch | apply det_iter; intros
    | apply det_bind; [|intros]
    | match goal with |- det (match ?x with _ => _ end) => destruct x end
    | match goal with |- det (let '(_, _) := ?x in _) => destruct x end ].
  Lemma det_spectra l : forall sh, det (mesh_spectra sh l).
  Proof. induction l as [|[k v] l IH]; intros sh; cbn [mesh_spectra]; [dt|]. dt. apply IH. Qed.
  Lemma det_columns l1 l2 n1 cmd d : det (mesh_columns E known l1 l2 n1 cmd d name).
  Proof. unfold mesh_columns. dt. apply det_spectra. Qed.
  Lemma det_retrieve k cmd : det (retrieve E known k cmd name).
  Proof.
    destruct k; cbn [retrieve].
    - unfold line_data. dt.
    - unfold hkl_data. dt.
    - unfold mesh_data. dt; apply det_spectra.
  Qed.
  Lemma det_plot k dm pm sc : s_num sc = name -> det (plot_scan E known draw k dm pm sc).
  Proof.
    intros Hs. unfold plot_scan. cbv zeta. rewrite Hs. apply det_bind; [dt|]. intros ab. destruct (match ab with Some t => seqb t ABORTED0 | None => false end); [dt|].
    apply det_bind.
    { intros s t H. destruct H as (H1 & H2 & H3 & H4). unfold put_set. cbn [fst snd]. rewrite H4, H3. split; [|reflexivity]. unfold near. cbn [ps_sdf ps_plotter]. auto. }
    intros _. apply det_bind; [dt|]. intros date. apply det_bind; [dt|]. intros _. apply det_bind; [apply det_catch, det_retrieve|]. intros _.
    apply det_bind; [destruct k; unfold plot_options, line_options, mesh_options; dt|]. intros _. unfold make_image, line_image, mesh_image. dt.
  Qed.

  (** ** only this scan changes *)
  Definition nice (s : sdf) : Prop := no_names_in_scans s /\ all_dated s.
  Definition alike (s t : sdf) : Prop := headers t = headers s /\ fileName t = fileName s /\ forall n, n <> name -> dget n (scans t) = dget n (scans s).
  Definition quiet {A} (m : PM A) : Prop := forall s, nice (ps_sdf s) -> nice (ps_sdf (fst (m s))) /\ alike (ps_sdf s) (ps_sdf (fst (m s))).

  Lemma alike_refl s : alike s s. Proof. split; [reflexivity|]. split; [reflexivity|]. intros; reflexivity. Qed.
  Lemma alike_trans s t u : alike s t -> alike t u -> alike s u.
  Proof. intros (A1 & A2 & A3) (B1 & B2 & B3). split; [congruence|]. split; [congruence|]. intros n Hn. rewrite B3, A3; auto. Qed.
  Lemma quiet_same {A} (m : PM A) : (forall s, ps_sdf (fst (m s)) = ps_sdf s) -> quiet m.
  Proof. intros H s Hn. rewrite H. split; [exact Hn|apply alike_refl]. Qed.
  Lemma q_ret {A} (a : A) : quiet (sret a). Proof. apply quiet_same. reflexivity. Qed.
  Lemma q_raise {A} e : quiet (@sraise pst A e). Proof. apply quiet_same. reflexivity. Qed.
  Lemma q_lift {A} (r : res A) : quiet (slift r). Proof. apply quiet_same. reflexivity. Qed.
  Lemma q_get {A} (f : plotter -> A) : quiet (get_p f). Proof. apply quiet_same. reflexivity. Qed.
  Lemma q_set f : quiet (put_set f). Proof. apply quiet_same. reflexivity. Qed.
  Lemma q_signal f : quiet (put_signal f). Proof. apply quiet_same. reflexivity. Qed.
  Lemma q_axes f : quiet (put_axes f). Proof. apply quiet_same. reflexivity. Qed.
  Lemma q_alld f : quiet (put_all_data f). Proof. apply quiet_same. reflexivity. Qed.
  Lemma q_data k f : quiet (put_data k f). Proof. apply quiet_same. reflexivity. Qed.
  Lemma q_aborted : quiet (aborted name). Proof. apply quiet_same. reflexivity. Qed.
  Lemma q_bind {A B} (m : PM A) (k : A -> PM B) : quiet m -> (forall a, quiet (k a)) -> quiet (sbind m k).
  Proof.
    intros H1 H2 s Hs. unfold sbind. destruct (H1 s Hs) as [Q1 Q2]. destruct (m s) as [s1 [a|e]]; cbn [fst] in *; [|auto].
    destruct (H2 a s1 Q1) as [R1 R2]. split; [exact R1|]. eapply alike_trans; eauto.
  Qed.
  Lemma q_iter {A} (c : A -> PM unit) l : (forall x, quiet (c x)) -> quiet (siter c l).
  Proof. intros H. induction l as [|x l IH]; cbn [siter]; [apply q_ret|]. apply q_bind; auto. Qed.
  Lemma interpret_alike s : nice s -> nice (fst (interpret E known name s)) /\ alike s (fst (interpret E known name s)).
  Proof.
    intros [Hn Hd]. destruct (uses_kept E known Hk _ _ (Uses_interpret E known name s s (Uses_none E known s)) Hn Hd) as (K & K2 & K3). split; [split; auto|].
    destruct (interpret E known name s) as [s' r] eqn:Ei. cbn [fst] in *. split; [apply K|]. revert Ei. unfold interpret. destruct (dget name (scans s)) as [sc|] eqn:Eg; [|intros Q; injection Q as <- <-; auto].
    destruct (s_done sc); [intros Q; injection Q as <- <-; auto|]. unfold run_on_scan. cbn [with_flags s_raw s_obj s_hdr]. destruct (interpret_scan E known (s_raw sc) _) as [w [[]|e]]; intros Q; injection Q as <- <-;
    cbn [set_headers set_scans scans fileName]; (split; [reflexivity|]); intros n Nn; rewrite !dget_dset_other by exact Nn; reflexivity.
  Qed.
  Lemma q_attr nm a : quiet (attr_get E known nm a name).
  Proof.
    intros s Hs. unfold attr_get, get_attr. destruct (dget name (scans (ps_sdf s))) as [sc|] eqn:Eg; [|cbn [fst ps_sdf]; split; [exact Hs|apply alike_refl]].
    destruct (mem _ _ && s_lazy sc).
    - pose proof (interpret_alike _ Hs) as I. destruct (interpret E known name (ps_sdf s)) as [s1 [e|]]; cbn [fst] in *; [exact I|]. destruct (dget name (scans s1)); exact I.
    - rewrite Eg. cbn [fst ps_sdf]. split; [exact Hs|apply alike_refl].
  Qed.
  Lemma q_put a v : quiet (attr_put a v name).
  Proof.
    intros s [Hn Hd]. unfold attr_put. destruct (dget name (scans (ps_sdf s))) as [sc|] eqn:Eg; [|cbn [fst]; split; [split; auto|apply alike_refl]].
    cbn [fst ps_sdf]. split; [split|].
    - intros n x ls l. cbn [set_scans scans]. destruct (list_eq_dec N.eq_dec n name) as [->|Nn].
      + rewrite dget_dset_same. intros Q. injection Q as <-. cbn [with_obj s_raw]. exact (Hn name sc ls l Eg).
      + rewrite dget_dset_other by exact Nn. exact (Hn n x ls l).
    - intros n x. cbn [set_scans scans]. destruct (list_eq_dec N.eq_dec n name) as [->|Nn].
      + rewrite dget_dset_same. intros Q. injection Q as <-. cbn [with_obj s_hdr]. exact (Hd name sc Eg).
      + rewrite dget_dset_other by exact Nn. exact (Hd n x).
    - split; [reflexivity|]. split; [reflexivity|]. intros n Nn. cbn [set_scans scans]. apply dget_dset_other. exact Nn.
  Qed.
  Lemma q_catch m : quiet m -> quiet (catch_key name m).
  Proof.
    intros H s Hs. unfold catch_key. destruct (H s Hs) as [Q1 Q2]. destruct (m s) as [s1 [a|[]]]; cbn [fst] in *; auto.
    unfold aborted. destruct (match dget name (scans (ps_sdf s1)) with Some sc => s_obj sc A_aborted | None => None end); cbn [fst]; auto.
  Qed.
  Ltac qt := repeat first
    [ apply q_ret | apply q_raise | apply q_lift | apply q_get | apply q_set | apply q_signal | apply q_axes | apply q_alld | apply q_data | apply q_attr | apply q_put | apply q_aborted
    | apply q_catch | apply q_iter; intros
    | apply q_bind; [|intros]
    | match goal with |- quiet (match ?x with _ => _ end) => destruct x end
    | match goal with |- quiet (let '(_, _) := ?x in _) => destruct x end ].
  Lemma q_spectra l : forall sh, quiet (mesh_spectra sh l).
  Proof. induction l as [|[k v] l IH]; intros sh; cbn [mesh_spectra]; [qt|]. qt. apply IH. Qed.
  Lemma q_columns l1 l2 n1 cmd d : quiet (mesh_columns E known l1 l2 n1 cmd d name).
  Proof. unfold mesh_columns. qt. apply q_spectra. Qed.
  Lemma q_retrieve k cmd : quiet (retrieve E known k cmd name).
  Proof.
    destruct k; cbn [retrieve].
    - unfold line_data. qt.
    - unfold hkl_data. qt.
    - unfold mesh_data. qt; apply q_spectra.
  Qed.
  Lemma q_plot k dm pm sc : s_num sc = name -> quiet (plot_scan E known draw k dm pm sc).
  Proof.
    intros Hs. unfold plot_scan. cbv zeta. rewrite Hs. apply q_bind; [qt|]. intros ab. destruct (match ab with Some t => seqb t ABORTED0 | None => false end); [qt|].
    apply q_bind; [apply quiet_same; reflexivity|].
    intros _. apply q_bind; [qt|]. intros date. apply q_bind; [qt|]. intros _. apply q_bind; [apply q_catch, q_retrieve|]. intros _.
    apply q_bind; [destruct k; unfold plot_options, line_options, mesh_options; qt|]. intros _. unfold make_image, line_image, mesh_image. qt.
  Qed.
End Local.
