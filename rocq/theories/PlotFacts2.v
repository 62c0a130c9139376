(** Facts about plot_scan *)
From Coq Require Import String Lia.
From Verif Require Import Py PyFacts Time Utils Keys Handlers Reader H5 Writer Plot SpecPlot SpecHistory SpecInterp FrameFacts PlotFacts.
Import ListNotations.
Local Open Scope list_scope.

Section Facts.
  Variable E : env.
  Variable known : list hid.
  Variable draw : image -> option exn.
  Hypothesis Hk : incl all_hids known.

  Notation settled := (usable E known).

  Lemma add_lazy_mono l a x : mem x l = true -> mem x (add_lazy l a) = true.
  Proof. unfold add_lazy. intros H. destruct (mem a l); [exact H|]. unfold mem in *. rewrite existsb_app, H. reflexivity. Qed.
  Lemma add_lazy_in l a : mem a (add_lazy l a) = true.
  Proof. unfold add_lazy. destruct (mem a l) eqn:Em; [exact Em|]. unfold mem. rewrite existsb_app. cbn. rewrite seqb_refl, !Bool.orb_true_r. reflexivity. Qed.
  Lemma lazy_in h a : In h known -> mem a (attrs_of h) = true -> mem a (lazy_attributes known) = true.
  Proof.
    intros Hh Ha. unfold lazy_attributes. 
    assert (M : forall l acc x, mem x acc = true -> mem x (fold_left add_lazy l acc) = true).
    { induction l as [|b t IH]; intros acc x H; [exact H|]. cbn [fold_left]. apply IH. apply add_lazy_mono, H. }
    assert (I : forall l acc x, mem x l = true -> mem x (fold_left add_lazy l acc) = true).
    { induction l as [|b t IH]; intros acc x H; [discriminate|]. cbn [fold_left]. unfold mem in H. cbn [existsb] in H.
      apply Bool.orb_true_iff in H. destruct H as [H|H]; [apply seqb_eq in H; subst b; apply M, add_lazy_in|apply IH, H]. }
    assert (M2 : forall l acc x, mem x acc = true -> mem x (fold_left (fun l h => fold_left add_lazy (attrs_of h) l) l acc) = true).
    { induction l as [|b t IH]; intros acc x H; [exact H|]. cbn [fold_left]. apply IH, M, H. }
    assert (G : forall l acc, In h l -> mem a (fold_left (fun l h => fold_left add_lazy (attrs_of h) l) l acc) = true).
    { induction l as [|b t IH]; intros acc Hl; [destruct Hl|]. cbn [fold_left]. destruct Hl as [->|Hl]; [apply M2, I, Ha|apply IH, Hl]. }
    apply G, Hh.
  Qed.
  Lemma not_lazy a : (forall h, mem a (attrs_of h) = false) -> mem a (lazy_attributes known) = false.
  Proof.
    intros H. unfold lazy_attributes.
    assert (I : forall l acc, mem a l = false -> mem a acc = false -> mem a (fold_left add_lazy l acc) = false).
    { induction l as [|b t IH]; intros acc Hl Ha; [exact Ha|]. cbn [fold_left]. unfold mem in Hl. cbn [existsb] in Hl. apply Bool.orb_false_iff in Hl. destruct Hl as [H1 H2].
      apply IH; [exact H2|]. unfold add_lazy. destruct (mem b acc) eqn:Eb; [exact Ha|]. unfold mem in *. rewrite existsb_app, Ha. cbn [existsb]. rewrite H1. reflexivity. }
    assert (G : forall l acc, mem a acc = false -> mem a (fold_left (fun l h => fold_left add_lazy (attrs_of h) l) l acc) = false).
    { induction l as [|b t IH]; intros acc Ha; [exact Ha|]. cbn [fold_left]. apply IH, I; auto. }
    apply G. reflexivity.
  Qed.
  Lemma lazy_column_last : mem (L "column_last") (lazy_attributes known) = true.
  Proof. apply (lazy_in H_L); [apply Hk; cbn; tauto|reflexivity]. Qed.
  Lemma lazy_data : mem (L "data") (lazy_attributes known) = true.
  Proof. apply (lazy_in H_data); [apply Hk; cbn; tauto|reflexivity]. Qed.
  Lemma date_not_lazy : mem (L "date") (lazy_attributes known) = false.
  Proof. apply not_lazy. intros []; reflexivity. Qed.

  Lemma get_first nm a name s s' sc' p : mem (L nm) (lazy_attributes known) = true -> settled s name s' sc' ->
    attr_get E known nm a name (mk_pst s p) = (mk_pst s' p, of_opt AttributeError (s_obj sc' a)).
  Proof.
    intros Hl (sc & H1 & H2 & H3 & H4). unfold attr_get, get_attr. cbn [ps_sdf ps_plotter]. rewrite H1, Hl. cbn [andb].
    destruct H4 as [[-> ->]|[-> ->]]; rewrite H2; reflexivity.
  Qed.
  Lemma get_again nm a name s sc p : dget name (scans s) = Some sc -> s_lazy sc = false ->
    attr_get E known nm a name (mk_pst s p) = (mk_pst s p, of_opt AttributeError (s_obj sc a)).
  Proof. intros H1 H2. unfold attr_get, get_attr. cbn [ps_sdf ps_plotter]. rewrite H1, H2, Bool.andb_false_r, H1. reflexivity. Qed.
  Lemma get_plain nm a name s sc p : mem (L nm) (lazy_attributes known) = false -> dget name (scans s) = Some sc ->
    attr_get E known nm a name (mk_pst s p) = (mk_pst s p, of_opt AttributeError (s_obj sc a)).
  Proof. intros H2 H1. unfold attr_get, get_attr. cbn [ps_sdf ps_plotter]. rewrite H1, H2. cbn [andb]. rewrite H1. reflexivity. Qed.

  (** the data of a line plot *)
  Definition line_pdata (table : dict col) (labels : list str) : dict pval :=
    fold_left (fun acc label => match dget label table with Some c => dset label (col_pval c) acc | None => acc end) labels [].
  Lemma dget_line_pdata x table labels : dget x (line_pdata table labels) = if mem x labels then option_map col_pval (dget x table) else None.
  Proof.
    unfold line_pdata.
    assert (G : forall ls acc, dget x (fold_left (fun acc label => match dget label table with Some c => dset label (col_pval c) acc | None => acc end) ls acc)
      = if mem x ls then match dget x table with Some c => Some (col_pval c) | None => dget x acc end else dget x acc).
    { induction ls as [|l t IH]; intros acc; [reflexivity|]. cbn [fold_left]. rewrite IH. unfold mem. cbn [existsb]. destruct (seqb x l) eqn:El; cbn [orb].
      - apply seqb_eq in El. subst l. destruct (dget x table); [rewrite dget_dset_same; destruct (existsb (seqb x) t); reflexivity|destruct (existsb (seqb x) t); reflexivity].
      - apply seqb_neq in El. destruct (dget l table); [rewrite dget_dset_other by auto|]; reflexivity. }
    rewrite G. destruct (mem x labels); [|reflexivity]. destruct (dget x table); reflexivity.
  Qed.

  (** the settings after the first part of plot_scan *)
  Definition titled (g : settings) (fname num cmd date : str) : settings :=
    let g := set_texts (or_text (g_title g) fname) (or_text (g_subtitle g) (L "#" ++ num ++ L ": " ++ cmd)) g in
    set_time (or_text (g_time g) date) g.
  Definition line_settings (g : settings) (first last : str) : settings :=
    set_logs (or_bool (g_xlog g) false) (or_bool (g_ylog g) false) false (set_ytitle (or_text (g_ytitle g) last) (set_xtitle (or_text (g_xtitle g) first) g)).

  (** the second part of plot_scan *)
  Definition rest (k : kind) (dm : res Z) (pm : option Z) (sc : scan) : PM (option image) :=
    plot_options k >>>
    let* p := get_p (fun p => p) in
    let* b := slift (plottable k p) in
    if negb b then sret None else
    let* newer := slift (data_is_newer_than_plot dm pm) in
    if newer then make_image draw k (s_raw sc) else sret None.
  Lemma plot_scan_eq k dm pm sc0 sc s p date : dget (s_num sc0) (scans s) = Some sc -> s_obj sc A_aborted <> Some ABORTED0 -> attr_is sc A_date date ->
    plot_scan E known draw k dm pm sc0 (mk_pst s p) =
      (catch_key (s_num sc0) (retrieve E known k (s_cmd sc0) (s_num sc0)) >>> rest k dm pm sc0)
        (mk_pst s (mk_plotter (titled (p_set p) (fileName s) (s_num sc0) (s_cmd sc0) date) (p_signal p) (p_axes p) (p_data p))).
  Proof.
    intros H1 H2 H3. unfold plot_scan. unfold sbind at 1. unfold aborted at 1. cbn [ps_sdf]. rewrite H1.
    assert (Hb : forall o : option str, o <> Some ABORTED0 -> match o with Some t => seqb t ABORTED0 | None => false end = false).
    { intros [t|] Ht; [|reflexivity]. apply seqb_neq. intros X. apply Ht. f_equal. exact X. }
    match goal with |- (if ?b then _ else _) _ = _ => replace b with false by (symmetry; exact (Hb _ H2)) end. clear Hb.
    unfold sbind at 1. unfold put_set at 1. cbv beta zeta. cbn [ps_sdf ps_plotter]. unfold sbind at 1.
    rewrite (get_plain "date" A_date _ _ _ _ date_not_lazy H1). unfold attr_is in H3. rewrite H3. cbn [of_opt]. unfold sbind at 1. unfold put_set at 1. cbn [ps_sdf ps_plotter].
    cbn [p_set p_signal p_axes p_data]. unfold titled. cbv zeta. reflexivity.
  Qed.

  Lemma catch_ok name m s s' : m s = (s', Ok tt) -> catch_key name m s = (s', Ok tt).
  Proof. unfold catch_key. intros ->. reflexivity. Qed.
  Lemma catch_other name m s s' e : m s = (s', Raise e) -> e <> KeyError -> catch_key name m s = (s', Raise e).
  Proof. unfold catch_key. intros -> N. destruct e; try reflexivity. congruence. Qed.

  Lemma line_data_eq name s s' sc' p table labels first last : settled s name s' sc' -> attr_is sc' A_column_last last -> attr_is sc' A_data table ->
    attr_is sc' A_column_first first -> attr_is sc' A_L labels -> has last table = true ->
    line_data E known name (mk_pst s p) = (mk_pst s' (mk_plotter (p_set p) (Some last) [first] (line_pdata table labels)), Ok tt).
  Proof.
    intros S H1 H2 H3 H4 H5. unfold attr_is in *. pose proof S as (sc & _ & D & Z & _). unfold line_data. unfold sbind at 1.
    rewrite (get_first "column_last" A_column_last name s s' sc' p lazy_column_last S), H1. cbn [of_opt].
    unfold sbind at 1. unfold put_signal. cbn [ps_sdf ps_plotter]. unfold sbind at 1. rewrite (get_again "data" A_data name s' sc' _ D Z), H2. cbn [of_opt]. rewrite H5. cbn [negb].
    unfold sbind at 1. rewrite (get_again "column_first" A_column_first name s' sc' _ D Z), H3. cbn [of_opt].
    unfold sbind at 1. unfold put_axes. cbn [ps_sdf ps_plotter]. unfold sbind at 1. rewrite (get_again "L" A_L name s' sc' _ D Z), H4. cbn [of_opt].
    unfold put_all_data. cbn [ps_sdf ps_plotter p_set p_signal p_axes]. reflexivity.
  Qed.
  Lemma line_data_none name s s' sc' p table last : settled s name s' sc' -> attr_is sc' A_column_last last -> attr_is sc' A_data table -> has last table = false ->
    exists st, line_data E known name (mk_pst s p) = (st, Raise NoDataToPlot).
  Proof.
    intros S H1 H2 H5. unfold attr_is in *. pose proof S as (sc & _ & D & Z & _). unfold line_data. unfold sbind at 1.
    rewrite (get_first "column_last" A_column_last name s s' sc' p lazy_column_last S), H1. cbn [of_opt].
    unfold sbind at 1. unfold put_signal. cbn [ps_sdf ps_plotter]. unfold sbind at 1. rewrite (get_again "data" A_data name s' sc' _ D Z), H2. cbn [of_opt]. rewrite H5. cbn [negb].
    eexists. reflexivity.
  Qed.

  (** the second part, for a line plot *)
  Lemma rest_line k dm pm sc s g first last pd : k <> KMesh ->
    let p := mk_plotter (line_settings g first last) (Some last) [first] pd in
    rest k dm pm sc (mk_pst s (mk_plotter g (Some last) [first] pd)) =
      (mk_pst s p, do b <- line_plottable p;
                   if negb b then Ok None else
                   do newer <- data_is_newer_than_plot dm pm;
                   if newer then match dget last pd, dget first pd with
                                 | Some y, Some x => match chart draw (XYPlot x y (p_set p)) with Some e => Raise e | None => Ok (Some (XYPlot x y (p_set p))) end
                                 | _, _ => Raise NotModelled
                                 end
                   else Ok None).
  Proof.
    intros Nk p. unfold rest. unfold sbind at 1.
    assert (Eo : plot_options k (mk_pst s (mk_plotter g (Some last) [first] pd)) = (mk_pst s p, Ok tt)) by (destruct k; [reflexivity|reflexivity|congruence]).
    rewrite Eo. unfold sbind at 1. unfold get_p at 1. cbn [ps_plotter]. unfold sbind at 1. unfold slift at 1.
    replace (plottable k p) with (line_plottable p) by (destruct k; [reflexivity|reflexivity|congruence]).
    destruct (line_plottable p) as [b|e]; cbn [bind]; [|reflexivity]. destruct b; cbn [negb]; [|reflexivity].
    unfold sbind at 1. unfold slift at 1. destruct (data_is_newer_than_plot dm pm) as [b|e]; cbn [bind]; [|reflexivity]. destruct b; [|reflexivity].
    assert (Em : make_image draw k (s_raw sc) = (let* i := (let* i := line_image in sret (Some i)) in match i with None => sret None | Some i => match chart draw i with Some e => sraise e | None => sret (Some i) end end)) by (destruct k; [reflexivity|reflexivity|congruence]).
    rewrite Em. unfold sbind at 1. unfold sbind at 1. unfold line_image. unfold sbind at 1. unfold get_p at 1. cbn [ps_plotter]. unfold p. cbn [p_signal p_axes p_data p_set].
    destruct (dget last pd) as [y|]; [|reflexivity]. destruct (dget first pd) as [x|]; [|reflexivity]. unfold sret at 1. cbv iota. unfold sret at 1. cbv iota.
    destruct (chart draw (XYPlot x y (line_settings g first last))); reflexivity.
  Qed.
End Facts.
