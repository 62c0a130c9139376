(** What line plots show *)
From Coq Require Import String Lia.
From Verif Require Import Py PyFacts Time Utils Keys Handlers Reader H5 Writer Plot SpecPlot SpecHistory SpecInterp PlotFacts PlotFacts2 PlotFacts3.
Import ListNotations.
Local Open Scope list_scope.

Section Lines.
  Variable E : env.
  Variable known : list hid.
  Variable draw : image -> option exn.
  Hypothesis Hk : incl all_hids known.

  Lemma mem_true x l : In x l -> mem x l = true.
  Proof. apply mem_In. Qed.
  Lemma or_text_none t : or_text None t = t. Proof. reflexivity. Qed.
  Lemma newer_ok dm pm : newer dm pm -> data_is_newer_than_plot dm pm = Ok true.
  Proof.
    intros (m & -> & H). unfold data_is_newer_than_plot. cbn [bind]. f_equal. apply Z.ltb_lt. destruct pm; exact H.
  Qed.
  Definition drawn (i : image) : res (option image) := match draw i with Some e => Raise e | None => Ok (Some i) end.

  Lemma line_plot s sc s' sc' table labels first last x y date dm pm : dget (s_num sc) (scans s) = Some sc -> ~ attr_is sc A_aborted ABORTED0 -> attr_is sc A_date date ->
    usable E known s (s_num sc) s' sc' -> attr_is sc' A_data table -> attr_is sc' A_L labels -> attr_is sc' A_column_first first -> attr_is sc' A_column_last last ->
    In first labels -> In last labels -> dget first table = Some (Col x) -> dget last table = Some (Col y) ->
    List.length x = List.length y -> y <> [] -> newer dm pm ->
    exists p g, plot_scan E known draw KLine dm pm sc (mk_pst s plotter0) = (mk_pst s' p, drawn (XYPlot (PList (nums x)) (PList (nums y)) g)) /\
      texts g (fileName s) (L "#" ++ s_num sc ++ L ": " ++ s_cmd sc) first last date.
  Proof.
    intros D A T U H1 H2 H3 H4 I1 I2 D1 D2 Le Ne Nw.
    exists (mk_plotter (line_settings (titled settings0 (fileName s) (s_num sc) (s_cmd sc) date) first last) (Some last) [first] (line_pdata table labels)).
    exists (line_settings (titled settings0 (fileName s) (s_num sc) (s_cmd sc) date) first last). split.
    - rewrite (plot_scan_eq E known draw KLine dm pm sc sc s plotter0 date D A T). unfold sbind at 1.
      rewrite (catch_ok (s_num sc) _ _ _ (line_data_eq E known Hk (s_num sc) s s' sc' _ table labels first last U H4 H1 H3 H2 ltac:(unfold has; rewrite D2; reflexivity))).
      cbn [p_set]. rewrite (rest_line draw KLine) by discriminate. f_equal. cbn [p_set].
      assert (Y : dget last (line_pdata table labels) = Some (PList (nums y))) by (rewrite dget_line_pdata, (mem_true _ _ I2), D2; reflexivity).
      assert (X : dget first (line_pdata table labels) = Some (PList (nums x))) by (rewrite dget_line_pdata, (mem_true _ _ I1), D1; reflexivity).
      match goal with |- context [line_plottable ?p] => assert (P : line_plottable p = Ok true) end.
      { apply curve_line. exists last, first, (PList (nums x)), (PList (nums y)), (List.length y). cbn [p_signal p_axes p_data long]. unfold nums. rewrite !map_length. do 6 (split; [auto|]).
        destruct y; [congruence|discriminate]. }
      rewrite P. cbn [bind negb]. rewrite (newer_ok _ _ Nw). cbn [bind]. rewrite X, Y. unfold chart, xy_check. cbn [g_xlog g_ylog line_settings set_logs titled set_time set_texts settings0 or_bool]. reflexivity.
    - unfold texts, line_settings, titled, set_logs, set_ytitle, set_xtitle, set_time, set_texts, settings0. cbn. auto 10.
  Qed.
  Lemma line_no_data s sc s' sc' table last date dm pm : dget (s_num sc) (scans s) = Some sc -> ~ attr_is sc A_aborted ABORTED0 -> attr_is sc A_date date ->
    usable E known s (s_num sc) s' sc' -> attr_is sc' A_data table -> attr_is sc' A_column_last last -> dget last table = None ->
    exists st, plot_scan E known draw KLine dm pm sc (mk_pst s plotter0) = (st, Raise NoDataToPlot).
  Proof.
    intros D A T U H1 H4 N. rewrite (plot_scan_eq E known draw KLine dm pm sc sc s plotter0 date D A T). unfold sbind at 1.
    destruct (line_data_none E known Hk (s_num sc) s s' sc' (mk_plotter (titled (p_set plotter0) (fileName s) (s_num sc) (s_cmd sc) date) (p_signal plotter0) (p_axes plotter0) (p_data plotter0))
      table last U H4 H1 ltac:(unfold has; rewrite N; reflexivity)) as [st X].
    cbn [retrieve]. rewrite (catch_other (s_num sc) _ _ _ _ X) by discriminate. exists st. reflexivity.
  Qed.

  (** hklscan *)
  Definition axes3 : list str := map L ["H"; "K"; "L"]%string.
  Lemma attr_put_eq (a : attr) (v : ty a) name s p sc : dget name (scans s) = Some sc ->
    attr_put a v name (mk_pst s p) = (mk_pst (set_scans (dset name (with_obj (upd a v (s_obj sc)) sc) (scans s)) s) p, Ok tt).
  Proof. intros H. unfold attr_put. cbn [ps_sdf ps_plotter]. rewrite H. reflexivity. Qed.
  Lemma hkl_data_eq name s s' sc' table last ax x y fin : usable E known s name s' sc' -> attr_is sc' A_data table -> attr_is sc' A_column_last last ->
    hkl_axis axes3 table = Ok (Some (ax, x), fin) -> fin <> None -> dget last table = Some (Col y) ->
    forall g, exists s2, hkl_data E known name (mk_pst s (mk_plotter g None [] [])) =
      (mk_pst s2 (mk_plotter g (Some last) [ax] (dset last (PList (nums y)) (dset ax (PList (nums x)) []))), Ok tt) /\
      exists sc2, dget name (scans s2) = Some sc2 /\ attr_is sc2 A_data table /\ attr_is sc2 A_column_last last /\ s_lazy sc2 = false /\ fileName s2 = fileName s'.
  Proof.
    intros S H1 H2 Hx Nf Dy g. unfold attr_is in *. pose proof S as (sc & _ & D & Z & _). destruct fin as [last_|]; [|congruence].
    set (sc2 := with_obj (upd A_column_first ax (s_obj sc')) sc'). set (s2 := set_scans (dset name sc2 (scans s')) s').
    exists s2. assert (D2 : dget name (scans s2) = Some sc2) by apply dget_dset_same. split.
    - unfold hkl_data. unfold sbind at 1. rewrite (get_first E known "data" A_data name s s' sc' _ (lazy_data known Hk) S), H1. cbn [of_opt].
      unfold sbind at 1. unfold slift at 1. fold axes3. rewrite Hx. cbn [fst snd]. unfold sbind at 1. unfold put_axes at 1. cbn [ps_sdf ps_plotter p_set p_signal p_data].
      unfold sbind at 1. unfold get_p at 1. cbn [ps_plotter p_axes]. unfold sbind at 1. unfold sret at 1. cbn [fst snd].
      unfold sbind at 1. rewrite (attr_put_eq A_column_first ax name s' _ sc' D). fold sc2. fold s2.
      unfold sbind at 1. unfold put_data at 1. unfold sbind at 1. unfold get_p at 1. cbn [ps_plotter p_data]. unfold put_all_data at 1. cbn [ps_sdf ps_plotter p_set p_signal p_axes].
      unfold sbind at 1. rewrite (get_again E known "column_last" A_column_last name s2 sc2 _ D2 Z).
      change (s_obj sc2 A_column_last) with (s_obj sc' A_column_last). rewrite H2. cbn [of_opt].
      unfold sbind at 1. unfold put_signal. cbn [ps_sdf ps_plotter p_set p_signal p_axes p_data]. unfold sbind at 1. rewrite (get_again E known "data" A_data name s2 sc2 _ D2 Z).
      change (s_obj sc2 A_data) with (s_obj sc' A_data). rewrite H1. cbn [of_opt]. unfold sbind at 1. unfold slift. rewrite Dy. cbn [of_opt].
      unfold put_data, sbind, get_p, put_all_data. cbn [ps_sdf ps_plotter p_set p_signal p_axes p_data]. reflexivity.
    - exists sc2. split; [exact D2|]. split; [exact H1|]. split; [exact H2|]. split; [exact Z|reflexivity].
  Qed.
  Lemma hkl_plot s sc s' sc' table last ax x y fin date dm pm : dget (s_num sc) (scans s) = Some sc -> ~ attr_is sc A_aborted ABORTED0 -> attr_is sc A_date date ->
    usable E known s (s_num sc) s' sc' -> attr_is sc' A_data table -> attr_is sc' A_column_last last ->
    hkl_axis axes3 table = Ok (Some (ax, x), fin) -> fin <> None -> dget last table = Some (Col y) -> last <> ax ->
    List.length x = List.length y -> y <> [] -> newer dm pm ->
    exists st g, plot_scan E known draw KHkl dm pm sc (mk_pst s plotter0) = (st, drawn (XYPlot (PList (nums x)) (PList (nums y)) g)) /\
      texts g (fileName s) (L "#" ++ s_num sc ++ L ": " ++ s_cmd sc) ax last date.
  Proof.
    intros D A T U H1 H2 Hx Nf Dy Nl Le Ne Nw.
    destruct (hkl_data_eq (s_num sc) s s' sc' table last ax x y fin U H1 H2 Hx Nf Dy (titled settings0 (fileName s) (s_num sc) (s_cmd sc) date)) as (s2 & X & _).
    eexists. exists (line_settings (titled settings0 (fileName s) (s_num sc) (s_cmd sc) date) ax last). split.
    - rewrite (plot_scan_eq E known draw KHkl dm pm sc sc s plotter0 date D A T). unfold sbind at 1. cbn [retrieve].
      change (p_set plotter0) with settings0. cbn [plotter0 p_signal p_axes p_data]. rewrite (catch_ok (s_num sc) _ _ _ X).
      rewrite (rest_line draw KHkl) by discriminate. f_equal. cbn [p_set].
      set (pd := dset last (PList (nums y)) (dset ax (PList (nums x)) [])).
      assert (Y : dget last pd = Some (PList (nums y))) by apply dget_dset_same.
      assert (X2 : dget ax pd = Some (PList (nums x))) by (unfold pd; rewrite dget_dset_other by auto; apply dget_dset_same).
      match goal with |- context [line_plottable ?p] => assert (P : line_plottable p = Ok true) end.
      { apply curve_line. exists last, ax, (PList (nums x)), (PList (nums y)), (List.length y). cbn [p_signal p_axes p_data long]. unfold nums. rewrite !map_length. do 6 (split; [auto|]).
        destruct y; [congruence|discriminate]. }
      rewrite P. cbn [bind negb]. rewrite (newer_ok _ _ Nw). cbn [bind]. rewrite X2, Y. unfold chart, xy_check. cbn [g_xlog g_ylog line_settings set_logs titled set_time set_texts settings0 or_bool]. reflexivity.
    - unfold texts, line_settings, titled, set_logs, set_ytitle, set_xtitle, set_time, set_texts, settings0. cbn. auto 10.
  Qed.
End Lines.
