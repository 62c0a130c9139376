(** hklscan plots (C78) and repeated plots (C79) *)
From Coq Require Import String Lia.
From Verif Require Import Py PyFacts NumFacts OrderFacts Time Utils Keys Handlers Reader H5 Writer Plot SpecNum SpecPlot SpecHistory SpecInterp ReaderFacts5 PlotFacts PlotFacts2 PlotFacts3 PlotFacts4.
Import ListNotations.
Local Open Scope list_scope.

Lemma le_refl a : a_number a -> num_le a a.
Proof. intros N. destruct (num_le_total a a) as [H|H]; auto; destruct a; cbn; auto; congruence. Qed.
Lemma le_total a b : a_number a -> a_number b -> num_le a b \/ num_le b a.
Proof. intros N M. apply num_le_total; [destruct a|destruct b]; cbn; auto; congruence. Qed.
Lemma ltb_false a b : a_number a -> a_number b -> fl_ltb a b = false -> num_le b a.
Proof.
  intros N M H. destruct (le_total a b N M) as [X|X]; [|exact X]. destruct (fl_leb b a) eqn:Eb; [apply fl_leb_num, Eb|].
  unfold fl_ltb in H. apply fl_leb_num in X. rewrite X, Eb in H. discriminate.
Qed.
Lemma py_min_ok l m : Forall a_number l -> py_min l = Ok m -> In m l /\ forall y, In y l -> num_le m y.
Proof.
  destruct l as [|x t]; [discriminate|]. intros F H. injection H; intros <-. inversion F as [|? ? Fx Ft]; subst. clear F H.
  revert x Fx. induction Ft as [|z t Fz Ft IH]; intros x Fx; cbn [fold_left]; [split; [left; reflexivity|intros y [<-|[]]; apply le_refl, Fx]|].
  destruct (fl_ltb z x) eqn:Ez.
  - destruct (IH z Fz) as [I1 I2]. split; [right; exact I1|]. apply fl_ltb_num in Ez. intros y [<-|Hy]; [apply (num_le_trans _ z); [apply I2; left; reflexivity|apply Ez]|apply I2, Hy].
  - destruct (IH x Fx) as [I1 I2]. apply ltb_false in Ez; auto. split; [destruct I1 as [<-|I1]; [left; reflexivity|right; right; exact I1]|].
    intros y [<-|[<-|Hy]]; [apply I2; left; reflexivity|apply (num_le_trans _ x); [apply I2; left; reflexivity|exact Ez]|apply I2; right; exact Hy].
Qed.
Lemma py_max_ok l m : Forall a_number l -> py_max l = Ok m -> In m l /\ forall y, In y l -> num_le y m.
Proof.
  destruct l as [|x t]; [discriminate|]. intros F H. injection H; intros <-. inversion F as [|? ? Fx Ft]; subst. clear F H.
  revert x Fx. induction Ft as [|z t Fz Ft IH]; intros x Fx; cbn [fold_left]; [split; [left; reflexivity|intros y [<-|[]]; apply le_refl, Fx]|].
  destruct (fl_ltb x z) eqn:Ez.
  - destruct (IH z Fz) as [I1 I2]. split; [right; exact I1|]. apply fl_ltb_num in Ez. intros y [<-|Hy]; [apply (num_le_trans _ z); [apply Ez|apply I2; left; reflexivity]|apply I2, Hy].
  - destruct (IH x Fx) as [I1 I2]. apply ltb_false in Ez; auto. split; [destruct I1 as [<-|I1]; [left; reflexivity|right; right; exact I1]|].
    intros y [<-|[<-|Hy]]; [apply I2; left; reflexivity|apply (num_le_trans _ x); [exact Ez|apply I2; left; reflexivity]|apply I2; right; exact Hy].
Qed.
Lemma py_min_some l : l <> [] -> exists m, py_min l = Ok m.
Proof. destruct l; [congruence|]. intros _. eexists. reflexivity. Qed.
Lemma py_max_some l : l <> [] -> exists m, py_max l = Ok m.
Proof. destruct l; [congruence|]. intros _. eexists. reflexivity. Qed.
Lemma constant_true l : Forall a_number l -> steady l -> constant l = Ok true.
Proof.
  intros F [N S]. destruct (py_min_some l N) as [a Ha]. destruct (py_max_some l N) as [b Hb]. unfold constant. rewrite Ha, Hb. cbn [bind]. f_equal.
  destruct (py_min_ok _ _ F Ha) as [I1 _]. destruct (py_max_ok _ _ F Hb) as [I2 _]. destruct (S a b I1 I2) as [X Y]. unfold fl_eqb. apply fl_leb_num in X, Y. rewrite X, Y. reflexivity.
Qed.
Lemma constant_false l : Forall a_number l -> varies l -> constant l = Ok false.
Proof.
  intros F (v & w & Hv & Hw & N). assert (Nl : l <> []) by (intros ->; destruct Hv). destruct (py_min_some l Nl) as [a Ha]. destruct (py_max_some l Nl) as [b Hb]. unfold constant. rewrite Ha, Hb. cbn [bind]. f_equal.
  destruct (py_min_ok _ _ F Ha) as [_ I1]. destruct (py_max_ok _ _ F Hb) as [_ I2]. apply Bool.not_true_iff_false. intros X. apply Bool.andb_true_iff in X. destruct X as [_ Y].
  apply fl_leb_num in Y. apply N. split; (eapply num_le_trans; [apply I2; eassumption|]); (eapply num_le_trans; [exact Y|]); apply I1; assumption.
Qed.

Lemma moving_axis_ok table a vs : (forall b ws, dget b table = Some (Col ws) -> Forall a_number ws) -> moving_axis table a vs -> hkl_axis axes3 table = Ok (Some (a, vs), Some vs).
Proof.
  intros F (pre & post & E & D & V & P). unfold axes3. rewrite E. clear E. induction P as [|b pre Hb P IH]; cbn [app hkl_axis].
  - rewrite D, (constant_false vs (F _ _ D) V). reflexivity.
  - assert (X : match pre ++ a :: post with [] => Ok (None, None) | _ => hkl_axis (pre ++ a :: post) table end = hkl_axis (pre ++ a :: post) table) by (destruct pre; reflexivity).
    destruct Hb as [-> | (ws & Dw & Sw)]; [rewrite X; exact IH|]. rewrite Dw, (constant_true ws (F _ _ Dw) Sw). cbn [bind negb].
    destruct (pre ++ a :: post) eqn:Ep; [destruct pre; discriminate|]. exact IH.
Qed.
Lemma steady_axes table names : (forall b ws, dget b table = Some (Col ws) -> Forall a_number ws) -> forall z vl, 
  Forall (fun b => dget b table = None \/ exists ws, dget b table = Some (Col ws) /\ steady ws) names -> dget z table = Some (Col vl) -> steady vl ->
  hkl_axis (names ++ [z]) table = Ok (None, Some vl).
Proof.
  intros F z vl P D S. induction P as [|b pre Hb P IH]; cbn [app hkl_axis].
  - rewrite D, (constant_true vl (F _ _ D) S). reflexivity.
  - destruct Hb as [-> | (ws & Dw & Sw)]; [destruct (pre ++ [z]) eqn:Ep; [destruct pre; discriminate|exact IH]|]. rewrite Dw, (constant_true ws (F _ _ Dw) Sw). cbn [bind negb].
    destruct (pre ++ [z]) eqn:Ep; [destruct pre; discriminate|]. exact IH.
Qed.

Section Again.
  Variable E : env.
  Variable known : list hid.
  Variable draw : image -> option exn.
  Hypothesis Hk : incl all_hids known.

  (** the first use, as if the scan had been interpreted before *)
  Lemma get_settled nm a name s s' sc' p : mem (L nm) (lazy_attributes known) = true -> usable E known s name s' sc' ->
    attr_get E known nm a name (mk_pst s p) = attr_get E known nm a name (mk_pst s' p).
  Proof.
    intros Hl U. rewrite (get_first E known nm a name s s' sc' p Hl U). destruct U as (sc & _ & G & Z & _). rewrite (get_again E known nm a name s' sc' p G Z). reflexivity.
  Qed.
  Lemma line_settled name s s' sc' p : usable E known s name s' sc' -> line_data E known name (mk_pst s p) = line_data E known name (mk_pst s' p).
  Proof. intros U. unfold line_data. unfold sbind at 1 6. rewrite (get_settled "column_last" A_column_last name s s' sc' p (lazy_column_last known Hk) U). reflexivity. Qed.

  Definition same_sdf {A} (m : PM A) : Prop := forall st, ps_sdf (fst (m st)) = ps_sdf st.
  Lemma ss_bind {A B} (m : PM A) (k : A -> PM B) : same_sdf m -> (forall a, same_sdf (k a)) -> same_sdf (sbind m k).
  Proof. intros H1 H2 st. unfold sbind. specialize (H1 st). destruct (m st) as [st1 [a|e]]; cbn [fst] in *; [rewrite H2; exact H1|exact H1]. Qed.
  Lemma ss_ret {A} (a : A) : same_sdf (sret a). Proof. intros st. reflexivity. Qed.
  Lemma ss_raise {A} e : same_sdf (@sraise pst A e). Proof. intros st. reflexivity. Qed.
  Lemma ss_lift {A} (r : res A) : same_sdf (slift r). Proof. intros st. reflexivity. Qed.
  Lemma ss_get {A} (f : plotter -> A) : same_sdf (get_p f). Proof. intros st. reflexivity. Qed.
  Lemma ss_set f : same_sdf (put_set f). Proof. intros st. reflexivity. Qed.
  Hint Resolve ss_bind ss_ret ss_raise ss_lift ss_get ss_set : ss.
  Lemma ss_line_image : same_sdf line_image.
  Proof. apply ss_bind; [auto with ss|]. intros p. destruct (p_signal p); [|auto with ss]. destruct (p_axes p) as [|a [|? ?]]; auto with ss. destruct (dget s (p_data p)); auto with ss. destruct (dget a (p_data p)); auto with ss. Qed.
  Lemma ss_rest k dm pm sc : k <> KMesh -> same_sdf (rest draw k dm pm sc).
  Proof.
    intros N. unfold rest. apply ss_bind.
    - destruct k; [| |congruence]; unfold plot_options, line_options; auto 8 with ss.
    - intros _. apply ss_bind; [auto with ss|]. intros p. apply ss_bind; [auto with ss|]. intros b. destruct (negb b); [auto with ss|]. apply ss_bind; [auto with ss|]. intros nw. destruct nw; [|auto with ss].
      unfold make_image. apply ss_bind; [destruct k; [| |congruence]; (apply ss_bind; [apply ss_line_image|auto with ss])|]. intros [i|]; [|auto with ss]. destruct (chart draw i); auto with ss.
  Qed.
  Lemma line_same name s sc p : dget name (scans s) = Some sc -> s_lazy sc = false -> ps_sdf (fst (line_data E known name (mk_pst s p))) = s.
  Proof.
    intros G Z. unfold line_data. unfold sbind at 1. rewrite (get_again E known "column_last" A_column_last name s sc p G Z). destruct (s_obj sc A_column_last) as [cl|]; cbn [of_opt]; [|reflexivity].
    unfold sbind at 1. unfold put_signal. cbn [ps_sdf ps_plotter]. unfold sbind at 1. rewrite (get_again E known "data" A_data name s sc _ G Z). destruct (s_obj sc A_data) as [d|]; cbn [of_opt]; [|reflexivity].
    match goal with |- context [if ?b then _ else _] => destruct b end; [reflexivity|]. unfold sbind at 1. rewrite (get_again E known "column_first" A_column_first name s sc _ G Z). destruct (s_obj sc A_column_first) as [cf|]; cbn [of_opt]; [|reflexivity].
    unfold sbind at 1. unfold put_axes. cbn [ps_sdf ps_plotter]. unfold sbind at 1. rewrite (get_again E known "L" A_L name s sc _ G Z). destruct (s_obj sc A_L) as [ls|]; cbn [of_opt]; reflexivity.
  Qed.
  Lemma catch_same name (m : PM unit) st : ps_sdf (fst (catch_key name m st)) = ps_sdf (fst (m st)).
  Proof.
    unfold catch_key, aborted. destruct (m st) as [st1 [a|e]]; [reflexivity|]. destruct e; try reflexivity. cbn [fst].
    destruct (dget name (scans (ps_sdf st1))) as [sc|]; [destruct (s_obj sc A_aborted)|]; reflexivity.
  Qed.
  (** a line plot of a scan that was used before leaves the data file object alone *)
  Lemma line_plot_same dm pm sc0 s sc p st r : dget (s_num sc0) (scans s) = Some sc -> s_lazy sc = false ->
    plot_scan E known draw KLine dm pm sc0 (mk_pst s p) = (st, r) -> ps_sdf st = s.
  Proof.
    intros G Z H. change st with (fst (st, r)). rewrite <- H. clear H. unfold plot_scan. unfold sbind at 1. unfold aborted at 1. cbn [ps_sdf]. rewrite G.
    match goal with |- context [if ?b then sraise ScanAborted else _] => destruct b end; [reflexivity|].
    unfold sbind at 1. unfold put_set at 1. cbv beta zeta. cbn [ps_sdf ps_plotter]. unfold sbind at 1. rewrite (get_plain E known "date" A_date _ _ _ _ (date_not_lazy known) G).
    destruct (s_obj sc A_date) as [date|]; cbn [of_opt]; [|reflexivity]. unfold sbind at 1. unfold put_set at 1. cbn [ps_sdf ps_plotter p_set p_signal p_axes p_data].
    match goal with |- ps_sdf (fst ((catch_key ?n ?m >>> ?k) ?x)) = _ => assert (X : ps_sdf (fst (catch_key n m x)) = s) by (rewrite catch_same; apply (line_same _ _ _ _ G Z)); change k with (rest draw KLine dm pm sc0); unfold sbind at 1; destruct (catch_key n m x) as [st1 [u|e]] end; cbn [fst] in *; [|exact X].
    rewrite (ss_rest KLine dm pm sc0); [exact X|discriminate].
  Qed.
  Lemma C79_lemma dm pm sc s s' sc' p p' date st r : dget (s_num sc) (scans s) = Some sc -> usable E known s (s_num sc) s' sc' -> fileName s' = fileName s ->
    attr_is sc A_date date -> attr_is sc' A_date date -> ~ attr_is sc A_aborted ABORTED0 -> ~ attr_is sc' A_aborted ABORTED0 ->
    plot_scan E known draw KLine dm pm sc (mk_pst s p) = (st, r) -> ps_sdf st = s' /\ (p' = p -> plot_scan E known draw KLine dm pm sc (mk_pst (ps_sdf st) p') = (st, r)).
  Proof.
    intros G U Hf T1 T2 A1 A2 H. pose proof U as (sc0 & _ & G' & Z' & _).
    assert (X : plot_scan E known draw KLine dm pm sc (mk_pst s p) = plot_scan E known draw KLine dm pm sc (mk_pst s' p)).
    { rewrite (plot_scan_eq E known draw KLine dm pm sc sc s p date G A1 T1), (plot_scan_eq E known draw KLine dm pm sc sc' s' p date G' A2 T2). rewrite Hf. unfold sbind at 1 2. cbn [retrieve]. unfold catch_key.
      rewrite (line_settled (s_num sc) s s' sc' _ U). reflexivity. }
    assert (Y : ps_sdf st = s') by (rewrite X in H; exact (line_plot_same dm pm sc s' sc' p st r G' Z' H)).
    split; [exact Y|]. intros ->. rewrite Y, <- X. exact H.
  Qed.
End Again.

Section Constant.
  Variable E : env.
  Variable known : list hid.
  Variable draw : image -> option exn.
  Hypothesis Hk : incl all_hids known.

  Lemma interpret_name name s : fileName (fst (interpret E known name s)) = fileName s.
  Proof.
    unfold interpret. destruct (dget name (scans s)) as [sc|]; [|reflexivity]. destruct (s_done sc); [reflexivity|].
    unfold run_on_scan. match goal with |- context [interpret_scan ?a ?b ?c ?d] => destruct (interpret_scan a b c d) as [w [u|e]] end; destruct (peer w); reflexivity.
  Qed.
  Lemma usable_name name s s' sc' : usable E known s name s' sc' -> fileName s' = fileName s.
  Proof. intros (sc & _ & _ & _ & [[_ H]|[_ ->]]); [|reflexivity]. change s' with (fst (s', @None exn)). rewrite <- H. apply interpret_name. Qed.

  Lemma hkl_still s sc s' sc' table last vl vh y date dm pm : dget (s_num sc) (scans s) = Some sc -> ~ attr_is sc A_aborted ABORTED0 -> attr_is sc A_date date ->
    usable E known s (s_num sc) s' sc' -> attr_is sc' A_data table -> attr_is sc' A_column_last last ->
    hkl_axis axes3 table = Ok (None, Some vl) -> dget (L "H") table = Some (Col vh) -> dget last table = Some (Col y) -> last <> POINT ->
    List.length vh = List.length y -> y <> [] -> newer dm pm ->
    exists st g, let i := XYPlot (PList (nums (map (fun i => FDec (Z.of_nat i) 0) (seq 1 (List.length y))))) (PList (nums y)) g in
      plot_scan E known draw KHkl dm pm sc (mk_pst s plotter0) = (st, match draw i with Some e => Raise e | None => Ok (Some i) end) /\
      texts g (fileName s) (L "#" ++ s_num sc ++ L ": " ++ s_cmd sc) (POINT ++ L " (hkl all held constant)") last date /\
      exists sc2, dget (s_num sc) (scans (ps_sdf st)) = Some sc2 /\ attr_is sc2 A_data (dset POINT (Col (map (fun i => FDec (Z.of_nat i) 0) (seq 1 (List.length y)))) table).
  Proof.
    intros D A T U H1 H2 Hx Dh Dy Nl Le Ne Nw. unfold attr_is in *. pose proof U as (sc0 & _ & G' & Z' & _).
    set (vs := map (fun i => FDec (Z.of_nat i) 0) (seq 1 (List.length y))). set (g0 := titled settings0 (fileName s) (s_num sc) (s_cmd sc) date).
    set (t2 := dset POINT (Col vs) table). set (sc2 := with_obj (upd A_data t2 (s_obj sc')) sc'). set (s2 := set_scans (dset (s_num sc) sc2 (scans s')) s').
    set (sc3 := with_obj (upd A_column_first POINT (s_obj sc2)) sc2). set (s3 := set_scans (dset (s_num sc) sc3 (scans s2)) s2).
    assert (G2 : dget (s_num sc) (scans s2) = Some sc2) by apply dget_dset_same. assert (G3 : dget (s_num sc) (scans s3) = Some sc3) by apply dget_dset_same.
    set (g1 := set_xtitle (POINT ++ L " (hkl all held constant)") g0).
    set (pd := dset last (PList (nums y)) (dset POINT (PList (nums vs)) [])).
    assert (Lh : plen (col_pval (Col vh)) = Ok (List.length y)) by (cbn [col_pval plen]; unfold nums; rewrite map_length, Le; reflexivity).
    assert (X : hkl_data E known (s_num sc) (mk_pst s (mk_plotter g0 None [] [])) = (mk_pst s3 (mk_plotter g1 (Some last) [POINT] pd), Ok tt)).
    { unfold hkl_data. unfold sbind at 1. rewrite (get_first E known "data" A_data (s_num sc) s s' sc' _ (lazy_data known Hk) U), H1. cbn [of_opt].
      unfold sbind at 1. unfold slift at 1. fold axes3. rewrite Hx. cbn [fst snd]. unfold sbind at 1. unfold sret at 1. unfold sbind at 1. unfold get_p at 1. cbn [ps_plotter p_axes].
      unfold sbind at 1. unfold sbind at 1. unfold slift at 1. rewrite Dh. cbn [of_opt]. unfold sbind at 1. unfold slift at 1. rewrite Lh. fold vs.
      unfold sbind at 1. fold t2. rewrite (attr_put_eq A_data t2 (s_num sc) s' _ sc' G'). fold sc2. fold s2. unfold sbind at 1. unfold put_set at 1. cbn [ps_sdf ps_plotter p_set p_signal p_axes p_data]. fold g1.
      unfold sbind at 1. unfold put_axes at 1. cbn [ps_sdf ps_plotter p_set p_signal p_axes p_data]. unfold sret at 1. cbn [fst snd].
      unfold sbind at 1. rewrite (attr_put_eq A_column_first POINT (s_num sc) s2 _ sc2 G2). fold sc3. fold s3.
      unfold sbind at 1. unfold put_data at 1. unfold sbind at 1. unfold get_p at 1. cbn [ps_plotter p_data]. unfold put_all_data at 1. cbn [ps_sdf ps_plotter p_set p_signal p_axes].
      unfold sbind at 1. rewrite (get_again E known "column_last" A_column_last (s_num sc) s3 sc3 _ G3 Z').
      change (s_obj sc3 A_column_last) with (s_obj sc' A_column_last). rewrite H2. cbn [of_opt].
      unfold sbind at 1. unfold put_signal. cbn [ps_sdf ps_plotter p_set p_signal p_axes p_data]. unfold sbind at 1. rewrite (get_again E known "data" A_data (s_num sc) s3 sc3 _ G3 Z').
      change (s_obj sc3 A_data) with (Some t2). cbn [of_opt]. unfold sbind at 1. unfold slift. unfold t2. rewrite dget_dset_other by auto. rewrite Dy. cbn [of_opt col_pval].
      unfold put_data, sbind, get_p, put_all_data. cbn [ps_sdf ps_plotter p_set p_signal p_axes p_data]. reflexivity. }
    set (g := line_settings g1 POINT last). exists (mk_pst s3 (mk_plotter g (Some last) [POINT] pd)), g. cbv zeta. split; [|split].
    - rewrite (plot_scan_eq E known draw KHkl dm pm sc sc s plotter0 date D A T). unfold sbind at 1. cbn [retrieve].
      change (p_set plotter0) with settings0. fold g0. cbn [plotter0 p_signal p_axes p_data]. rewrite (catch_ok (s_num sc) _ _ _ X).
      rewrite (rest_line draw KHkl) by discriminate. cbv zeta. fold g. f_equal. cbn [p_set].
      assert (Y : dget last pd = Some (PList (nums y))) by apply dget_dset_same.
      assert (X2 : dget POINT pd = Some (PList (nums vs))) by (unfold pd; rewrite dget_dset_other by auto; apply dget_dset_same).
      match goal with |- context [line_plottable ?p] => assert (P : line_plottable p = Ok true) end.
      { apply curve_line. exists last, POINT, (PList (nums vs)), (PList (nums y)), (List.length y). cbn [p_signal p_axes p_data long]. unfold nums, vs. rewrite !map_length, seq_length. do 6 (split; [auto|]).
        destruct y; [congruence|discriminate]. }
      rewrite P. cbn [bind negb]. rewrite (newer_ok _ _ Nw). cbn [bind]. rewrite X2, Y. unfold chart, xy_check.
      change (g_xlog g) with (Some false). change (g_ylog g) with (Some false). cbv iota. reflexivity.
    - unfold texts. do 6 (split; [reflexivity|]). reflexivity.
    - exists sc3. split; [exact G3|reflexivity].
  Qed.
End Constant.
