(** What mesh plots show (C77) *)
From Coq Require Import String Lia.
From Verif Require Import Py PyFacts Time Utils Keys Handlers Reader H5 Writer SpecWriter Plot SpecText SpecReader SpecPlot SpecHistory SpecKeys SpecInterp SpecData SpecDecimal
  InterpFacts DecimalFacts MeshFacts PlotFacts PlotFacts2 PlotFacts3 PlotFacts4.
Import ListNotations.
Local Open Scope list_scope.

(** every n-th value *)
Definition ev {A} (n a : nat) (l : list A) : list A :=
  map snd (List.filter (fun ix : nat * A => Nat.eqb (Nat.modulo (fst ix) n) 0) (combine (seq a (List.length l)) l)).
Lemma ev_app {A} n a (l m : list A) : ev n a (l ++ m) = ev n a l ++ ev n (a + List.length l) m.
Proof.
  revert a. induction l as [|x l IH]; intros a; [cbn [app List.length]; rewrite Nat.add_0_r; reflexivity|].
  unfold ev in *. cbn [app List.length seq combine List.filter fst]. specialize (IH (S a)). replace (a + S (List.length l)) with (S a + List.length l) by lia.
  destruct (Nat.eqb (Nat.modulo a n) 0); cbn [map app]; rewrite IH; reflexivity.
Qed.
Lemma ev_block {A} n a (x : A) l : 0 < n -> List.length l < n -> ev n (a * n) (x :: l) = [x].
Proof.
  intros Hn Hl. unfold ev. cbn [List.length seq combine List.filter fst]. rewrite Nat.mod_mul by lia. cbn [Nat.eqb map snd]. f_equal.
  assert (G : forall (l : list A) b, 0 < b -> b + List.length l <= n -> map snd (List.filter (fun ix : nat * A => Nat.eqb (Nat.modulo (fst ix) n) 0) (combine (seq (a * n + b) (List.length l)) l)) = []).
  { induction l0 as [|y l0 IH]; intros b Hb Hbl; [reflexivity|]. cbn [List.length seq combine List.filter fst] in *.
    rewrite Nat.add_comm, Nat.mod_add by lia. rewrite Nat.mod_small by lia. destruct (Nat.eqb b 0) eqn:Eb; [apply Nat.eqb_eq in Eb; lia|].
    replace (S (b + a * n)) with (a * n + S b) by lia. apply IH; lia. }
  replace (S (a * n)) with (a * n + 1) by lia. apply G; lia.
Qed.
Lemma every_part {A} n (l : list A) q t : 0 < n -> List.length l = q * n + t -> 0 < t -> t <= n ->
  List.length (every n l) = S q /\ forall j, j <= q -> nth_error (every n l) j = nth_error l (j * n).
Proof.
  intros Hn Hl0 Ht Htn. change (every n l) with (ev n (0 * n) l). set (a := 0). clearbody a. revert l a Hl0. induction q as [|q IH]; intros l a Hl.
  - destruct l as [|x l]; [cbn in Hl; lia|]. rewrite ev_block by (cbn in Hl; lia). split; [reflexivity|]. intros [|j] Hj; [reflexivity|lia].
  - rewrite <- (firstn_skipn n l). set (u := firstn n l). set (v := skipn n l).
    assert (Lu : List.length u = n) by (unfold u; rewrite firstn_length; lia).
    assert (Lv : List.length v = q * n + t) by (unfold v; rewrite skipn_length; lia).
    rewrite ev_app, Lu. replace (a * n + n) with (S a * n) by lia. destruct (IH v (S a) Lv) as [I1 I2].
    destruct u as [|x u']; [cbn in Lu; lia|]. rewrite ev_block by (cbn in Lu; lia). cbn [app List.length]. split; [rewrite I1; reflexivity|].
    intros [|j] Hj; [reflexivity|]. cbn [nth_error]. rewrite I2 by lia. change (x :: u' ++ v) with ((x :: u') ++ v). rewrite nth_error_app2 by (rewrite Lu; lia). rewrite Lu. f_equal. lia.
Qed.

Lemma axis_ok table labels i m x : axis_label table labels i m x -> (if has m table then Ok m else index (Z.of_nat i) labels) = Ok x.
Proof.
  intros [[A ->]|[A B]]; unfold has.
  - destruct (dget m table); [reflexivity|congruence].
  - rewrite A. unfold index. destruct (Z.of_nat i <? 0)%Z eqn:Ez; [apply Z.ltb_lt in Ez; lia|].
    assert (i < List.length labels) by (apply nth_error_Some; congruence). rewrite Ez, Nat2Z.id, B. reflexivity.
Qed.
Lemma nohkl cmd w ws : fields cmd (w :: ws) -> w = L "mesh" -> prefixb (L "hkl") cmd = false.
Proof.
  intros F ->. apply fields_words in F. apply Bool.not_true_iff_false. intros X. apply prefixb_spec in X. destruct X as [t ->].
  symmetry in F. destruct (words_cons _ _ _ F) as (a & r & Q & Ha & _ & _ & _ & _). destruct a as [|ch a]; [discriminate Q|].
  injection Q; intros _ <-. discriminate Ha.
Qed.
Section Mesh.
  Variable E : env.
  Variable known : list hid.
  Variable draw : image -> option exn.
  Hypothesis Hk : incl all_hids known.

  Lemma remove1_ok x l : In x l -> exists l', remove1 x l = Ok l'.
  Proof.
    induction l as [|y l IH]; intros H; [destruct H|]. cbn [remove1]. destruct (seqb x y) eqn:Ey; [eauto|]. destruct H as [->|H]; [rewrite seqb_refl in Ey; discriminate|].
    destruct (IH H) as [l' ->]. cbn [bind]. eauto.
  Qed.
  (** the loop over the other columns *)
  Definition cols_step (d : dict col) (sh : list nat) (label : str) : PM unit :=
    let* pd := get_p p_data in
    if has label pd then sret tt
    else let* v := slift (get_col label d) in
         put_data label (PArr (reshape_data NAN (flat_array (nums v)) sh)).
  Lemma cols_eq d sh ls s g sg ax : forall pd, (forall x, In x ls -> exists c, dget x d = Some (Col c)) ->
    exists pd', siter (cols_step d sh) ls (mk_pst s (mk_plotter g sg ax pd)) = (mk_pst s (mk_plotter g sg ax pd'), Ok tt) /\
      (forall x, has x pd = true -> dget x pd' = dget x pd) /\
      (forall x c, In x ls -> has x pd = false -> dget x d = Some (Col c) -> dget x pd' = Some (PArr (reshape_data NAN (flat_array (nums c)) sh))).
  Proof.
    induction ls as [|l ls IH]; intros pd H; [exists pd; split; [reflexivity|split; [auto|intros x c []]]|].
    destruct (H l) as [c Hc]; [left; reflexivity|]. cbn [siter]. unfold sbind at 1. unfold cols_step at 1. unfold sbind at 1. unfold get_p at 1. cbn [ps_plotter p_data].
    destruct (has l pd) eqn:Hl.
    - unfold sret at 1. destruct (IH pd) as (pd' & A & B & C); [intros; apply H; right; auto|]. exists pd'. split; [exact A|]. split; [exact B|].
      intros x c' [->|Hx] Hn Hd; [congruence|]. eapply C; eauto.
    - unfold sbind at 1. unfold slift at 1. unfold get_col. rewrite Hc. unfold put_data at 1. unfold sbind at 1. unfold get_p at 1. cbn [ps_plotter p_data]. unfold put_all_data at 1. cbn [ps_sdf ps_plotter p_set p_signal p_axes].
      set (v := PArr (reshape_data NAN (flat_array (nums c)) sh)). destruct (IH (dset l v pd)) as (pd' & A & B & C); [intros; apply H; right; auto|]. exists pd'. split; [exact A|].
      assert (Dl : dget l pd' = Some v) by (rewrite B; [apply dget_dset_same|unfold has; rewrite dget_dset_same; reflexivity]).
      assert (Ho : forall x, x <> l -> has x (dset l v pd) = has x pd) by (intros x N; unfold has; rewrite dget_dset_other by auto; reflexivity).
      split.
      + intros x Hx. assert (x <> l) by congruence. rewrite B by (rewrite Ho by auto; exact Hx). apply dget_dset_other; auto.
      + intros x c' Hx Hn Hd. destruct (str_eq_dec x l) as [->|N]; [rewrite Dl; unfold v; congruence|]. destruct Hx as [->|Hx]; [congruence|]. eapply C; eauto; rewrite Ho; auto.
  Qed.

  Lemma mesh_data_eq cmd name s s' sc' g table labels last m1 i1 m2 i2 n1 n2 x1 x2 c1 c2 q t : usable E known s name s' sc' -> attr_is sc' A_data table -> attr_is sc' A_L labels -> attr_is sc' A_column_last last ->
    (exists w y1 y2 y3 y4 z, fields cmd [w; m1; y1; y2; i1; m2; y3; y4; i2; z]) -> prefixb (L "hkl") cmd = false -> int_text i1 (Z.of_nat n1) -> int_text i2 n2 ->
    axis_label table labels 0 m1 x1 -> axis_label table labels 1 m2 x2 -> x1 <> x2 -> In x1 labels -> In x2 labels -> dget x1 table = Some (Col c1) -> dget x2 table = Some (Col c2) ->
    (forall x, In x labels -> exists c, dget x table = Some (Col c)) -> dget (L "_mca_") table = None ->
    clean_name last = Ok last -> In last labels -> last <> x1 -> last <> x2 ->
    List.length c1 = q * S n1 + t -> List.length c2 = q * S n1 + t -> 0 < t -> t <= S n1 -> S n1 <= q * S n1 + t ->
    exists s3 pd, mesh_data E known cmd name (mk_pst s (mk_plotter g None [] [])) = (mk_pst s3 (mk_plotter g (Some last) [x1; x2] pd), Ok tt) /\
      dget x1 pd = Some (PList (nums (firstn (S n1) c1))) /\ dget x2 pd = Some (PList (nums (every (S n1) c2))) /\
      (forall y, dget last table = Some (Col y) -> dget last pd = Some (PArr (reshape_data NAN (flat_array (nums y)) [S q; S n1]))) /\
      exists sc3 ls, dget name (scans s3) = Some sc3 /\ attr_is sc3 A_L ls /\ ~ (In x1 ls /\ NoDup labels).
  Proof.
    intros U HD HL HC (w & y1 & y2 & y3 & y4 & z & Fc) Nh I1 I2 A1 A2 Nx In1 In2 D1 D2 All Nm Cl Il Nl1 Nl2 L1 L2 T1 T2 T3.
    unfold attr_is in *. pose proof U as (sc & _ & G' & Z' & _). apply fields_words in Fc.
    destruct (remove1_ok x1 labels In1) as [ls1 R1]. assert (In x2 ls1) by (apply (remove1_in _ _ _ x2 R1); auto). destruct (remove1_ok x2 ls1 H) as [ls2 R2].
    set (sc2 := with_obj (upd A_L ls1 (s_obj sc')) sc'). set (s2 := set_scans (dset name sc2 (scans s')) s').
    set (sc3 := with_obj (upd A_L ls2 (s_obj sc2)) sc2). set (s3 := set_scans (dset name sc3 (scans s2)) s2).
    assert (G2 : dget name (scans s2) = Some sc2) by apply dget_dset_same. assert (G3 : dget name (scans s3) = Some sc3) by apply dget_dset_same.
    set (pd2 := dset x2 (PList (nums (every (S n1) c2))) (dset x1 (PList (nums (firstn (S n1) c1))) [])).
    destruct (every_part (S n1) c2 q t (Nat.lt_0_succ _) L2 T1 T2) as [Lev _].
    destruct (cols_eq table [S q; S n1] ls2 s3 g None [] pd2) as (pd & P1 & P2 & P3).
    { intros x Hx. apply All. eapply remove1_sub; [exact R1|]. eapply remove1_sub; eauto. }
    exists s3, pd. split; [|split; [|split; [|split]]].
    - pose proof (axis_ok table labels 0 m1 x1 A1) as K1. pose proof (axis_ok table labels 1 m2 x2 A2) as K2. change (Z.of_nat 0) with 0%Z in K1. change (Z.of_nat 1) with 1%Z in K2.
      unfold mesh_data. rewrite <- Fc. cbn [skipn].
      unfold sbind at 1. rewrite (get_first E known "data" A_data name s s' sc' _ (lazy_data known Hk) U), HD. cbn [of_opt].
      unfold sbind at 1. rewrite (get_again E known "L" A_L name s' sc' _ G' Z'), HL. cbn [of_opt].
      unfold sbind at 1. unfold slift at 1. rewrite K1.
      unfold sbind at 1. unfold slift at 1. rewrite K2.
      unfold sbind at 1. unfold slift at 1. rewrite (py_int_text _ _ I1).
      unfold sbind at 1. unfold slift at 1. rewrite (py_int_text _ _ I2).
      unfold sbind at 1. unfold slift at 1. unfold get_col at 1. rewrite D1.
      assert (Hs : (len c1 <? Z.of_nat n1)%Z = false) by (apply Z.ltb_ge; unfold len; rewrite L1; lia). rewrite Hs.
      unfold sbind at 1. unfold sret at 1. unfold mesh_columns.
      unfold sbind at 1. unfold slift at 1. unfold get_col at 1. rewrite D1. unfold sbind at 1. unfold slift at 1. unfold get_col at 1. rewrite D2.
      assert (Hz : (Z.of_nat n1 + 1 <=? 0)%Z = false) by (apply Z.leb_gt; lia). rewrite Hz. replace (Z.to_nat (Z.of_nat n1 + 1)) with (S n1) by lia. cbv zeta.
      unfold sbind at 1. unfold put_data at 1. unfold sbind at 1. unfold get_p at 1. cbn [ps_plotter p_data]. unfold put_all_data at 1. cbn [ps_sdf ps_plotter p_set p_signal p_axes].
      unfold sbind at 1. unfold put_data at 1. unfold sbind at 1. unfold get_p at 1. cbn [ps_plotter p_data]. unfold put_all_data at 1. cbn [ps_sdf ps_plotter p_set p_signal p_axes]. fold pd2.
      unfold sbind at 1. rewrite (get_again E known "L" A_L name s' sc' _ G' Z'), HL. cbn [of_opt].
      unfold sbind at 1. unfold slift at 1. rewrite R1. unfold sbind at 1. rewrite (attr_put_eq A_L ls1 name s' _ sc' G'). fold sc2. fold s2.
      unfold sbind at 1. unfold slift at 1. rewrite R2. unfold sbind at 1. rewrite (attr_put_eq A_L ls2 name s2 _ sc2 G2). fold sc3. fold s3.
      rewrite Nh. unfold sbind at 1. unfold sret at 1. unfold sbind at 1. rewrite Lev, firstn_length, L1, Nat.min_l by lia.
      change (fun label : str => let* pd0 := get_p p_data in if has label pd0 then sret tt else let* v := slift (get_col label table) in put_data label (PArr (reshape_data NAN (flat_array (nums v)) [S q; S n1])))
        with (cols_step table [S q; S n1]). rewrite P1.
      unfold sbind at 1. rewrite (get_again E known "column_last" A_column_last name s3 sc3 _ G3 Z').
      change (s_obj sc3 A_column_last) with (s_obj sc' A_column_last). rewrite HC. cbn [of_opt]. unfold sbind at 1. unfold slift at 1. rewrite Cl.
      unfold sbind at 1. unfold put_signal. cbn [ps_sdf ps_plotter p_set p_signal p_axes p_data]. unfold sbind at 1. unfold put_axes. cbn [ps_sdf ps_plotter p_set p_signal p_axes p_data]. rewrite Nm. reflexivity.
    - rewrite P2 by (unfold has, pd2; rewrite dget_dset_other, dget_dset_same by auto; reflexivity). unfold pd2. rewrite dget_dset_other, dget_dset_same by auto. reflexivity.
    - rewrite P2 by (unfold has, pd2; rewrite dget_dset_same by auto; reflexivity). unfold pd2. rewrite dget_dset_same. reflexivity.
    - intros y Hy. apply P3; [|unfold has, pd2; rewrite !dget_dset_other by auto; reflexivity|exact Hy]. apply (remove1_in _ _ _ last R2); auto. apply (remove1_in _ _ _ last R1); auto.
    - exists sc3, ls2. split; [exact G3|]. split; [reflexivity|]. intros [Q N]. destruct (remove1_nodup _ _ _ N R1) as [Q1 _]. apply Q1. eapply remove1_sub; eauto.
  Qed.
End Mesh.

Section Meshes.
  Variable E : env.
  Variable known : list hid.
  Variable draw : image -> option exn.
  Hypothesis Hk : incl all_hids known.

  Lemma grid_values y q n1 t : List.length y = q * S n1 + t -> 0 < t -> t <= S n1 -> let a := reshape_data NAN (flat_array (nums y)) [S q; S n1] in
    Utils.shape a = [S q; S n1] /\ List.length (flat a) = S q * S n1 /\ (forall r v, nth_error y r = Some v -> nth_error (flat a) r = Some (NF v)) /\
    (forall r, List.length y <= r -> r < S q * S n1 -> nth_error (flat a) r = Some (NF FNaN)).
  Proof.
    intros Ly T1 T2 a. assert (Ep : prod [S q; S n1] = S q * S n1) by (unfold prod; cbn [fold_left]; lia).
    assert (Ln : List.length (nums y) = List.length y) by apply map_length.
    assert (Hn : forall r v, nth_error y r = Some v -> nth_error (nums y) r = Some (NF v)) by (intros r v Hv; unfold nums; apply map_nth_error, Hv).
    unfold a, reshape_data. cbn [flat flat_array Utils.shape]. rewrite Ep, Ln. split; [reflexivity|].
    destruct (Nat.eqb (List.length y) (S q * S n1)) eqn:E1.
    - apply Nat.eqb_eq in E1. rewrite Ln. split; [exact E1|]. split; [exact Hn|]. intros; lia.
    - apply Nat.eqb_neq in E1. assert (E2 : Nat.ltb (List.length y) (S q * S n1) = true) by (apply Nat.ltb_lt; lia). rewrite E2.
      split; [rewrite app_length, skipn_length, repeat_length, Ln; lia|]. split.
      + intros r v Hv. rewrite nth_error_app1; [apply Hn, Hv|]. rewrite Ln. apply nth_error_Some. congruence.
      + intros r H1 H2. rewrite nth_error_app2 by lia. rewrite Ln. 
        assert (Hs : forall k m, nth_error (skipn k (repeat NAN m)) r = nth_error (skipn k (repeat NAN m)) r) by reflexivity. clear Hs.
        assert (Hs : forall k m i, k + i < m -> nth_error (skipn k (repeat NAN m)) i = Some NAN).
        { induction k as [|k IH]; intros m i Hi; [cbn [skipn]; apply nth_error_repeat; lia|]. destruct m; [lia|]. cbn [repeat skipn]. apply IH. lia. }
        apply Hs. lia.
  Qed.

  Lemma C77_lemma s sc s' sc' table labels last y date dm pm first more m1 i1 m2 i2 n1 n2 x1 x2 c1 c2 q t : dget (s_num sc) (scans s) = Some sc -> ~ attr_is sc A_aborted ABORTED0 -> attr_is sc A_date date ->
    usable E known s (s_num sc) s' sc' -> attr_is sc' A_data table -> attr_is sc' A_L labels -> attr_is sc' A_column_last last -> newer dm pm -> splitlines (s_raw sc) = first :: more ->
    (exists y1 y2 y3 y4 z, fields (s_cmd sc) [L "mesh"; m1; y1; y2; i1; m2; y3; y4; i2; z]) -> int_text i1 (Z.of_nat n1) -> int_text i2 n2 ->
    axis_label table labels 0 m1 x1 -> axis_label table labels 1 m2 x2 -> x1 <> x2 -> In x1 labels -> In x2 labels -> dget x1 table = Some (Col c1) -> dget x2 table = Some (Col c2) ->
    (forall x, In x labels -> exists c, dget x table = Some (Col c)) -> dget (L "_mca_") table = None ->
    clean_name last = Ok last -> In last labels -> last <> x1 -> last <> x2 -> dget last table = Some (Col y) ->
    List.length c1 = q * S n1 + t -> List.length c2 = q * S n1 + t -> List.length y = q * S n1 + t -> 0 < t -> t <= S n1 -> 0 < n1 -> 0 < q ->
    exists st g a xs ys, let i := MeshPlot (PArr a) [PList (map NF xs); PList (map NF ys)] g in
      plot_scan E known draw KMesh dm pm sc (mk_pst s plotter0) = (st, match draw i with Some e => Raise e | None => Ok (Some i) end) /\
      Utils.shape a = [List.length ys; List.length xs] /\ List.length xs = S n1 /\ List.length ys = S q /\ List.length (flat a) = S q * S n1 /\
      (forall i, i < S n1 -> nth_error xs i = nth_error c1 i) /\ (forall j, j < S q -> nth_error ys j = nth_error c2 (j * S n1)) /\
      (forall r v, nth_error y r = Some v -> nth_error (flat a) r = Some (NF v)) /\
      (forall r, List.length y <= r -> r < S q * S n1 -> nth_error (flat a) r = Some (NF FNaN)) /\
      texts g (fileName s) (last ++ L ",  " ++ first) x1 x2 date.
  Proof.
    intros D A T U H1 H2 H3 Nw Sp (y1 & y2 & y3 & y4 & z & Fc) I1 I2 A1 A2 Nx In1 In2 D1 D2 All Nm Cl Il Nl1 Nl2 Dy L1 L2 Ly T1 T2 Hn Hq.
    set (g0 := titled settings0 (fileName s) (s_num sc) (s_cmd sc) date).
    destruct (mesh_data_eq E known Hk (s_cmd sc) (s_num sc) s s' sc' g0 table labels last m1 i1 m2 i2 n1 n2 x1 x2 c1 c2 q t U H1 H2 H3) as (s3 & pd & M & P1 & P2 & P3 & _); try assumption.
    { exists (L "mesh"), y1, y2, y3, y4, z. exact Fc. } { eapply nohkl; [exact Fc|reflexivity]. } { nia. }
    specialize (P3 y Dy). destruct (every_part (S n1) c2 q t (Nat.lt_0_succ _) L2 T1 T2) as [Lev Nev].
    set (ar := reshape_data NAN (flat_array (nums y)) [S q; S n1]) in *. destruct (grid_values y q n1 t Ly T1 T2) as (Sa & La & Va & Wa). fold ar in Sa, La, Va, Wa.
    set (xs := firstn (S n1) c1) in *. set (ys := every (S n1) c2) in *.
    assert (Lx : List.length xs = S n1) by (unfold xs; rewrite firstn_length, L1; nia).
    set (g1 := set_logs false false false (set_ytitle x1 (set_xtitle x2 g0))).
    set (g := set_ytitle x2 (set_xtitle x1 (set_subtitle (last ++ L ",  " ++ first) g1))).
    set (i := MeshPlot (PArr ar) [PList (nums xs); PList (nums ys)] g).
    exists (mk_pst s3 (mk_plotter g (Some last) [x1; x2] pd)), g, ar, xs, ys. cbv zeta. fold (nums xs). fold (nums ys). fold i. split.
    - rewrite (plot_scan_eq E known draw KMesh dm pm sc sc s plotter0 date D A T). unfold sbind at 1. cbn [retrieve]. change (p_set plotter0) with settings0. fold g0. cbn [plotter0 p_signal p_axes p_data].
      rewrite (catch_ok (s_num sc) _ _ _ M). unfold rest. unfold sbind at 1. cbn [plot_options].
      assert (Eo : mesh_options (mk_pst s3 (mk_plotter g0 (Some last) [x1; x2] pd)) = (mk_pst s3 (mk_plotter g1 (Some last) [x1; x2] pd), Ok tt)) by reflexivity. rewrite Eo.
      unfold sbind at 1. unfold get_p at 1. cbn [ps_plotter]. unfold sbind at 1. unfold slift at 1. cbn [plottable].
      assert (Ep : mesh_plottable (mk_plotter g1 (Some last) [x1; x2] pd) = true).
      { apply mesh_plottable_iff; [right; reflexivity|]. exists last, (PArr ar). cbn [p_signal p_data p_axes]. split; [reflexivity|]. split; [exact P3|]. right.
        exists x1, x2, (PList (nums xs)), (PList (nums ys)), (S n1), (S q). cbn [long]. unfold nums. rewrite !map_length. do 5 (split; [assumption || reflexivity|]). exists ar. split; [reflexivity|exact Sa]. }
      rewrite Ep. cbn [negb]. unfold sbind at 1. unfold slift at 1. rewrite (newer_ok _ _ Nw). unfold make_image. unfold sbind at 1. unfold mesh_image. unfold sbind at 1. unfold get_p at 1. cbn [ps_plotter p_signal p_axes p_data].
      unfold sbind at 1. unfold slift at 1. cbn [of_opt]. unfold sbind at 1. unfold slift at 1. rewrite P3. cbn [of_opt]. unfold sbind at 1. unfold slift at 1. rewrite Sp. change (index 0 (first :: more)) with (Ok first).
      unfold sbind at 1. unfold put_set at 1. cbn [ps_sdf ps_plotter p_set p_signal p_axes p_data]. unfold sbind at 1. unfold put_set at 1. cbn [ps_sdf ps_plotter p_set p_signal p_axes p_data].
      unfold sbind at 1. unfold put_set at 1. cbn [ps_sdf ps_plotter p_set p_signal p_axes p_data]. fold g. unfold sbind at 1. unfold slift at 1. rewrite P1. cbn [of_opt]. unfold sbind at 1. unfold slift at 1. rewrite P2. cbn [of_opt].
      unfold sbind at 1. unfold get_p at 1. cbn [ps_plotter p_set]. unfold sret at 1. fold i. unfold chart. unfold i at 1. unfold png_check. cbn [List.length Nat.eqb forallb plen]. unfold nums. rewrite !map_length, Lx, Lev.
      destruct n1; [lia|]. destruct q; [lia|]. cbn [Nat.leb andb]. destruct (draw i); reflexivity.
    - rewrite Lev, Lx. split; [exact Sa|]. split; [reflexivity|]. split; [reflexivity|]. split; [exact La|]. split; [|split; [|split; [exact Va|split; [exact Wa|]]]].
      + intros k Hk'. unfold xs. clear -Hk'. revert k c1 Hk'. generalize (S n1). induction n as [|n IH]; intros k c Hk'; [lia|]. destruct c as [|x c]; [reflexivity|]. destruct k; [reflexivity|]. cbn [firstn nth_error]. apply IH. lia.
      + intros j Hj. apply Nev. lia.
      + unfold texts. do 6 (split; [reflexivity|]). reflexivity.
  Qed.
End Meshes.
