(** C48, C55, C76-C79: image makers and plots.
    Theorems only; proofs are in PlotFacts*.v. *)
From Coq Require Import String Lia.
From Verif Require Import Uni Py PyFacts Time Utils SpecUtils UtilsFacts Keys Handlers Reader SpecText SpecReader SpecHistory SpecKeys SpecInterp SpecData SpecDecimal SpecNum TextFacts InterpFacts ExampleFacts
  H5 Writer SpecWriter Plot Gallery SpecPlot PlotFacts PlotFacts2 PlotFacts3 PlotFacts4 PlotFacts5 PlotFacts6 PlotFacts7 KeyFacts InterpFacts DataFacts2 LastFacts PropWriter PropData.
Import ListNotations.
Local Open Scope list_scope.

(* ------------------------------------------------------------------ *)
(** * C48 *)

(** an image maker found for a macro is found again, whatever was called between, unless it was replaced *)
Theorem C48_macro_keeps_image_maker : forall before m c mid, answer before (OpAuto m) = OutCls (Ok c) -> m <> default_key -> (forall op, In op mid -> ~ replaces m op) ->
  answer (before ++ OpAuto m :: mid) (OpAuto m) = OutCls (Ok c).
Proof. exact C48_auto_lemma. Qed.
Print Assumptions C48_macro_keeps_image_maker.
Theorem C48_stored_image_maker : forall before m op c d mid, op = OpAdd m c d \/ op = OpUpdate m c d -> (exists v, answer before op = OutCls (Ok v)) -> m <> default_key ->
  (forall op, In op mid -> ~ replaces m op) -> answer (before ++ op :: mid) (OpAuto m) = OutCls (Ok c).
Proof. exact C48_stored_lemma. Qed.
Print Assumptions C48_stored_image_maker.
(** a call that raises an exception changes no later answer *)
Theorem C48_errors_change_nothing : forall ops op e later op', answer ops op = OutCls (Raise e) -> answer (ops ++ op :: later) op' = answer (ops ++ later) op'.
Proof. exact C48_error_lemma. Qed.
Print Assumptions C48_errors_change_nothing.
Theorem C48_add_known : forall ops m c v d, answer ops (OpGet m) = OutOpt (Some c) -> answer ops (OpAdd m v d) = OutCls (Raise KeyError).
Proof. exact C48_known_lemma. Qed.
Print Assumptions C48_add_known.
Theorem C48_update_unknown : forall ops m v d, answer ops (OpGet m) = OutOpt None -> answer ops (OpUpdate m v d) = OutCls (Raise KeyError).
Proof. exact C48_unknown_lemma. Qed.
Print Assumptions C48_update_unknown.
(** the rules for a macro seen for the first time *)
Theorem C48_rules : forall ops m, answer ops (OpGet m) = OutOpt None ->
  (m = L "hklscan" -> answer ops (OpAuto m) = OutCls (Ok HklP)) /\
  (m <> L "hklscan" -> ends_with "scan" m -> answer ops (OpAuto m) = OutCls (Ok LineP)) /\
  (ends_with "mesh" m -> answer ops (OpAuto m) = OutCls (Ok MeshP)) /\
  (~ ends_with "scan" m -> ~ ends_with "mesh" m -> forall c, answer ops (OpGet default_key) = OutOpt (Some c) -> answer ops (OpAuto m) = OutCls (Ok c)).
Proof. exact C48_rules_lemma. Qed.
Print Assumptions C48_rules.
(** there is always a default; it changes only when that is asked for *)
Theorem C48_there_is_a_default : forall ops, exists c, answer ops (OpGet default_key) = OutOpt (Some c) /\ image_maker c.
Proof. exact C48_default_lemma. Qed.
Print Assumptions C48_there_is_a_default.
Theorem C48_default_stays : forall ops op, ~ sets_default op -> answer (ops ++ [op]) (OpGet default_key) = answer ops (OpGet default_key).
Proof. exact C48_same_default_lemma. Qed.
Print Assumptions C48_default_stays.
Theorem C48_default_set : forall ops op k c, op = OpAdd k c true \/ op = OpUpdate k c true -> (exists v, answer ops op = OutCls (Ok v)) ->
  answer (ops ++ [op]) (OpGet default_key) = OutOpt (Some c).
Proof. exact C48_set_default_lemma. Qed.
Print Assumptions C48_default_set.
(** Selector() gives the one instance: another call changes no answer; neither does get *)
Theorem C48_one_selector : forall ops later op, answer (ops ++ OpNew :: later) op = answer (ops ++ later) op.
Proof. exact C48_new_lemma. Qed.
Print Assumptions C48_one_selector.
Theorem C48_get_changes_nothing : forall ops later op k, answer (ops ++ OpGet k :: later) op = answer (ops ++ later) op.
Proof. exact C48_get_lemma. Qed.
Print Assumptions C48_get_changes_nothing.
Definition calls : list sel_op := [OpAuto (L "ascan"); OpAdd (L "mymac") (UserP 1) true; OpAdd (L "ascan") MeshP false; OpUpdate (L "dscan") HklP false].
Example C48_example : answer (calls ++ [OpAuto (L "Escan")]) (OpAuto (L "ascan")) = OutCls (Ok LineP) /\ answer calls (OpAuto (L "count")) = OutCls (Ok (UserP 1)) /\
  answer calls (OpAuto (L "hklmesh")) = OutCls (Ok MeshP).
Proof.
  split; [|split; vm_compute; reflexivity]. refine (C48_macro_keeps_image_maker [] (L "ascan") LineP (tl calls ++ [OpAuto (L "Escan")]) _ _ _); [vm_compute; reflexivity|apply seqb_neq; reflexivity|].
  intros op H (v & d & -> & _). repeat (destruct H as [H|H]; [discriminate H|]). destruct H.
Qed.
Example C48_error_example : answer [OpAuto (L "ascan")] (OpAdd (L "ascan") MeshP true) = OutCls (Raise KeyError) /\ answer [] (OpAdd (L "x") (OtherClass 1) true) = OutCls (Raise UnexpectedObjectTypeError).
Proof. split; reflexivity. Qed.
(** the key of the default itself is no macro: it changes with each new default *)
Theorem C48_default_key_refuted : ~ forall before m c mid, answer before (OpAuto m) = OutCls (Ok c) -> (forall op, In op mid -> ~ replaces m op) ->
  answer (before ++ OpAuto m :: mid) (OpAuto m) = OutCls (Ok c).
Proof.
  intros H. specialize (H [] default_key LineP [OpAdd (L "x") MeshP true] eq_refl). assert (X : OutCls (Ok MeshP) = OutCls (Ok LineP)); [|discriminate X].
  rewrite <- H; [reflexivity|]. intros op [<-|[]] (v & d & X & _). discriminate X.
Qed.
Print Assumptions C48_default_key_refuted.

(* ------------------------------------------------------------------ *)
(** * C55 *)

(** a plot is written exactly if the scan can be plotted and the data are newer than the plot, for every image maker,
    scan and state *)
Theorem C55_plot_made : forall E known draw k dm pm sc st st' r, plot_scan E known draw k dm pm sc st = (st', Ok r) ->
  (r <> None <-> ready k (ps_plotter st') /\ newer dm pm).
Proof. exact C55_lemma. Qed.
Print Assumptions C55_plot_made.
Theorem C55_need_to_make_plot : forall pm m, needToMakePlot pm m = false <-> exists t, pm = Some t /\ (m < t)%Z.
Proof.
  intros [t|] m; cbn [needToMakePlot]; [|split; [discriminate|intros (t & X & _); discriminate X]]. rewrite Bool.negb_false_iff, Z.ltb_lt. split; [eauto|intros (u & [= <-] & H); exact H].
Qed.
Print Assumptions C55_need_to_make_plot.
Definition draws (i : image) : option exn := None.
Definition plotted (k : kind) (pm : option Z) (name : string) (s : sdf) : pst * res (option image) := plot_scan E0 all_hids draws k (Ok 5%Z) pm (scan_of name s) (mk_pst s plotter0).
Definition curve : path := one "ascan th 0 1 2 1" ["#N 3"; "#L th  I0  det"; "0 100 7"; "1 101 9"; "2 102 4"]%string.
Definition is_plot (r : res (option image)) : option bool := match r with Ok o => Some (match o with Some _ => true | None => false end) | Raise _ => None end.
Example C55_example : is_plot (snd (plotted KLine (Some 4%Z) "1" (opened curve))) = Some true /\ is_plot (snd (plotted KLine (Some 5%Z) "1" (opened curve))) = Some false /\
  is_plot (snd (plotted KLine None "1" (opened curve))) = Some true.
Proof. repeat split; vm_compute; reflexivity. Qed.

(* ------------------------------------------------------------------ *)
(** * C76 *)

(** the plot of an unused scan with distinct labels shows the last number of each row against the first, with the last label against
    the first, the name of the file, the number and command of the scan and its date *)
Theorem C76_last_against_first_partial : forall E known draw, incl all_hids known -> forall s sc s' sc' ls dl n date dm pm row,
  first_interpret E known s (s_num sc) sc s' sc' -> attr_is sc A_date date -> lines_of (s_raw sc) ls -> Keeps data_line_of ls dl ->
  attr_is sc' A_N (Some [n]) -> (forall l, In l dl -> ~ control H_atA l) ->
  (forall labels, labels_written ls labels -> NoDup labels) ->
  (forall labels, attr_is sc' A_L labels -> is_row (List.length labels) row) -> In row dl -> newer dm pm ->
  exists labels rows tbl x y st g, attr_is sc' A_L labels /\ labels_written ls labels /\ Keeps (is_row (List.length labels)) dl rows /\ Forall2 (a_row (List.length labels)) rows tbl /\
    Forall2 (fun vals v => nth_error vals 0 = Some v) tbl x /\ Forall2 (fun vals v => nth_error vals (List.length labels - 1) = Some v) tbl y /\
    let i := XYPlot (PList (map NF x)) (PList (map NF y)) g in
    plot_scan E known draw KLine dm pm sc (mk_pst s plotter0) = (st, match draw i with Some e => Raise e | None => Ok (Some i) end) /\
    texts g (fileName s) (L "#" ++ s_num sc ++ L ": " ++ s_cmd sc) (hd [] labels) (last labels []) date.
Proof. exact C76_lemma. Qed.
Print Assumptions C76_last_against_first_partial.
(** the same for a scan in any state (used before or not), in terms of its table *)
Theorem C76_columns_shown : forall E known draw, incl all_hids known -> forall s sc s' sc' table labels first last x y date dm pm,
  dget (s_num sc) (scans s) = Some sc -> ~ attr_is sc A_aborted ABORTED0 -> attr_is sc A_date date ->
  usable E known s (s_num sc) s' sc' -> attr_is sc' A_data table -> attr_is sc' A_L labels -> attr_is sc' A_column_first first -> attr_is sc' A_column_last last ->
  In first labels -> In last labels -> dget first table = Some (Col x) -> dget last table = Some (Col y) ->
  List.length x = List.length y -> y <> [] -> newer dm pm ->
  exists p g, let i := XYPlot (PList (map NF x)) (PList (map NF y)) g in
    plot_scan E known draw KLine dm pm sc (mk_pst s plotter0) = (mk_pst s' p, match draw i with Some e => Raise e | None => Ok (Some i) end) /\
    texts g (fileName s) (L "#" ++ s_num sc ++ L ": " ++ s_cmd sc) first last date.
Proof. exact line_plot. Qed.
Print Assumptions C76_columns_shown.
(** no data in the last column: NoDataToPlot *)
Theorem C76_no_data : forall E known draw, incl all_hids known -> forall s sc s' sc' table last date dm pm,
  dget (s_num sc) (scans s) = Some sc -> ~ attr_is sc A_aborted ABORTED0 -> attr_is sc A_date date ->
  usable E known s (s_num sc) s' sc' -> attr_is sc' A_data table -> attr_is sc' A_column_last last -> dget last table = None ->
  exists st, plot_scan E known draw KLine dm pm sc (mk_pst s plotter0) = (st, Raise NoDataToPlot).
Proof. exact line_no_data. Qed.
Print Assumptions C76_no_data.
(** what an image shows *)
Definition shown (r : res (option image)) : option (pval * pval) := match r with Ok (Some (XYPlot x y _)) => Some (x, y) | _ => None end.
Definition nfs (l : list Z) : pval := PList (map (fun z => NF (FDec z 0)) l).
Example C76_example : shown (snd (plotted KLine None "1" (opened curve))) = Some (nfs [0; 1; 2]%Z, nfs [7; 9; 4]%Z).
Proof. vm_compute. reflexivity. Qed.
(** a repeated label: the plot shows the first of the columns det, not the last *)
Definition twice : path := one "ascan th 0 1 2 1" ["#N 3"; "#L th  det  det"; "0 100 7"; "1 101 9"; "2 102 4"]%string.
Theorem C76_repeated_label_refuted : history E0 all_hids (opened twice) /\ shown (snd (plotted KLine None "1" (opened twice))) = Some (nfs [0; 1; 2]%Z, nfs [100; 101; 102]%Z).
Proof. split; [apply opened_history; vm_compute; reflexivity|vm_compute; reflexivity]. Qed.
Print Assumptions C76_repeated_label_refuted.
Example C76_applies : exists x y st g, plot_scan E0 all_hids draws KLine (Ok 5%Z) None (before plain) (mk_pst (opened plain) plotter0) = (st, Ok (Some (XYPlot (PList (map NF x)) (PList (map NF y)) g))) /\
  texts g (L "f") (L "#1: ascan x 0 1 1 1") (L "Two Theta") (L "det") (L "Wed Nov 03 13:48:06 2010").
Proof.
  assert (N : s_num (before plain) = L "1") by (vm_compute; reflexivity).
  assert (U : forall labels, attr_is (after plain) A_L labels -> labels = map L ["Two Theta"; "I0"; "det"]%string) by (intros labels H; assert (X : attr_is (after plain) A_L (map L ["Two Theta"; "I0"; "det"]%string)) by (vm_compute; reflexivity); unfold attr_is in *; congruence).
  destruct (C76_last_against_first_partial E0 all_hids draws (incl_refl _) (opened plain) (before plain) (interpreted "1" (opened plain)) (after plain) (its_lines plain) (its_data plain) 3%Z
    (L "Wed Nov 03 13:48:06 2010") (Ok 5%Z) None (L "1.5 10 100")) as (labels & rows & tbl & x & y & st & g & H1 & _ & _ & _ & _ & _ & H2 & H3).
  - rewrite N. exact plain_good.
  - vm_compute; reflexivity.
  - apply its_lines_ok.
  - apply its_data_ok.
  - vm_compute; reflexivity.
  - intros l Hl. vm_compute in Hl. each_line Hl; not_control.
  - intros labels H. assert (X : labels = map L ["Two Theta"; "I0"; "det"]%string).
    { assert (C : control H_L (L "#L Two Theta  I0  det")) by is_control.
      destruct H as [[F _]|(l & t & Hl & Hc & Hlab)].
      - exfalso. rewrite Forall_forall in F. apply (F (L "#L Two Theta  I0  det")); [in_list|exact C].
      - assert (El : l = L "#L Two Theta  I0  det").
        { apply (last_line_fun H_L (its_lines plain)); [exact Hl|]. exists (firstn 3 (its_lines plain)), (skipn 4 (its_lines plain)). split; [vm_compute; reflexivity|]. split; [exact C|].
          apply Forall_forall. intros l0 Hl0. vm_compute in Hl0. each_line Hl0; not_control. }
        subst l. apply content_strip in Hc; [|in_list]. subst t.
        destruct Hlab as [Hlab|[Hlab _]]; apply label_list_fun in Hlab; [rewrite Hlab; vm_compute; reflexivity|vm_compute in Hlab; discriminate Hlab]. }
    rewrite X. repeat (constructor; [intros Y; repeat (destruct Y as [Y|Y]; [vm_compute in Y; discriminate Y|]); destruct Y|]). constructor.
  - intros labels H. rewrite (U _ H). exists [FDec 15 (-1); FDec 10 0; FDec 100 0], (map L ["1.5"; "10"; "100"]%string).
    split; [apply fields_words; vm_compute; reflexivity|]. split; [|reflexivity]. repeat (constructor; [vm_compute; reflexivity|]). constructor.
  - in_list.
  - exists 5%Z. split; [reflexivity|lia].
  - exists x, y, st, g. split; [exact H2|]. rewrite (U _ H1) in H3. rewrite N in H3. exact H3.
Qed.

(* ------------------------------------------------------------------ *)
(** * C77 *)

(** the plot of a mesh with q complete rows of n1 + 1 points and another one of t points: element r is point number r, in the row
    r / (n1 + 1) of the second axis and the column r mod (n1 + 1) of the first; NaN stands for points not measured *)
Theorem C77_mesh_plot_partial : forall E known draw, incl all_hids known -> forall s sc s' sc' table labels last y date dm pm first more m1 i1 m2 i2 n1 n2 x1 x2 c1 c2 q t,
  dget (s_num sc) (scans s) = Some sc -> ~ attr_is sc A_aborted ABORTED0 -> attr_is sc A_date date ->
  usable E known s (s_num sc) s' sc' -> attr_is sc' A_data table -> attr_is sc' A_L labels -> attr_is sc' A_column_last last -> newer dm pm -> Lines py_eol (s_raw sc) (first :: more) ->
  (exists y1 y2 y3 y4 z, fields (s_cmd sc) [L "mesh"; m1; y1; y2; i1; m2; y3; y4; i2; z]) -> int_text i1 (Z.of_nat n1) -> int_text i2 n2 ->
  axis_label table labels 0 m1 x1 -> axis_label table labels 1 m2 x2 -> x1 <> x2 -> In x1 labels -> In x2 labels -> dget x1 table = Some (Col c1) -> dget x2 table = Some (Col c2) ->
  (forall x, In x labels -> exists c, dget x table = Some (Col c)) -> dget (L "_mca_") table = None ->
  valid_name last -> In last labels -> last <> x1 -> last <> x2 -> dget last table = Some (Col y) ->
  List.length c1 = q * S n1 + t -> List.length c2 = q * S n1 + t -> List.length y = q * S n1 + t -> 0 < t -> t <= S n1 -> 0 < n1 -> 0 < q ->
  exists st g a xs ys, let i := MeshPlot (PArr a) [PList (map NF xs); PList (map NF ys)] g in
    plot_scan E known draw KMesh dm pm sc (mk_pst s plotter0) = (st, match draw i with Some e => Raise e | None => Ok (Some i) end) /\
    Utils.shape a = [List.length ys; List.length xs] /\ List.length xs = S n1 /\ List.length ys = S q /\ List.length (flat a) = S q * S n1 /\
    (forall i, i < S n1 -> nth_error xs i = nth_error c1 i) /\ (forall j, j < S q -> nth_error ys j = nth_error c2 (j * S n1)) /\
    (forall r v, nth_error y r = Some v -> nth_error (flat a) r = Some (NF v)) /\
    (forall r, List.length y <= r -> r < S q * S n1 -> nth_error (flat a) r = Some (NF FNaN)) /\
    texts g (fileName s) (last ++ L ",  " ++ first) x1 x2 date.
Proof.
  intros E known draw Hk s sc s' sc' table labels last y date dm pm first more m1 i1 m2 i2 n1 n2 x1 x2 c1 c2 q t A1 A2 A3 A4 A5 A6 A7 A8 A9. intros A10 A11 A12 A13 A14 A15 A16 A17 A18 A19 A20 A21 A22.
  apply Lines_splitlines in A9. symmetry in A9. apply C33_id_lemma in A22.
  exact (C77_lemma E known draw Hk s sc s' sc' table labels last y date dm pm first more m1 i1 m2 i2 n1 n2 x1 x2 c1 c2 q t A1 A2 A3 A4 A5 A6 A7 A8 A9 A10 A11 A12 A13 A14 A15 A16 A17 A18 A19 A20 A21 A22).
Qed.
Print Assumptions C77_mesh_plot_partial.
Definition part_grid : path := one "mesh x 0 1 1 y 0 2 2 1" ["#N 3"; "#L x  y  det"; "0 0 1"; "1 0 2"; "0 2 3"; "1 2 4"; "0 4 5"]%string.
Definition the_grid (r : res (option image)) : option (list nat * list num) := match r with Ok (Some (MeshPlot (PArr a) _ _)) => Some (Utils.shape a, flat a) | _ => None end.
Definition fls (l : list Z) : list num := map (fun z => NF (FDec z 0)) l.
Example C77_example : the_grid (snd (plotted KMesh None "1" (opened part_grid))) = Some ([3; 2], fls [1; 2; 3; 4; 5]%Z ++ [NF FNaN]).
Proof. vm_compute. reflexivity. Qed.
Lemma its_number p n : seqb (s_num (before p)) n = true -> s_num (before p) = n.
Proof. apply seqb_eq. Qed.
Lemma usable_ex p : good p -> s_num (before p) = L "1" -> usable E0 all_hids (opened p) (s_num (before p)) (interpreted "1" (opened p)) (after p).
Proof. intros H N. rewrite N. exact (first_usable E0 all_hids _ _ _ _ _ H). Qed.
Lemma found_ex p : good p -> s_num (before p) = L "1" -> dget (s_num (before p)) (scans (opened p)) = Some (before p).
Proof. intros (_ & H & _) N. rewrite N. exact H. Qed.
Lemma fresh_ex p : good p -> ~ attr_is (before p) A_aborted ABORTED0.
Proof. intros (H1 & H2 & H3 & _). unfold attr_is. rewrite (fresh_aborted E0 all_hids _ _ _ H1 H2 H3). discriminate. Qed.
Example C77_applies : exists st g a xs ys, plotted KMesh None "1" (opened part_grid) = (st, Ok (Some (MeshPlot (PArr a) [PList (map NF xs); PList (map NF ys)] g))) /\ Utils.shape a = [3; 2].
Proof.
  assert (G : good part_grid) by good_tac. assert (N : s_num (before part_grid) = L "1") by (vm_compute; reflexivity).
  destruct (C77_mesh_plot_partial E0 all_hids draws (incl_refl _) (opened part_grid) (before part_grid) (interpreted "1" (opened part_grid)) (after part_grid)
    [(L "x", Col (map (fun z => FDec z 0) [0; 1; 0; 1; 0]%Z)); (L "y", Col (map (fun z => FDec z 0) [0; 0; 2; 2; 4]%Z)); (L "det", Col (map (fun z => FDec z 0) [1; 2; 3; 4; 5]%Z))]
    (map L ["x"; "y"; "det"]%string) (L "det") (map (fun z => FDec z 0) [1; 2; 3; 4; 5]%Z) (L "Wed Nov 03 13:48:06 2010") (Ok 5%Z) None (hd [] (splitlines (s_raw (before part_grid)))) (tl (splitlines (s_raw (before part_grid))))
    (L "x") (L "1") (L "y") (L "2") 1 2%Z (L "x") (L "y") (map (fun z => FDec z 0) [0; 1; 0; 1; 0]%Z) (map (fun z => FDec z 0) [0; 0; 2; 2; 4]%Z) 2 1) as (st & g & a & xs & ys & X1 & X2 & X3 & X4 & _).
  - apply found_ex; assumption.
  - apply fresh_ex; assumption.
  - vm_compute; reflexivity.
  - apply usable_ex; assumption.
  - vm_compute; reflexivity.
  - vm_compute; reflexivity.
  - vm_compute; reflexivity.
  - exists 5%Z. split; [reflexivity|lia].
  - apply Lines_splitlines. vm_compute. reflexivity.
  - exists (L "0"), (L "1"), (L "0"), (L "2"), (L "1"). apply fields_words. vm_compute. reflexivity.
  - exists [], false, (L "1"). split; [left; auto|]. split; [discriminate|]. split; [constructor; [split; vm_compute; discriminate|constructor]|split; reflexivity].
  - exists [], false, (L "2"). split; [left; auto|]. split; [discriminate|]. split; [constructor; [split; vm_compute; discriminate|constructor]|split; reflexivity].
  - left. split; [discriminate|reflexivity].
  - left. split; [discriminate|reflexivity].
  - discriminate.
  - in_list.
  - in_list.
  - reflexivity.
  - reflexivity.
  - intros x [<-|[<-|[<-|[]]]]; eexists; reflexivity.
  - reflexivity.
  - split; [discriminate|]. split; [repeat constructor; vm_compute; reflexivity|]. intros c t Q. injection Q; intros _ <-. reflexivity.
  - in_list.
  - discriminate.
  - discriminate.
  - reflexivity.
  - reflexivity.
  - reflexivity.
  - reflexivity.
  - lia.
  - lia.
  - lia.
  - lia.
  - exists st, g, a, xs, ys. split; [exact X1|]. rewrite X2, X3, X4. reflexivity.
Qed.
(** a mesh whose last column has a label that is no valid name gets no plot, without any message *)
Definition blank_grid : path := one "mesh x 0 1 1 y 0 2 1 1" ["#N 3"; "#L x  y  Ion Ch"; "0 0 1"; "1 0 2"; "0 2 3"; "1 2 4"]%string.
Theorem C77_label_refuted : history E0 all_hids (opened blank_grid) /\ snd (plotted KMesh None "1" (opened blank_grid)) = Ok None.
Proof. split; [apply opened_history; vm_compute; reflexivity|vm_compute; reflexivity]. Qed.
Print Assumptions C77_label_refuted.
(** a mesh of a single row cannot be plotted *)
Definition row_grid : path := one "mesh x 0 1 1 y 0 2 0 1" ["#N 3"; "#L x  y  det"; "0 0 1"; "1 0 2"]%string.
Theorem C77_single_row_refuted : history E0 all_hids (opened row_grid) /\ snd (plotted KMesh None "1" (opened row_grid)) = Raise IndexError.
Proof. split; [apply opened_history; vm_compute; reflexivity|vm_compute; reflexivity]. Qed.
Print Assumptions C77_single_row_refuted.

(* ------------------------------------------------------------------ *)
(** * C78 *)

Theorem C78_moving_axis_partial : forall E known draw, incl all_hids known -> forall s sc s' sc' table last ax x y date dm pm,
  dget (s_num sc) (scans s) = Some sc -> ~ attr_is sc A_aborted ABORTED0 -> attr_is sc A_date date ->
  usable E known s (s_num sc) s' sc' -> attr_is sc' A_data table -> attr_is sc' A_column_last last ->
  (forall b ws, dget b table = Some (Col ws) -> Forall a_number ws) -> moving_axis table ax x -> dget last table = Some (Col y) -> last <> ax ->
  List.length x = List.length y -> y <> [] -> newer dm pm ->
  exists st g, let i := XYPlot (PList (map NF x)) (PList (map NF y)) g in
    plot_scan E known draw KHkl dm pm sc (mk_pst s plotter0) = (st, match draw i with Some e => Raise e | None => Ok (Some i) end) /\
    texts g (fileName s) (L "#" ++ s_num sc ++ L ": " ++ s_cmd sc) ax last date.
Proof.
  intros E known draw Hk s sc s' sc' table last ax x y date dm pm A1 A2 A3 A4 A5 A6 A7 A8 A9 A10 A11 A12 A13.
  exact (hkl_plot E known draw Hk s sc s' sc' table last ax x y (Some x) date dm pm A1 A2 A3 A4 A5 A6 (moving_axis_ok table ax x A7 A8) ltac:(discriminate) A9 A10 A11 A12 A13).
Qed.
Print Assumptions C78_moving_axis_partial.
(** if H, K and L all stay the same, the number of the point is shown; the scan then has a column of that name *)
Theorem C78_nothing_moves : forall E known draw, incl all_hids known -> forall s sc s' sc' table last vh vl y date dm pm,
  dget (s_num sc) (scans s) = Some sc -> ~ attr_is sc A_aborted ABORTED0 -> attr_is sc A_date date ->
  usable E known s (s_num sc) s' sc' -> attr_is sc' A_data table -> attr_is sc' A_column_last last ->
  (forall b ws, dget b table = Some (Col ws) -> Forall a_number ws) ->
  dget (L "H") table = Some (Col vh) -> steady vh -> (dget (L "K") table = None \/ exists ws, dget (L "K") table = Some (Col ws) /\ steady ws) -> dget (L "L") table = Some (Col vl) -> steady vl ->
  dget last table = Some (Col y) -> last <> POINT -> List.length vh = List.length y -> y <> [] -> newer dm pm ->
  exists st g, let points := map (fun i => FDec (Z.of_nat i) 0) (seq 1 (List.length y)) in
    let i := XYPlot (PList (map NF points)) (PList (map NF y)) g in
    plot_scan E known draw KHkl dm pm sc (mk_pst s plotter0) = (st, match draw i with Some e => Raise e | None => Ok (Some i) end) /\
    texts g (fileName s) (L "#" ++ s_num sc ++ L ": " ++ s_cmd sc) (L "data point number (hkl all held constant)") last date /\
    exists sc2, dget (s_num sc) (scans (ps_sdf st)) = Some sc2 /\ attr_is sc2 A_data (dset (L "data point number") (Col points) table).
Proof.
  intros E known draw Hk s sc s' sc' table last vh vl y date dm pm A1 A2 A3 A4 A5 A6 A7 A8 A9 A10 A11 A12 A13 A14 A15 A16 A17.
  assert (X : hkl_axis axes3 table = Ok (None, Some vl)).
  { refine (steady_axes table [L "H"; L "K"] A7 (L "L") vl _ A11 A12). constructor; [right; eauto|]. constructor; [exact A10|constructor]. }
  exact (hkl_still E known draw Hk s sc s' sc' table last vl vh y date dm pm A1 A2 A3 A4 A5 A6 X A8 A13 A14 A15 A16 A17).
Qed.
Print Assumptions C78_nothing_moves.
Definition hkl : path := one "hklscan 1 1 2 3 0 0 2 1" ["#N 4"; "#L H  K  L  det"; "1 2 0 7"; "1 2.5 0 9"; "1 3 0 4"]%string.
Definition hkl0 : path := one "hklscan 1 1 2 2 0 0 2 1" ["#N 4"; "#L H  K  L  det"; "1 2 0 7"; "1 2.0 0 9"; "1 2 0 4"]%string.
Example C78_example : shown (snd (plotted KHkl None "1" (opened hkl))) = Some (PList [NF (FDec 2 0); NF (FDec 25 (-1)); NF (FDec 3 0)], nfs [7; 9; 4]%Z) /\
  shown (snd (plotted KHkl None "1" (opened hkl0))) = Some (nfs [1; 2; 3]%Z, nfs [7; 9; 4]%Z).
Proof. split; vm_compute; reflexivity. Qed.
Example C78_applies : exists st g, plotted KHkl None "1" (opened hkl) = (st, Ok (Some (XYPlot (PList (map NF [FDec 2 0; FDec 25 (-1); FDec 3 0])) (PList (map NF [FDec 7 0; FDec 9 0; FDec 4 0])) g))) /\
  g_xtitle g = Some (L "K").
Proof.
  assert (G : good hkl) by good_tac. assert (N : s_num (before hkl) = L "1") by (vm_compute; reflexivity).
  assert (Eq : num_eq (FDec 1 0) (FDec 1 0)) by (split; vm_compute; discriminate).
  destruct (C78_moving_axis_partial E0 all_hids draws (incl_refl _) (opened hkl) (before hkl) (interpreted "1" (opened hkl)) (after hkl)
    [(L "H", Col (map (fun z => FDec z 0) [1; 1; 1]%Z)); (L "K", Col [FDec 2 0; FDec 25 (-1); FDec 3 0]); (L "L", Col (map (fun z => FDec z 0) [0; 0; 0]%Z)); (L "det", Col [FDec 7 0; FDec 9 0; FDec 4 0])]
    (L "det") (L "K") [FDec 2 0; FDec 25 (-1); FDec 3 0] [FDec 7 0; FDec 9 0; FDec 4 0] (L "Wed Nov 03 13:48:06 2010") (Ok 5%Z) None) as (st & g & X1 & X2).
  - apply found_ex; assumption.
  - apply fresh_ex; assumption.
  - vm_compute; reflexivity.
  - apply usable_ex; assumption.
  - vm_compute; reflexivity.
  - vm_compute; reflexivity.
  - intros b ws D. apply dget_In in D. destruct D as [D|[D|[D|[D|[]]]]]; injection D; intros <- _; repeat (constructor; [discriminate|]); constructor.
  - exists [L "H"], [L "L"]. split; [reflexivity|]. split; [reflexivity|]. split.
    + exists (FDec 2 0), (FDec 3 0). split; [left; reflexivity|]. split; [do 2 right; left; reflexivity|]. intros [_ X]. vm_compute in X. apply X. reflexivity.
    + constructor; [|constructor]. right. eexists. split; [reflexivity|]. split; [discriminate|]. intros v w [<-|[<-|[<-|[]]]] [<-|[<-|[<-|[]]]]; exact Eq.
  - reflexivity.
  - discriminate.
  - reflexivity.
  - discriminate.
  - exists 5%Z. split; [reflexivity|lia].
  - exists st, g. split; [exact X1|]. apply X2.
Qed.
(** a scan along H whose file has no column L is plotted, one that does not move is not *)
Definition hk0 : path := one "hklscan 1 1 2 2 0 0 2 1" ["#N 3"; "#L H  K  det"; "1 2 7"; "1 2.0 9"; "1 2 4"]%string.
Example C78_no_L : snd (plotted KHkl None "1" (opened hk0)) = Raise NotPlottable.
Proof. vm_compute. reflexivity. Qed.

(* ------------------------------------------------------------------ *)
(** * C79 *)

(** a line plot of a scan that was used before does not change the data file object, whatever the outcome; so it can be repeated *)
Theorem C79_line_plot_changes_nothing : forall E known draw dm pm sc0 s sc p st r, dget (s_num sc0) (scans s) = Some sc -> s_lazy sc = false ->
  plot_scan E known draw KLine dm pm sc0 (mk_pst s p) = (st, r) -> ps_sdf st = s.
Proof. intros E known draw dm pm sc0 s sc p st r. exact (line_plot_same E known draw dm pm sc0 s sc p st r). Qed.
Print Assumptions C79_line_plot_changes_nothing.
(** a line plot of a scan that was not used before only interprets it; doing it again gives the same plot or the same exception, if the
    interpretation neither changes the date of the scan nor finds that it was aborted at once *)
Theorem C79_line_plot_again_partial : forall E known draw, incl all_hids known -> forall dm pm sc s s' sc' p date st r,
  dget (s_num sc) (scans s) = Some sc -> usable E known s (s_num sc) s' sc' ->
  attr_is sc A_date date -> attr_is sc' A_date date -> ~ attr_is sc A_aborted ABORTED0 -> ~ attr_is sc' A_aborted ABORTED0 ->
  plot_scan E known draw KLine dm pm sc (mk_pst s p) = (st, r) -> ps_sdf st = s' /\ plot_scan E known draw KLine dm pm sc (mk_pst (ps_sdf st) p) = (st, r).
Proof.
  intros E known draw Hk dm pm sc s s' sc' p date st r A1 A2 A3 A4 A5 A6 A7.
  destruct (C79_lemma E known draw Hk dm pm sc s s' sc' p p date st r A1 A2 (usable_name E known _ _ _ _ A2) A3 A4 A5 A6 A7) as [X Y]. split; [exact X|exact (Y eq_refl)].
Qed.
Print Assumptions C79_line_plot_again_partial.
Example C79_applies : exists st r, plot_scan E0 all_hids draws KLine (Ok 5%Z) None (before curve) (mk_pst (opened curve) plotter0) = (st, r) /\
  plot_scan E0 all_hids draws KLine (Ok 5%Z) None (before curve) (mk_pst (ps_sdf st) plotter0) = (st, r).
Proof.
  assert (G : good curve) by good_tac. assert (N : s_num (before curve) = L "1") by (vm_compute; reflexivity).
  destruct (plot_scan E0 all_hids draws KLine (Ok 5%Z) None (before curve) (mk_pst (opened curve) plotter0)) as [st r] eqn:P. exists st, r. split; [reflexivity|].
  refine (proj2 (C79_line_plot_again_partial E0 all_hids draws (incl_refl _) _ _ _ _ (interpreted "1" (opened curve)) (after curve) _ (L "Wed Nov 03 13:48:06 2010") _ _ (found_ex _ G N) (usable_ex _ G N) _ _ (fresh_ex _ G) _ P)).
  - vm_compute; reflexivity.
  - vm_compute; reflexivity.
  - unfold attr_is. assert (X : s_obj (after curve) A_aborted = None) by (vm_compute; reflexivity). rewrite X. discriminate.
Qed.
Definition again (k : kind) (p : path) : res (option image) := snd (plotted k None "1" (ps_sdf (fst (plotted k None "1" (opened p))))).
(** a mesh that was plotted cannot be plotted again *)
Theorem C79_mesh_again_refuted : the_grid (snd (plotted KMesh None "1" (opened grid))) = Some ([2; 2], fls [1; 2; 3; 4]%Z) /\ again KMesh grid = Raise ValueError.
Proof. split; vm_compute; reflexivity. Qed.
Print Assumptions C79_mesh_again_refuted.
(** a scan with two dates: the second plot has another time *)
Definition time_of (r : res (option image)) : option str := match r with Ok (Some (XYPlot _ _ g)) => g_time g | _ => None end.
Definition dates : path := one "ascan th 0 1 2 1" ["#D Thu Nov 04 13:48:06 2010"; "#N 3"; "#L th  I0  det"; "0 100 7"; "1 101 9"]%string.
Theorem C79_two_dates_refuted : time_of (snd (plotted KLine None "1" (opened dates))) <> time_of (again KLine dates) /\ time_of (again KLine dates) <> None.
Proof. split; vm_compute; discriminate. Qed.
Print Assumptions C79_two_dates_refuted.
(** a scan aborted at once: the first time NoDataToPlot, then ScanAborted *)
Definition no_points : path := one "ascan th 0 1 2 1" ["#N 3"; "#L th  I0  det"; "#C Wed Nov 03 13:48:07 2010.  Scan aborted after 0 points."]%string.
Theorem C79_aborted_refuted : snd (plotted KLine None "1" (opened no_points)) = Raise NoDataToPlot /\ again KLine no_points = Raise ScanAborted.
Proof. split; vm_compute; reflexivity. Qed.
Print Assumptions C79_aborted_refuted.
Example C79_example : shown (again KLine curve) = shown (snd (plotted KLine None "1" (opened curve))) /\ shown (again KLine curve) <> None.
Proof. split; vm_compute; [reflexivity|discriminate]. Qed.
