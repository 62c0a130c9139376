(** C24, C25, C27, C28, C32, C63: data columns of an interpreted scan.
    Theorems only; proofs are in DataFacts.v, DataFacts2.v, LastFacts.v. *)
From Coq Require Import String Lia.
From Verif Require Import Uni Py PyFacts NumFacts Time Utils Keys Handlers Reader SpecText SpecUtils SpecReader SpecNum SpecHistory SpecKeys SpecInterp SpecData
  KeyFacts ReaderFacts2 DispatchFacts InterpFacts MonadFacts HandlerFacts ExampleFacts DataFacts DataFacts2 LastFacts.
Import ListNotations.
Local Open Scope list_scope.

(* ------------------------------------------------------------------ *)
(** * Tools for the examples *)
Definition a_scan (ls : list string) : path := file (head ++ ["#S 1 ascan x 0 1 1 1"; "#D Wed Nov 03 13:48:06 2010"]%string ++ ls) 5 6.
Notation before p := (scan_of "1" (opened p)).
Notation after p := (scan_of "1" (interpreted "1" (opened p))).
Definition its_lines (p : path) : list str := Handlers.scan_lines (s_raw (before p)).
Definition its_data (p : path) : list str := dlines all_hids (s_raw (before p)).
Definition good (p : path) : Prop := first_interpret E0 all_hids (opened p) (L "1") (before p) (interpreted "1" (opened p)) (after p).
Ltac good_tac := apply interpreted_ok; vm_compute; reflexivity.
Lemma its_lines_ok p : lines_of (s_raw (before p)) (its_lines p).
Proof. apply lines_of_scan_lines. reflexivity. Qed.
Lemma its_data_ok p : Keeps data_line_of (its_lines p) (its_data p).
Proof. apply dlines_keeps. apply incl_refl. Qed.
Lemma control_iff h l : ~ In LF l -> h <> H_unrec -> h <> H_S -> (eff all_hids l = Some h <-> control h l).
Proof. intros H1 H2 H3. apply eff_control; auto. apply incl_refl. Qed.
Ltac no_lf := let Q := fresh in vm_compute; intros Q; repeat (destruct Q as [Q|Q]; [discriminate Q|]); destruct Q.
Ltac not_control := rewrite <- control_iff; [vm_compute; discriminate|no_lf|discriminate|discriminate].
Ltac each_line Hl := repeat (destruct Hl as [<-|Hl]); [..|destruct Hl].
Ltac in_list := vm_compute; repeat (first [left; reflexivity | right]).
Ltac is_control := apply control_iff; [no_lf|discriminate|discriminate|vm_compute; reflexivity].

(** a plain table with lines that are not complete rows *)
Definition plain : path := a_scan ["#N 3"; "#L Two Theta  I0  det"; "1.5 10 100"; "2 20"; "2.5 20 200 # note"; "-3e0 30 300"]%string.
Lemma plain_good : good plain. Proof. good_tac. Qed.
(** with labels that clash *)
Definition clash : path := a_scan ["#N 3"; "#L a  a  a_1"; "1 2 3"]%string.
Lemma clash_good : good clash. Proof. good_tac. Qed.

(* ------------------------------------------------------------------ *)
(** * C24 *)

(** each label gets the first of l, l_1, l_2, ... that no label before it has; the columns are these *)
Theorem C24_labels_made_unique : forall E known, incl all_hids known -> forall s name sc s' sc' ls dl,
  first_interpret E known s name sc s' sc' -> lines_of (s_raw sc) ls -> Keeps data_line_of ls dl -> dl <> [] ->
  exists lab0 lab data, labels_written ls lab0 /\ relabelled [] lab0 lab /\ NoDup lab /\ List.length lab = List.length lab0 /\
    attr_is sc' A_L lab /\ attr_is sc' A_data data /\ (keys data = lab \/ (keys data = lab ++ [L "_mca_"] /\ ~ In (L "_mca_") lab)) /\
    (In (L "_mca_") (keys data) <-> In (L "_mca_") lab \/ exists l, In l dl /\ starts_with "@A" l /\ l <> L "@A").
Proof. exact C24_lemma. Qed.
Print Assumptions C24_labels_made_unique.
(** labels that differ stay as they are *)
Theorem C24_unique_labels_kept : forall labs labs', relabelled [] labs labs' -> NoDup labs -> labs' = labs.
Proof. exact (fun labs labs' => relabelled_id labs [] labs'). Qed.
Print Assumptions C24_unique_labels_kept.
(** a label that no label before it has, written or made, stays as it is *)
Theorem C24_free_label_kept : forall taken l c i, first_free taken l c i -> ~ In l taken -> c = l.
Proof. intros taken l c i H1 H2. apply (first_free_unused taken l c i H1 H2). Qed.
Print Assumptions C24_free_label_kept.
(** making labels unique fails only with RuntimeError, and only if there are more than 1000 labels *)
Theorem C24_only_failure : forall labs labs' ks e, unique_labels [] labs = (labs', ks, Raise e) -> e = RuntimeError /\ 1000 < List.length labs.
Proof. exact (fun labs labs' ks e => unique_labels_raise labs [] labs' ks e). Qed.
Print Assumptions C24_only_failure.
(** the first use of a label may still be changed: a, a, a_1 becomes a, a_1, a_1_1 *)
Theorem C24_first_use_refuted : good clash /\ attr_is (after clash) A_L (map L ["a"; "a_1"; "a_1_1"]%string).
Proof. split; [apply clash_good|vm_compute; reflexivity]. Qed.
Print Assumptions C24_first_use_refuted.
Example C24_applies : exists lab0 lab, labels_written (its_lines clash) lab0 /\ relabelled [] lab0 lab /\ attr_is (after clash) A_L lab.
Proof.
  destruct (C24_labels_made_unique E0 all_hids (incl_refl _) _ _ _ _ _ _ _ clash_good (its_lines_ok _) (its_data_ok _)) as (lab0 & lab & data & H1 & H2 & _ & _ & H3 & _);
    [vm_compute; discriminate|exists lab0, lab; split; [exact H1|split; [exact H2|exact H3]]].
Qed.

(* ------------------------------------------------------------------ *)
(** * C25 *)

Theorem C25_faithful_table_partial : forall E known, incl all_hids known -> forall s name sc s' sc' ls dl n,
  first_interpret E known s name sc s' sc' -> lines_of (s_raw sc) ls -> Keeps data_line_of ls dl ->
  attr_is sc' A_N (Some [n]) -> (forall l, In l dl -> ~ control H_atA l) -> dl <> [] ->
  exists lab data, attr_is sc' A_L lab /\ attr_is sc' A_data data /\ keys data = lab /\ NoDup lab /\ tabulated lab data dl.
Proof. exact C25_lemma. Qed.
Print Assumptions C25_faithful_table_partial.
(** N is what the last #N line says *)
Theorem C25_number_of_columns : forall E known, incl all_hids known -> forall s name sc s' sc' ls,
  first_interpret E known s name sc s' sc' -> lines_of (s_raw sc) ls ->
  (Forall (fun l => ~ control H_N l) ls /\ attr_is sc' A_N None) \/
  exists l t ws zs, last_line_of H_N ls l /\ content l t /\ fields t ws /\ Forall2 (fun w z => py_int w = Ok z) ws zs /\ attr_is sc' A_N (Some zs).
Proof. exact N_lemma. Qed.
Print Assumptions C25_number_of_columns.
Example C25_applies : exists lab data, attr_is (after plain) A_L lab /\ attr_is (after plain) A_data data /\ tabulated lab data (its_data plain).
Proof.
  destruct (C25_faithful_table_partial E0 all_hids (incl_refl _) _ _ _ _ _ _ _ 3%Z plain_good (its_lines_ok _) (its_data_ok _)) as (lab & data & H1 & H2 & _ & _ & H3).
  - vm_compute; reflexivity.
  - intros l Hl. vm_compute in Hl. each_line Hl; not_control.
  - vm_compute; discriminate.
  - exists lab, data. split; [exact H1|split; [exact H2|exact H3]].
Qed.
(** a row of just one number, without a blank, is not seen as data: a table with one column is lost *)
Definition single : path := a_scan ["#N 1"; "#L x"; "1.5"; "2.5"]%string.
Theorem C25_single_column_refuted : good single /\ attr_is (after single) A_L [L "x"] /\ attr_is (after single) A_data [] /\
  attr_is (after single) A_unrec (map L ["1.5"; "2.5"]%string).
Proof. split; [good_tac|]. repeat split; vm_compute; reflexivity. Qed.
Print Assumptions C25_single_column_refuted.
Example C25_values : attr_is (after plain) A_data
  [(L "Two Theta", Col [FDec 15 (-1); FDec (-3) 0]); (L "I0", Col [FDec 10 0; FDec 30 0]); (L "det", Col [FDec 100 0; FDec 300 0])].
Proof. vm_compute. reflexivity. Qed.

(* ------------------------------------------------------------------ *)
(** * C27 *)

Theorem C27_split_rows_partial : forall E known, incl all_hids known -> forall s name sc s' sc' ls dl n m rows,
  first_interpret E known s name sc s' sc' -> lines_of (s_raw sc) ls -> Keeps data_line_of ls dl ->
  attr_is sc' A_N (Some [Z.of_nat n; m]) -> (forall l, In l dl -> ~ control H_atA l) -> dl <> [] -> put_together n dl rows ->
  exists lab data, attr_is sc' A_L lab /\ attr_is sc' A_data data /\ keys data = lab /\ tabulated lab data rows.
Proof. exact C27_lemma. Qed.
Print Assumptions C27_split_rows_partial.
(** with a spectrum between the points the scan cannot be used *)
Definition split_mca : path := a_scan ["#N 3 2"; "#L x  y  z"; "1 2"; "3"; "@A 1 2"; "4 5"; "6"]%string.
Theorem C27_split_rows_with_spectra_refuted : snd (interpret E0 all_hids (L "1") (opened split_mca)) = Some AttributeError.
Proof. vm_compute. reflexivity. Qed.
Print Assumptions C27_split_rows_with_spectra_refuted.
(** and a piece of just one number, without a blank, is lost *)
Definition split_one : path := a_scan ["#N 3 2"; "#L x  y  z"; "1 2"; "3"; "4 5"; "6"]%string.
Theorem C27_one_number_refuted : good split_one /\ attr_is (after split_one) A_data [(L "x", Col []); (L "y", Col []); (L "z", Col [])].
Proof. split; [good_tac|vm_compute; reflexivity]. Qed.
Print Assumptions C27_one_number_refuted.
Definition split : path := a_scan ["#N 4 2"; "#L w  x  y  z"; "1 2"; "3 4"; "5 "; "6 7 8"; "9 10"]%string.
Lemma split_good : good split. Proof. good_tac. Qed.
Example C27_applies : exists lab data, attr_is (after split) A_L lab /\ attr_is (after split) A_data data /\ tabulated lab data (map L ["1 2 3 4"; "5 6 7 8"]%string).
Proof.
  destruct (C27_split_rows_partial E0 all_hids (incl_refl _) _ _ _ _ _ _ _ 4 2%Z (map L ["1 2 3 4"; "5 6 7 8"]%string) split_good (its_lines_ok _) (its_data_ok _)) as (lab & data & H1 & H2 & _ & H3).
  - vm_compute. reflexivity.
  - intros l Hl. vm_compute in Hl. each_line Hl; not_control.
  - vm_compute. discriminate.
  - replace (its_data split) with (map L ["1 2"; "3 4"]%string ++ map L ["5 "; "6 7 8"]%string ++ map L ["9 10"]%string) by (vm_compute; reflexivity).
    assert (NB : forall l, words l <> [] -> ~ blank l).
    { intros l H Q. apply H. apply words_nil. apply forallb_forall. unfold blank in Q. rewrite Forall_forall in Q. exact Q. }
    apply (Put_row 4 _ _ _ _ (map L ["1"; "2"; "3"; "4"]%string)); [apply all_fields_words; reflexivity|reflexivity|repeat constructor; apply NB; vm_compute; discriminate|apply fields_words; reflexivity|].
    apply (Put_row 4 _ _ _ _ (map L ["5"; "6"; "7"; "8"]%string)); [apply all_fields_words; reflexivity|reflexivity|repeat constructor; apply NB; vm_compute; discriminate|apply fields_words; reflexivity|].
    apply (Put_rest 4 _ (map L ["9"; "10"]%string)); [apply all_fields_words; reflexivity|simpl; lia].
  - exists lab, data. split; [exact H1|split; [exact H2|exact H3]].
Qed.

(* ------------------------------------------------------------------ *)
(** * C28 *)

Theorem C28_spectra_partial : forall E known, incl all_hids known -> forall s name sc s' sc' ls dl n,
  first_interpret E known s name sc s' sc' -> lines_of (s_raw sc) ls -> Keeps data_line_of ls dl -> dl <> [] ->
  attr_is sc' A_N (Some [n]) -> (forall l, In l dl -> control H_atA l -> starts_with "@A" l) ->
  ((exists l, In l dl /\ control H_atA l) -> forall lab, attr_is sc' A_L lab -> ~ In (L "_mca_") lab) ->
  exists lab data rows, attr_is sc' A_L lab /\ attr_is sc' A_data data /\
    Keeps (control H_data) ls rows /\ tabulated lab data rows /\
    ((exists l, In l dl /\ control H_atA l) -> exists m, dget (L "_mca_") data = Some (Mca m) /\ spectra m dl).
Proof. exact C28_lemma'. Qed.
Print Assumptions C28_spectra_partial.
(** an indented @A line is known as such but lost *)
Definition indented : path := a_scan ["#N 2"; "#L x  y"; "1 2"; " @A 5 6 7"; "3 4"]%string.
Theorem C28_indented_line_refuted : good indented /\ control H_atA (L " @A 5 6 7") /\ In (L " @A 5 6 7") (its_lines indented) /\
  attr_is (after indented) A_data [(L "x", Col [FDec 1 0; FDec 3 0]); (L "y", Col [FDec 2 0; FDec 4 0])].
Proof. split; [good_tac|]. split; [is_control|]. split; [in_list|vm_compute; reflexivity]. Qed.
Print Assumptions C28_indented_line_refuted.
(** a column named _mca_ and spectra do not go together *)
Definition mca_label : path := a_scan ["#N 2"; "#L x  _mca_"; "1 2"; "@A 5 6 7"; "3 4"]%string.
Theorem C28_label_mca_refuted : snd (interpret E0 all_hids (L "1") (opened mca_label)) = Some AttributeError.
Proof. vm_compute. reflexivity. Qed.
Print Assumptions C28_label_mca_refuted.
Definition mcas : path := a_scan ["#N 2"; "#L x  y"; "1 2"; "@A 5 6\"; " 7 8"; "@A1 1.5 2"; "3 4"; "@A 9 10"]%string.
Lemma mcas_good : good mcas. Proof. good_tac. Qed.
Example C28_applies : exists lab data rows, attr_is (after mcas) A_L lab /\ attr_is (after mcas) A_data data /\
  Keeps (control H_data) (its_lines mcas) rows /\ tabulated lab data rows /\ exists m, dget (L "_mca_") data = Some (Mca m) /\ spectra m (its_data mcas).
Proof.
  destruct (C28_spectra_partial E0 all_hids (incl_refl _) _ _ _ _ _ _ _ 2%Z mcas_good (its_lines_ok _) (its_data_ok _)) as (lab & data & rows & H1 & H2 & H3 & H4 & H5).
  - vm_compute. discriminate.
  - vm_compute. reflexivity.
  - intros l Hl Hc. vm_compute in Hl. each_line Hl; first [eexists; reflexivity | exfalso; revert Hc; not_control].
  - intros _ lab Q. assert (Q' : s_obj (after mcas) A_L = Some (map L ["x"; "y"]%string)) by (vm_compute; reflexivity). unfold attr_is in Q. rewrite Q' in Q.
    apply Some_inj in Q. subst lab. intros R. vm_compute in R. destruct R as [R|[R|[]]]; discriminate R.
  - exists lab, data, rows. split; [exact H1|split; [exact H2|split; [exact H3|split; [exact H4|]]]]. apply H5. exists (L "@A 9 10"). split; [in_list|is_control].
Qed.
Example C28_values : attr_is (after mcas) A_data
  [(L "x", Col [FDec 1 0; FDec 3 0]); (L "y", Col [FDec 2 0; FDec 4 0]);
   (L "_mca_", Mca [(L "mca", [[NI 5; NI 6; NI 7; NI 8]; [NI 9; NI 10]]); (L "mca1", [[NF (FDec 15 (-1)); NF (FDec 2 0)]])])].
Proof. vm_compute. reflexivity. Qed.

(* ------------------------------------------------------------------ *)
(** * C32 *)

(** column_first is the first of L; column_last is the last label as written, which is the last of L if the labels differ *)
Theorem C32_first_and_last_column_partial : forall E known, incl all_hids known -> forall s name sc s' sc' ls,
  first_interpret E known s name sc s' sc' -> lines_of (s_raw sc) ls ->
  exists lab0 lab, labels_written ls lab0 /\ attr_is sc' A_L lab /\ (lab = lab0 \/ relabelled [] lab0 lab) /\
    attr_is sc' A_column_first (hd [] lab) /\ attr_is sc' A_column_last (last lab0 []) /\ (NoDup lab0 -> attr_is sc' A_column_last (last lab [])).
Proof. exact C32_lemma. Qed.
Print Assumptions C32_first_and_last_column_partial.
Theorem C32_renamed_last_column_refuted : good clash /\ attr_is (after clash) A_column_last (L "a_1") /\ attr_is (after clash) A_L (map L ["a"; "a_1"; "a_1_1"]%string).
Proof. split; [apply clash_good|]. split; vm_compute; reflexivity. Qed.
Print Assumptions C32_renamed_last_column_refuted.
Example C32_applies : attr_is (after plain) A_column_first (L "Two Theta") /\ attr_is (after plain) A_column_last (L "det").
Proof. split; vm_compute; reflexivity. Qed.

(* ------------------------------------------------------------------ *)
(** * C63 *)

Theorem C63_time : forall E known, incl all_hids known -> forall s name sc s' sc' ls l v n,
  first_interpret E known s name sc s' sc' -> lines_of (s_raw sc) ls -> last_line_of H_T ls l ->
  content l (v ++ SP :: 40%N :: n ++ [41%N]) -> ~ In SP v -> (forall t, n <> 40%N :: t) -> (forall t, n <> t ++ [41%N]) ->
  attr_is sc' A_T v /\ attr_is sc' A_time_name n.
Proof. exact C63_T. Qed.
Print Assumptions C63_time.
Theorem C63_monitor : forall E known, incl all_hids known -> forall s name sc s' sc' ls l v n,
  first_interpret E known s name sc s' sc' -> lines_of (s_raw sc) ls -> last_line_of H_M ls l ->
  content l (v ++ SP :: 40%N :: n ++ [41%N]) -> ~ In SP v -> (forall t, n <> 40%N :: t) -> (forall t, n <> t ++ [41%N]) ->
  attr_is sc' A_M v /\ attr_is sc' A_monitor_name n.
Proof. exact C63_M. Qed.
Print Assumptions C63_monitor.
(** without a unit the last digit is lost *)
Definition timed : path := a_scan ["#T 25"; "#M 300 (I0 cps)"; "#N 2"; "#L x  y"; "1 2"]%string.
Theorem C63_no_unit_refuted : good timed /\ In (L "#T 25") (its_lines timed) /\ attr_is (after timed) A_T (L "2") /\ attr_is (after timed) A_time_name (L "5").
Proof. split; [good_tac|]. split; [in_list|]. split; vm_compute; reflexivity. Qed.
Print Assumptions C63_no_unit_refuted.
Example C63_applies : attr_is (after timed) A_M (L "300") /\ attr_is (after timed) A_monitor_name (L "I0 cps").
Proof. split; vm_compute; reflexivity. Qed.
