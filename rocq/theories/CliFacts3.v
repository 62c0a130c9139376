(** C44: the text written has the rows of the scan. *)
From Coq Require Import String Lia.
From Verif Require Import Uni Py PyFacts NumFacts Keys Handlers Reader Cli SpecText SpecReader SpecHistory SpecKeys SpecInterp SpecData SpecCli ReaderFacts ReaderFacts3 ReaderFacts5 ReaderFacts8 DataFacts DataFacts2 InterpFacts CliFacts CliFacts2.
Import ListNotations.
Local Open Scope nat_scope.
Local Open Scope list_scope.

Lemma F2_nth {A B} (R : A -> B -> Prop) l m : List.length l = List.length m -> (forall i a b, nth_error l i = Some a -> nth_error m i = Some b -> R a b) -> Forall2 R l m.
Proof.
  revert m; induction l as [|a l IH]; intros [|b m] Hl H; try discriminate; constructor; [exact (H 0 a b eq_refl eq_refl)|]. apply IH; [cbn in Hl; lia|]. intros i x y. exact (H (S i) x y).
Qed.
Lemma nth_F2 {A B} (R : A -> B -> Prop) l m i a b : Forall2 R l m -> nth_error l i = Some a -> nth_error m i = Some b -> R a b.
Proof.
  intros H. revert i. induction H as [|x y l m Hxy H IH]; intros [|i] Ha Hb; try discriminate; [injection Ha as <-; injection Hb as <-; exact Hxy|exact (IH i Ha Hb)].
Qed.
Lemma F2_len {A B} (R : A -> B -> Prop) l m : Forall2 R l m -> List.length l = List.length m.
Proof. induction 1; cbn; congruence. Qed.
Section Rows.
  Context (E : env) (known : list hid) (Hk : incl all_hids known) (show : fl -> str).
  Lemma C44_rows_lemma o s n s' nm text sc ls dl k : history E known s -> getScan (KStr n) s = Ok (Some sc) -> s_lazy sc = true -> lines_of (s_raw sc) ls -> Keeps data_line_of ls dl ->
    (forall l, In l dl -> ~ control H_atA l) -> dl <> [] -> x_column o <> [] -> extract E known show o s n = (s', Ok (Some (nm, text))) ->
    (forall sc', dget (s_num sc) (scans s') = Some sc' -> attr_is sc' A_N (Some [k])) ->
    exists lab rows tbl hdr lines, incl (x_column o) lab /\ Keeps (is_row (List.length lab)) dl rows /\ Forall2 (a_row (List.length lab)) rows tbl /\
      text = join [10%N] hdr ++ [10%N] ++ join [10%N] (label_line o ++ lines) /\ Forall starts_with_hash hdr /\
      Forall2 (fun vals line => exists cells, Forall2 (fun l x => exists j, nth_error lab j = Some l /\ nth_error vals j = Some x) (x_column o) cells /\ tab_separated (map show cells) line) tbl lines.
  Proof.
    intros Hh Hg Hz Hl Hd Hna Hne Hc Hx HN. destruct (extract_cases E known show o s n s' _ Hx) as (sc0 & sc' & lab & G1 & G2 & G3 & G4 & G5).
    rewrite Hg in G1. injection G1 as <-. destruct (getScan_in _ _ _ Hg) as (key & Hkey).
    assert (Hnum : dget (s_num sc) (scans s) = Some sc).
    { apply inv_dget; [exact (hist_inv E known s Hh)|]. apply dget_In in Hkey. apply in_map_iff. exists (key, sc). auto. }
    assert (Hf : first_interpret E known s (s_num sc) sc s' sc') by (split; [exact Hh|]; split; [exact Hnum|]; split; [exact Hz|]; split; [exact G2|exact G3]).
    destruct (C25_lemma E known Hk s (s_num sc) sc s' sc' ls dl k Hf Hl Hd (HN sc' G3) Hna Hne) as (lab' & data & B1 & B2 & B3 & B4 & (rows & tbl & T1 & T2 & T3)).
    unfold attr_is in B1, G4. rewrite B1 in G4. injection G4 as ->. destruct G5 as [[Q _]|(Hinc & txt & hdr & D1 & D2 & D3)]; [discriminate|]. injection D3 as -> ->.
    exists lab, rows, tbl, hdr.
    assert (Hcol : forall l, In l (x_column o) -> exists c, dget l data = Some (Col c) /\ List.length c = List.length tbl).
    { intros l Hi. apply Hinc in Hi. apply In_nth_error in Hi. destruct Hi as (j & Hj). destruct (T3 j l Hj) as (c & Q1 & Q2). exists c. split; [exact Q1|]. symmetry. exact (F2_len _ _ _ Q2). }
    assert (Hdn : data <> []). { intros ->. destruct (x_column o) as [|l ls']; [congruence|]. destruct (Hcol l (or_introl eq_refl)) as (c & Q & _). discriminate. }
    destruct (data_text_rows show o sc' txt data (List.length tbl) D1 B2 Hdn Hc Hcol) as (lines & L1 & L2 & L3). exists lines.
    split; [exact Hinc|]. split; [exact T1|]. split; [exact T2|]. split; [rewrite L1; reflexivity|]. split; [exact (proj1 (header_hash show o n sc' hdr D2))|].
    apply F2_nth; [symmetry; exact L2|]. intros i vals line Hv Hline. destruct (L3 i line Hline) as (cells & P1 & P2). exists cells. split; [|exact P2].
    unfold picked in P1. assert (Hinc2 : Forall (fun l => In l lab) (x_column o)) by (apply Forall_forall; exact Hinc). clear -P1 Hinc2 T3 Hv.
    induction P1 as [|l x ls xs (c & Q1 & Q2) P1 IH]; [constructor|]. inversion Hinc2 as [|a b I1 I2]; subst. constructor; [|exact (IH I2)].
    apply In_nth_error in I1. destruct I1 as (j & Hj). exists j. split; [exact Hj|]. destruct (T3 j l Hj) as (c' & Q3 & Q4). assert (c' = c) by congruence. subst c'. exact (nth_F2 _ _ _ i vals x Q4 Hv Q2).
  Qed.
  (** names of the files *)
  Lemma extract_all_names o s nums ws e nm text : extract_all E known show o s nums = (ws, e) -> In (nm, text) ws -> exists n, In n nums /\ nm = makeOutputFileName (x_file o) n.
  Proof.
    revert s ws e. induction nums as [|n nums IH]; intros s ws e H Hi; cbn [extract_all] in H; [injection H as <- _; destruct Hi|].
    destruct (extract E known show o s n) as [s' [w|e']] eqn:Ex; [|injection H as <- _; destruct Hi]. destruct (extract_all E known show o s' nums) as [ws' e''] eqn:Ea. injection H as <- _.
    apply in_app_or in Hi. destruct Hi as [Hi|Hi].
    - destruct w as [[nm' t']|]; [|destruct Hi]. destruct Hi as [Q|[]]. injection Q as -> ->. exists n. split; [left; reflexivity|].
      destruct (extract_cases E known show o s n s' _ Ex) as (sc0 & sc' & lab & _ & _ & _ & _ & [[Q _]|(_ & txt & hdr & _ & _ & Q)]); [discriminate|]. congruence.
    - destruct (IH s' ws' e'' Ea Hi) as (m & M1 & M2). exists m. split; [right; exact M1|exact M2].
  Qed.
End Rows.
