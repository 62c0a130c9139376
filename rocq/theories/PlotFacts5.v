(** A line plot shows what is written in the file (C76) *)
From Coq Require Import String Lia.
From Verif Require Import Py PyFacts Time Utils Keys Handlers Reader H5 Writer Plot SpecText SpecReader SpecPlot SpecHistory SpecKeys SpecInterp SpecData
  FrameFacts StateFacts CliFacts3 DataFacts2 LastFacts PlotFacts PlotFacts2 PlotFacts3 PlotFacts4.
Import ListNotations.
Local Open Scope list_scope.

Section Show.
  Variable E : env.
  Variable known : list hid.
  Variable draw : image -> option exn.
  Hypothesis Hk : incl all_hids known.

  Lemma fresh_aborted s name sc : history E known s -> dget name (scans s) = Some sc -> s_lazy sc = true -> s_obj sc A_aborted = None.
  Proof.
    intros Hh Hg Hz. apply history_st in Hh. destruct Hh as (K1 & _). rewrite Forall_forall in K1. specialize (K1 _ (dget_In _ _ _ Hg)). destruct K1 as [_ K1].
    destruct (K1 Hz) as [_ [U _]]. rewrite U; [reflexivity|]. cbn. intuition discriminate.
  Qed.
  Lemma first_usable s name sc s' sc' : first_interpret E known s name sc s' sc' -> usable E known s name s' sc'.
  Proof.
    intros (Hh & Hg & Hz & Hi & Hg'). destruct (first_use E known name s sc s' _ Hh Hg Hz Hi) as (h & w & r0 & sc2 & _ & _ & _ & _ & G & _ & _ & Z & _).
    exists sc. split; [exact Hg|]. split; [exact Hg'|]. split; [congruence|]. left. auto.
  Qed.
  Lemma relabel_id lab0 lab : NoDup lab0 -> (lab = lab0 \/ relabelled [] lab0 lab) -> lab = lab0.
  Proof. intros N [H|H]; [exact H|]. apply (relabelled_id lab0 [] lab H N). Qed.
  Lemma last_nth {A} (l : list A) d : l <> [] -> nth_error l (List.length l - 1) = Some (last l d).
  Proof.
    intros H. destruct (exists_last H) as (t & a & ->). rewrite app_length, Nat.add_sub, nth_error_app2 by lia. rewrite Nat.sub_diag, last_last. reflexivity.
  Qed.

  Lemma C76_lemma s sc s' sc' ls dl n date dm pm row : first_interpret E known s (s_num sc) sc s' sc' -> attr_is sc A_date date -> lines_of (s_raw sc) ls -> Keeps data_line_of ls dl ->
    attr_is sc' A_N (Some [n]) -> (forall l, In l dl -> ~ control H_atA l) ->
    (forall labels, labels_written ls labels -> NoDup labels) ->
    (forall labels, attr_is sc' A_L labels -> is_row (List.length labels) row) -> In row dl -> newer dm pm ->
    exists labels rows tbl x y st g, attr_is sc' A_L labels /\ labels_written ls labels /\ Keeps (is_row (List.length labels)) dl rows /\ Forall2 (a_row (List.length labels)) rows tbl /\
      Forall2 (fun vals v => nth_error vals 0 = Some v) tbl x /\ Forall2 (fun vals v => nth_error vals (List.length labels - 1) = Some v) tbl y /\
      let i := XYPlot (PList (map NF x)) (PList (map NF y)) g in
      plot_scan E known draw KLine dm pm sc (mk_pst s plotter0) = (st, match draw i with Some e => Raise e | None => Ok (Some i) end) /\
      texts g (fileName s) (L "#" ++ s_num sc ++ L ": " ++ s_cmd sc) (hd [] labels) (last labels []) date.
  Proof.
    intros F T Hl Hd HN Hna Hnd Hrow Hin Nw. pose proof F as (Hh & Hg & Hz & _).
    assert (Hne : dl <> []) by (intros ->; destruct Hin).
    destruct (C25_lemma E known Hk s _ sc s' sc' ls dl n F Hl Hd HN Hna Hne) as (lab & data & B1 & B2 & B3 & B4 & (rows & tbl & T1 & T2 & T3)).
    destruct (C32_lemma E known Hk s _ sc s' sc' ls F Hl) as (lab0 & lab' & W & B1' & R & C1 & _ & C2).
    assert (lab' = lab) by (unfold attr_is in *; congruence). subst lab'.
    pose proof (relabel_id lab0 lab (Hnd _ W) R) as Q. subst lab0. specialize (C2 B4).
    pose proof (Hrow lab B1) as Rw.
    assert (Hr : In row rows) by (clear -T1 Hin Rw; induction T1 as [|a l t Ha H IH|a l t Ha H IH]; [destruct Hin| |]; destruct Hin as [->|Hin]; [left; reflexivity|right; auto|contradiction|auto]).
    assert (Nl : lab <> []).
    { intros Z. destruct Rw as (vals & ws & Fw & Fn & Ln). rewrite Z in Ln. apply length_zero_iff_nil in Ln. subst vals. inversion Fn; subst ws.
      assert (Ct : control H_data row \/ control H_atA row).
      { clear -Hd Hin. induction Hd as [|a l t Ha H IH|a l t Ha H IH]; [destruct Hin| |auto]. destruct Hin as [->|Hin]; [exact Ha|auto]. }
      destruct Ct as [Ct|Ct]; [|exact (Hna _ Hin Ct)]. destruct Ct as (a & w & rest & -> & _ & _ & (c & t & -> & Hc) & _).
      inversion Fw as [b Hb|]; subst. unfold blank in Hb. apply Forall_app in Hb. destruct Hb as [_ Hb]. inversion Hb; subst. congruence. }
    destruct (T3 0 (hd [] lab)) as (x & X1 & X2); [destruct lab; [congruence|reflexivity]|].
    destruct (T3 (List.length lab - 1) (last lab [])) as (y & Y1 & Y2); [apply last_nth, Nl|].
    assert (Il : In (last lab []) lab) by (apply (nth_error_In lab (List.length lab - 1)), last_nth, Nl).
    assert (If : In (hd [] lab) lab) by (destruct lab; [congruence|left; reflexivity]).
    assert (Ty : tbl <> []) by (intros ->; inversion T2; subst; destruct Hr).
    destruct (line_plot E known draw Hk s sc s' sc' data lab (hd [] lab) (last lab []) x y date dm pm Hg) as (p & g & P1 & P2); try assumption.
    - unfold attr_is. rewrite (fresh_aborted s _ sc Hh Hg Hz). discriminate.
    - apply (first_usable s (s_num sc) sc s' sc' F).
    - rewrite <- (F2_len _ _ _ X2), <- (F2_len _ _ _ Y2). reflexivity.
    - intros ->. inversion Y2. congruence.
    - exists lab, rows, tbl, x, y, (mk_pst s' p), g. do 6 (split; [assumption|]). split; [exact P1|exact P2].
  Qed.
End Show.
