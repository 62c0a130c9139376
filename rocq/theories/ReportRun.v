(** Proofs about [diffractometer]: it is built from the #G lines of the scan. *)
From Coq Require Import String Lia.
From Verif Require Import Py PyFacts Keys Geom GeomData Handlers Reader SpecText SpecReader SpecHistory SpecInterp SpecGeom SpecTables Report SpecReport StateFacts FrameFacts MonadFacts ReaderFacts ReaderFacts4 InterpFacts PostFacts HandlerFacts
  TablesFacts.
Import ListNotations.
Local Open Scope list_scope.

Section Run.
  Context (E : env) (known : list hid) (Hk : incl all_hids known).
  Lemma addH5_G k h w w' : addH5 k h w = (w', Ok tt) -> is_scan w' = is_scan w /\ peer w' = peer w /\ forall a, a <> A_h5 -> me w' a = me w a.
  Proof.
    unfold addH5, mbind, getA, setA. destruct (me w A_h5) as [d|]; [|discriminate]. intros H. injection H as <-. cbn [is_scan peer me].
    split; [reflexivity|]. split; [reflexivity|]. intros a N. rewrite upd_other by congruence. reflexivity.
  Qed.
  Lemma geo_run w w' : post_geo w = (w', Ok tt) -> is_scan w = true -> exists h c p g d, peer w = Some h /\ peer w' = Some h /\ h A_comments = Some c /\
    me w A_positioner = Some p /\ me w A_G = Some g /\ diffr_of catalog (mk_gin c (h A_o) (h A_O) p g) = Ok d /\
    me w' A_G = Some g /\ me w' A_positioner = Some p /\ me w' A_diffractometer = Some d.
  Proof.
    unfold post_geo. unfold mbind at 1. unfold getA at 1. destruct (me w A_G) as [g|] eqn:Eg; [|discriminate]. unfold mbind at 1.
    intros H Hs.
    assert (X : exists w1, (match g with [] => ret tt | _ => addH5 (L "diffractometer geometry") H_G end) w = (w1, Ok tt) /\
        is_scan w1 = is_scan w /\ peer w1 = peer w /\ forall a, a <> A_h5 -> me w1 a = me w a).
    { destruct g as [|x g]; [exists w; auto|].
      destruct (addH5 (L "diffractometer geometry") H_G w) as [w1 [[]|e]] eqn:EH; [|discriminate H]. exists w1. split; [reflexivity|]. apply (addH5_G _ _ _ _ EH). }
    destruct X as (w1 & X & X1 & X2 & X3). rewrite X in H. clear X.
    unfold mbind at 1 in H. unfold getP at 1 in H. destruct (peer w1) as [h|] eqn:Ph; [|discriminate H]. rewrite X1, Hs in H. destruct (h A_comments) as [c|] eqn:Ec; [|discriminate H].
    unfold mbind at 1 in H. unfold getA at 1 in H. destruct (me w1 A_positioner) as [p|] eqn:Ep; [|discriminate H].
    cbv zeta in H. rewrite Ph in H. unfold mbind in H. unfold lift in H. destruct (diffr_of catalog (mk_gin c (h A_o) (h A_O) p g)) as [d|] eqn:Ed; [|discriminate H].
    unfold setA in H. injection H as <-. exists h, c, p, g, d. cbn [me peer]. rewrite upd_same, !upd_other by discriminate.
    rewrite <- (X3 A_positioner) by discriminate. rewrite (X3 A_G) by discriminate. repeat (split; [first [reflexivity|congruence]|]). reflexivity.
  Qed.
  Lemma lines_no_d s sc s' sc' w0 w1 w : ran E known s sc s' sc' w0 w1 w -> me w1 A_diffractometer = None.
  Proof.
    intros R. destruct (ran_w0 _ _ _ _ _ _ _ _ _ R) as (Hw & Hm & _).
    assert (X : me w1 A_diffractometer = me w0 A_diffractometer).
    { rewrite (collect_attr E known Hk A_diffractometer (fun x => x) (fun _ x => x) (fun _ => false) ltac:(discriminate)
        ltac:(intros h _; destruct h; cbn; intros Q; decompose [or] Q; try discriminate; auto) _ _ _ Hw (ran_lines _ _ _ _ _ _ _ _ _ R)).
      generalize (me w0 A_diffractometer). induction (lines_h known (fun _ => false) (scan_lines (s_raw sc))) as [|l ls IH]; intros x; cbn [fold_left]; [reflexivity|apply IH]. }
    rewrite X, Hm. apply (untouched_none (fileName s)); [exact (ran_fresh _ _ _ _ _ _ _ _ _ R)| |reflexivity].
    cbn. intros Q. decompose [or] Q; try discriminate; auto.
  Qed.
  Lemma diffr_run s name sc s' sc' d : first_interpret E known s name sc s' sc' -> attr_is sc' A_diffractometer d -> exists i, made_of s' sc' i /\ diffr_of catalog i = Ok d.
  Proof.
    intros Hf Hd. destruct (first_interpret_ran _ _ _ _ _ _ _ Hf) as (w0 & w1 & w & R). destruct (ran_peer _ _ _ _ _ _ _ _ _ R) as (o & Ho & Hp).
    unfold made_of, attr_is in *. rewrite (ran_obj _ _ _ _ _ _ _ _ _ R) in *.
    destruct (existsb (fun l => match eff known l with Some H_G => true | _ => false end) (scan_lines (s_raw sc))) eqn:Ex.
    - apply existsb_exists in Ex. destruct Ex as (l & Hl & He). assert (Hg : eff known l = Some H_G) by (destruct (eff known l) as [[]|]; congruence).
      destruct (ran_post E known Hk [A_G; A_diffractometer] s sc s' sc' w0 w1 w H_G PP_geo R) as (wa & wb & P1 & P2 & P3 & P4 & P5 & P6).
      + intros q Nq a Ha. destruct Ha as [<-|[<-|[]]]; destruct q; try (cbn; intros Q; decompose [or] Q; try discriminate; auto; fail).
      + reflexivity.
      + discriminate.
      + exists l. auto.
      + cbn [run_post] in P1. destruct (geo_run _ _ P1 P2) as (h & c & p & g & d' & Q1 & Q2 & Q3 & Q4 & Q5 & Q6 & Q7 & Q8 & Q9).
        rewrite <- (P5 A_diffractometer) in Q9 by (cbn; auto). rewrite <- (P5 A_G) in Q7 by (cbn; auto).
        rewrite Q2, Hp in P6. destruct P6 as [P6 _]. assert (P7 : forall a, o a = h a) by (intros a; apply P6; intros []).
        exists (mk_gin c (h A_o) (h A_O) p g). split; [|rewrite Hd in Q9; apply MonadFacts.Some_inj in Q9; rewrite Q9; exact Q6]. exists o, c, p, g. rewrite !P7. auto.
    - exfalso. rewrite (ran_no_post E known Hk A_diffractometer _ _ _ _ _ _ _ R) in Hd.
      + rewrite (lines_no_d _ _ _ _ _ _ _ R) in Hd. discriminate Hd.
      + intros l h p Hl He Hp'. assert (N : h <> H_G).
        { intros ->. assert (existsb (fun l => match eff known l with Some H_G => true | _ => false end) (scan_lines (s_raw sc)) = true); [|congruence].
          apply existsb_exists. exists l. split; [exact Hl|]. rewrite He. reflexivity. }
        destruct h; try discriminate Hp'; try congruence; injection Hp' as <-; cbn; intros Q; decompose [or] Q; try discriminate; auto.
  Qed.
  (** a scan with a #G line has one *)
  Lemma has_diffr s name sc s' sc' l : first_interpret E known s name sc s' sc' -> In l (scan_lines (s_raw sc)) -> eff known l = Some H_G -> exists d, attr_is sc' A_diffractometer d.
  Proof.
    intros Hf Hl Hg. destruct (first_interpret_ran _ _ _ _ _ _ _ Hf) as (w0 & w1 & w & R). unfold attr_is. rewrite (ran_obj _ _ _ _ _ _ _ _ _ R).
    destruct (ran_post E known Hk [A_diffractometer] s sc s' sc' w0 w1 w H_G PP_geo R) as (wa & wb & P1 & P2 & P3 & P4 & P5 & P6).
    - intros q Nq a Ha. destruct Ha as [<-|[]]; destruct q; try (cbn; intros Q; decompose [or] Q; try discriminate; auto; fail).
    - reflexivity.
    - discriminate.
    - exists l. auto.
    - cbn [run_post] in P1. destruct (geo_run _ _ P1 P2) as (h & c & p & g & d' & _ & _ & _ & _ & _ & _ & _ & _ & Q4). exists d'. rewrite (P5 A_diffractometer) by (cbn; auto). exact Q4.
  Qed.
  Lemma others s name sc s' sc' : first_interpret E known s name sc s' sc' -> exists f p, attr_is sc' A_specFile f /\ attr_is sc' A_positioner p /\ NoDup (keys p).
  Proof.
    intros Hf. destruct (C29_lemma E known Hk s name sc s' sc' (scan_lines (s_raw sc)) Hf) as (o & O & P & pos & ic & _ & _ & _ & _ & H & N & _); [apply lines_of_scan_lines; reflexivity|].
    pose proof (present E known A_specFile s name sc s' sc' Hf ltac:(discriminate)) as X. unfold attr_is in *. destruct (s_obj sc' A_specFile) as [f|]; [|congruence].
    exists f, pos. auto.
  Qed.
End Run.
