(** Attributes that show the last line of their kind: N, T, M, L, column_first, column_last. *)
From Coq Require Import String Lia.
From Verif Require Import Uni Py PyFacts NumFacts Keys Handlers Geom Reader SpecText SpecUtils SpecReader SpecNum SpecHistory SpecKeys SpecInterp SpecData
  TextFacts UtilsFacts KeyFacts ReaderFacts2 ReaderFacts4 ReaderFacts5 DispatchFacts FrameFacts StateFacts InterpFacts MonadFacts HandlerFacts PostFacts DataFacts DataFacts2.
Import ListNotations.
Local Open Scope list_scope.

Lemma last_line_fun h ls l l' : last_line_of h ls l -> last_line_of h ls l' -> l = l'.
Proof.
  intros (p & q & -> & Hc & Hq) (p' & q' & E & Hc' & Hq'). revert p' E; induction p as [|x p IH]; intros [|x' p'] E; cbn in E; injection E as E1 E2; subst; auto.
  - exfalso. rewrite Forall_forall in Hq. apply (Hq l'); auto. apply in_elt.
  - exfalso. rewrite Forall_forall in Hq'. apply (Hq' l); auto. apply in_elt.
  - apply (IH p'); auto.
Qed.
Section Last.
  Context (E : env) (known : list hid) (Hk : incl all_hids known).
  Lemma last_w1 h (S : list attr) s sc s' sc' w0 w1 w : h <> H_unrec -> h <> H_S ->
    (forall h' a, h' <> h -> In a S -> ~ In a (sets h')) -> (forall a, In a S -> ~ In a D3) -> ran E known s sc s' sc' w0 w1 w ->
    (Forall (fun l => ~ control h l) (scan_lines (s_raw sc)) /\ forall a, In a S -> me w1 a = scan_init (fileName s) a) \/
    exists l wa wb, last_line_of h (scan_lines (s_raw sc)) l /\ is_scan wa = true /\ process E h l wa = (wb, Ok tt) /\ forall a, In a S -> me w1 a = me wb a.
  Proof.
    intros Hu HS HS1 HS3 R. pose proof (scan_lines_no_lf (s_raw sc)) as N. rewrite Forall_forall in N.
    destruct (ran_w0 _ _ _ _ _ _ _ _ _ R) as (Hw & Hm & _).
    destruct (last_line E known Hk h S _ HS1 _ _ (ran_lines _ _ _ _ _ _ _ _ _ R)) as [[I1 I2]|(pre & l & post & wa & wb & I1 & I2 & I3 & I4 & I5 & I6)].
    - left. split.
      + rewrite Forall_forall in *. intros l Hl Q. apply (I1 _ Hl). apply (eff_control known Hk); auto.
      + intros a Ha. rewrite I2 by auto. rewrite Hm. destruct (ran_fresh _ _ _ _ _ _ _ _ _ R) as [U _]. apply U. auto.
    - right. exists l, wa, wb. split; [|split; [|split; auto]].
      + exists pre, post. split; auto. split; [apply (eff_control known Hk); auto; apply N; rewrite I1; apply in_elt|].
        rewrite Forall_forall in *. intros x Hx Q. apply (I3 _ Hx). apply (eff_control known Hk); auto. apply N. rewrite I1. apply in_or_app. right; right; auto.
      + pose proof (collect E known Hk (fun _ => tt) (fun _ _ x => x)) as Cc. destruct (Cc ltac:(auto) _ _ _ Hw I4); auto.
  Qed.
  Lemma last_attr h (S : list attr) s name sc s' sc' ls : h <> H_unrec -> h <> H_S ->
    (forall h' a, h' <> h -> In a S -> ~ In a (sets h')) -> (forall p a, In a S -> ~ In a (post_sets p)) -> (forall a, In a S -> ~ In a D3) ->
    first_interpret E known s name sc s' sc' -> lines_of (s_raw sc) ls ->
    (Forall (fun l => ~ control h l) ls /\ forall a, In a S -> s_obj sc' a = scan_init (fileName s) a) \/
    exists l wa wb, last_line_of h ls l /\ is_scan wa = true /\ process E h l wa = (wb, Ok tt) /\ forall a, In a S -> s_obj sc' a = me wb a.
  Proof.
    intros Hu HS HS1 HS2 HS3 Hf Hl. apply lines_of_scan_lines in Hl. subst ls. destruct (first_interpret_ran _ _ _ _ _ _ _ Hf) as (w0 & w1 & w & R).
    assert (C : forall a, In a S -> s_obj sc' a = me w1 a).
    { intros a Ha. rewrite (ran_obj _ _ _ _ _ _ _ _ _ R). apply (posts_keep E a w1 w (Ok tt)); [intros p; auto|apply (ran_posts _ _ _ _ _ _ _ _ _ R)]. }
    destruct (last_w1 h S _ _ _ _ _ _ _ Hu HS HS1 HS3 R) as [[H1 H2]|(l & wa & wb & H1 & H2 & H3 & H4)]; [left|right].
    - split; auto. intros a Ha. rewrite C; auto.
    - exists l, wa, wb. repeat split; auto. intros a Ha. rewrite C; auto.
  Qed.
  Ltac last h S Hf Hl := let K := fresh in
    destruct (last_attr h S _ _ _ _ _ _ ltac:(discriminate) ltac:(discriminate)
      ltac:(intros h' a K1 K2; destruct h'; try congruence; cbn in *; intros K3; decompose [or] K3; subst; decompose [or] K2; try discriminate; auto)
      ltac:(intros p a K2; destruct p; cbn in *; intros K3; decompose [or] K3; subst; decompose [or] K2; try discriminate; auto)
      ltac:(intros a K2 K3; cbn in *; decompose [or] K3; subst; decompose [or] K2; try discriminate; auto) Hf Hl).

  Lemma last_content h ls l : last_line_of h ls l -> content l (Utils.strip_first_word l).
  Proof. intros (pre & post & _ & Hc & _). apply content_strip; auto. eapply control_SP; eauto. Qed.

  (** N *)
  Lemma N_lemma s name sc s' sc' ls : first_interpret E known s name sc s' sc' -> lines_of (s_raw sc) ls ->
    (Forall (fun l => ~ control H_N l) ls /\ attr_is sc' A_N None) \/
    exists l t ws zs, last_line_of H_N ls l /\ content l t /\ fields t ws /\ Forall2 (fun w z => py_int w = Ok z) ws zs /\ attr_is sc' A_N (Some zs).
  Proof.
    intros Hf Hl. last H_N [A_N] Hf Hl; [left|right].
    - destruct H as [H1 H2]. split; auto. unfold attr_is. rewrite H2 by (simpl; auto). reflexivity.
    - destruct H as (l & wa & wb & H1 & H2 & H3 & H4). cbn [process] in H3. unfold process_N in H3.
      apply mbind_ok in H3. destruct H3 as (w2 & zs & G1 & G2). apply lift_ok in G1. destruct G1 as [-> G1]. apply setA_ok in G2. subst wb.
      exists l, (Utils.strip_first_word l), (words (Utils.strip_first_word l)), zs. split; auto. split; [eapply last_content; eauto|]. split; [apply fields_words; auto|].
      split; [apply mapM_F2; auto|]. unfold attr_is. rewrite H4 by (simpl; auto). cbn [me]. apply upd_same.
  Qed.

  (** T and M *)
  Lemma value_name_spec line v n : Utils.strip_first_word line = v ++ SP :: 40%N :: n ++ [41%N] -> ~ In SP v ->
    (forall t, n <> 40%N :: t) -> (forall t, n <> t ++ [41%N]) -> value_name line = (v, n).
  Proof.
    intros E1 Hv H1 H2. unfold value_name. rewrite E1.
    assert (Ef : find_c SP (v ++ SP :: 40%N :: n ++ [41%N]) = Some (List.length v)) by (apply find_c_app; auto).
    rewrite Ef. cbn [pos_of]. rewrite slice_to_nat, slice_from_nat, firstn_app, skipn_app, Nat.sub_diag, firstn_all, skipn_all. cbn [firstn skipn app]. rewrite app_nil_r.
    f_equal. change (SP :: 40%N :: n ++ [41%N]) with ([SP] ++ (40%N :: n) ++ [41%N]).
    assert (Es : strip ([SP] ++ (40%N :: n) ++ [41%N]) = (40%N :: n) ++ [41%N]).
    { unfold strip. rewrite <- (app_nil_r ((40%N :: n) ++ [41%N])) at 1. apply strip_by_tight; auto. split; [reflexivity|rewrite rev_unit; reflexivity]. }
    rewrite Es. cbn [app lstrip_by]. change (is_c 40%N 40%N) with true. cbv iota.
    assert (El : lstrip_by (is_c 40%N) (n ++ [41%N]) = n ++ [41%N]).
    { destruct n as [|c n]; [reflexivity|]. cbn [app lstrip_by]. destruct (is_c 40%N c) eqn:Ec; auto. exfalso. apply N.eqb_eq in Ec. subst c. eapply H1; eauto. }
    rewrite El. destruct n as [|c n] using rev_ind; [reflexivity|]. rewrite <- app_assoc. cbn [app]. apply rstrip_by_app; [reflexivity|].
    destruct (is_c 41%N c) eqn:Ec; auto. exfalso. apply N.eqb_eq in Ec. subst c. eapply H2; eauto.
  Qed.
  Lemma C63_T s name sc s' sc' ls l v n : first_interpret E known s name sc s' sc' -> lines_of (s_raw sc) ls ->
    last_line_of H_T ls l -> content l (v ++ SP :: 40%N :: n ++ [41%N]) -> ~ In SP v -> (forall t, n <> 40%N :: t) -> (forall t, n <> t ++ [41%N]) ->
    attr_is sc' A_T v /\ attr_is sc' A_time_name n.
  Proof.
    intros Hf Hl Hll Hc Hv H1 H2. last H_T [A_T; A_time_name] Hf Hl.
    - exfalso. destruct H as [H _]. destruct Hll as (pre & post & -> & Hcl & _). rewrite Forall_forall in H. apply (H l); auto. apply in_elt.
    - destruct H as (l' & wa & wb & K1 & K2 & K3 & K4). rewrite (last_line_fun _ _ _ _ K1 Hll) in K3.
      apply content_strip in Hc; [|destruct Hll as (? & ? & _ & Q & _); eapply control_SP; eauto].
      cbn [process] in K3. unfold process_T in K3. rewrite (value_name_spec l v n) in K3 by auto. mgo K3.
      unfold attr_is. rewrite !K4 by (simpl; auto). split; mattr; reflexivity.
  Qed.
  Lemma C63_M s name sc s' sc' ls l v n : first_interpret E known s name sc s' sc' -> lines_of (s_raw sc) ls ->
    last_line_of H_M ls l -> content l (v ++ SP :: 40%N :: n ++ [41%N]) -> ~ In SP v -> (forall t, n <> 40%N :: t) -> (forall t, n <> t ++ [41%N]) ->
    attr_is sc' A_M v /\ attr_is sc' A_monitor_name n.
  Proof.
    intros Hf Hl Hll Hc Hv H1 H2. last H_M [A_M; A_monitor_name] Hf Hl.
    - exfalso. destruct H as [H _]. destruct Hll as (pre & post & -> & Hcl & _). rewrite Forall_forall in H. apply (H l); auto. apply in_elt.
    - destruct H as (l' & wa & wb & K1 & K2 & K3 & K4). rewrite (last_line_fun _ _ _ _ K1 Hll) in K3.
      apply content_strip in Hc; [|destruct Hll as (? & ? & _ & Q & _); eapply control_SP; eauto].
      cbn [process] in K3. unfold process_M in K3. rewrite (value_name_spec l v n) in K3 by auto. mgo K3.
      unfold attr_is. rewrite !K4 by (simpl; auto). split; mattr; reflexivity.
  Qed.

  (** labels and first and last column *)
  Lemma C32_lemma s name sc s' sc' ls : first_interpret E known s name sc s' sc' -> lines_of (s_raw sc) ls ->
    exists lab0 lab, labels_written ls lab0 /\ attr_is sc' A_L lab /\ (lab = lab0 \/ relabelled [] lab0 lab) /\
      attr_is sc' A_column_first (hd [] lab) /\ attr_is sc' A_column_last (last lab0 []) /\ (NoDup lab0 -> attr_is sc' A_column_last (last lab [])).
  Proof.
    intros Hf Hl. destruct (list_eq_dec str_eq_dec (dlines known (s_raw sc)) []) as [Hn|Hn].
    - (* no data *)
      assert (HL : exists lab0, written ls lab0 /\ s_obj sc' A_L = Some lab0 /\ s_obj sc' A_column_first = Some (hd [] lab0) /\ s_obj sc' A_column_last = Some (last lab0 [])).
      { destruct (first_interpret_ran _ _ _ _ _ _ _ Hf) as (w0 & w1 & w & R).
        assert (EL : s_obj sc' A_L = me w1 A_L).
        { rewrite (ran_obj _ _ _ _ _ _ _ _ _ R). apply (ran_no_post E known Hk A_L _ _ _ _ _ _ _ R). intros l h p Hi He Hp.
          destruct h; try discriminate Hp; injection Hp as <-; cbn; try (intros Q; decompose [or] Q; try discriminate; auto; fail).
          - exfalso. assert (Q : In l (dlines known (s_raw sc))) by (unfold dlines, lines_h; apply filter_In; split; auto; unfold of_h; rewrite He; reflexivity). rewrite Hn in Q. destruct Q.
          - exfalso. assert (Q : In l (dlines known (s_raw sc))) by (unfold dlines, lines_h; apply filter_In; split; auto; unfold of_h; rewrite He; reflexivity). rewrite Hn in Q. destruct Q. }
        assert (EC : forall a, In a [A_column_first; A_column_last] -> s_obj sc' a = me w1 a).
        { intros a Ha. rewrite (ran_obj _ _ _ _ _ _ _ _ _ R). apply (posts_keep E a w1 w (Ok tt)); [|apply (ran_posts _ _ _ _ _ _ _ _ _ R)].
          intros p; destruct p; cbn; intros Q'; decompose [or] Q'; subst; cbn in Ha; decompose [or] Ha; try discriminate; auto. }
        rewrite EL, !EC by (simpl; auto). apply lines_of_scan_lines in Hl. subst ls.
        destruct (last_w1 H_L [A_L; A_column_first; A_column_last] _ _ _ _ _ _ _ ltac:(discriminate) ltac:(discriminate)
          ltac:(intros h' a K1 K2; destruct h'; try congruence; cbn in *; intros K3; decompose [or] K3; subst; decompose [or] K2; try discriminate; auto)
          ltac:(intros a K2 K3; cbn in *; decompose [or] K3; subst; decompose [or] K2; try discriminate; auto) R) as [[H1 H2]|(l & wa & wb & H1 & H2 & H3 & H4)].
        + exists []. split; [left; auto|]. rewrite !H2 by (simpl; auto). repeat split.
        + cbn [process] in H3. apply process_L_ok in H3. destruct H3 as (lab1 & J1 & J2 & J3 & J4 & J5). exists lab1. rewrite !H4 by (simpl; auto). split; [|split; auto].
          * right. destruct H1 as (pre & post & Q1 & Q2 & Q3). exists pre, l, post, (Utils.strip_first_word l). split; auto. split; auto. split; auto.
            split; [apply content_strip; auto; eapply control_SP; eauto|]. destruct J2 as [->|[J2 J2']]; [auto|right; split; [auto|apply fields_words; auto]].
          * rewrite J3, J4. split; [destruct lab1; [congruence|reflexivity]|]. destruct (exists_last J5) as (l0 & x & ->). rewrite app_length, last_last. cbn [List.length].
            rewrite nth_error_app2 by lia. replace (List.length l0 + 1 - 1 - List.length l0) with 0 by lia. reflexivity. }
      destruct HL as (lab0 & H1 & H2 & H3 & H4). exists lab0, lab0. split; [apply (written_spec); auto|]. unfold attr_is. split; auto.
    - destruct (data_lemma E known Hk _ _ _ _ _ Hf Hn) as (lab0 & lab & nl & lines & data & D1 & D2 & D3 & D4 & D5 & D6 & D7 & D8 & D9 & D10).
      apply lines_of_scan_lines in Hl. subst ls. exists lab0, lab. split; [apply (written_spec); auto|]. unfold attr_is. split; auto. split; auto.
      split; [rewrite (relabelled_hd _ _ D2); auto|]. split; auto. intros Hd. rewrite (relabelled_id _ _ _ D2 Hd). auto.
  Qed.
End Last.
