(** C44: proofs about extractSpecScan. *)
From Coq Require Import String Lia.
From Verif Require Import Uni Py PyFacts NumFacts Keys Handlers Reader Cli SpecText SpecReader SpecHistory SpecInterp SpecData SpecCli DataFacts InterpFacts CliFacts.
Import ListNotations.
Local Open Scope nat_scope.
Local Open Scope list_scope.

(** ** zip *)
Lemma zip_step {A} (cols : list (list A)) l : mapM (fun c => match c with x :: t => Ok (x, t) | [] => Raise IndexError end) cols = Ok l ->
  Forall2 (fun c p => c = fst p :: snd p) cols l.
Proof.
  intros H. apply mapM_F2 in H. induction H as [|c p cs ps Hc H IH]; constructor; auto. destruct c as [|x t]; [discriminate|]. injection Hc as <-. reflexivity.
Qed.
Lemma zip_step_ok {A} (cols : list (list A)) : Forall (fun c => c <> []) cols -> exists l, mapM (fun c => match c with x :: t => Ok (x, t) | [] => Raise IndexError end) cols = Ok l.
Proof.
  induction 1 as [|c cs Hc H (l & IH)]; [exists []; reflexivity|]. destruct c as [|x t]; [congruence|]. exists ((x, t) :: l). cbn [mapM bind]. rewrite IH. reflexivity.
Qed.
Lemma zip_rows_spec {A} n : forall (cols : list (list A)), Forall (fun c => List.length c = n) cols ->
  List.length (zip_rows n cols) = n /\ forall i row, nth_error (zip_rows n cols) i = Some row -> Forall2 (fun c x => nth_error c i = Some x) cols row.
Proof.
  induction n as [|n IH]; intros cols H; [split; [reflexivity|intros [|i] row Q; discriminate]|]. cbn [zip_rows].
  destruct (zip_step_ok cols) as (l & El). { eapply Forall_impl; [|exact H]. intros c Hc ->. discriminate. }
  rewrite El. apply zip_step in El. assert (Ht : Forall (fun c => List.length c = n) (map snd l)).
  { clear IH. induction El as [|c p cs ps Hc El IH2]; [constructor|]. cbn [map]. inversion H as [|c' cs' Hl Hr]; subst. constructor; [cbn in Hl; lia|exact (IH2 Hr)]. }
  destruct (IH _ Ht) as [I1 I2]. split; [cbn [List.length]; rewrite I1; reflexivity|]. intros [|i] row Q.
  - cbn [nth_error] in Q. injection Q as <-. clear -El. induction El as [|c p cs ps Hc El IH2]; [constructor|]. cbn [map]. constructor; [rewrite Hc; reflexivity|exact IH2].
  - cbn [nth_error] in Q. apply I2 in Q. clear -El Q. revert row Q. induction El as [|c p cs ps Hc El IH2]; intros row Q; [inversion Q; constructor|]. cbn [map] in Q.
    inversion Q as [|a b la lb Q1 Q2]; subst. constructor; [exact Q1|exact (IH2 _ Q2)].
Qed.
Lemma zip_all_spec {A} n (cols : list (list A)) : cols <> [] -> Forall (fun c => List.length c = n) cols ->
  List.length (zip_all cols) = n /\ forall i row, nth_error (zip_all cols) i = Some row -> Forall2 (fun c x => nth_error c i = Some x) cols row.
Proof.
  intros Hn H. destruct cols as [|c cs]; [congruence|]. cbn [zip_all]. rewrite (Forall_inv H). apply zip_rows_spec. exact H.
Qed.
Lemma columns_spec data labels cols : mapM (column data) labels = Ok cols <-> Forall2 (fun l c => dget l data = Some (Col c)) labels cols.
Proof.
  rewrite mapM_F2. assert (P : forall l c, column data l = Ok c <-> dget l data = Some (Col c)).
  { intros l c. unfold column. destruct (dget l data) as [[v|m]|]; cbn [of_opt bind]; split; intros Q; try discriminate; injection Q as ->; reflexivity. }
  split; intros H; induction H; constructor; auto; apply P; auto.
Qed.
Lemma picked_cols data labels cols i row : Forall2 (fun l c => dget l data = Some (Col c)) labels cols -> Forall2 (fun c x => nth_error c i = Some x) cols row -> picked data labels i row.
Proof.
  intros H. revert row. induction H as [|l c ls cs Hl H IH]; intros row Q; inversion Q as [|a b la lb Q1 Q2]; subst; constructor; [exists c; auto|exact (IH _ Q2)].
Qed.

Section Extract.
  Context (E : env) (known : list hid) (show : fl -> str).
  Notation extract' := (extract E known show).
  Lemma hash_line_hash letter l : (exists t, L letter = 35%N :: t) -> starts_with_hash (hash_line letter l).
  Proof.
    intros (t & Ht). unfold hash_line, tabbed, starts_with_hash. rewrite Ht. destruct l as [|x l]; [exists t; reflexivity|]. cbn [join]. eexists. reflexivity.
  Qed.
  Lemma header_hash o n sc hdr : header_text show o n sc = Ok hdr -> Forall starts_with_hash hdr /\ exists more, hdr = (L "# file: " ++ x_file o) :: (L "# scan: " ++ n) :: more.
  Proof.
    unfold header_text. intros H.
    assert (H35 : forall (s : string), (exists t, L s = 35%N :: t) -> starts_with_hash (L s)) by (intros s Hs; exact Hs).
    match type of H with bind ?x _ = _ => destruct x as [g|] eqn:Eg; [|discriminate] end. cbn [bind] in H.
    match type of H with bind ?x _ = _ => destruct x as [p|] eqn:Ep; [|discriminate] end. cbn [bind] in H.
    match type of H with bind ?x _ = _ => destruct x as [q|] eqn:Eq; [|discriminate] end. cbn [bind] in H. cbv zeta in H.
    set (v := if x_V o then _ else _) in H.
    assert (Hm : forall {V} (f : str * V -> list str) letter d, (exists t, L letter = 35%N :: t) -> Forall starts_with_hash (map (fun kv => hash_line letter (f kv)) d)).
    { intros V f letter d Hl. apply Forall_forall. intros x Hx. apply in_map_iff in Hx. destruct Hx as (kv & <- & _). apply hash_line_hash. exact Hl. }
    assert (Hg : Forall starts_with_hash g).
    { destruct (x_G o); [|injection Eg as <-; constructor]. destruct (attribute sc A_G) as [G|]; [|discriminate]. cbn [bind] in Eg. injection Eg as <-. apply Hm. eexists. reflexivity. }
    assert (Hp : Forall starts_with_hash p).
    { destruct (x_P o); [|injection Ep as <-; constructor]. destruct (attribute sc A_positioner) as [P|]; [|discriminate]. cbn [bind] in Ep. injection Ep as <-. apply Hm. eexists. reflexivity. }
    assert (Hq : Forall starts_with_hash q).
    { destruct (x_Q o); [|injection Eq as <-; constructor]. destruct (attribute sc A_Q) as [Q|]; [|discriminate]. cbn [bind] in Eq. injection Eq as <-. destruct Q as [[|x l]|]; [constructor| |constructor].
      constructor; [apply hash_line_hash; eexists; reflexivity|constructor]. }
    assert (Hv : Forall starts_with_hash v).
    { unfold v. destruct (x_V o); [|constructor]. destruct (s_obj sc A_metadata) as [md|]; [|constructor]. apply Hm. eexists. reflexivity. }
    assert (Hall : Forall starts_with_hash (g ++ p ++ q ++ v)) by (repeat (apply Forall_app; split); assumption).
    assert (HH : forall ss, Forall (fun s : string => exists t, L s = 35%N :: t) ss -> Forall starts_with_hash (map L ss)) by (intros ss F; apply Forall_map; exact F).
    assert (Hh : Forall starts_with_hash (match g ++ p ++ q ++ v with [] => [] | _ => map L ["#"; "# data from scan heading"]%string ++ (g ++ p ++ q ++ v) ++ map L ["#"; "# scan data:"; "#"]%string end)).
    { destruct (g ++ p ++ q ++ v) as [|x l]; [constructor|]. apply Forall_app. split; [apply HH; repeat (apply Forall_cons; [eexists; reflexivity|]); apply Forall_nil|].
      apply Forall_app. split; [exact Hall|apply HH; repeat (apply Forall_cons; [eexists; reflexivity|]); apply Forall_nil]. }
    match type of H with Ok ?x = _ => assert (Hx : hdr = x) by congruence; rewrite Hx; split; [|eexists; reflexivity] end. apply Forall_cons; [eexists; reflexivity|]. apply Forall_cons; [eexists; reflexivity|]. exact Hh.
  Qed.
  Lemma extract_cases o s n s' w : extract' o s n = (s', Ok w) ->
    exists sc0 sc lab, getScan (KStr n) s = Ok (Some sc0) /\ interpret E known (s_num sc0) s = (s', None) /\ dget (s_num sc0) (scans s') = Some sc /\ attr_is sc A_L lab /\
      ((w = None /\ exists l, In l (x_column o) /\ ~ In l lab) \/
       (incl (x_column o) lab /\ exists txt hdr, data_text show o sc = Ok txt /\ header_text show o n sc = Ok hdr /\ w = Some (makeOutputFileName (x_file o) n, join [LF] hdr ++ [LF] ++ join [LF] txt))).
  Proof.
    unfold extract. destruct (getScan (KStr n) s) as [[sc0|]|] eqn:Eg; try discriminate. destruct (interpret E known (s_num sc0) s) as [s1 [e|]] eqn:Ei; [discriminate|].
    destruct (dget (s_num sc0) (scans s1)) as [sc|] eqn:Ed; [|discriminate]. cbn [of_opt bind]. unfold all_labels, attribute. destruct (s_obj sc A_L) as [lab|] eqn:El; [|discriminate]. cbn [of_opt bind].
    intros H. destruct (forallb (fun l => mem l lab) (x_column o)) eqn:Ef.
    - destruct (data_text show o sc) as [txt|] eqn:Et; [|discriminate]. cbn [bind] in H. destruct (header_text show o n sc) as [hdr|] eqn:Eh; [|discriminate]. cbn [bind] in H.
      injection H as -> <-. exists sc0, sc, lab. split; [reflexivity|]. split; [exact Ei|]. split; [exact Ed|]. split; [exact El|]. right.
      split; [|exists txt, hdr; auto]. intros l Hl. rewrite forallb_forall in Ef. apply mem_In. exact (Ef l Hl).
    - injection H as -> <-. exists sc0, sc, lab. split; [reflexivity|]. split; [exact Ei|]. split; [exact Ed|]. split; [exact El|]. left. split; [reflexivity|].
      clear -Ef. induction (x_column o) as [|l ls IH]; [discriminate|]. cbn [forallb] in Ef. destruct (mem l lab) eqn:Em.
      + destruct (IH Ef) as (l' & H1 & H2). exists l'. split; [right; exact H1|exact H2].
      + exists l. split; [left; reflexivity|]. intros Q. apply mem_In in Q. change (list (list N)) with (list str) in *. rewrite Q in Em. discriminate.
  Qed.
  Definition label_line (o : xoptions) : list str := if x_labels o then [L "# " ++ join [9%N] (x_column o)] else [].
  Lemma data_text_rows o sc txt data m : data_text show o sc = Ok txt -> attr_is sc A_data data -> data <> [] -> x_column o <> [] ->
    (forall l, In l (x_column o) -> exists c, dget l data = Some (Col c) /\ List.length c = m) ->
    exists rows, txt = label_line o ++ rows /\ List.length rows = m /\
      forall i line, nth_error rows i = Some line -> exists vals, picked data (x_column o) i vals /\ tab_separated (map show vals) line.
  Proof.
    unfold data_text, attribute, attr_is. intros H Hd Hne Hc Hl. rewrite Hd in H. cbn [of_opt bind] in H. destruct data as [|kv d]; [congruence|]. set (data := kv :: d) in *.
    destruct (mapM (column data) (x_column o)) as [cols|] eqn:Em; [|discriminate]. cbn [bind] in H. apply columns_spec in Em.
    assert (Hlen : Forall (fun c => List.length c = m) cols).
    { clear -Em Hl. induction Em as [|l c ls cs Hlc Em IH]; [constructor|]. constructor; [|apply IH; intros x Hx; apply Hl; right; exact Hx]. destruct (Hl l (or_introl eq_refl)) as (c' & Q1 & Q2). assert (c' = c) by congruence. congruence. }
    assert (Hcols : cols <> []) by (intros ->; inversion Em; congruence). destruct (zip_all_spec m cols Hcols Hlen) as [Z1 Z2].
    exists (map (fun r => tabbed (map show r)) (zip_all cols)). split; [injection H as <-; reflexivity|]. split; [rewrite map_length; exact Z1|]. intros i line Q. rewrite nth_error_map in Q.
    destruct (nth_error (zip_all cols) i) as [row|] eqn:Er; [|discriminate]. cbn [option_map] in Q. injection Q as <-. exists row. split; [|reflexivity]. apply (picked_cols data (x_column o) cols i row Em). apply Z2. exact Er.
  Qed.
  Lemma data_text_none o sc txt : data_text show o sc = Ok txt -> attr_is sc A_data [] -> txt = label_line o ++ [L "# <no SPEC data points in this scan>"].
  Proof. unfold data_text, attribute, attr_is. intros H Hd. rewrite Hd in H. cbn [of_opt bind] in H. injection H as <-. reflexivity. Qed.
End Extract.
Lemma getScan_in k s sc : getScan k s = Ok (Some sc) -> exists n, dget n (scans s) = Some sc.
Proof.
  unfold getScan. intros H. destruct (key_float k) as [f|]; [|discriminate]. cbn [bind] in H. destruct (int_of_fl f) as [z|]; [|discriminate]. cbn [bind] in H. destruct (z <? 1)%Z.
  - destruct (getScanNumbers s) as [l|]; [|discriminate]. cbn [bind] in H. destruct l as [|x l]; [discriminate|]. destruct (key_int k) as [i|]; [|discriminate]. cbn [bind] in H.
    destruct (index i (x :: l)) as [n|]; [|discriminate]. cbn [bind] in H. exists n. congruence.
  - exists (key_str k). congruence.
Qed.
