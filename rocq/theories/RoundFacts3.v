(** C26: the lines of one scan (for PropRound.v). *)
From Coq Require Import String Lia.
From Verif Require Import Uni Py PyFacts NumFacts Time Utils UtilsFacts Keys Handlers Geom Reader SpecText SpecUtils SpecReader SpecNum SpecHistory SpecKeys SpecInterp SpecData SpecDecimal SpecRound
  TextFacts KeyFacts ReaderFacts ReaderFacts2 ReaderFacts4 FrameFacts StateFacts DispatchFacts InterpFacts MonadFacts HandlerFacts DecimalFacts DataFacts DataFacts2 LastFacts ReaderFacts5 ReaderFacts7 UseFacts RoundFacts RoundFacts2.
Import ListNotations.
Local Open Scope nat_scope.
Local Open Scope list_scope.

Lemma rows_ex rows vals r : Forall2 (Forall2 written_number) rows vals -> In r rows -> exists v, Forall2 written_number r v.
Proof. intros H Hi. induction H; [destruct Hi|]. destruct Hi as [->|Hi]; eauto. Qed.
Lemma row_line w vals l : good_table w vals -> In l (map (join [SP]) (w_rows w)) -> control H_data l /\ exists v, a_row (List.length (w_labels w)) l v.
Proof.
  intros (G1 & _ & _ & _ & G5 & G6) Hi. apply in_map_iff in Hi. destruct Hi as (r & <- & Hi). destruct (rows_ex _ _ _ G6 Hi) as [v Hv].
  rewrite Forall_forall in G5. pose proof (G5 _ Hi) as Hl. split; [apply (row_control r v Hv); lia|]. exists v. apply a_row_written; auto.
Qed.
Definition data_posts (lines : list str) : dict pp := match lines with [] => [] | _ => [(L "scan_data", PP_data)] end.

Section Scan.
  Context (E : env) (known : list hid) (Hk : incl all_hids known).

  Lemma go_rows lines : forall w dl ps, (forall l, In l lines -> control H_data l /\ ~ In LF l) ->
    me w A_data_lines = Some dl -> me w A_posts = Some ps -> (ps = [] \/ ps = [(L "scan_data", PP_data)]) ->
    exists w', iterM (scan_line E known) lines w = (w', Ok tt) /\ is_scan w' = is_scan w /\ peer w' = peer w /\
      me w' A_data_lines = Some (dl ++ lines) /\ me w' A_posts = Some (match lines with [] => ps | _ => [(L "scan_data", PP_data)] end) /\
      forall a, ~ In a [A_data_lines; A_posts] -> me w' a = me w a.
  Proof.
    induction lines as [|l lines IH]; intros w dl ps Hc Hd Hp Hps.
    - exists w. rewrite app_nil_r. repeat split; auto.
    - destruct (Hc l (or_introl eq_refl)) as [C1 C2]. cbn [iterM]. unfold mbind at 1. rewrite (line_h E known Hk H_data l w C1) by (exact C2 || discriminate).
      change (process E H_data l w) with (process_data l w). unfold process_data, mbind at 1. unfold getA at 1. rewrite Hd. unfold mbind at 1. unfold setA at 1.
      rewrite (addPost_go "scan_data" PP_data _ ps) by (cbn [me]; rewrite upd_other by discriminate; exact Hp). cbn [me is_scan peer].
      assert (Hps' : dadd (L "scan_data") PP_data ps = [(L "scan_data", PP_data)]). { destruct Hps as [->| ->]; reflexivity. }
      rewrite Hps'. set (w1 := mk_w (is_scan w) (upd A_posts _ _) (peer w)).
      destruct (IH w1 (dl ++ [l]) [(L "scan_data", PP_data)]) as (w' & I1 & I2 & I3 & I4 & I5 & I6).
      + intros x Hx. apply Hc. right. exact Hx.
      + unfold w1. cbn [me]. rewrite upd_other by discriminate. apply upd_same.
      + unfold w1. cbn [me]. apply upd_same.
      + right. reflexivity.
      + exists w'. split; [exact I1|]. split; [exact I2|]. split; [exact I3|]. split; [rewrite I4, <- app_assoc; reflexivity|].
        split; [rewrite I5; destruct lines; reflexivity|]. intros a Ha. rewrite I6 by exact Ha. unfold w1. cbn [me].
        rewrite !upd_other; [reflexivity| |]; intros <-; apply Ha; cbn; auto.
  Qed.

  Record ready (w : world) (p : obj) (hd : str) (he : num) (h5 : dict hid) : Prop := {
    r_scan : is_scan w = true; r_h5 : me w A_h5 = Some h5; r_posts : me w A_posts = Some []; r_lines : me w A_data_lines = Some [];
    r_peer : peer w = Some p; r_date : p A_date = Some hd; r_strip : strip hd <> []; r_epoch : p A_epoch = Some he; r_good : good_epoch E he;
    r_data : me w A_data = Some [];
    r_me : me w A_epoch = None \/ exists e, me w A_epoch = Some e /\ good_epoch E e }.

  Lemma section_go w w0 vals p hd he h5 : good_scan E w0 vals -> ready w p hd he h5 ->
    exists w', mbind (iterM (scan_line E known) (section_lines w0)) (fun _ => run_posts E) w = (w', Ok tt) /\
      peer w' = Some p /\ me w' A_date = Some (w_date w0) /\ (w_rows w0 = [] -> me w' A_L = Some (w_labels w0) /\ me w' A_data = Some []).
  Proof.
    intros Hg [R1 R2 R3 R4 R5 R6 R7 R8 R9 R11 R10]. pose proof (section_free E w0 vals Hg) as Hfree.
    pose proof Hg as (S1 & S2 & S3 & S4 & S5 & GT). pose proof GT as (G1 & G2 & G3 & G4 & G5 & G6).
    unfold section_lines, table_lines in *. cbn [app] in *. inversion_clear Hfree as [|? ? F1 F']. inversion_clear F' as [|? ? F2 F'']. inversion_clear F'' as [|? ? F3 F'''].
    inversion_clear F''' as [|? ? F4 F5].
    cbn [iterM]. unfold mbind at 1. unfold mbind at 1. rewrite (line_S E known Hk). 
    destruct (go_D E (w_date w0) w h5 p hd he R1 S5 R2 R5 R6 R7 R8 R9 R10) as (w1 & h5' & e & D1 & D2 & D3 & D4 & D5 & D6 & D7 & D8).
    unfold mbind at 1. rewrite (line_h E known Hk H_D _ w) by (first [apply control_D|discriminate|apply free_lf; exact F2]).
    change (process E H_D ?l w) with (process_D E l w). rewrite D1.
    unfold mbind at 1. rewrite (line_h E known Hk H_N _ w1) by (first [apply control_N|discriminate|apply free_lf; exact F3]).
    change (process E H_N ?l w1) with (process_N l w1). rewrite (go_N _ _ _ G4).
    set (w2 := mk_w (is_scan w1) _ (peer w1)).
    unfold mbind at 1. rewrite (line_h E known Hk H_L _ w2) by (first [apply control_L|discriminate|apply free_lf; exact F4]).
    change (process E H_L ?l w2) with (process_L l w2).
    destruct (go_L (w_labels w0) w2 G1 G3) as (w3 & L1 & L2 & L3 & L4 & L5). rewrite L1.
    assert (M : forall a, ~ In a [A_date; A_epoch; A_h5; A_N; A_L; A_column_first; A_column_last] -> me w3 a = me w a).
    { intros a Ha. rewrite L5; [|intros Q; apply Ha; cbn in *; intuition]. unfold w2. cbn [me]. rewrite upd_other; [apply D8; intros Q; apply Ha; cbn in *; intuition|].
      intros <-. apply Ha. cbn. auto 7. }
    destruct (go_rows (map (join [SP]) (w_rows w0)) w3 [] []) as (w4 & K1 & K2 & K3 & K4 & K5 & K6).
    { intros l Hl. split; [eapply row_line; eauto|]. rewrite Forall_forall in F5. apply free_lf. apply F5. exact Hl. }
    { rewrite M; [exact R4|]. cbn. intros Q. repeat (destruct Q as [Q|Q]; [discriminate|]). destruct Q. }
    { rewrite M; [exact R3|]. cbn. intros Q. repeat (destruct Q as [Q|Q]; [discriminate|]). destruct Q. }
    { left. reflexivity. }
    rewrite K1. cbn [app] in K4.
    assert (P4 : peer w4 = Some p). { rewrite K3, L3. unfold w2. cbn [peer]. exact D3. }
    assert (Dt : me w4 A_date = Some (w_date w0)).
    { rewrite K6; [|cbn; intros [Q|[Q|[]]]; discriminate]. rewrite L5; [|cbn; intros [Q|[Q|[Q|[]]]]; discriminate]. unfold w2. cbn [me]. rewrite upd_other by discriminate. exact D4. }
    unfold run_posts, mbind at 1. unfold getA at 1. rewrite K5.
    destruct (map (join [SP]) (w_rows w0)) as [|r rs] eqn:Er.
    - exists w4. split; [reflexivity|]. split; [exact P4|]. split; [exact Dt|]. intros _. split.
      + rewrite K6; [exact L4|]. cbn; intros [Q|[Q|[]]]; discriminate.
      + rewrite K6 by (cbn; intros [Q|[Q|[]]]; discriminate). rewrite M; [exact R11|]. cbn. intros Q. repeat (destruct Q as [Q|Q]; [discriminate|]). destruct Q.
    - rewrite <- Er in K4. cbn [values map snd iterM]. unfold mbind at 1. change (run_post E PP_data w4) with (post_data w4).
      destruct (post_data_go w4 (w_labels w0) (Z.of_nat (List.length (w_labels w0))) (map (join [SP]) (w_rows w0)) h5') as (w5 & Q1 & Q2 & Q3).
      + rewrite K6; [exact L4|]. cbn; intros [Q|[Q|[]]]; discriminate.
      + exact G2.
      + exact G1.
      + rewrite K6 by (cbn; intros [Q|[Q|[]]]; discriminate). rewrite L5 by (cbn; intros [Q|[Q|[Q|[]]]]; discriminate). unfold w2. cbn [me]. apply upd_same.
      + exact K4.
      + rewrite K6 by (cbn; intros [Q|[Q|[]]]; discriminate). rewrite L5 by (cbn; intros [Q|[Q|[Q|[]]]]; discriminate). unfold w2. cbn [me]. rewrite upd_other by discriminate. exact D5.
      + apply Forall_forall. intros l Hl. destruct (row_line w0 vals l GT Hl) as [C1 C2]. split; [apply control_data_at; exact C1|exact C2].
      + rewrite Q1. exists w5. split; [reflexivity|]. split; [rewrite Q2; exact P4|]. split; [rewrite Q3; [exact Dt|]; cbn; intros [Q|[Q|[Q|[]]]]; discriminate|].
        intros Z. rewrite Z in Er. discriminate.
  Qed.
End Scan.
