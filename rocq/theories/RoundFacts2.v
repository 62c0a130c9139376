(** C26: interpreting a scan written by SPEC succeeds (for PropRound.v). *)
From Coq Require Import String Lia.
From Verif Require Import Uni Py PyFacts NumFacts Time Utils UtilsFacts Keys Handlers Geom Reader SpecText SpecUtils SpecReader SpecNum SpecHistory SpecKeys SpecInterp SpecData SpecDecimal SpecRound
  TextFacts KeyFacts ReaderFacts ReaderFacts2 ReaderFacts4 FrameFacts StateFacts DispatchFacts InterpFacts MonadFacts HandlerFacts DecimalFacts DataFacts DataFacts2 LastFacts ReaderFacts5 ReaderFacts7 UseFacts RoundFacts.
Import ListNotations.
Local Open Scope nat_scope.
Local Open Scope list_scope.

(* ------------------------------------------------------------------ *)
(** * The table *)
Lemma row_total ls ws vals : Forall2 number ws vals -> forall c buf, c + List.length ws <= List.length ls -> exists b, interpret_row_from ls c ws buf = Ok b.
Proof.
  induction 1 as [|w v ws vals Hw H IH]; intros c buf Hc; cbn [interpret_row_from]; [eauto|].
  unfold number in Hw. rewrite Hw. cbn [bind]. rewrite index_nat. cbn [List.length] in Hc.
  destruct (nth_error ls c) as [l|] eqn:En; [|apply nth_error_None in En; lia]. cbn [of_opt bind]. apply IH. lia.
Qed.
Definition cols (ls : list str) (d : dict col) : Prop := forall l, In l ls -> exists vs, dget l d = Some (Col vs).
Lemma append_total ls buf : forall d, cols ls d -> incl (keys buf) ls -> exists d', foldM append_val buf d = Ok d' /\ cols ls d'.
Proof.
  induction buf as [|[k v] buf IH]; intros d Hd Hb; cbn [foldM]; [eauto|].
  assert (Hin : In k ls) by (apply Hb; left; reflexivity). destruct (Hd k Hin) as [vs Hv].
  unfold append_val at 1. cbn [fst snd]. rewrite Hv. cbn [bind]. apply IH.
  - intros l Hl. destruct (list_eq_dec N.eq_dec l k) as [->|Hn]; [rewrite dget_dset_same; eauto|]. rewrite dget_dset_other by auto. apply Hd. exact Hl.
  - intros x Hx. apply Hb. right. exact Hx.
Qed.
Lemma data_line_total ls line vals d : NoDup ls -> a_row (List.length ls) line vals -> is_at line = false -> cols ls d ->
  exists d', data_line ls (List.length ls) line d = Ok d' /\ cols ls d'.
Proof.
  intros Hn Hr Ha Hd. apply a_row_words in Hr. destruct Hr as [Hr Hl]. unfold data_line. unfold is_at in Ha. rewrite Ha.
  destruct (row_total ls _ _ Hr 0 []) as [b Hb]; [rewrite (F2_length _ _ _ Hr); cbn; lia|].
  unfold interpret_data_row. rewrite Hb. pose proof (data_row_spec ls line (Ok b) Hn Hb) as (vals' & V1 & V2 & _).
  rewrite (number_fun _ _ _ V1 Hr) in V2. clear V1 vals'. subst b. destruct (_ =? _)%nat.
  - apply append_total; auto. rewrite keys_combine by auto. apply incl_refl.
  - eauto.
Qed.
Lemma iter_total ls n lines : (forall l d, In l lines -> cols ls d -> exists d', data_line ls n l d = Ok d' /\ cols ls d') ->
  forall w d, me w A_data = Some d -> cols ls d ->
  exists w', iterM (fun v => mbind (getA A_data) (fun d => mbind (lift (data_line ls n v d)) (fun d => setA A_data d))) lines w = (w', Ok tt) /\
    is_scan w' = is_scan w /\ peer w' = peer w /\ forall a, a <> A_data -> me w' a = me w a.
Proof.
  induction lines as [|l lines IH]; intros H w d Hd Hc; [exists w; auto|].
  destruct (H l d (or_introl eq_refl) Hc) as (d1 & D1 & D2). cbn [iterM]. unfold mbind at 1. unfold mbind at 1. unfold getA at 1. rewrite Hd.
  unfold mbind at 1. unfold lift at 1. rewrite D1. unfold setA at 1.
  destruct (IH (fun l d Hl => H l d (or_intror Hl)) (mk_w (is_scan w) (upd A_data d1 (me w)) (peer w)) d1) as (w' & I1 & I2 & I3' & I3).
  - cbn [me]. apply upd_same.
  - exact D2.
  - exists w'. split; [exact I1|]. split; [exact I2|]. split; [exact I3'|]. intros a Ha. rewrite I3 by auto. cbn [me]. apply upd_other. auto.
Qed.
Lemma unique_key_free f l ks : mem l ks = false -> unique_key_from (S f) 0 l ks = Ok l.
Proof. intros H. cbn [unique_key_from]. rewrite H. reflexivity. Qed.
Lemma unique_labels_id ls : forall done, NoDup (done ++ ls) -> unique_labels done ls = (ls, done ++ ls, Ok tt).
Proof.
  induction ls as [|l ls IH]; intros done H; cbn [unique_labels]; [rewrite app_nil_r; reflexivity|].
  assert (Hm : mem l done = false). { apply mem_not_In. apply NoDup_remove_2 in H. intros Q. apply H. apply in_or_app. auto. }
  unfold unique_key. rewrite (unique_key_free 999 l done Hm). rewrite IH by (rewrite <- app_assoc; exact H). rewrite <- app_assoc. reflexivity.
Qed.
Lemma addH5_go l h w d : me w A_h5 = Some d -> addH5 l h w = (mk_w (is_scan w) (upd A_h5 (dadd l h d) (me w)) (peer w), Ok tt).
Proof. intros H. unfold addH5, mbind, getA, setA. rewrite H. reflexivity. Qed.
Lemma addPost_go l h w d : me w A_posts = Some d -> addPost l h w = (mk_w (is_scan w) (upd A_posts (dadd (L l) h d) (me w)) (peer w), Ok tt).
Proof. intros H. unfold addPost, mbind, getA, setA. rewrite H. reflexivity. Qed.

Lemma post_data_go w ls n dl h5 : me w A_L = Some ls -> NoDup ls -> 2 <= List.length ls -> me w A_N = Some (Some [n]) ->
  me w A_data_lines = Some dl -> me w A_h5 = Some h5 -> Forall (fun l => is_at l = false /\ exists vals, a_row (List.length ls) l vals) dl ->
  exists w', post_data w = (w', Ok tt) /\ peer w' = peer w /\ forall a, ~ In a [A_L; A_data; A_h5] -> me w' a = me w a.
Proof.
  intros HL Hn Hlen HN HD Hh Hrows. unfold post_data. unfold mbind at 1. unfold getA at 1. rewrite HL.
  assert (H1 : one_space_labels ls = false) by (destruct ls as [|a [|b t]]; [reflexivity|cbn in Hlen; lia|reflexivity]). rewrite H1.
  unfold mbind at 1. unfold getA at 1. rewrite HN. unfold mbind at 1. unfold lift at 1. change (N0 (Some [n])) with (Ok n). cbv iota.
  rewrite (unique_labels_id ls []) by exact Hn. cbn [app].
  unfold mbind at 1. unfold setA at 1. unfold mbind at 1. unfold setA at 1. cbn [me is_scan peer]. unfold mbind at 1. unfold lift at 1.
  unfold mbind at 1. unfold getA at 1. cbn [me]. rewrite !upd_other by discriminate. rewrite HD.
  unfold mbind at 1. unfold getA at 1. cbn [me]. rewrite upd_same.
  assert (Hm : has_mca dl = false).
  { apply Bool.not_true_iff_false. intros Q. apply has_mca_at in Q. apply existsb_exists in Q. destruct Q as (l & Q1 & Q2). rewrite Forall_forall in Hrows. destruct (Hrows _ Q1) as [Q3 _]. congruence. }
  rewrite Hm. unfold mbind at 1. unfold ret at 1. unfold mbind at 1. unfold lift at 1. unfold mbind at 1. unfold lift at 1. cbn [combine_split_NM_lines].
  set (w0 := mk_w _ _ _).
  destruct (iter_total ls (List.length ls) dl) with (w := w0) (d := map (fun l => (l, Col [])) ls) as (w' & I1 & I2 & I3' & I3).
  - intros l d Hi Hc. rewrite Forall_forall in Hrows. destruct (Hrows _ Hi) as (R1 & vals & R2). eapply data_line_total; eauto.
  - unfold w0. cbn [me]. apply upd_same.
  - intros l Hi. exists []. apply dget_columns. exact Hi.
  - unfold mbind at 1. rewrite I1. eexists. split; [apply (addH5_go _ _ _ h5); rewrite I3 by discriminate; unfold w0; cbn [me]; rewrite !upd_other by discriminate; exact Hh|].
    cbn [peer me]. split; [exact I3'|]. intros a Ha. rewrite upd_other by (intros <-; apply Ha; cbn; auto). rewrite I3 by (intros ->; apply Ha; cbn; auto).
    unfold w0. cbn [me]. rewrite !upd_other; [reflexivity| |]; intros <-; apply Ha; cbn; auto.
Qed.

(* ------------------------------------------------------------------ *)
(** * Lines *)
Section Lines.
  Context (E : env) (known : list hid) (Hk : incl all_hids known).

  Lemma split_two d : In SP d -> exists a b t, split_c SP d = a :: b :: t.
  Proof.
    intros H. destruct (find_c SP d) as [n|] eqn:Ef; [|apply find_c_none in Ef; contradiction].
    apply in_split in H. destruct H as (x & y & ->). 
    assert (G : forall x, exists a b t, split_c SP (x ++ SP :: y) = a :: b :: t).
    { clear. induction x as [|c x IH].
      - cbn [app]. change (SP :: y) with ([] ++ SP :: y). rewrite split_c_app by (intros []). destruct (split_c SP y) as [|b t] eqn:Es; [destruct (split_c_ne SP y Es)|]. eauto.
      - destruct (N.eq_dec c SP) as [->|Hn].
        + change ((SP :: x) ++ SP :: y) with ([] ++ SP :: (x ++ SP :: y)). rewrite split_c_app by (intros []). destruct (split_c SP (x ++ SP :: y)) as [|b t] eqn:Es; [destruct (split_c_ne _ _ Es)|]. eauto.
        + destruct IH as (a & b & t & IH). cbn [app split_c]. destruct (c =? SP)%N eqn:Ec; [apply N.eqb_eq in Ec; contradiction|]. rewrite IH. cbn [cons_hd]. eauto. }
    apply G.
  Qed.
  Lemma date_content d : date_text d -> strip_first_word (L "#D " ++ d) = d.
  Proof. intros (_ & Ht & _). apply (strip_key (L "#D")); auto. cbn. intros [Q|[Q|[]]]; discriminate. Qed.

  (** the date of a header *)
  Lemma go_D_header d w ep : is_scan w = false -> date_text d -> me w A_epoch = Some ep ->
    process_D E (L "#D " ++ d) w = (mk_w (is_scan w) (upd A_date d (me w)) (peer w), Ok tt).
  Proof.
    intros Hs Hd He. unfold process_D. cbv zeta. rewrite (date_content d Hd). destruct (split_two d) as (a & b & t & Q); [apply Hd|]. rewrite Q.
    unfold mbind at 1. unfold ret at 1. unfold mbind at 1. unfold setA at 1. unfold mbind at 1. unfold hasA at 1. cbn [me]. rewrite upd_other by discriminate. rewrite He.
    unfold mbind at 1. unfold ret at 1. unfold whenScan, mbind, askScan. cbn [is_scan]. rewrite Hs. reflexivity.
  Qed.
  (** the date of a scan *)
  Lemma go_D d w h5 p hd he : is_scan w = true -> good_date E d -> me w A_h5 = Some h5 -> peer w = Some p -> p A_date = Some hd -> strip hd <> [] ->
    p A_epoch = Some he -> good_epoch E he -> (me w A_epoch = None \/ exists e, me w A_epoch = Some e /\ good_epoch E e) ->
    exists w' h5' e, process_D E (L "#D " ++ d) w = (w', Ok tt) /\ is_scan w' = true /\ peer w' = Some p /\
      me w' A_date = Some d /\ me w' A_h5 = Some h5' /\ me w' A_epoch = Some e /\ good_epoch E e /\
      forall a, ~ In a [A_date; A_epoch; A_h5] -> me w' a = me w a.
  Proof.
    intros Hs [Hd (ts & e0 & D1 & D2 & D3)] Hh Hp Hd1 Hd2 He1 He2 Hme. unfold process_D. cbv zeta. rewrite (date_content d Hd).
    destruct (split_two d) as (a & b & t & Q); [apply Hd|]. rewrite Q. clear a b t Q.
    unfold mbind at 1. unfold ret at 1. unfold mbind at 1. unfold setA at 1. unfold mbind at 1. unfold hasA at 1. cbn [me]. rewrite upd_other by discriminate.
    assert (G : forall (o : obj) (e : num), o A_h5 = Some h5 -> o A_date = Some d -> o A_epoch = Some e -> good_epoch E e -> (forall a, ~ In a [A_date; A_epoch; A_h5] -> o a = me w a) ->
      exists w' h5' e, whenScan (addH5 (key_of H_D) H_D ;;
          let! hd0 := getP A_date in
          match strip hd0 with
          | [] => setP A_date d ;; let! e1 := getA A_epoch in setP A_epoch e1
          | _ => let! he0 := getP A_epoch in
                 let! se := getA A_epoch in
                 let! hz := lift (int_of_num he0) in
                 let! sz := lift (int_of_num se) in
                 if (hz =? sz)%Z then check_ts E he0 ;; check_ts E se else ret tt
          end) (mk_w (is_scan w) o (peer w)) = (w', Ok tt) /\ is_scan w' = true /\ peer w' = Some p /\
      me w' A_date = Some d /\ me w' A_h5 = Some h5' /\ me w' A_epoch = Some e /\ good_epoch E e /\
      forall a, ~ In a [A_date; A_epoch; A_h5] -> me w' a = me w a).
    { intros o e O1 O2 O3 O4 O5. unfold whenScan, mbind at 1, askScan. cbn [is_scan]. rewrite Hs. unfold mbind at 1. rewrite (addH5_go _ _ _ h5) by exact O1. cbn [is_scan peer me].
      unfold mbind at 1. unfold getP at 1. cbn [is_scan peer]. rewrite Hp, Hd1. destruct (strip hd) as [|c0 x0] eqn:Es; [congruence|]. clear Es Hd2 c0 x0.
      unfold mbind at 1. unfold getP at 1. cbn [is_scan peer]. rewrite He1. unfold mbind at 1. unfold getA at 1. cbn [me]. rewrite upd_other by discriminate. rewrite O3.
      destruct He2 as [[i1 I1] [u1 U1]]. pose proof O4 as [[i2 I2] [u2 U2]]. unfold mbind at 1. unfold lift at 1. rewrite I1. unfold mbind at 1. unfold lift at 1. rewrite I2.
      set (w1 := mk_w true (upd A_h5 (dadd (key_of H_D) H_D h5) o) (Some p)).
      exists w1, (dadd (key_of H_D) H_D h5), e. split; [|split; [reflexivity|split; [reflexivity|]]].
      - destruct (i1 =? i2)%Z; [|reflexivity]. unfold check_ts, mbind, lift. rewrite U1. cbn [ret]. unfold ret. rewrite U2. reflexivity.
      - unfold w1. cbn [me]. split; [rewrite upd_other by discriminate; exact O2|]. split; [apply upd_same|]. split; [rewrite upd_other by discriminate; exact O3|]. split; [exact O4|].
        intros a Ha. rewrite upd_other; [apply O5; exact Ha|]. intros <-. apply Ha. cbn. auto. }
    destruct Hme as [He|(e & He & Ge)]; rewrite He.
    - unfold mbind at 1. unfold mbind at 1. unfold lift at 1. rewrite D1. unfold mbind at 1. unfold lift at 1. rewrite D2. unfold setA at 1. cbn [is_scan peer me].
      apply (G _ e0); [| | |exact D3|].
      + rewrite !upd_other by discriminate. exact Hh.
      + rewrite upd_other by discriminate. apply upd_same.
      + apply upd_same.
      + intros a Ha. rewrite !upd_other; [reflexivity| |]; intros <-; apply Ha; cbn; auto.
    - unfold mbind at 1. unfold ret at 1. apply (G _ e); [| | |exact Ge|].
      + rewrite upd_other by discriminate. exact Hh.
      + apply upd_same.
      + rewrite upd_other by discriminate. exact He.
      + intros a Ha. rewrite upd_other; [reflexivity|]. intros <-. apply Ha. cbn. auto.
  Qed.
End Lines.

(* ------------------------------------------------------------------ *)
(** * All lines of a scan *)
Lemma free_lf t : free_of py_eol t -> ~ In LF t.
Proof. apply free_eol_LF. Qed.
Lemma control_key k h rest : shape_of h = Exactly k -> ~ In SP (L k) -> (exists c t, L k = c :: t /\ is_space c = false) -> control h (L k ++ SP :: rest).
Proof.
  intros Hs Hn Hc. exists [], (L k), rest. split; [reflexivity|]. split; [constructor|]. split; [exact Hn|]. split; [exact Hc|]. left. unfold belongs. rewrite Hs. reflexivity.
Qed.
Ltac key_tac := first [reflexivity | (cbn; intros [Q|[Q|[]]]; discriminate) | (eexists; eexists; split; [reflexivity|reflexivity])].
Lemma control_D t : control H_D (L "#D " ++ t). Proof. apply (control_key "#D" H_D t); key_tac. Qed.
Lemma control_N t : control H_N (L "#N " ++ t). Proof. apply (control_key "#N" H_N t); key_tac. Qed.
Lemma control_L t : control H_L (L "#L " ++ t). Proof. apply (control_key "#L" H_L t); key_tac. Qed.
Lemma free_app nl a b : free_of nl a -> free_of nl b -> free_of nl (a ++ b).
Proof. intros; apply Forall_app; auto. Qed.
Lemma word_free w : a_word w -> free_of py_eol w.
Proof.
  intros [_ H]. eapply Forall_impl; [|exact H]. intros c Hc. apply eol_space. exact Hc.
Qed.
Lemma join_free nl sep ls : free_of nl sep -> Forall (free_of nl) ls -> free_of nl (join sep ls).
Proof.
  intros Hs H. induction H as [|l ls Hl H IH]; [constructor|]. rewrite join_cons. apply free_app; auto. destruct ls; [constructor|]. apply free_app; auto.
Qed.
Lemma section_free E w vals : good_scan E w vals -> Forall (free_of py_eol) (section_lines w).
Proof.
  intros (S1 & S2 & _ & _ & S3 & G1 & G2 & G3 & G4 & G5 & G6). unfold section_lines, table_lines. apply Forall_app. split; [|apply Forall_app; split].
  - constructor; [|constructor; [|constructor]]; [apply free_app; [repeat constructor|apply free_app; [apply word_free; auto|apply free_app; [repeat constructor|apply S2]]]|].
    apply free_app; [repeat constructor|]. destruct S3 as [[[Q _] _] _]. exact Q.
  - constructor; [|constructor; [|constructor]]; apply free_app; try (repeat constructor; fail).
    + apply word_free. eapply numeral_word; eauto.
    + apply join_free; [repeat constructor|]. eapply Forall_impl; [|exact G3]. intros l (_ & _ & Q & _). exact Q.
  - apply Forall_forall. intros l Hl. apply in_map_iff in Hl. destruct Hl as (r & <- & Hi). apply join_free; [repeat constructor|].
    assert (Q : exists v, Forall2 written_number r v). { clear - G6 Hi. induction G6; [destruct Hi|]. destruct Hi as [->|Hi]; eauto. }
    destruct Q as [v Q]. clear - Q. induction Q as [|x y r v H Q IH]; constructor; auto. apply word_free. apply number_word in H. apply H.
Qed.

Section Scan.
  Context (E : env) (known : list hid) (Hk : incl all_hids known).

  Lemma line_S rest w : scan_line E known (L "#S " ++ rest) w = (w, Ok tt).
  Proof.
    rewrite (scan_line_eff E known Hk). change (L "#S " ++ rest) with (key_of H_S ++ SP :: rest).
    assert (Q : eff known (key_of H_S ++ SP :: rest) = None); [|rewrite Q; reflexivity].
    unfold eff. replace (lstrip (key_of H_S ++ SP :: rest)) with (key_of H_S ++ SP :: rest) by reflexivity.
    rewrite (key_blank_dispatch known H_S rest Hk) by (cbn; auto). reflexivity.
  Qed.
  Lemma line_h h line w : control h line -> h <> H_unrec -> h <> H_S -> ~ In LF line -> scan_line E known line w = process E h line w.
  Proof. intros Hc H1 H2 Hl. rewrite (scan_line_eff E known Hk). apply (eff_control known Hk) in Hc; auto. rewrite Hc. reflexivity. Qed.

  Lemma go_N n k w : numeral n k -> process_N (L "#N " ++ n) w = (mk_w (is_scan w) (upd A_N (Some [Z.of_nat k]) (me w)) (peer w), Ok tt).
  Proof.
    intros H. unfold process_N. pose proof (numeral_word _ _ H) as W. change (L "#N " ++ n) with (L "#N" ++ SP :: n). rewrite (strip_key (L "#N") n) by (first [key_tac|apply word_tight; auto]).
    destruct W as [W1 W2]. rewrite words_word by (auto; apply nospace_Forall; auto). cbn [mapM]. rewrite (numeral_int _ _ H). reflexivity.
  Qed.
  Lemma go_L labs w : 2 <= List.length labs -> Forall (fun l => good_label l /\ tight l /\ line_text l) labs ->
    exists w', process_L (L "#L " ++ join [SP; SP] labs) w = (w', Ok tt) /\ is_scan w' = is_scan w /\ peer w' = peer w /\ me w' A_L = Some labs /\
      forall a, ~ In a [A_L; A_column_first; A_column_last] -> me w' a = me w a.
  Proof.
    intros Hn Hl. unfold process_L. cbv zeta.
    assert (Ht : tight (join [SP; SP] labs)). { apply join_tight. eapply Forall_impl; [|exact Hl]. intros l (Q & Q' & _). split; auto. apply good_label_ne; auto. }
    change (L "#L " ++ join [SP; SP] labs) with (L "#L" ++ SP :: join [SP; SP] labs). rewrite (strip_key (L "#L") _) by (first [key_tac|exact Ht]).
    assert (LL : label_list (join [SP; SP] labs) labs).
    { apply labels_listed; [destruct labs; [cbn in Hn; lia|discriminate]|]. eapply Forall_impl; [|exact Hl]. intros l Q; apply Q. }
    apply label_list_fun in LL. rewrite <- LL. unfold mbind at 1. unfold setA at 1. unfold mbind at 1. unfold hasA at 1.
    destruct (List.length labs =? 1) eqn:El; [apply Nat.eqb_eq in El; lia|]. cbn [andb]. unfold mbind at 1. unfold ret at 1.
    unfold mbind at 1. unfold getA at 1. cbn [me]. rewrite upd_same. unfold mbind at 1. unfold lift at 1. rewrite index_0.
    destruct labs as [|l0 ls]; [cbn in Hn; lia|]. unfold mbind at 1. unfold setA at 1. unfold mbind at 1. unfold lift at 1.
    destruct (index (-1) (l0 :: ls)) as [x|] eqn:Ei; [|rewrite index_m1 in Ei; destruct (rev (l0 :: ls)) eqn:Er; [apply (f_equal (@rev _)) in Er; rewrite rev_involutive in Er; discriminate|discriminate]].
    unfold setA. eexists. split; [reflexivity|]. cbn [is_scan peer me]. split; [reflexivity|]. split; [reflexivity|]. split; [rewrite !upd_other by discriminate; apply upd_same|].
    intros a Ha. rewrite !upd_other; [reflexivity| | |]; intros <-; apply Ha; cbn; auto.
  Qed.
End Scan.
