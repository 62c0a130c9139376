(** C66: in a file whose scans have no #O lines, using one scan changes nothing for another. *)
From Coq Require Import String Lia.
From Verif Require Import Uni Py PyFacts NumFacts Time Utils Keys Scanf GeomData Geom Handlers Reader SpecText SpecUtils SpecReader SpecNum SpecHistory SpecLookup SpecKeys SpecInterp SpecData SpecTables
  TextFacts TimeFacts KeyFacts ReaderFacts ReaderFacts2 ReaderFacts3 ReaderFacts4 DispatchFacts FrameFacts StateFacts InterpFacts MonadFacts LinkFacts.
Import ListNotations.
Local Open Scope list_scope.

Definition dated (o : obj) : Prop := exists d, o A_date = Some d /\ strip d <> [].
(** with a header that has a date, the program does not change the header *)
Definition still {A} (m : M A) : Prop := forall w, (forall p, peer w = Some p -> dated p) -> peer (fst (m w)) = peer w.

Lemma still_ret {A} (a : A) : still (ret a). Proof. intros w _; reflexivity. Qed.
Lemma still_raise {A} e : still (@raise A e). Proof. intros w _; reflexivity. Qed.
Lemma still_lift {A} (r : res A) : still (lift r). Proof. intros w _; reflexivity. Qed.
Lemma still_bind {A B} (m : M A) (k : A -> M B) : still m -> (forall a, still (k a)) -> still (mbind m k).
Proof.
  intros H1 H2 w Hw. unfold mbind. specialize (H1 w Hw). destruct (m w) as [w' [a|e]]; cbn [fst] in *; [|exact H1].
  rewrite H2; [exact H1|]. rewrite H1. exact Hw.
Qed.
Lemma still_getA a : still (getA a). Proof. intros w _; reflexivity. Qed.
Lemma still_hasA a : still (hasA a). Proof. intros w _; reflexivity. Qed.
Lemma still_getP a : still (getP a). Proof. intros w _; reflexivity. Qed.
Lemma still_ask : still askScan. Proof. intros w _; reflexivity. Qed.
Lemma still_setA a v : still (setA a v). Proof. intros w _; reflexivity. Qed.
Lemma still_iterM {A} (f : A -> M unit) l : (forall x, In x l -> still (f x)) -> still (iterM f l).
Proof. induction l as [|x l IH]; intros H; [apply still_ret|]. apply still_bind; [apply H; left; auto|]. intros. apply IH. intros; apply H; right; auto. Qed.
Lemma still_ensure a i : still (ensure a i).
Proof. apply still_bind; [apply still_hasA|]. intros []; [apply still_ret|apply still_setA]. Qed.
Lemma still_addPost l f : still (addPost l f).
Proof. apply still_bind; [apply still_getA|]. intros; apply still_setA. Qed.
Lemma still_addH5 l f : still (addH5 l f).
Proof. apply still_bind; [apply still_getA|]. intros; apply still_setA. Qed.
Lemma still_whenScan m : still m -> still (whenScan m).
Proof. intros H; apply still_bind; [apply still_ask|]. intros []; [auto|apply still_ret]. Qed.
Lemma still_whenHeader m : still m -> still (whenHeader m).
Proof. intros H; apply still_bind; [apply still_ask|]. intros []; [apply still_ret|auto]. Qed.
Ltac sti := repeat first
  [ apply still_ret | apply still_raise | apply still_lift | apply still_getA | apply still_hasA | apply still_getP | apply still_ask
  | apply still_setA | apply still_ensure | apply still_addPost | apply still_addH5
  | apply still_whenScan | apply still_whenHeader | apply still_iterM; intros
  | apply still_bind; [|intros]
  | match goal with |- still (match ?x with _ => _ end) => destruct x end
  | match goal with |- still (let '(_, _) := ?x in _) => destruct x end
  | intros ? ?; reflexivity ].

(** ** the #D line *)
Lemma still_D E text : still (process_D E text).
Proof.
  unfold process_D, check_ts. apply still_bind; [sti|]. intros t. apply still_bind; [sti|]. intros _. apply still_bind; [sti|]. intros b. apply still_bind; [sti|]. intros _.
  apply still_whenScan. apply still_bind; [sti|]. intros _. intros w Hw. unfold mbind at 1, getP at 1.
  destruct (peer w) as [p|] eqn:Ep; [|cbn [fst]; auto]. destruct (is_scan w); [|cbn [fst]; auto]. destruct (Hw p eq_refl) as (d & Hd & Hs). rewrite Hd.
  destruct (strip d) as [|c t'] eqn:Es; [congruence|]. rewrite <- Ep. match goal with |- peer (fst (?m w)) = _ => assert (St : still m) by sti end. apply St. rewrite Ep. exact Hw.
Qed.
Lemma still_X fmts text : still (process_X_fmts fmts text).
Proof.
  induction fmts as [|f fmts IH]; cbn [process_X_fmts]; [apply still_ret|].
  apply still_bind; [apply still_lift|]. intros [[|[a|a|a] [|[b|b|b] [|]]]|]; try apply still_raise; auto. sti.
Qed.
Lemma still_process E h text : h <> H_O -> still (process E h text).
Proof.
  intros Hh. destruct h; cbn [process]; try apply still_D; try congruence;
  unfold process_F, process_C, process_G, process_I, process_J, process_j, process_L, process_M, process_T, process_N, process_o,
      process_P, process_Q, process_R, process_U, process_X, process_data, process_CALIB, process_CHANN, process_CTIME, process_ROI,
      process_VA, process_VD, process_VE, process_XPCS, process_CCD, process_MD, process_unrec, process_UIM, process_H, process_V, process_UXML, value_name;
  try apply still_X; sti.
Qed.
Lemma still_post E p : still (run_post E p).
Proof.
  destruct p; cbn [run_post];
  unfold post_geo, post_counter, post_posx, post_motor, motor_row, motor_cell, add_icomment, post_data, post_unicat, unicat_row, unicat_cell, post_uxml; sti.
Qed.

Section Use.
  Context (E : env) (known : list hid) (Hk : incl all_hids known).

  Lemma still_interpret raw : (forall l, In l (scan_lines raw) -> ~ control H_O l) -> still (interpret_scan E known raw).
  Proof.
    intros H. unfold interpret_scan. apply still_bind.
    - apply still_iterM. intros l Hl w Hw. rewrite (scan_line_eff E known Hk). destruct (eff known l) as [h|] eqn:Ee; [|reflexivity].
      apply still_process; auto. intros ->. apply (H l Hl). apply (eff_control known Hk); auto; try discriminate. refine (proj1 (Forall_forall _ _) (scan_lines_no_lf raw) l Hl).
    - intros _. unfold run_posts. apply still_bind; [apply still_getA|]. intros d. apply still_iterM. intros p _. apply still_post.
  Qed.

  (** ** a file object whose headers have dates *)
  Definition hdate (s : sdf) (i : nat) : Prop := exists h, nth_error (headers s) i = Some h /\ dated (h_obj h).
  Lemma set_nth_same {A} n (x : A) l : nth_error l n = Some x -> set_nth n x l = l.
  Proof. revert n; induction l as [|y l IH]; intros [|n] H; cbn in *; try congruence. rewrite IH; auto. Qed.
  Lemma run_still m name sc s s' sc' r : still m -> hdate s (s_hdr sc) -> run_on_scan m name sc s = (s', sc', r) -> headers s' = headers s.
  Proof.
    intros Hm (h & Hh & Hd) H. unfold run_on_scan in H. rewrite Hh in H. cbn [option_map] in H.
    specialize (Hm (mk_w true (s_obj sc) (Some (h_obj h)))). destruct (m _) as [w r0] eqn:Em. cbn [fst] in Hm. inversion H; subst; clear H. cbn [set_headers headers].
    rewrite Hm by (cbn [peer]; intros p Q; injection Q as <-; exact Hd). cbn [peer]. apply set_nth_same. rewrite Hh. destruct h; reflexivity.
  Qed.
  (** the scans that were not used are the same *)
  Definition kept (s s' : sdf) : Prop :=
    headers s' = headers s /\ forall name sc, dget name (scans s') = Some sc -> s_lazy sc = true -> dget name (scans s) = Some sc.
  Definition all_dated (s : sdf) : Prop := forall name sc, dget name (scans s) = Some sc -> hdate s (s_hdr sc).

  Lemma interpret_other name s s' r : interpret E known name s = (s', r) -> s' = s \/
    (headers s' = headers s' /\ forall n sc, dget n (scans s') = Some sc -> s_lazy sc = true -> dget n (scans s) = Some sc).
  Proof.
    unfold interpret. destruct (dget name (scans s)) as [sc|] eqn:Eg; [|intros H; inversion H; auto].
    destruct (s_done sc) eqn:Ed; [intros H; inversion H; auto|]. unfold run_on_scan. cbn [with_flags s_raw s_obj s_hdr].
    destruct (interpret_scan E known (s_raw sc) _) as [w [[]|e]]; intros H; inversion H; subst; right; (split; [reflexivity|]); intros n x; cbn [set_headers set_scans scans].
    - destruct (list_eq_dec N.eq_dec n name) as [->|Hn]; [rewrite dget_dset_same; intros Q; injection Q as <-; discriminate|]. rewrite !dget_dset_other by auto. auto.
    - destruct (list_eq_dec N.eq_dec n name) as [->|Hn]; [rewrite dget_dset_same; intros Q; injection Q as <-; discriminate|]. rewrite !dget_dset_other by auto. auto.
  Qed.
  Lemma interpret_headers name s s' r : no_names_in_scans s -> all_dated s -> interpret E known name s = (s', r) -> headers s' = headers s.
  Proof.
    intros Hn Hd. unfold interpret. destruct (dget name (scans s)) as [sc|] eqn:Eg; [|intros H; inversion H; auto].
    destruct (s_done sc) eqn:Ed; [intros H; inversion H; auto|].
    destruct (run_on_scan _ name (with_flags false false sc) s) as [[s1 sc1] r1] eqn:Eo.
    assert (H1 : headers s1 = headers s).
    { refine (run_still _ _ (with_flags false false sc) _ _ _ _ _ (Hd _ _ Eg) Eo). apply still_interpret. intros l Hl. eapply (Hn name sc _ l Eg); [|exact Hl]. apply lines_of_scan_lines. reflexivity. }
    destruct r1 as [e|]; intros H; inversion H; subst; exact H1.
  Qed.
  Lemma interpret_kept name s : no_names_in_scans s -> all_dated s -> kept s (fst (interpret E known name s)).
  Proof.
    intros Hn Hd. destruct (interpret E known name s) as [s' r] eqn:Ei. cbn [fst]. split; [eapply interpret_headers; eauto|].
    destruct (interpret_other _ _ _ _ Ei) as [->|[_ Q]]; auto.
  Qed.
  Lemma attr_kept nm a name s : no_names_in_scans s -> all_dated s -> kept s (fst (get_attr E known nm a name s)).
  Proof.
    intros Hn Hd. unfold get_attr. destruct (dget name (scans s)) as [sc|] eqn:Eg; [|split; auto].
    destruct (mem nm _ && s_lazy sc).
    - pose proof (interpret_kept name s Hn Hd) as K. destruct (interpret E known name s) as [s1 [e|]]; cbn [fst] in *; [exact K|]. destruct (dget name (scans s1)); exact K.
    - rewrite Eg. split; auto.
  Qed.
  Lemma hdate_headers s s' i : headers s' = headers s -> hdate s i -> hdate s' i.
  Proof. intros Q (h & H1 & H2). exists h. rewrite Q. auto. Qed.
  Lemma dated_view s s' : vs s' = vs s -> headers s' = headers s -> all_dated s -> all_dated s'.
  Proof.
    intros Ev Eh Hd name sc Hg. assert (Q : exists sc0, dget name (scans s) = Some sc0 /\ s_hdr sc0 = s_hdr sc).
    { pose proof (f_equal (dget name) Ev) as Q. unfold vs in Q. rewrite !dget_vd in Q. rewrite Hg in Q. cbn in Q. destruct (dget name (scans s)) as [sc0|]; [|discriminate].
      exists sc0. split; auto. cbn in Q. injection Q. intros; congruence. }
    destruct Q as (sc0 & Q1 & Q2). rewrite <- Q2. eapply hdate_headers; eauto.
  Qed.
  Lemma uses_kept s s' : uses E known s s' -> no_names_in_scans s -> all_dated s -> kept s s' /\ no_names_in_scans s' /\ all_dated s'.
  Proof.
    intros Hu Hn Hd. induction Hu as [s|name s s' _ IH|nm a name s s' _ IH].
    - split; [split; auto|auto].
    - destruct (IH Hn Hd) as (I1 & I2 & I3). pose proof (interpret_kept name s' I2 I3) as K. split; [|split].
      + destruct I1 as [A1 A2]. destruct K as [K1 K2]. split; [congruence|]. intros n sc Hg Hz. apply A2; auto.
      + apply interpret_no_names; auto.
      + destruct (interpret E known name s') as [s1 r] eqn:Ei. pose proof (interpret_view _ _ _ _ _ _ Ei) as (_ & V & _). cbn [fst] in *. eapply dated_view; [exact V|apply K|auto].
    - destruct (IH Hn Hd) as (I1 & I2 & I3). pose proof (attr_kept nm a name s' I2 I3) as K. split; [|split].
      + destruct I1 as [A1 A2]. destruct K as [K1 K2]. split; [congruence|]. intros n sc Hg Hz. apply A2; auto.
      + apply attr_no_names; auto.
      + destruct (get_attr E known nm a name s') as [s1 r] eqn:Ei. pose proof (get_attr_view _ _ _ _ _ _ _ _ Ei) as (_ & V & _). cbn [fst] in *. eapply dated_view; [exact V|apply K|auto].
  Qed.
  (** the result depends only on the scan and the headers *)
  Lemma interpret_same name s1 s2 sc s1' s2' r1 r2 : dget name (scans s1) = Some sc -> dget name (scans s2) = Some sc -> headers s1 = headers s2 ->
    interpret E known name s1 = (s1', r1) -> interpret E known name s2 = (s2', r2) ->
    r1 = r2 /\ dget name (scans s1') = dget name (scans s2') /\ headers s1' = headers s2'.
  Proof.
    intros G1 G2 Eh H1 H2. unfold interpret in *. rewrite G1 in H1. rewrite G2 in H2. destruct (s_done sc) eqn:Ed; [inversion H1; inversion H2; subst; rewrite G1, G2; auto|].
    unfold run_on_scan in *. cbn [with_flags s_raw s_obj s_hdr] in *. rewrite <- Eh in H2. destruct (interpret_scan E known (s_raw sc) _) as [w [[]|e]]; inversion H1; inversion H2; subst; clear H1 H2;
    cbn [set_headers set_scans scans headers]; rewrite !dget_dset_same; auto.
  Qed.

  (** ** opened files *)
  Lemma dated_strptime d t : strptime d = Ok t -> strip d <> [].
  Proof.
    unfold strptime. destruct (parse_spec d) as [t'|] eqn:Ep; [|discriminate]. intros _. unfold parse_spec in Ep.
    destruct (take_name day_names d) as [[wd r]|] eqn:Et; [|discriminate]. apply take_name_sound in Et. destruct Et as (w & -> & n & _ & Hn).
    assert (Hw : words (w ++ r) <> []).
    { rewrite words_nil. intros Q. rewrite forallb_app in Q. apply andb_prop in Q. destruct Q as [Q _]. apply nth_error_In in Hn.
      assert (L3 : exists a b c, w = [a; b; c]).
      { apply (lower3 w (lower w) eq_refl). clear Q. repeat (destruct Hn as [<-|Hn]; [reflexivity|]). destruct Hn. }
      destruct L3 as (a & b & c & ->). cbn [forallb] in Q. apply andb_prop in Q. destruct Q as [Q _]. assert (Hl : (97 <= lower_c a <= 122)%N).
      { cbn in Hn. repeat (destruct Hn as [Hn|Hn]; [injection Hn as Hn _ _; rewrite <- Hn; lia|]). destruct Hn. }
      rewrite (lower_letter _ Hl) in Q. discriminate. }
    destruct (words (w ++ r)) as [|f ws] eqn:Ew; [congruence|]. apply (strip_ne_first _ f). apply first_word_words. eauto.
  Qed.
  Lemma D_dates l w w' p : process_D E l w = (w', Ok tt) -> is_scan w = true -> peer w = Some p ->
    exists p', peer w' = Some p' /\ (dated p -> p' = p) /\ (dated (me w') -> dated p').
  Proof.
    intros H Hs Hp. assert (Hst : dated p -> peer w' = Some p).
    { intros Hd. pose proof (still_D E l w) as S. rewrite H, Hp in S. cbn [fst] in S. apply S. intros q Q. injection Q as <-. exact Hd. }
    pose proof (frame_process E H_D l w) as (_ & _ & F). cbn [process] in F. rewrite H, Hp in F. cbn [fst peer_step] in F. destruct (peer w') as [p'|] eqn:Ep'; [|destruct F].
    exists p'. split; auto. split; [intros Hd; specialize (Hst Hd); congruence|]. intros Hm.
    unfold process_D in H. cbv zeta in H. apply mbind_ok in H. destruct H as (w1 & t & A1 & A2).
    assert (P1 : peer w1 = Some p /\ is_scan w1 = true).
    { assert (G : forall u v, fst (u : world * res str) = v -> True) by auto. clear G. destruct (split_c SP _) as [|x [|y z]].
      - apply ret_ok in A1. destruct A1 as [-> _]. auto.
      - apply mbind_ok in A1. destruct A1 as (w2 & f & B1 & B2). apply lift_ok in B1. destruct B1 as [-> _].
        apply mbind_ok in B2. destruct B2 as (w3 & z & B1 & B2). apply lift_ok in B1. destruct B1 as [-> _].
        apply mbind_ok in B2. destruct B2 as (w4 & [] & B1 & B2). apply setA_ok in B1. apply lift_ok in B2. destruct B2 as [-> _]. subst w4. auto.
      - apply ret_ok in A1. destruct A1 as [-> _]. auto. }
    destruct P1 as [P1 S1]. apply mbind_ok in A2. destruct A2 as (w2 & [] & A2 & A3). apply setA_ok in A2.
    assert (P2 : peer w2 = Some p /\ is_scan w2 = true /\ me w2 A_date = Some t) by (subst w2; cbn [peer is_scan me]; rewrite upd_same; auto). clear A2. destruct P2 as (P2 & S2 & D2).
    apply mbind_ok in A3. destruct A3 as (w3 & b & A3 & A4). apply hasA_ok in A3. destruct A3 as [-> _].
    apply mbind_ok in A4. destruct A4 as (w4 & [] & A4 & A5).
    assert (P4 : peer w4 = Some p /\ is_scan w4 = true /\ me w4 A_date = Some t).
    { destruct b; [apply ret_ok in A4; destruct A4 as [-> _]; auto|]. apply mbind_ok in A4. destruct A4 as (w5 & ts & B1 & B2). apply lift_ok in B1. destruct B1 as [-> _].
      apply mbind_ok in B2. destruct B2 as (w6 & e & B1 & B2). apply lift_ok in B1. destruct B1 as [-> _]. apply setA_ok in B2. subst w4. cbn [peer is_scan me].
      rewrite upd_other by discriminate. auto. }
    destruct P4 as (P4 & S4 & D4). unfold whenScan in A5. apply mbind_ok in A5. destruct A5 as (w5 & b' & A5 & A6). apply ask_ok in A5. destruct A5 as [-> ->]. rewrite S4 in A6.
    apply mbind_ok in A6. destruct A6 as (w6 & [] & A6 & A7). apply addH5_ok in A6. destruct A6 as (Q1 & Q2 & Q3 & _).
    apply mbind_ok in A7. destruct A7 as (w7 & hd & A7 & A8). apply getP_ok in A7. destruct A7 as (-> & _ & p0 & A7 & A9). rewrite Q2, P4 in A7. injection A7 as <-.
    destruct (strip hd) as [|c x] eqn:Es.
    - apply mbind_ok in A8. destruct A8 as (w8 & [] & A8 & A10). unfold setP in A8. rewrite Q2, P4, Q1, S4 in A8. injection A8 as <-.
      apply mbind_ok in A10. destruct A10 as (w9 & e & A8 & A10). apply getA_ok in A8. destruct A8 as [-> _].
      unfold setP in A10. cbn [peer is_scan] in A10. injection A10 as <-. cbn [peer me] in *. injection Ep' as <-.
      destruct Hm as (d & Hd1 & Hd2). exists d. split; [|auto]. rewrite upd_other by discriminate. rewrite upd_same. rewrite Q3, D4 in Hd1 by discriminate. exact Hd1.
    - assert (dated p) as Hdp by (exists hd; split; [auto|congruence]). specialize (Hst Hdp). injection Hst as ->. exact Hdp.
  Qed.
  Definition di (s : sdf) : Prop := Forall (fun kv => s_hdr (snd kv) < List.length (headers s) /\ (dated (s_obj (snd kv)) -> hdate s (s_hdr (snd kv)))) (scans s).
  Lemma di_headers s s' : di s -> scans s' = scans s -> (exists g, headers s' = headers s ++ g) -> di s'.
  Proof.
    intros H Es (g & Eh). unfold di. rewrite Es. eapply Forall_impl; [|exact H]. intros kv [H1 H2]. split; [rewrite Eh, app_length; lia|].
    intros Hd. destruct (H2 Hd) as (h & Q1 & Q2). exists h. split; auto. rewrite Eh, nth_error_app1; auto.
  Qed.
  Lemma not_dated_init file : ~ dated (scan_init file).
  Proof.
    intros (d & H1 & H2). unfold scan_init in H1. repeat (rewrite upd_other in H1 by discriminate). rewrite upd_same in H1. injection H1 as <-. apply H2. reflexivity.
  Qed.
  Lemma store_di part hdr s s' r : di s -> hdr < List.length (headers s) -> store_scan part hdr s = (s', r) -> di s'.
  Proof.
    intros K1 Hh H. destruct (store_scan_spec part hdr s) as (s1 & r1 & Hs & [(-> & l & n0 & t & n & sc & _ & _ & Hn & -> & Hsc)|(-> & ->)]);
      rewrite Hs in H; inversion H; subst; auto. unfold di. cbn [set_scans scans headers]. apply Forall_app; split; auto. constructor; [|constructor]. cbn [snd s_hdr s_obj].
    split; auto. intros Q. destruct (not_dated_init _ Q).
  Qed.
  Lemma scan_di b s s' r : di s -> process_scan b s = (s', r) -> di s'.
  Proof.
    intros Hs. unfold process_scan. set (s1 := match headers s with [] => _ | _ => s end).
    assert (H1 : di s1 /\ 0 < List.length (headers s1)).
    { unfold s1. destruct (headers s) as [|h hs] eqn:Eh.
      - split; [|cbn; lia]. unfold di in *. rewrite Eh in Hs. cbn [set_headers scans headers]. eapply Forall_impl; [|exact Hs]. cbn. intros kv [Q _]. lia.
      - rewrite Eh. split; [auto|cbn; lia]. }
    destruct H1 as [H1 Hl]. clearbody s1. clear Hs.
    assert (Hh : List.length (headers s1) - 1 < List.length (headers s1)) by lia.
    assert (Hd : forall k l, di (set_last l (set_scans (ddel k (scans s1)) s1))).
    { intros k l. unfold di in *. cbn [set_last set_scans scans headers]. rewrite Forall_forall in *. intros x Hx. apply H1; eapply ddel_incl; eauto. }
    destruct (last_scan s1) as [k|].
    - destruct (if existsb _ _ then _ else _) as [[|]|e]; try (intros H; inversion H; subst; auto; fail).
      destruct (last_raw k s1) as [rw|e]; [|intros H; inversion H; subst; auto].
      destruct (seqb (beginning b) (beginning rw)).
      + destruct k as [n| |]; try (intros H; inversion H; subst; auto; fail).
        destruct (has n (scans s1)); [|intros H; inversion H; subst; auto].
        intros H. eapply store_di; [| |exact H]; [apply Hd|exact Hh].
      + intros H. eapply store_di; [| |exact H]; auto.
    - intros H. eapply store_di; [| |exact H]; auto.
  Qed.
  Lemma nth_set_same {A} n (x y : A) l : nth_error l n = Some y -> nth_error (set_nth n x l) n = Some x.
  Proof. revert n; induction l as [|z l IH]; intros [|n] H; cbn in *; try discriminate; auto. Qed.
  Lemma nth_set_other {A} n m (x : A) l : n <> m -> nth_error (set_nth n x l) m = nth_error l m.
  Proof. revert n m; induction l as [|z l IH]; intros [|n] [|m] H; cbn in *; auto; congruence. Qed.
  Lemma date_di s s' : di s -> date_scan E s = (s', None) -> di s'.
  Proof.
    intros Hs H. unfold date_scan in H. destruct (rev (scans s)) as [|[name sc] t] eqn:Er; [discriminate|].
    destruct (find_D _) as [[l|]|e]; try discriminate; [|inversion H; subst; auto].
    assert (Hin : In (name, sc) (scans s)) by (apply in_rev; rewrite Er; simpl; auto). pose proof Hs as Hall. unfold di in Hall. rewrite Forall_forall in Hall. destruct (Hall _ Hin) as [L1 L2]. cbn [snd] in *.
    unfold run_on_scan in H. destruct (nth_error (headers s) (s_hdr sc)) as [h|] eqn:En; [|apply nth_error_None in En; lia]. cbn [option_map] in H.
    destruct (process_D E l _) as [w [[]|e]] eqn:Em; [|discriminate]. destruct (D_dates _ _ _ (h_obj h) Em eq_refl eq_refl) as (p' & P1 & P2 & P3). rewrite P1 in H. inversion H; subst; clear H.
    set (hs := set_nth (s_hdr sc) (mk_header (h_raw h) p') (headers s)).
    assert (Hh : forall i, hdate s i -> exists h0, nth_error hs i = Some h0 /\ dated (h_obj h0)).
    { intros i (h0 & Q1 & Q2). unfold hs. destruct (Nat.eq_dec (s_hdr sc) i) as [<-|Hne].
      - exists (mk_header (h_raw h) p'). split; [apply (nth_set_same _ _ _ _ Q1)|]. cbn [h_obj]. rewrite En in Q1. injection Q1 as <-. rewrite (P2 Q2). exact Q2.
      - exists h0. rewrite nth_set_other by auto. auto. }
    unfold di. cbn [set_headers set_scans scans headers]. apply Forall_dset.
    - rewrite Forall_forall. intros kv Hkv. destruct (Hall _ Hkv) as [G1 G2]. unfold hs in *. rewrite set_nth_length. split; auto. intros Hd. apply Hh. apply G2; auto.
    - cbn [snd s_hdr s_obj with_obj]. unfold hs in *. rewrite set_nth_length. split; auto. intros Hd. exists (mk_header (h_raw h) p'). split; [apply (nth_set_same _ _ _ _ En)|]. apply P3. exact Hd.
  Qed.
  Lemma block_di b s s' : di s -> read_block E known b s = (s', None) -> di s'.
  Proof.
    intros Hs. unfold read_block. destruct b as [|c b0]; [intros H; inversion H; subst; auto|].
    set (b := c :: b0). destruct (bind _ _) as [[h|]|e]; try (intros H; inversion H; subst; auto; fail).
    destruct (negb (prefixb (L "#") (key_of h))); [intros H; inversion H; subst; auto|].
    destruct h; try (intros H; inversion H; subst; auto; fail).
    - intros H; inversion H; subst. unfold process_file. destruct (specFile s) as [[|]|]; exact Hs.
    - intros H. unfold process_epoch in H. destruct (existsb _ _); [inversion H; subst; auto|]. destruct (parse_epoch b) as [ep|e]; [|discriminate].
      destruct (interpret_header E known b _) as [w [[]|e]]; [|discriminate]. inversion H; subst. eapply di_headers; [exact Hs|reflexivity|]. eexists; reflexivity.
    - destruct (process_scan b s) as [s1 [e|]] eqn:Ep; [discriminate|].
      intros H. eapply date_di; [|exact H]. eapply scan_di; eauto.
  Qed.
  Lemma blocks_di bs s s' : di s -> read_blocks E known bs s = (s', None) -> di s'.
  Proof.
    revert s; induction bs as [|b bs IH]; simpl; intros s Hs H; [inversion H; subst; auto|].
    destruct (read_block E known b s) as [s1 [e|]] eqn:Eb; [discriminate|]. eapply IH; [|exact H]. eapply block_di; eauto.
  Qed.
  Lemma open_dated name p s : open_file E known name p = Ok s -> all_dated s.
  Proof.
    unfold open_file. destruct (exists_p p); [|discriminate]. destruct (is_spec_file p); [|discriminate]. cbn [negb].
    destruct (read E known p (sdf_init name)) as [s0 [e|]] eqn:Er; [discriminate|]. intros H. injection H as <-.
    unfold read in Er. destruct (dissect p) as [secs|e]; [|discriminate].
    destruct (read_blocks E known secs (sdf_init name)) as [s1 [e|]] eqn:Eb; [discriminate|]. assert (H0 : di (sdf_init name)) by constructor. pose proof (blocks_di _ _ _ H0 Eb) as H1.
    set (s2 := match specFile s1 with Some _ => s1 | None => _ end) in *.
    assert (V : di s2) by (unfold s2; destruct (specFile s1); exact H1). clearbody s2. clear H0 H1 Eb.
    destruct (getLastScanNumber s2) as [k|] eqn:El; [|discriminate]. destruct (stat p) as [[m z]|]; [|discriminate]. injection Er as <-.
    intros n sc Hg. cbn [set_stat set_last scans headers] in *. unfold di in V. rewrite Forall_forall in V. destruct (V (n, sc) (dget_In _ _ _ Hg)) as [_ Q]. cbn [snd] in Q. apply Q. clear Q.
    unfold getLastScanNumber in El. destruct (getScanNumbersChronological s2) as [ns|] eqn:Ec; [|discriminate]. unfold getScanNumbersChronological in Ec.
    destruct (mapM _ (values (scans s2))) as [ts|] eqn:Em; [|discriminate]. apply mapM_ok in Em.
    assert (Hin : In sc (values (scans s2))) by (unfold values; apply in_map_iff; exists (n, sc); split; [auto|apply dget_In; auto]).
    clear - Em Hin. induction Em as [|x y l k Hx Em IH]; [destruct Hin|]. destruct Hin as [->|Hin]; [|auto].
    unfold date_of in Hx. destruct (s_obj sc A_date) as [d|] eqn:Ed; [|discriminate]. cbn [of_opt bind] in Hx. exists d. split; auto. eapply dated_strptime; eauto.
  Qed.
  Lemma C66_lemma fname p s s1 s2 name sc1 sc2 s1' s2' r1 r2 : open_file E known fname p = Ok s -> no_names_in_scans s -> uses E known s s1 -> uses E known s s2 ->
    dget name (scans s1) = Some sc1 -> s_lazy sc1 = true -> dget name (scans s2) = Some sc2 -> s_lazy sc2 = true ->
    interpret E known name s1 = (s1', r1) -> interpret E known name s2 = (s2', r2) ->
    r1 = r2 /\ dget name (scans s1') = dget name (scans s2') /\ headers s1' = headers s /\ headers s2' = headers s.
  Proof.
    intros Ho Hn U1 U2 G1 Z1 G2 Z2 I1 I2. pose proof (open_dated _ _ _ Ho) as Hd.
    destruct (uses_kept _ _ U1 Hn Hd) as ((A1 & A2) & A3 & A4). destruct (uses_kept _ _ U2 Hn Hd) as ((B1 & B2) & B3 & B4).
    pose proof (A2 _ _ G1 Z1) as Q1. pose proof (B2 _ _ G2 Z2) as Q2. rewrite Q1 in Q2. injection Q2 as <-.
    destruct (interpret_same _ _ _ _ _ _ _ _ G1 G2 ltac:(congruence) I1 I2) as (R1 & R2 & R3). split; auto. split; auto.
    pose proof (interpret_headers _ _ _ _ A3 A4 I1). split; congruence.
  Qed.
End Use.

(** a test for [no_names_in_scans], for examples *)
Definition no_names_b (raw : str) : bool := forallb (fun l => match eff all_hids l with Some H_O => false | _ => true end) (scan_lines raw).
Lemma no_names_by (d : dict scan) name sc ls l : forallb no_names_b (map (fun kv => s_raw (snd kv)) d) = true ->
  dget name d = Some sc -> lines_of (s_raw sc) ls -> In l ls -> ~ control H_O l.
Proof.
  intros H Hg Hl Hin Hc. apply lines_of_scan_lines in Hl. subst ls. rewrite forallb_forall in H. apply ReaderFacts4.dget_In in Hg.
  assert (Q : In (s_raw sc) (map (fun kv => s_raw (snd kv)) d)) by (apply in_map_iff; exists (name, sc); auto).
  specialize (H _ Q). unfold no_names_b in H. rewrite forallb_forall in H. specialize (H _ Hin).
  apply (eff_control all_hids (incl_refl _)) in Hc; [|refine (proj1 (Forall_forall _ _) (scan_lines_no_lf _) l Hin)|discriminate|discriminate]. rewrite Hc in H. discriminate.
Qed.
