(** Interpretation of the lines of a scan: which lines each attribute comes from. *)
From Coq Require Import String Lia.
From Verif Require Import Uni Py PyFacts NumFacts Time Utils UtilsFacts Keys Handlers Reader SpecText SpecUtils SpecReader SpecNum SpecHistory SpecKeys SpecInterp
  TextFacts KeyFacts ReaderFacts ReaderFacts2 ReaderFacts4 ReaderFacts5 DispatchFacts FrameFacts StateFacts.
Import ListNotations.
Local Open Scope list_scope.

(* ------------------------------------------------------------------ *)
(** * Lines *)

Lemma unfolded_replace s : unfolded s (replace [BACKSLASH; LF] [SP] s).
Proof.
  unfold replace. remember (List.length s) as n. assert (Hn : List.length s <= n) by lia. clear Heqn. revert s Hn.
  induction n as [|n IH]; intros s Hn.
  - destruct s; [constructor|simpl in Hn; lia].
  - destruct s as [|c s]; [constructor|]. cbn [replace_aux].
    destruct (prefixb [BACKSLASH; LF] (c :: s)) eqn:P.
    + apply prefixb_spec in P. destruct P as (t & P). inversion P; subst. cbn [List.length Nat.sub replace_aux app].
      apply Unf_join. apply IH. simpl in Hn; lia.
    + apply Unf_char; [|apply IH; simpl in Hn; lia].
      intros t' Q. rewrite Q in P. rewrite <- not_true_iff_false in P. apply P. apply prefixb_spec. exists t'; reflexivity.
Qed.
Lemma unfolded_fun s u u' : unfolded s u -> unfolded s u' -> u = u'.
Proof.
  intros H; revert u'; induction H as [|t u H IH|c t u Hc H IH]; intros u' H'; inversion H'; subst; auto.
  - f_equal; auto.
  - exfalso. match goal with H : forall t', _ <> _ |- _ => eapply H; reflexivity end.
  - exfalso. eapply Hc; reflexivity.
  - f_equal; auto.
Qed.
Lemma lines_of_scan_lines raw ls : lines_of raw ls <-> ls = scan_lines raw.
Proof.
  unfold lines_of, scan_lines. split.
  - intros (u & H1 & H2). rewrite (unfolded_fun _ _ _ H1 (unfolded_replace raw)) in H2. apply Lines_splitlines; auto.
  - intros ->. exists (replace [BACKSLASH; LF] [SP] raw). split; [apply unfolded_replace|]. apply Lines_splitlines; auto.
Qed.
Lemma scan_lines_no_lf raw : Forall (fun l => ~ In LF l) (scan_lines raw).
Proof.
  unfold scan_lines. eapply Forall_impl; [|apply splitlines_free]. intros l H Q. unfold free_of in H. rewrite Forall_forall in H.
  specialize (H _ Q). discriminate.
Qed.

Lemma content_strip line t : In SP line -> (content line t <-> t = strip_first_word line).
Proof.
  intros Hin. split.
  - intros (Ht & w & u & v & -> & Hw & Hu & Hv). symmetry. apply C39_lemma; auto.
  - intros ->. pose proof (find_c_spec SP line) as F. destruct (find_c SP line) as [n|] eqn:En; [|apply find_c_none in En; contradiction].
    destruct F as (w & b & -> & Hw & Hn). unfold strip_first_word. rewrite En. unfold pos_of. rewrite slice_from_nat.
    rewrite <- Hn, skipn_app, Nat.sub_diag, skipn_all. cbn [skipn app].
    destruct (strip_by_split is_space (SP :: b)) as (x & y & Hs & Hx & Hy & Ht). fold strip in Hs, Ht.
    split; [apply tight_tight_by; exact Ht|].
    (* the leading run contains the blank *)
    destruct x as [|c x].
    + cbn [app] in Hs. destruct (strip (SP :: b)) as [|c t] eqn:Es.
      * cbn [app] in Hs. subst y. simpl in Hy. exists w, b, []. cbn [app]. rewrite app_nil_r. split; [reflexivity|].
        split; [exact Hw|]. split; [apply blank_forallb; exact Hy|constructor].
      * inversion Hs; subst. destruct Ht as [Ht _]. cbn in Ht. discriminate.
    + injection Hs as Q1 Q2. exists w, x, y. split; [apply (f_equal (fun z => w ++ SP :: z)); exact Q2|]. split; [exact Hw|].
      simpl in Hx. apply andb_true_iff in Hx. destruct Hx as [_ Hx]. split; apply blank_forallb; auto.
Qed.

Lemma fields_words t ws : fields t ws <-> ws = words t.
Proof.
  split.
  - induction 1 as [a Ha|a w rest ws Ha Hw Hr Hf IH].
    + symmetry. apply words_nil. apply blank_forallb; auto.
    + subst ws. rewrite words_space_app by (apply blank_forallb; auto). destruct Hw as [Hw1 Hw2]. apply nospace_Forall in Hw2.
      destruct Hr as [->|(c & t & -> & Hc)]; [rewrite app_nil_r, (words_word w) by auto; reflexivity|]. rewrite words_word_space by auto.
      f_equal. rewrite words_lspace; auto.
  - intros ->. remember (List.length t) as n. assert (Hn : List.length t <= n) by lia. clear Heqn. revert t Hn.
    induction n as [|n IH]; intros t Hn.
    + destruct t; [constructor; constructor|simpl in Hn; lia].
    + destruct (words t) as [|w ws] eqn:E; [apply words_nil in E; constructor; apply blank_forallb; auto|].
      pose proof (proj2 (first_word_words t w) (ex_intro _ ws E)) as (Hw & a & b & H & Ha & Hb). subst t.
      rewrite words_space_app in E by (apply blank_forallb; auto). pose proof Hw as [Hw1 Hw2]. apply nospace_Forall in Hw2.
      assert (Ew : words b = ws).
      { destruct Hb as [->|(c & t & -> & Hc)]; [rewrite app_nil_r, words_word in E by auto; injection E as E; auto|].
        rewrite words_word_space in E by auto. injection E as E. rewrite words_lspace; auto. }
      subst ws. apply F_cons; auto. apply IH. rewrite !app_length in Hn. destruct w; [congruence|]. simpl in Hn. lia.
Qed.

(* ------------------------------------------------------------------ *)
(** * Folding over the lines *)

Section Interp.
  Context (E : env) (known : list hid) (Hk : incl all_hids known).

  (** the handler that gets a line *)
  Definition eff (line : str) : option hid :=
    match line with
    | [] => None
    | _ => match get_control_key known (lstrip line) with
           | Ok None => Some H_unrec
           | Ok (Some H_S) => None
           | Ok (Some h) => Some h
           | Raise _ => None
           end
    end.
  Lemma scan_line_eff line w : scan_line E known line w = match eff line with None => (w, Ok tt) | Some h => process E h line w end.
  Proof.
    unfold scan_line, eff. destruct line as [|c l]; [reflexivity|].
    destruct (dispatch_total known (c :: l) Hk) as ([h|] & D); unfold mbind, lift; rewrite D; [destruct h; reflexivity|reflexivity].
  Qed.
  Lemma eff_control line h : ~ In LF line -> h <> H_unrec -> h <> H_S -> (eff line = Some h <-> control h line).
  Proof.
    intros Hl Hu Hs. rewrite <- (dispatch_some known) by auto. unfold eff. destruct line as [|c l].
    - split; [discriminate|]. intros Q. change (lstrip []) with (@nil N) in Q. discriminate.
    - destruct (get_control_key known (lstrip (c :: l))) as [[h'|]|e].
      + split; [destruct h'; intros Q; congruence|]. intros Q. injection Q as Q. subst h'. destruct h; congruence.
      + split; intros Q; [injection Q as Q; congruence|discriminate].
      + split; discriminate.
  Qed.
  Lemma eff_unknown line : ~ In LF line -> (eff line = Some H_unrec <-> unknown_line line).
  Proof.
    intros Hl. unfold unknown_line. rewrite <- (dispatch_some known), <- (dispatch_none known) by auto. unfold eff. destruct line as [|c l].
    - split; [discriminate|intros [Q _]; congruence].
    - destruct (get_control_key known (lstrip (c :: l))) as [[h'|]|e].
      + split; [destruct h'; intros Q; try discriminate; split; [discriminate|auto]|]. intros [_ [Q|Q]]; [discriminate|]. injection Q as Q. subst h'. reflexivity.
      + split; auto. intros _. split; [discriminate|auto].
      + split; [discriminate|intros [_ [Q|Q]]; discriminate].
  Qed.

  Lemma iter_bind {A} (f : A -> M unit) x l w w' : iterM f (x :: l) w = (w', Ok tt) ->
    exists w1, f x w = (w1, Ok tt) /\ iterM f l w1 = (w', Ok tt).
  Proof.
    cbn [iterM]. unfold mbind. destruct (f x w) as [w1 [[]|e]]; [eauto|discriminate].
  Qed.

  (** an attribute is the result of folding over the lines *)
  Definition folded {X} (step : hid -> str -> X -> X) (lines : list str) (x : X) : X :=
    fold_left (fun x l => match eff l with Some h => step h l x | None => x end) lines x.
  Lemma collect {X} (view : world -> X) (step : hid -> str -> X -> X) :
    (forall h line w w', is_scan w = true -> process E h line w = (w', Ok tt) -> view w' = step h line (view w)) ->
    forall lines w w', is_scan w = true -> iterM (scan_line E known) lines w = (w', Ok tt) ->
      is_scan w' = true /\ view w' = folded step lines (view w).
  Proof.
    intros H1. induction lines as [|l lines IH]; intros w w' Hw H.
    - cbn in H. inversion H; subst; auto.
    - apply iter_bind in H. destruct H as (w1 & Hl & H). rewrite scan_line_eff in Hl. unfold folded. cbn [fold_left].
      destruct (eff l) as [h|].
      + pose proof (frame_process E h l w) as (F1 & [F2 _] & _). rewrite Hl in F1, F2. cbn [fst] in F1, F2. rewrite Hw in F1.
        destruct (IH _ _ F1 H) as [IH1 IH2]. split; auto. rewrite IH2, (H1 _ _ _ _ Hw Hl). reflexivity.
      + inversion Hl; subst. apply IH; auto.
  Qed.
  (** the lines of some handlers *)
  Definition of_h (hs : hid -> bool) (l : str) : bool := match eff l with Some h => hs h | None => false end.
  Definition lines_h (hs : hid -> bool) (lines : list str) : list str := List.filter (of_h hs) lines.
  Lemma collect_attr {X} (a : attr) (view : option (ty a) -> X) (step : str -> X -> X) (hs : hid -> bool) :
    (forall h line w w', hs h = true -> is_scan w = true -> process E h line w = (w', Ok tt) -> view (me w' a) = step line (view (me w a))) ->
    (forall h, hs h = false -> ~ In a (sets h)) ->
    forall lines w w', is_scan w = true -> iterM (scan_line E known) lines w = (w', Ok tt) ->
      view (me w' a) = fold_left (fun x l => step l x) (lines_h hs lines) (view (me w a)).
  Proof.
    intros H1 H2 lines w w' Hw H.
    destruct (collect (fun w => view (me w a)) (fun h l x => if hs h then step l x else x)) with (lines := lines) (w := w) (w' := w') as [_ Hv]; auto.
    { intros h line w0 w1 Hw0 Hp. destruct (hs h) eqn:Eh; [apply (H1 _ _ _ _ Eh Hw0 Hp)|].
      pose proof (frame_process E h line w0) as (_ & [F2 _] & _). rewrite Hp in F2. cbn [fst] in F2. rewrite F2; auto. }
    cbv beta in Hv. rewrite Hv. clear. generalize (view (me w a)). induction lines as [|l lines IH]; intros x; [reflexivity|].
    unfold folded, lines_h in *. cbn [fold_left List.filter]. unfold of_h. destruct (eff l) as [h|]; [destruct (hs h)|]; apply IH.
  Qed.
  Lemma fold_snoc {A B} (f : A -> B) ls x : fold_left (fun x l => x ++ [f l]) ls x = x ++ map f ls.
  Proof. revert x; induction ls as [|l ls IH]; intros x; cbn [fold_left map]; [rewrite app_nil_r; auto|]. rewrite IH, <- app_assoc. reflexivity. Qed.

  Lemma lines_h_keeps hs (P : str -> Prop) lines : Forall (fun l => ~ In LF l) lines ->
    (forall l, ~ In LF l -> (of_h hs l = true <-> P l)) -> Keeps P lines (lines_h hs lines).
  Proof.
    intros Hl HP. induction Hl as [|l lines Hl Hls IH]; [constructor|]. unfold lines_h in *. cbn [List.filter].
    destruct (of_h hs l) eqn:El; [apply Keeps_yes|apply Keeps_no]; auto; rewrite <- HP; auto. rewrite El. discriminate.
  Qed.
  (** the lines of one handler *)
  Definition only (h : hid) (h' : hid) : bool := hid_eqb h h'.
  Lemma only_true h h' : only h h' = true <-> h' = h.
  Proof. unfold only, hid_eqb. destruct (hid_eq_dec h h'); split; congruence. Qed.
  Lemma of_only h l : of_h (only h) l = true <-> eff l = Some h.
  Proof. unfold of_h. destruct (eff l) as [h'|]; [rewrite only_true; split; congruence|split; discriminate]. Qed.
  Lemma keeps_control h raw : h <> H_unrec -> h <> H_S -> Keeps (control h) (scan_lines raw) (lines_h (only h) (scan_lines raw)).
  Proof.
    intros H1 H2. apply lines_h_keeps; [apply scan_lines_no_lf|]. intros l Hl. rewrite of_only. apply eff_control; auto.
  Qed.

  (** the post-processors leave the attribute alone *)
  Lemma posts_keep a w w' r : (forall p, ~ In a (post_sets p)) -> run_posts E w = (w', r) -> me w' a = me w a.
  Proof.
    intros Hp H. assert (F : frame (flat_map post_sets [PP_geo; PP_counter H_J; PP_posx; PP_motor; PP_data; PP_unicat; PP_uxml]) [] (run_posts E)).
    { unfold run_posts. apply frame_bind; [apply frame_getA|]. intros d. apply frame_iterM. intros p.
      eapply frame_mono; [|apply incl_refl|apply frame_post]. intros x Hx. apply in_flat_map.
      destruct p; [exists PP_geo|exists (PP_counter H_J)|exists PP_posx|exists PP_motor|exists PP_data|exists PP_unicat|exists PP_uxml]; simpl in *; tauto. }
    specialize (F w). rewrite H in F. destruct F as (_ & [F _] & _). apply F. rewrite in_flat_map. intros (p & _ & Q). revert Q. apply Hp.
  Qed.

  (** splitting a successful interpretation *)
  Lemma interpret_split raw w w' : interpret_scan E known raw w = (w', Ok tt) ->
    exists w1, iterM (scan_line E known) (scan_lines raw) w = (w1, Ok tt) /\ run_posts E w1 = (w', Ok tt).
  Proof. unfold interpret_scan, mbind. destruct (iterM _ _ w) as [w1 [[]|e]]; [eauto|discriminate]. Qed.

  Lemma lazy_in h nm : In nm (attrs_of h) -> mem nm (lazy_attributes known) = true.
  Proof.
    intros H. apply mem_In. unfold lazy_attributes.
    assert (A1 : forall l ats, incl l (fold_left add_lazy ats l)).
    { intros l ats; revert l; induction ats as [|x ats IH]; intros l; cbn [fold_left]; [apply incl_refl|].
      intros y Hy. apply IH. unfold add_lazy. destruct (mem x l); auto. apply in_or_app; auto. }
    assert (A2 : forall l ats x, In x ats -> In x (fold_left add_lazy ats l)).
    { intros l ats; revert l; induction ats as [|y ats IH]; intros l x; cbn [fold_left]; [intros []|]. intros [->|Hx]; [|auto].
      apply A1. unfold add_lazy. destruct (mem x l) eqn:Em; [apply mem_In; auto|apply in_or_app; simpl; auto]. }
    assert (A3 : forall hs l, incl l (fold_left (fun l h => fold_left add_lazy (attrs_of h) l) hs l)).
    { induction hs as [|x hs IH]; intros l; cbn [fold_left]; [apply incl_refl|]. intros y Hy. apply IH. apply A1; auto. }
    assert (A4 : forall hs l, In h hs -> In nm (fold_left (fun l h => fold_left add_lazy (attrs_of h) l) hs l)).
    { induction hs as [|x hs IH]; intros l; cbn [fold_left]; [intros []|]. intros [->|Hx]; [|auto]. apply A3. apply A2; auto. }
    apply A4. apply Hk, all_hids_complete.
  Qed.

  (** what a first interpretation does *)
  Record ran (s : sdf) (sc : scan) (s' : sdf) (sc' : scan) (w0 w1 w : world) : Prop := {
    ran_w0 : is_scan w0 = true /\ me w0 = s_obj sc /\
             exists hd, nth_error (headers s) (s_hdr sc) = Some hd /\ peer w0 = Some (h_obj hd);
    ran_fresh : untouched (fileName s) (s_obj sc);
    ran_lines : iterM (scan_line E known) (scan_lines (s_raw sc)) w0 = (w1, Ok tt);
    ran_posts : run_posts E w1 = (w, Ok tt);
    ran_obj : s_obj sc' = me w;
    ran_raw : s_raw sc' = s_raw sc /\ s_hdr sc' = s_hdr sc;
    ran_hdr : exists hd', nth_error (headers s') (s_hdr sc) = Some hd' /\ peer w = Some (h_obj hd') }.
  Lemma nth_set_nth {A} n (x : A) l : n < List.length l -> nth_error (set_nth n x l) n = Some x.
  Proof. revert n; induction l as [|y l IH]; intros [|n]; simpl; intros H; try lia; auto. apply IH; lia. Qed.
  Lemma first_interpret_ran s name sc s' sc' : first_interpret E known s name sc s' sc' -> exists w0 w1 w, ran s sc s' sc' w0 w1 w.
  Proof.
    intros (Hh & Hg & Hz & Hi & Hg'). pose proof (history_st _ _ _ Hh) as (K1 & K2 & _). rewrite Forall_forall in K1, K2.
    specialize (K1 _ (dget_In _ _ _ Hg)). specialize (K2 _ (dget_In _ _ _ Hg)). cbn [snd] in K1, K2. destruct K1 as [_ K1]. destruct (K1 Hz) as [Hd Hu].
    unfold interpret in Hi. rewrite Hg, Hd in Hi. unfold run_on_scan in Hi. cbn [with_flags s_raw s_obj s_hdr s_done] in Hi.
    destruct (nth_error (headers s) (s_hdr sc)) as [h|] eqn:En; [|apply nth_error_None in En; lia]. cbn [option_map] in Hi.
    set (w0 := mk_w true (s_obj sc) (Some (h_obj h))) in *.
    destruct (interpret_scan E known (s_raw sc) w0) as [w r0] eqn:Ei. destruct r0 as [[]|e]; [|discriminate].
    pose proof (frame_interpret E known (s_raw sc) w0) as F. rewrite Ei in F. cbn [fst] in F. destruct F as (F1 & F2 & F3).
    destruct (interpret_split _ _ _ Ei) as (w1 & Hl & Hp). exists w0, w1, w. inversion Hi; subst s'; clear Hi.
    cbn [set_headers set_scans scans headers] in *. rewrite dget_dset_same in Hg'. injection Hg' as Hg'. subst sc'.
    constructor; cbn; eauto.
    cbn [peer w0 peer_step] in F3. destruct (peer w) as [p|] eqn:Ep; [|destruct F3].
    eexists. split; [apply nth_set_nth; auto|reflexivity].
  Qed.

  (** an attribute that is a list with one element per line of some handlers *)
  Lemma collected (a : attr) {X} (view : option (ty a) -> list X) (f : str -> X) (hs : hid -> bool) s name sc s' sc' :
    first_interpret E known s name sc s' sc' ->
    (forall h line w w', hs h = true -> is_scan w = true -> process E h line w = (w', Ok tt) -> view (me w' a) = view (me w a) ++ [f line]) ->
    (forall h, hs h = false -> ~ In a (sets h)) -> (forall p, ~ In a (post_sets p)) ->
    (forall o, untouched (fileName s) o -> view (o a) = []) ->
    view (s_obj sc' a) = map f (lines_h hs (scan_lines (s_raw sc))).
  Proof.
    intros Hf H1 H2 H3 H4. destruct (first_interpret_ran _ _ _ _ _ Hf) as (w0 & w1 & w & R).
    destruct (ran_w0 _ _ _ _ _ _ _ R) as (Hw & Hm & _). rewrite (ran_obj _ _ _ _ _ _ _ R), (posts_keep _ _ _ _ H3 (ran_posts _ _ _ _ _ _ _ R)).
    rewrite (collect_attr a view (fun l x => x ++ [f l]) hs H1 H2 _ w0 w1 Hw (ran_lines _ _ _ _ _ _ _ R)).
    rewrite fold_snoc, Hm, (H4 _ (ran_fresh _ _ _ _ _ _ _ R)). reflexivity.
  Qed.
End Interp.
