(** C31, C67: what is read from header blocks. *)
From Coq Require Import String Lia Sorted.
From Verif Require Import Uni Py PyFacts NumFacts Keys Handlers Reader SpecText SpecUtils SpecReader SpecNum SpecHistory SpecKeys SpecInterp SpecData SpecTables
  TextFacts UtilsFacts KeyFacts ReaderFacts ReaderFacts2 ReaderFacts4 ReaderFacts5 DispatchFacts FrameFacts StateFacts InterpFacts MonadFacts HandlerFacts PostFacts DataFacts DataFacts2 LastFacts TablesFacts MetaFacts.
Import ListNotations.
Local Open Scope list_scope.

(** ** dispatch of a header line *)
Lemma dispatch_starts known line h : incl all_hids known -> ~ In LF line -> (get_control_key known line = Ok (Some h) <-> starts h line).
Proof.
  intros Hk Hl. split.
  - intros H. unfold get_control_key in H. pose proof (find_c_spec SP line) as F. destruct (find_c SP line) as [n|]; [|discriminate].
    destruct F as (w & b & F & Hw & Hn). rewrite F in H. cbv zeta in H.
    assert (Hf : firstn n (w ++ SP :: b) = w) by (rewrite <- Hn, firstn_app, Nat.sub_diag, firstn_all; simpl; apply app_nil_r).
    rewrite Hf in H. exists w, b. split; auto. split; auto. destruct (direct_key known w) as [h'|] eqn:D.
    + inversion H; subst. apply direct_key_some in D. right; tauto.
    + left. apply match_control_some in H. apply match_key_shaped in H; auto. intros Q. apply Hl. rewrite F. apply in_or_app; auto.
  - intros (w & rest & Ex & Hsp & Hb). rewrite Ex. unfold get_control_key. rewrite find_c_app by auto. rewrite firstn_app, Nat.sub_diag, firstn_all. simpl firstn. rewrite app_nil_r.
    destruct (direct_key known w) as [h'|] eqn:D.
    + apply direct_key_some in D. destruct D as [D _]. destruct Hb as [Hb|Hb]; [|rewrite Hb in D; apply key_of_inj in D; subst; auto].
      do 2 f_equal. subst w. assert (Hl2 : ~ In LF (key_of h')) by (destruct h'; vm_compute; intuition discriminate).
      apply match_key_shaped in Hb; auto. destruct (hid_eq_dec h h') as [|Hne]; [auto|exfalso].
      assert (G : forallb (fun x => forallb (fun y => hid_eqb x y || match match_key y (key_of x) with Ok b => negb b | Raise _ => true end) all_hids) all_hids = true) by (vm_compute; reflexivity).
      rewrite forallb_forall in G. specialize (G h' (all_hids_complete _)). rewrite forallb_forall in G. specialize (G h (all_hids_complete _)).
      rewrite Hb in G. unfold hid_eqb in G. destruct (hid_eq_dec h' h); [congruence|discriminate].
    + destruct Hb as [Hb|Hb]; [|subst w; rewrite direct_key_of in D; [discriminate|apply Hk, all_hids_complete]].
      apply match_control_unique; [apply Hk, all_hids_complete|]. apply match_key_shaped; auto.
      intros Q. apply Hl. rewrite Ex. apply in_or_app; auto.
Qed.
Lemma starts_SP h l : starts h l -> In SP l.
Proof. intros (w & rest & -> & _). apply in_or_app; right; left; auto. Qed.

Section Header.
  Context (E : env) (known : list hid) (Hk : incl all_hids known).
  Definition heff (line : str) : option hid :=
    match line with
    | [] => None
    | _ => match get_control_key known line with
           | Ok None => Some H_unrec
           | Ok (Some H_E) => None
           | Ok (Some h) => Some h
           | Raise _ => None
           end
    end.
  Lemma header_step l w w' : header_line E known l w = (w', Ok tt) -> match heff l with None => w' = w | Some h => process E h l w = (w', Ok tt) end.
  Proof.
    unfold header_line, heff. destruct l as [|c l]; [intros Q; inversion Q; auto|]. unfold mbind, lift. destruct (get_control_key known (c :: l)) as [[h|]|e].
    - destruct h; intros Q; auto. inversion Q; auto.
    - auto.
    - discriminate.
  Qed.
  Lemma heff_starts l h : ~ In LF l -> h <> H_unrec -> h <> H_E -> (heff l = Some h <-> starts h l).
  Proof.
    intros Hl Hu He. rewrite <- (dispatch_starts known) by auto. unfold heff. destruct l as [|c l]; [split; discriminate|].
    destruct (get_control_key known (c :: l)) as [[h'|]|e].
    - split; [destruct h'; intros Q; congruence|]. intros Q. injection Q as Q. subst h'. destruct h; congruence.
    - split; intros Q; [injection Q as Q; congruence|discriminate].
    - split; discriminate.
  Qed.
  Definition hlines (h : hid) (lines : list str) : list str := List.filter (chosen heff (only h)) lines.
  Lemma chosen_only h l : chosen heff (only h) l = true <-> heff l = Some h.
  Proof. unfold chosen. destruct (heff l) as [h'|]; [rewrite only_true; split; congruence|split; discriminate]. Qed.
  Lemma hlines_keeps h raw : h <> H_unrec -> h <> H_E -> Keeps (starts h) (splitlines raw) (hlines h (splitlines raw)).
  Proof.
    intros H1 H2. unfold hlines. assert (N : Forall (fun l => ~ In LF l) (splitlines raw)).
    { eapply Forall_impl; [|apply splitlines_free]. intros l H Q. unfold free_of in H. rewrite Forall_forall in H. specialize (H _ Q). discriminate. }
    induction N as [|l ls Hl N IH]; [constructor|]. cbn [List.filter]. destruct (chosen heff (only h) l) eqn:Ec.
    - apply Keeps_yes; auto. apply heff_starts; auto. apply chosen_only; auto.
    - apply Keeps_no; auto. intros Q. apply heff_starts in Q; auto. apply chosen_only in Q. congruence.
  Qed.

  (** a header after its lines, and after the post-processors *)
  Record hran (raw : str) (o : obj) (w0 w1 w : world) : Prop := {
    hran_w0 : is_scan w0 = false /\ exists ep, me w0 = upd A_epoch ep header_init;
    hran_lines : iterM (header_line E known) (splitlines raw) w0 = (w1, Ok tt);
    hran_posts : run_posts E w1 = (w, Ok tt);
    hran_o : o = me w }.
  Lemma header_ran raw o : header_read E known raw o -> exists w0 w1 w, hran raw o w0 w1 w.
  Proof.
    intros (ep & lat & w & H & ->). unfold interpret_header in H. apply mbind_ok in H. destruct H as (w1 & [] & H1 & H2).
    exists (mk_w false (upd A_epoch ep header_init) lat), w1, w. constructor; auto. split; auto. exists ep. reflexivity.
  Qed.
  Lemma hran_init raw o w0 w1 w a : hran raw o w0 w1 w -> a <> A_epoch -> me w0 a = header_init a.
  Proof. intros R Ha. destruct (hran_w0 _ _ _ _ _ R) as (_ & ep & ->). apply upd_other; auto. Qed.

  (** the lines of one kind determine an attribute *)
  Lemma header_attr (a : attr) (h : hid) (Inv : list str -> option (ty a) -> Prop) raw o w0 w1 w : hran raw o w0 w1 w ->
    (forall h', h' <> h -> ~ In a (sets h')) -> a <> A_epoch -> Inv [] (header_init a) ->
    (forall line u u' done, is_scan u = false -> Inv done (me u a) -> process E h line u = (u', Ok tt) -> Inv (done ++ [line]) (me u' a)) ->
    Inv (hlines h (splitlines raw)) (me w1 a).
  Proof.
    intros R Hs Ha H0 Hstep.
    assert (G : is_scan w1 = false /\ Inv ([] ++ hlines h (splitlines raw)) (me w1 a)); [|apply G].
    refine (iter_inv E (header_line E known) heff header_step (only h) (fun done w => is_scan w = false /\ Inv done (me w a)) _ _ _ w0 w1 [] (hran_lines _ _ _ _ _ R) _).
    - intros h' line u u' done Hh [I1 I2] Hp. apply only_true in Hh. subst h'. split; [rewrite (is_scan_process _ _ _ _ _ _ Hp); auto|]. eapply Hstep; eauto.
    - intros h' line u u' done Hh [I1 I2] Hp. split; [rewrite (is_scan_process _ _ _ _ _ _ Hp); auto|].
      pose proof (frame_process E h' line u) as (_ & [F _] & _). rewrite Hp in F. cbn [fst] in F. rewrite F; auto. apply Hs. intros ->. rewrite (proj2 (only_true h h) eq_refl) in Hh. discriminate.
    - split; [apply (hran_w0 _ _ _ _ _ R)|]. cbn [app]. rewrite (hran_init _ _ _ _ _ _ R Ha). exact H0.
  Qed.

  (** which post-processors run *)
  Lemma hprocess_posts h line w w' : is_scan w = false -> process E h line w = (w', Ok tt) -> posts w' = add_post h (posts w).
  Proof.
    intros Hw H. destruct (post_of h) as [p|] eqn:Ep.
    - unfold add_post. rewrite Ep. destruct h; try discriminate Ep; injection Ep as <-; cbn [process] in H; unfold posts.
      + unfold process_G in H. mgo H. mfin.
      + unfold process_J in H. mgo H. mfin.
      + unfold process_j in H. mgo H. mfin.
      + unfold process_o in H. mgo H. mfin.
      + unfold process_P in H. minv H. rewrite Hw in H. discriminate.
      + unfold process_data in H. mgo H. mfin.
      + unfold process_data in H. mgo H. mfin.
      + unfold process_V in H. mgo H. mfin.
      + unfold process_UXML in H. mgo H. mfin.
    - unfold add_post. rewrite Ep. pose proof (frame_process E h line w) as (_ & [F _] & _). rewrite H in F. cbn [fst] in F.
      unfold posts. rewrite F; [reflexivity|]. destruct h; try discriminate Ep; cbn; intros Q; decompose [or] Q; try discriminate; auto.
  Qed.
  Lemma header_posts raw o w0 w1 w : hran raw o w0 w1 w -> posts_ok (posts w1) /\
    forall k, has k (posts w1) = true <-> exists l h p, In l (splitlines raw) /\ heff l = Some h /\ post_of h = Some p /\ k = label_of p.
  Proof.
    intros R.
    assert (G : is_scan w1 = false /\ posts_ok (posts w1) /\ forall k, has k (posts w1) = true <->
                exists l h p, In l ([] ++ List.filter (chosen heff (fun _ => true)) (splitlines raw)) /\ heff l = Some h /\ post_of h = Some p /\ k = label_of p).
    { refine (iter_inv' E (header_line E known) heff header_step (fun _ => true) (fun done w => is_scan w = false /\ posts_ok (posts w) /\ forall k, has k (posts w) = true <->
                exists l h p, In l done /\ heff l = Some h /\ post_of h = Some p /\ k = label_of p) _ _ _ w0 w1 [] (hran_lines _ _ _ _ _ R) _).
      2: discriminate.
      2: { split; [apply (hran_w0 _ _ _ _ _ R)|]. unfold posts. rewrite (hran_init _ _ _ _ _ A_posts R) by discriminate. split; [split; constructor|].
           intros k. split; [discriminate|]. intros (l & _ & _ & [] & _). }
      intros h line u u' done He _ (I1 & I2 & I3) Hp. split; [rewrite (is_scan_process _ _ _ _ _ _ Hp); auto|]. rewrite (hprocess_posts _ _ _ _ I1 Hp).
      split; [apply posts_ok_add; auto|]. intros k. rewrite add_post_has, I3. split.
      - intros [(l & h' & p & Q1 & Q2)|(p & Q1 & ->)]; [exists l, h', p; rewrite in_app_iff; tauto|]. exists line, h, p. rewrite in_app_iff. simpl. auto.
      - intros (l & h' & p & Q1 & Q2 & Q3 & Q4). apply in_app_or in Q1. destruct Q1 as [Q1|[<-|[]]]; [left; eauto 10|]. right. exists p. split; congruence. }
    destruct G as (_ & G1 & G2). split; auto. intros k. rewrite G2. cbn [app]. split; intros (l & h & p & Q1 & Q2 & Q3); exists l, h, p.
    - apply filter_In in Q1. tauto.
    - split; [|auto]. apply filter_In. split; auto. unfold chosen. rewrite Q2. reflexivity.
  Qed.
  (** the world a post-processor sees *)
  Lemma hran_post (S : list attr) raw o w0 w1 w k : hran raw o w0 w1 w -> (forall q, label_of q <> k -> forall a, In a S -> ~ In a (post_sets q)) ->
    (exists l h p, In l (splitlines raw) /\ heff l = Some h /\ post_of h = Some p /\ k = label_of p) ->
    exists p wa wb, label_of p = k /\ run_post E p wa = (wb, Ok tt) /\ (forall a, In a S -> me wa a = me w1 a) /\ (forall a, In a S -> o a = me wb a).
  Proof.
    intros R HS Hex. destruct (header_posts _ _ _ _ _ R) as [P1 P2]. apply P2 in Hex. unfold has in Hex.
    destruct (dget k (posts w1)) as [p|] eqn:Eg; [|discriminate]. apply ReaderFacts4.dget_In in Eg.
    assert (Hlab : k = label_of p) by (destruct P1 as [_ P1]; rewrite Forall_forall in P1; apply (P1 _ Eg)). subst k.
    assert (Hin : In p (values (posts w1))) by (unfold values; apply in_map_iff; exists (label_of p, p); auto).
    destruct (posts_run E S p w1 w HS (hran_posts _ _ _ _ _ R) P1 Hin) as (wa & wb & Q1 & Q2 & Q3 & Q4 & Q5 & Q6).
    exists p, wa, wb. rewrite (hran_o _ _ _ _ _ R). auto.
  Qed.
  Lemma hran_no_post (a : attr) raw o w0 w1 w : hran raw o w0 w1 w ->
    (forall l h p, In l (splitlines raw) -> heff l = Some h -> post_of h = Some p -> ~ In a (post_sets p)) -> o a = me w1 a.
  Proof.
    intros R HS. destruct (header_posts _ _ _ _ _ R) as [[Pn Pl] P2]. pose proof (hran_posts _ _ _ _ _ R) as H.
    unfold run_posts in H. apply mbind_ok in H. destruct H as (w2 & d & H1 & H2). apply getA_ok in H1. destruct H1 as [-> H1].
    rewrite (hran_o _ _ _ _ _ R). refine (proj1 (proj2 (iter_posts_frame E [a] (values d) w1 w _ H2)) a _); [|left; auto].
    intros q Hq b [<-|[]]. assert (Ed : d = posts w1) by (unfold posts; rewrite H1; auto).
    unfold values in Hq. apply in_map_iff in Hq. destruct Hq as ([k q'] & <- & Hin). cbn.
    assert (Hk0 : has k (posts w1) = true) by (apply has_In; rewrite <- Ed; apply in_map_iff; exists (k, q'); auto).
    assert (Ek : k = label_of q') by (rewrite Forall_forall in Pl; apply (Pl (k, q')); rewrite <- Ed; auto).
    apply P2 in Hk0. destruct Hk0 as (l & h & p & L1 & L2 & L3 & L4). specialize (HS l h p L1 L2 L3). rewrite Ek in L4. apply same_label in L4.
    destruct L4 as [->|(x & y & -> & ->)]; auto.
  Qed.

  (** ** tables of words *)
  Definition wrow (l : str) : list str := words (Utils.strip_first_word l).
  Lemma rows_ok h raw : h <> H_unrec -> h <> H_E -> header_rows h (splitlines raw) (map wrow (hlines h (splitlines raw))).
  Proof.
    intros H1 H2. pose proof (hlines_keeps h raw H1 H2) as K. exists (hlines h (splitlines raw)). split; auto.
    apply Keeps_incl in K. destruct K as [_ K]. induction K as [|l ls Hl _ IH]; constructor; auto. exists (Utils.strip_first_word l).
    split; [apply content_strip; auto; eapply starts_SP; eauto|apply fields_words; reflexivity].
  Qed.
  (** an attribute that is a list, missing if there are no lines *)
  Definition listed_as (f : str -> list str) (done : list str) (v : option (list (list str))) : Prop := (done = [] /\ v = None) \/ (done <> [] /\ v = Some (map f done)).
  Lemma listed_snoc f done v line : listed_as f done v -> listed_as f (done ++ [line]) (Some ((match v with Some l => l | None => [] end) ++ [f line])).
  Proof.
    intros H. right. split; [destruct done; discriminate|]. rewrite map_app. destruct H as [[-> ->]|[_ ->]]; reflexivity.
  Qed.
  Ltac only_sets := let h := fresh in let Hn := fresh in let Q := fresh in intros h Hn; destruct h; cbn; intros Q; try congruence; decompose [or] Q; try discriminate; auto.
  Lemma header_J raw o w0 w1 w : hran raw o w0 w1 w -> listed_as wrow (hlines H_J (splitlines raw)) (me w1 A_J).
  Proof.
    intros R. apply (header_attr A_J H_J (listed_as wrow) _ _ _ _ _ R); [only_sets|discriminate|left; auto|].
    intros line u u' done _ Hi H. cbn [process] in H. unfold process_J in H. minv H.
    replace (me u' A_J) with (Some (match me u A_J with Some l => l | None => [] end ++ [wrow line])); [apply listed_snoc; auto|]. mattr. minj. reflexivity.
  Qed.
  Lemma header_j raw o w0 w1 w : hran raw o w0 w1 w -> listed_as wrow (hlines H_j (splitlines raw)) (me w1 A_j).
  Proof.
    intros R. apply (header_attr A_j H_j (listed_as wrow) _ _ _ _ _ R); [only_sets|discriminate|left; auto|].
    intros line u u' done _ Hi H. cbn [process] in H. unfold process_j in H. minv H.
    replace (me u' A_j) with (Some (match me u A_j with Some l => l | None => [] end ++ [wrow line])); [apply listed_snoc; auto|]. mattr. minj. reflexivity.
  Qed.
  Lemma header_o raw o w0 w1 w : hran raw o w0 w1 w -> listed_as wrow (hlines H_o (splitlines raw)) (me w1 A_o).
  Proof.
    intros R. apply (header_attr A_o H_o (listed_as wrow) _ _ _ _ _ R); [only_sets|discriminate|left; auto|].
    intros line u u' done _ Hi H. cbn [process] in H. unfold process_o in H. cbv zeta in H. minv H.
    replace (me u' A_o) with (Some (match me u A_o with Some l => l | None => [] end ++ [wrow line])); [apply listed_snoc; auto|]. mattr. minj. rewrite strip_strip_first. reflexivity.
  Qed.

  (** ** names of positioners *)
  Definition lrow (l : str) : list str := match strip (Utils.strip_first_word l) with [] => [] | _ => Utils.split_column_labels (strip (Utils.strip_first_word l)) end.
  Definition is_O0 (l : str) : bool := match words l with w :: _ => seqb w (L "#O0") | [] => false end.
  Definition o_step (line : str) (rows : list (list str)) : list (list str) := (if is_O0 line then [] else rows) ++ [lrow line].
  Lemma header_O raw o w0 w1 w : hran raw o w0 w1 w -> me w1 A_O = Some (fold_left (fun rows l => o_step l rows) (hlines H_O (splitlines raw)) []).
  Proof.
    intros R. apply (header_attr A_O H_O (fun done v => v = Some (fold_left (fun rows l => o_step l rows) done [])) _ _ _ _ _ R); [only_sets|discriminate|reflexivity|].
    intros line u u' done Hu Hi H. rewrite fold_left_app. cbn [fold_left]. set (rows := fold_left _ done []) in *. clearbody rows.
    cbn [process] in H. unfold process_O in H. apply mbind_ok in H. destruct H as (w2 & sc & A1 & A2). apply ask_ok in A1. destruct A1 as [-> ->]. rewrite Hu in A2.
    apply mbind_ok in A2. destruct A2 as (w2 & key & A1 & A2). apply lift_ok in A1. destruct A1 as [-> A1]. cbv zeta in A2.
    apply mbind_ok in A2. destruct A2 as (w2 & [] & B1 & B2). apply mbind_ok in B2. destruct B2 as (w3 & rows' & B2 & B3). apply getA_ok in B2. destruct B2 as [-> B2]. apply setA_ok in B3.
    subst u'. cbn [me]. rewrite upd_same. unfold o_step, is_O0, lrow. unfold first_word in A1. rewrite index_0 in A1. destruct (words line) as [|k0 ws]; [discriminate|]. injection A1 as ->.
    destruct (seqb key (L "#O0")).
    - apply setA_ok in B1. subst w2. cbn [me] in B2. rewrite upd_same in B2. apply Some_inj in B2. subst rows'. reflexivity.
    - apply ret_ok in B1. destruct B1 as [-> _]. rewrite Hi in B2. apply Some_inj in B2. subst rows'. reflexivity.
  Qed.
  Lemma is_O0_spec l : is_O0 l = true <-> first_word_is l (L "#O0").
  Proof.
    rewrite first_word_words. unfold is_O0. destruct (words l) as [|w ws].
    - split; [discriminate|intros (ws & Q); discriminate].
    - rewrite seqb_eq. split; [intros ->; eauto|]. intros (ws' & Q). congruence.
  Qed.
  Lemma o_steps ls rows : exists k, (since_last (fun l => is_O0 l = true) ls k) /\
    fold_left (fun rows l => o_step l rows) ls rows = (if existsb is_O0 ls then [] else rows) ++ map lrow k.
  Proof.
    revert rows; induction ls as [|l ls IH]; intros rows.
    - exists []. split; [left; auto|]. cbn. rewrite app_nil_r. reflexivity.
    - cbn [fold_left existsb]. destruct (IH (o_step l rows)) as (k & H1 & H2). rewrite H2. destruct (existsb is_O0 ls) eqn:Ex.
      + exists k. rewrite orb_true_r. split; auto. destruct H1 as [[H1 _]|(pre & x & post & -> & Hx & Hp & ->)].
        * exfalso. apply existsb_exists in Ex. destruct Ex as (y & Hy & Q). rewrite Forall_forall in H1. apply (H1 y); auto.
        * right. exists (l :: pre), x, post. auto.
      + assert (Hn : Forall (fun l => is_O0 l <> true) ls) by (apply Forall_forall; intros y Hy Q; assert (existsb is_O0 ls = true) by (apply existsb_exists; eauto); congruence).
        assert (Ekk : k = ls).
        { destruct H1 as [[_ H1]|(pre & x & post & -> & Hx & _)]; auto. exfalso. rewrite Forall_forall in Hn. apply (Hn x); auto. apply in_elt. }
        subst k. rewrite orb_false_r. exists (l :: ls). unfold o_step. destruct (is_O0 l) eqn:El.
        * split; [right; exists [], l, ls; auto|]. reflexivity.
        * split; [left; split; auto; constructor; auto; congruence|]. cbn [map]. rewrite <- app_assoc. reflexivity.
  Qed.
  Lemma label_row_ok l : In SP l -> label_row l (lrow l).
  Proof.
    intros Hs. exists (Utils.strip_first_word l). assert (Hc : content l (Utils.strip_first_word l)) by (apply content_strip; auto). split; auto.
    unfold lrow. rewrite strip_strip_first. destruct (Utils.strip_first_word l) as [|c t] eqn:Et; [left; auto|right]. split; [discriminate|].
    apply tight_labels. apply Hc.
  Qed.
  Lemma names_ok raw : positioner_names (splitlines raw) (fold_left (fun rows l => o_step l rows) (hlines H_O (splitlines raw)) []).
  Proof.
    pose proof (hlines_keeps H_O raw ltac:(discriminate) ltac:(discriminate)) as K. destruct (o_steps (hlines H_O (splitlines raw)) []) as (k & H1 & H2).
    exists (hlines H_O (splitlines raw)), k. split; auto. split.
    - destruct H1 as [[H1 ->]|(pre & x & post & E1 & H1 & H3 & ->)]; [left|right].
      + split; auto. eapply Forall_impl; [|exact H1]. intros l Q. rewrite <- is_O0_spec. exact Q.
      + exists pre, x, post. split; auto. split; [apply is_O0_spec; auto|]. split; auto. eapply Forall_impl; [|exact H3]. intros l Q. rewrite <- is_O0_spec. exact Q.
    - rewrite H2. assert (Ein : incl k (hlines H_O (splitlines raw))).
      { destruct H1 as [[_ ->]|(pre & x & post & -> & _ & _ & ->)]; [apply incl_refl|apply incl_appr, incl_refl]. }
      replace ((if existsb is_O0 (hlines H_O (splitlines raw)) then [] else []) ++ map lrow k) with (map lrow k) by (destruct (existsb _ _); reflexivity).
      apply Keeps_incl in K. destruct K as [_ K]. rewrite Forall_forall in K. clear H1 H2. induction k as [|l k IH]; constructor.
      + apply label_row_ok. eapply starts_SP. apply K. apply Ein. left; auto.
      + apply IH. intros y Hy. apply Ein. right; auto.
  Qed.

  (** ** labels of #H lines and comments *)
  Lemma header_H raw o w0 w1 w : hran raw o w0 w1 w -> me w1 A_H = Some (map (fun l => split_2sp (Utils.strip_first_word l)) (hlines H_H (splitlines raw))).
  Proof.
    intros R. apply (header_attr A_H H_H (fun done v => v = Some (map (fun l => split_2sp (Utils.strip_first_word l)) done)) _ _ _ _ _ R); [only_sets|discriminate|reflexivity|].
    intros line u u' done Hu Hi H. rewrite map_app. cbn [map]. set (rows := map _ done) in *. clearbody rows.
    cbn [process] in H. unfold process_H in H. cbv zeta in H. apply mbind_ok in H. destruct H as (w2 & h & A1 & A2). apply getA_ok in A1. destruct A1 as [-> A1]. rewrite Hi in A1. apply Some_inj in A1. subst h.
    apply setA_ok in A2. subst u'. cbn [me]. apply upd_same.
  Qed.
  Lemma header_C raw o w0 w1 w : hran raw o w0 w1 w -> me w1 A_comments = Some (map Utils.strip_first_word (hlines H_C (splitlines raw))).
  Proof.
    intros R. apply (header_attr A_comments H_C (fun done v => v = Some (map Utils.strip_first_word done)) _ _ _ _ _ R); [only_sets|discriminate|reflexivity|].
    intros line u u' done Hu Hi H. rewrite map_app. cbn [map]. set (rows := map _ done) in *. clearbody rows.
    cbn [process] in H. unfold process_C in H. apply mbind_ok in H. destruct H as (w2 & h & A1 & A2). apply getA_ok in A1. destruct A1 as [-> A1]. rewrite Hi in A1. apply Some_inj in A1. subst h.
    apply mbind_ok in A2. destruct A2 as (w3 & [] & A2 & A3). apply setA_ok in A2. apply mbind_ok in A3. destruct A3 as (w4 & [] & A3 & A4).
    assert (Q3 : me w3 A_comments = Some (rows ++ [Utils.strip_first_word line])) by (subst w3; cbn [me]; apply upd_same).
    assert (Q4 : me w4 A_comments = me w3 A_comments).
    { destruct (find _ line) as [[|n]|]; try (apply ret_ok in A3; destruct A3 as [-> _]; reflexivity). }
    unfold whenScan in A4. apply mbind_ok in A4. destruct A4 as (w5 & b & A4 & A5). apply ask_ok in A4. destruct A4 as [-> ->].
    destruct (is_scan w4); [apply addH5_ok in A5; destruct A5 as (_ & _ & A5 & _); rewrite A5 by discriminate|apply ret_ok in A5; destruct A5 as [-> _]]; congruence.
  Qed.
  Lemma C67_lemma raw o ls : header_read E known raw o -> Lines py_eol raw ls ->
    (exists cs ts, Keeps (starts H_C) ls cs /\ Forall2 content cs ts /\ o A_comments = Some ts) /\
    (exists cs labs, Keeps (starts H_H) ls cs /\ Forall2 meta_labels cs labs /\ o A_H = Some labs).
  Proof.
    intros Hr Hl. apply Lines_splitlines in Hl. subst ls. destruct (header_ran _ _ Hr) as (w0 & w1 & w & R).
    pose proof (hlines_keeps H_C raw ltac:(discriminate) ltac:(discriminate)) as K1. pose proof (hlines_keeps H_H raw ltac:(discriminate) ltac:(discriminate)) as K2. split.
    - exists (hlines H_C (splitlines raw)), (map Utils.strip_first_word (hlines H_C (splitlines raw))). split; auto. split.
      + apply Keeps_incl in K1. destruct K1 as [_ K]. induction K as [|l ls Hl _ IH]; constructor; auto. apply content_strip; auto; eapply starts_SP; eauto.
      + rewrite (hran_no_post A_comments _ _ _ _ _ R); [apply (header_C _ _ _ _ _ R)|]. intros l h p _ _ _. destruct p; cbn; intros Q; decompose [or] Q; try discriminate; auto.
    - exists (hlines H_H (splitlines raw)), (map (fun l => split_2sp (Utils.strip_first_word l)) (hlines H_H (splitlines raw))). split; auto. split.
      + apply Keeps_incl in K2. destruct K2 as [_ K]. induction K as [|l ls Hl _ IH]; constructor; auto.
        assert (Hc : content l (Utils.strip_first_word l)) by (apply content_strip; auto; eapply starts_SP; eauto). exists (Utils.strip_first_word l). split; auto.
        intros Ht. replace (split_2sp (Utils.strip_first_word l)) with (Utils.split_column_labels (Utils.strip_first_word l)) by (unfold Utils.split_column_labels; rewrite replace_none; auto).
        apply tight_labels. apply Hc.
      + rewrite (hran_no_post A_H _ _ _ _ _ R); [apply (header_H _ _ _ _ _ R)|]. intros l h p _ _ _. destruct p; cbn; intros Q; decompose [or] Q; try discriminate; auto.
  Qed.

  (** ** cross references *)
  Definition xstep (name_row : list str) : dict str * res unit -> nat * str -> dict str * res unit :=
    fun acc im => match acc with (x, Ok _) => match index (Z.of_nat (fst im)) name_row with Ok nm => (dset (snd im) nm x, Ok tt) | Raise e => (x, Raise e) end | _ => acc end.
  Definition tstep (names : list (list str)) : dict str * res unit -> nat * list str -> dict str * res unit :=
    fun acc im => match acc with (x, Ok _) => match index (Z.of_nat (fst im)) names with Ok row => xref_row row (snd im) x | Raise e => (x, Raise e) end | _ => acc end.
  Lemma xref_row_spec name_row r : forall mnes c x x', 
    fold_left (xstep name_row)
      (combine (seq c (List.length mnes)) mnes) (x, Ok tt) = (x', Ok tt) ->
    x' = fold_left (fun d y => dset (fst (snd y)) (snd (snd y)) d) (cell_row name_row r c mnes) x /\ forall i m, nth_error mnes i = Some m -> exists n, nth_error name_row (c + i) = Some n.
  Proof.
    induction mnes as [|m mnes IH]; intros c x x' H.
    - cbn in H. inversion H. split; auto. intros [|i] m Q; discriminate.
    - cbn [List.length seq combine fold_left fst snd] in H. unfold xstep at 2 in H. cbn [fst snd] in H. rewrite PyFacts.index_nat in H. cbn [cell_row]. destruct (nth_error name_row c) as [n|] eqn:En; cbn [of_opt] in H.
      + destruct (IH _ _ _ H) as [I1 I2]. split; [exact I1|]. intros [|i] m' Q; [rewrite Nat.add_0_r; eauto|]. rewrite Nat.add_succ_r. apply (I2 i m'). exact Q.
      + exfalso. assert (G : forall l (y : dict str) e, fold_left (xstep name_row) l (y, Raise e) = (y, Raise e)).
        { induction l; intros; cbn; auto. }
        rewrite G in H. discriminate.
  Qed.
  Lemma xref_table_spec names : forall mnes r x x',
    fold_left (tstep names)
      (combine (seq r (List.length mnes)) mnes) (x, Ok tt) = (x', Ok tt) ->
    x' = fold_left (fun d y => dset (fst (snd y)) (snd (snd y)) d) (cells names r mnes) x /\ forall i c m, at_cell mnes i c m -> exists n, at_cell names (r + i) c n.
  Proof.
    assert (G : forall l (y : dict str) e, fold_left (tstep names) l (y, Raise e) = (y, Raise e)).
    { induction l; intros; cbn; auto. }
    induction mnes as [|m mnes IH]; intros r x x' H.
    - cbn in H. inversion H. split; auto. intros [|i] c m (row & Q & _); discriminate.
    - cbn [List.length seq combine fold_left fst snd] in H. unfold tstep at 2 in H. cbn [fst snd] in H. rewrite PyFacts.index_nat in H. cbn [cells]. destruct (nth_error names r) as [row|] eqn:En; cbn [of_opt] in H; [|rewrite G in H; discriminate].
      destruct (xref_row row m x) as [x1 [[]|e]] eqn:Ex; [|rewrite G in H; discriminate].
      destruct (xref_row_spec row r _ _ _ _ Ex) as [R1 R2]. destruct (IH _ _ _ H) as [I1 I2]. rewrite fold_left_app. split; [subst x1; exact I1|].
      intros [|i] c mm (row' & Q1 & Q2).
      + cbn in Q1. injection Q1 as <-. destruct (R2 _ _ Q2) as (n & Q3). exists n. rewrite Nat.add_0_r. exists row. auto.
      + rewrite Nat.add_succ_r. apply (I2 i c mm). exists row'. auto.
  Qed.
  Lemma xref_cross names mnes x : xref_table names mnes [] = (x, Ok tt) -> cross_reference x mnes names.
  Proof.
    intros H. unfold xref_table in H. destruct (xref_table_spec names mnes 0 [] x H) as [H1 H2]. split; [exact H2|]. rewrite H1.
    split; [apply (fold_nodup (fun y => fst (snd y)) (fun y => snd (snd y))); constructor|].
    split; [intros ND; rewrite <- (cells_fst names mnes 0 H2) in ND |- *; apply (fold_keys (fun y => fst (snd y)) (fun y => snd (snd y)) _ []); exact ND|].
    intros m n. rewrite (last_cell fst snd). cbn [fst snd]. split.
    - intros (r & c & d & t & A1 & A2 & <- & <- & A3). exists r, c. split; auto. split; auto. intros r' c' v' G1 G2. eapply A3; eauto.
    - intros (r & c & A1 & A2 & A3). exists r, c, m, n. split; auto. split; auto. split; auto. split; auto. intros r' c' d' t' G1 G2 <-. eapply A3; eauto.
  Qed.

  Lemma hdr_not_set a raw o w0 w1 w : hran raw o w0 w1 w -> (forall h, ~ In a (sets h)) -> a <> A_epoch -> me w1 a = header_init a.
  Proof.
    intros R Ha He. rewrite <- (hran_init _ _ _ _ _ _ R He).
    refine (iter_inv E (header_line E known) heff header_step (fun _ => false) (fun _ w' => me w' a = me w0 a) _ _ _ w0 w1 [] (hran_lines _ _ _ _ _ R) eq_refl); [discriminate|].
    intros h line u u' _ _ Hu Hp. pose proof (frame_process E h line u) as (_ & [F _] & _). rewrite Hp in F. cbn [fst] in F. rewrite F; auto.
  Qed.
  Lemma post_counter_ok h w w' J j : post_counter h w = (w', Ok tt) -> me w A_J = Some J -> me w A_j = Some j -> me w A_counter_xref = None ->
    exists x, me w' A_counter_xref = Some x /\ cross_reference x j J.
  Proof.
    intros H HJ Hj Hx. unfold post_counter in H. apply mbind_ok in H. destruct H as (wa & b1 & A1 & A2). apply hasA_ok in A1. destruct A1 as [-> ->]. rewrite Hj in A2.
    apply mbind_ok in A2. destruct A2 as (wa & b2 & A1 & A2). apply hasA_ok in A1. destruct A1 as [-> ->]. rewrite HJ in A2. cbn [andb] in A2.
    apply mbind_ok in A2. destruct A2 as (wb & [] & A1 & A2). apply addH5_ok in A2. destruct A2 as (_ & _ & A2 & _). rewrite A2 by discriminate.
    apply mbind_ok in A1. destruct A1 as (wc & [] & B1 & B2). apply ensure_ok in B1. destruct B1 as (_ & _ & B1 & B3). rewrite Hx in B1.
    apply mbind_ok in B2. destruct B2 as (wd & j' & B2 & B4). apply getA_ok in B2. destruct B2 as [-> B2]. rewrite B3, Hj in B2 by discriminate. apply Some_inj in B2. subst j'.
    apply mbind_ok in B4. destruct B4 as (wd & J' & B4 & B5). apply getA_ok in B4. destruct B4 as [-> B4]. rewrite B3, HJ in B4 by discriminate. apply Some_inj in B4. subst J'.
    apply mbind_ok in B5. destruct B5 as (wd & x0 & B5 & B6). apply getA_ok in B5. destruct B5 as [-> B5]. rewrite B1 in B5. apply Some_inj in B5. subst x0.
    destruct (xref_table J j []) as [x' r] eqn:Ex. apply mbind_ok in B6. destruct B6 as (wd & [] & B6 & B7). apply setA_ok in B6. apply lift_ok in B7. destruct B7 as [-> ->].
    exists x'. split; [rewrite B6; cbn [me]; apply upd_same|]. apply xref_cross; auto.
  Qed.
  Lemma post_posx_ok w w' O o : post_posx w = (w', Ok tt) -> me w A_O = Some O -> me w A_o = Some o -> me w A_positioner_xref = None ->
    exists x, me w' A_positioner_xref = Some x /\ cross_reference x o O.
  Proof.
    intros H HJ Hj Hx. unfold post_posx in H. apply mbind_ok in H. destruct H as (wa & b1 & A1 & A2). apply hasA_ok in A1. destruct A1 as [-> ->]. rewrite Hj in A2.
    apply mbind_ok in A2. destruct A2 as (wa & b2 & A1 & A2). apply hasA_ok in A1. destruct A1 as [-> ->]. rewrite HJ in A2. cbn [andb] in A2.
    apply mbind_ok in A2. destruct A2 as (wb & [] & A1 & A2). apply addH5_ok in A2. destruct A2 as (_ & _ & A2 & _). rewrite A2 by discriminate.
    apply mbind_ok in A1. destruct A1 as (wc & [] & B1 & B2). apply ensure_ok in B1. destruct B1 as (_ & _ & B1 & B3). rewrite Hx in B1.
    apply mbind_ok in B2. destruct B2 as (wd & j' & B2 & B4). apply getA_ok in B2. destruct B2 as [-> B2]. rewrite B3, Hj in B2 by discriminate. apply Some_inj in B2. subst j'.
    apply mbind_ok in B4. destruct B4 as (wd & J' & B4 & B5). apply getA_ok in B4. destruct B4 as [-> B4]. rewrite B3, HJ in B4 by discriminate. apply Some_inj in B4. subst J'.
    apply mbind_ok in B5. destruct B5 as (wd & x0 & B5 & B6). apply getA_ok in B5. destruct B5 as [-> B5]. rewrite B1 in B5. apply Some_inj in B5. subst x0.
    destruct (xref_table O o []) as [x' r] eqn:Ex. apply mbind_ok in B6. destruct B6 as (wd & [] & B6 & B7). apply setA_ok in B6. apply lift_ok in B7. destruct B7 as [-> ->].
    exists x'. split; [rewrite B6; cbn [me]; apply upd_same|]. apply xref_cross; auto.
  Qed.
  Lemma post_counter_skip h w w' : post_counter h w = (w', Ok tt) -> me w A_J = None \/ me w A_j = None -> me w' A_counter_xref = me w A_counter_xref.
  Proof.
    intros H Hn. unfold post_counter in H. apply mbind_ok in H. destruct H as (wa & b1 & A1 & A2). apply hasA_ok in A1. destruct A1 as [-> ->].
    apply mbind_ok in A2. destruct A2 as (wa & b2 & A1 & A2). apply hasA_ok in A1. destruct A1 as [-> ->].
    apply mbind_ok in A2. destruct A2 as (wb & [] & A1 & A2). apply addH5_ok in A2. destruct A2 as (_ & _ & A2 & _). rewrite A2 by discriminate.
    replace (match me w A_j with Some _ => true | None => false end && match me w A_J with Some _ => true | None => false end) with false in A1.
    - apply ret_ok in A1. destruct A1 as [-> _]. reflexivity.
    - destruct Hn as [-> | ->]; [rewrite andb_false_r|]; reflexivity.
  Qed.

  Lemma C31_lemma raw o ls : header_read E known raw o -> Lines py_eol raw ls ->
    exists J j O m, header_rows H_J ls J /\ header_rows H_j ls j /\ positioner_names ls O /\ header_rows H_o ls m /\ o A_O = Some O /\
      ((J <> [] /\ j <> [] /\ exists x, o A_counter_xref = Some x /\ cross_reference x j J) \/ ((J = [] \/ j = []) /\ o A_counter_xref = None)) /\
      ((m <> [] /\ exists x, o A_positioner_xref = Some x /\ cross_reference x m O) \/ (m = [] /\ o A_positioner_xref = None)).
  Proof.
    intros Hr Hl. apply Lines_splitlines in Hl. subst ls. destruct (header_ran _ _ Hr) as (w0 & w1 & w & R).
    exists (map wrow (hlines H_J (splitlines raw))), (map wrow (hlines H_j (splitlines raw))),
      (fold_left (fun rows l => o_step l rows) (hlines H_O (splitlines raw)) []), (map wrow (hlines H_o (splitlines raw))).
    split; [apply rows_ok; discriminate|]. split; [apply rows_ok; discriminate|]. split; [apply names_ok|]. split; [apply rows_ok; discriminate|].
    pose proof (header_J _ _ _ _ _ R) as HJ. pose proof (header_j _ _ _ _ _ R) as Hj. pose proof (header_O _ _ _ _ _ R) as HO. pose proof (header_o _ _ _ _ _ R) as Ho.
    split.
    { rewrite (hran_no_post A_O _ _ _ _ _ R); [exact HO|]. intros l h p _ _ _. destruct p; cbn; intros Q; decompose [or] Q; try discriminate; auto. }
    assert (X1 : me w1 A_counter_xref = None) by (rewrite (hdr_not_set _ _ _ _ _ _ R); [reflexivity| |discriminate]; intros h; destruct h; cbn; intros Q; decompose [or] Q; try discriminate; auto).
    assert (X2 : me w1 A_positioner_xref = None) by (rewrite (hdr_not_set _ _ _ _ _ _ R); [reflexivity| |discriminate]; intros h; destruct h; cbn; intros Q; decompose [or] Q; try discriminate; auto).
    assert (Hin : forall h, hlines h (splitlines raw) <> [] -> exists l, In l (splitlines raw) /\ heff l = Some h).
    { intros h Hne. destruct (hlines h (splitlines raw)) as [|l t] eqn:El; [congruence|]. exists l. assert (Q : In l (hlines h (splitlines raw))) by (rewrite El; left; auto).
      apply filter_In in Q. destruct Q as [Q1 Q2]. split; auto. apply chosen_only; auto. }
    assert (Hnin : forall h l, In l (splitlines raw) -> heff l = Some h -> hlines h (splitlines raw) <> []).
    { intros h l H1 H2 Q. assert (In l (hlines h (splitlines raw))) by (apply filter_In; split; auto; apply chosen_only; auto). rewrite Q in *. auto. }
    split.
    - destruct HJ as [[EJ HJ]|[EJ HJ]]; destruct Hj as [[Ej Hj]|[Ej Hj]].
      2,3,4: destruct (hran_post [A_counter_xref; A_J; A_j] _ _ _ _ _ (label_of (PP_counter H_J)) R) as (p & wa & wb & P1 & P2 & P3 & P4).
      + right. rewrite EJ. split; [auto|]. rewrite (hran_no_post A_counter_xref _ _ _ _ _ R); auto. intros l h p H1 H2 H3. destruct h; try discriminate H3; injection H3 as <-; cbn; intros Q; decompose [or] Q; try discriminate; auto.
        * apply (Hnin _ _ H1 H2). auto.
        * apply (Hnin _ _ H1 H2). auto.
      + intros q Hq a Ha Q. destruct q; cbn in Q; decompose [or] Q; subst; cbn in Ha; decompose [or] Ha; try discriminate; try contradiction; apply Hq; reflexivity.
      + destruct (Hin _ Ej) as (l & L1 & L2). exists l, H_j, (PP_counter H_j). auto.
      + right. rewrite EJ. split; [auto|]. rewrite P4 by (simpl; auto). apply same_label in P1. destruct P1 as [->|(a & b & -> & _)]; cbn [run_post] in P2; apply post_counter_skip in P2; rewrite ?P2, ?P3 by (simpl; auto); auto.
      + intros q Hq a Ha Q. destruct q; cbn in Q; decompose [or] Q; subst; cbn in Ha; decompose [or] Ha; try discriminate; try contradiction; apply Hq; reflexivity.
      + destruct (Hin _ EJ) as (l & L1 & L2). exists l, H_J, (PP_counter H_J). auto.
      + right. rewrite Ej. split; [auto|]. rewrite P4 by (simpl; auto). apply same_label in P1. destruct P1 as [->|(a & b & -> & _)]; cbn [run_post] in P2; apply post_counter_skip in P2; rewrite ?P2, ?P3 by (simpl; auto); auto.
      + intros q Hq a Ha Q. destruct q; cbn in Q; decompose [or] Q; subst; cbn in Ha; decompose [or] Ha; try discriminate; try contradiction; apply Hq; reflexivity.
      + destruct (Hin _ EJ) as (l & L1 & L2). exists l, H_J, (PP_counter H_J). auto.
      + left. split; [destruct (hlines H_J (splitlines raw)); [congruence|discriminate]|]. split; [destruct (hlines H_j (splitlines raw)); [congruence|discriminate]|].
        rewrite P4 by (simpl; auto). assert (Q : exists h, run_post E p = post_counter h) by (apply same_label in P1; destruct P1 as [->|(a & b & -> & _)]; eexists; reflexivity).
        destruct Q as (h & Q). rewrite Q in P2. eapply post_counter_ok; [exact P2| | |]; rewrite P3 by (simpl; auto); auto.
    - destruct Ho as [[Eo Ho]|[Eo Ho]].
      + right. rewrite Eo. split; [auto|]. rewrite (hran_no_post A_positioner_xref _ _ _ _ _ R); auto. intros l h p H1 H2 H3. destruct h; try discriminate H3; injection H3 as <-; cbn; intros Q; decompose [or] Q; try discriminate; auto.
        apply (Hnin _ _ H1 H2). auto.
      + left. split; [destruct (hlines H_o (splitlines raw)); [congruence|discriminate]|].
        destruct (hran_post [A_positioner_xref; A_O; A_o] _ _ _ _ _ (label_of PP_posx) R) as (p & wa & wb & P1 & P2 & P3 & P4).
        * intros q Hq a Ha Q. destruct q; cbn in Q; decompose [or] Q; subst; cbn in Ha; decompose [or] Ha; try discriminate; try contradiction; apply Hq; reflexivity.
        * destruct (Hin _ Eo) as (l & L1 & L2). exists l, H_o, PP_posx. auto.
        * rewrite P4 by (simpl; auto). apply same_label in P1. destruct P1 as [->|(a & b & _ & Q)]; [|discriminate]. cbn [run_post] in P2.
          eapply post_posx_ok; [exact P2| | |]; rewrite P3 by (simpl; auto); auto.
  Qed.
End Header.
