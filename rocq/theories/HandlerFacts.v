(** C20-C23: what the handlers collect. *)
From Coq Require Import String Lia.
From Verif Require Import Uni Py PyFacts NumFacts Time Utils Keys Handlers Reader SpecText SpecUtils SpecReader SpecNum SpecHistory SpecKeys SpecInterp
  TextFacts UtilsFacts TimeFacts KeyFacts ReaderFacts ReaderFacts2 ReaderFacts4 ReaderFacts5 DispatchFacts FrameFacts StateFacts InterpFacts MonadFacts.
Import ListNotations.
Local Open Scope list_scope.

Definition orn {X} (o : option (list X)) : list X := match o with Some l => l | None => [] end.
(** a list attribute, missing if empty, with one element per line *)
Definition if_anyb {X} (o : option (list X)) : Prop := o = None \/ exists x l, o = Some (x :: l).
Lemma if_anyb_ok {X} (o : option (list X)) l : if_anyb o -> orn o = l -> if_any o l.
Proof. intros [->|(x & t & ->)] <-; [left|right]; simpl; split; auto; discriminate. Qed.

Section Handlers.
  Context (E : env) (known : list hid) (Hk : incl all_hids known).

  (** ** C20 *)
  Lemma interpret_done name s sc s' : dget name (scans s) = Some sc -> interpret E known name s = (s', None) ->
    exists sc', dget name (scans s') = Some sc' /\ s_done sc' = true /\ s_lazy sc' = match s_done sc with true => s_lazy sc | false => false end.
  Proof.
    intros Hg H. unfold interpret in H. rewrite Hg in H. destruct (s_done sc) eqn:Ed; [inversion H; subst; eauto|].
    destruct (run_on_scan _ _ _ _) as [[s1 sc1] [e|]]; [discriminate|]. inversion H; subst. exists (with_flags false true sc1).
    cbn [set_scans scans]. rewrite dget_dset_same. auto.
  Qed.
  Lemma interpret_other n name s : n <> name -> dget n (scans (fst (interpret E known name s))) = dget n (scans s).
  Proof.
    intros Hn. unfold interpret. destruct (dget name (scans s)) as [sc|]; [|auto]. destruct (s_done sc); [auto|].
    unfold run_on_scan. destruct (interpret_scan _ _ _ _) as [w [u|e]]; cbn [fst set_scans set_headers scans]; rewrite ?dget_dset_other; auto.
  Qed.
  Lemma interpret_keeps_done n name s sc : dget n (scans s) = Some sc -> s_done sc = true -> dget n (scans (fst (interpret E known name s))) = Some sc.
  Proof.
    intros Hg Hd. destruct (str_eq_dec n name) as [<-|Hn].
    - unfold interpret. rewrite Hg, Hd. exact Hg.
    - rewrite interpret_other; auto.
  Qed.
  Lemma get_attr_keeps_done n nm a name s sc : dget n (scans s) = Some sc -> s_done sc = true -> dget n (scans (fst (get_attr E known nm a name s))) = Some sc.
  Proof.
    intros Hg Hd. unfold get_attr. destruct (dget name (scans s)) as [sc1|]; [|exact Hg].
    destruct (mem nm _ && s_lazy sc1).
    - pose proof (interpret_keeps_done n name s sc Hg Hd) as K. destruct (interpret E known name s) as [s1 [e|]]; [exact K|].
      cbn [fst] in K. destruct (dget name (scans s1)); exact K.
    - destruct (dget name (scans s)); exact Hg.
  Qed.
  Lemma C20_once name s sc s1 s2 : dget name (scans s) = Some sc -> interpret E known name s = (s1, None) -> uses E known s1 s2 ->
    dget name (scans s2) = dget name (scans s1) /\ interpret E known name s2 = (s2, None).
  Proof.
    intros Hg Hi Hu. destruct (interpret_done _ _ _ _ Hg Hi) as (sc' & Hg' & Hd & _).
    assert (K : dget name (scans s2) = Some sc').
    { induction Hu as [s0|n s0 s3 Hu IH|nm a n s0 s3 Hu IH]; auto.
      - apply interpret_keeps_done; auto.
      - apply get_attr_keeps_done; auto. }
    split; [congruence|]. unfold interpret. rewrite K, Hd. reflexivity.
  Qed.
  Lemma C20_lazy s name sc h nm a : dget name (scans s) = Some sc -> s_lazy sc = true -> In nm (attrs_of h) ->
    get_attr E known nm a name s =
      match interpret E known name s with
      | (s', Some e) => (s', Raise e)
      | (s', None) => get_attr E known nm a name s'
      end.
  Proof.
    intros Hg Hz Hn. destruct (interpret E known name s) as [s' [e|]] eqn:Ei.
    - unfold get_attr. rewrite Hg, (lazy_in known Hk _ _ Hn), Hz, Ei. reflexivity.
    - unfold get_attr at 1. rewrite Hg, (lazy_in known Hk _ _ Hn), Hz, Ei. cbn [andb].
      destruct (interpret_done _ _ _ _ Hg Ei) as (sc' & Hg' & Hd & Hl). unfold get_attr.
      rewrite Hg'. destruct (mem nm (lazy_attributes known) && s_lazy sc'); [unfold interpret; rewrite Hg', Hd|]; rewrite ?Hg'; reflexivity.
  Qed.
  (** values read and values found by [interpret] *)
  Lemma C20_read s name sc s' sc' nm h a : first_interpret E known s name sc s' sc' -> In nm (attrs_of h) ->
    get_attr E known nm a name s = (s', of_opt AttributeError (s_obj sc' a)).
  Proof.
    intros (Hh & Hg & Hz & Hi & Hg') Hn. rewrite (C20_lazy _ _ _ _ _ _ Hg Hz Hn), Hi. unfold get_attr. rewrite Hg'.
    destruct (interpret_done _ _ _ _ Hg Hi) as (sc1 & Hg1 & Hd & Hl). rewrite Hg1 in Hg'. injection Hg' as ->.
    destruct (mem nm (lazy_attributes known) && s_lazy sc'); [unfold interpret; rewrite Hg1, Hd|]; rewrite ?Hg1; reflexivity.
  Qed.

  (** ** C22 *)
  Lemma untouched_none file o a : untouched file o -> ~ In a D3 -> scan_init file a = None -> o a = None.
  Proof. intros [H _] Ha Hi. rewrite H; auto. Qed.

  (** a list attribute, made by [ensure], to which each line of one handler appends *)
  Lemma listed (a : attr) (X : Type) (e : option (ty a) -> option (list X)) (f : str -> X) h s name sc s' sc' :
    first_interpret E known s name sc s' sc' ->
    (forall line w w', is_scan w = true -> process E h line w = (w', Ok tt) -> e (me w' a) = Some (orn (e (me w a)) ++ [f line])) ->
    (forall h', h' <> h -> ~ In a (sets h')) -> (forall p, ~ In a (post_sets p)) ->
    (forall o, untouched (fileName s) o -> e (o a) = None) ->
    if_any (e (s_obj sc' a)) (map f (lines_h known (only h) (scan_lines (s_raw sc)))).
  Proof.
    intros Hf H1 H2 H3 H4. apply if_anyb_ok.
    - destruct (first_interpret_ran _ _ _ _ _ _ _ Hf) as (w0 & w1 & w & R).
      destruct (ran_w0 _ _ _ _ _ _ _ _ _ R) as (Hw & Hm & _). rewrite (ran_obj _ _ _ _ _ _ _ _ _ R), (posts_keep _ _ _ _ _ H3 (ran_posts _ _ _ _ _ _ _ _ _ R)).
      assert (P0 : if_anyb (e (me w0 a))) by (rewrite Hm, (H4 _ (ran_fresh _ _ _ _ _ _ _ _ _ R)); left; auto).
      pose proof (ran_lines _ _ _ _ _ _ _ _ _ R) as Hl. revert Hl Hw P0. generalize (scan_lines (s_raw sc)) w0. clear - H1 H2 Hk.
      induction l as [|l ls IH]; intros w0 Hl Hw P0; [inversion Hl; subst; auto|].
      apply iter_bind in Hl. destruct Hl as (w2 & Hl & Hls). rewrite (scan_line_eff E known Hk) in Hl.
      destruct (eff known l) as [h'|]; [|inversion Hl; subst; eauto].
      pose proof (frame_process E h' l w0) as (F1 & [F2 _] & _). rewrite Hl in F1, F2. cbn [fst] in F1, F2.
      apply (IH w2); [exact Hls|congruence|]. destruct (hid_eq_dec h' h) as [->|Hn].
      + rewrite (H1 _ _ _ Hw Hl). right. destruct (orn (e (me w0 a))) as [|x t]; cbn; eauto.
      + rewrite F2; auto.
    - apply (collected E known Hk a (fun o => orn (e o)) f (only h) s name sc s' sc' Hf); auto.
      + intros h' line w w' Hh Hw Hp. apply only_true in Hh. subst h'. rewrite (H1 _ _ _ Hw Hp). reflexivity.
      + intros h' Hh. apply H2. intros ->. assert (only h h = true) by (apply only_true; auto). congruence.
      + intros o Ho. rewrite (H4 _ Ho). reflexivity.
  Qed.

  Ltac others := intros h'; destruct h'; cbn; intros Hn Q; try (apply Hn; reflexivity); decompose [or] Q; try discriminate; auto.
  Ltac noposts := intros p; destruct p; cbn; intros Q; decompose [or] Q; try discriminate; auto.
  Ltac missing a := intros o Ho; refine (untouched_none _ _ a Ho _ _); [cbn; intros Q; decompose [or] Q; try discriminate; auto|reflexivity].

  Lemma C22_lemma s name sc s' sc' ls : first_interpret E known s name sc s' sc' -> lines_of (s_raw sc) ls ->
    exists us, Keeps unknown_line ls us /\ if_any (s_obj sc' A_unrec) us.
  Proof.
    intros Hf Hl. apply lines_of_scan_lines in Hl. subst ls.
    exists (lines_h known (only H_unrec) (scan_lines (s_raw sc))). split.
    - apply lines_h_keeps; [apply scan_lines_no_lf|]. intros l Hl. rewrite of_only. apply eff_unknown; auto.
    - rewrite <- (map_id (lines_h _ _ _)). apply (listed A_unrec str (fun o => o) (fun l => l) H_unrec s name sc s' sc' Hf).
      + intros line w w' _ H. cbn [process] in H. unfold process_unrec in H. mgo H. reflexivity.
      + others.
      + noposts.
      + missing A_unrec.
  Qed.

  (** ** C23 *)
  Lemma control_SP h l : control h l -> In SP l.
  Proof. intros (a & w & rest & -> & _). apply in_or_app; right. apply in_or_app; right. left; auto. Qed.
  Lemma contents h ls cs : Keeps (control h) ls cs -> Forall2 content cs (map strip_first_word cs).
  Proof.
    intros K. apply Keeps_incl in K. destruct K as [_ K]. induction K as [|l cs Hl _ IH]; constructor; auto.
    apply content_strip; auto. eapply control_SP; eauto.
  Qed.
  Lemma strip_strip_first t : strip (strip_first_word t) = strip_first_word t.
  Proof. unfold strip_first_word. apply strip_by_idem. Qed.

  Lemma present a s name sc s' sc' : first_interpret E known s name sc s' sc' -> scan_init (fileName s) a <> None -> s_obj sc' a <> None.
  Proof.
    intros Hf Ha. destruct (first_interpret_ran _ _ _ _ _ _ _ Hf) as (w0 & w1 & w & R).
    pose proof (frame_interpret E known (s_raw sc) w0) as F. unfold interpret_scan, mbind in F.
    rewrite (ran_lines _ _ _ _ _ _ _ _ _ R), (ran_posts _ _ _ _ _ _ _ _ _ R) in F. destruct F as (_ & [_ F] & _). cbn [fst] in F.
    rewrite (ran_obj _ _ _ _ _ _ _ _ _ R). apply F.
    destruct (ran_w0 _ _ _ _ _ _ _ _ _ R) as (_ & -> & _). destruct (ran_fresh _ _ _ _ _ _ _ _ _ R) as [_ Q]. auto.
  Qed.
  Ltac initial := intros o [Ho _]; rewrite Ho; [reflexivity|cbn; intros Q; decompose [or] Q; try discriminate; auto].

  Lemma C23_comments_lemma s name sc s' sc' ls : first_interpret E known s name sc s' sc' -> lines_of (s_raw sc) ls ->
    exists cs ts, Keeps (control H_C) ls cs /\ Forall2 content cs ts /\ s_obj sc' A_comments = Some ts.
  Proof.
    intros Hf Hl. apply lines_of_scan_lines in Hl. subst ls.
    pose proof (keeps_control known Hk H_C (s_raw sc) ltac:(discriminate) ltac:(discriminate)) as K.
    exists (lines_h known (only H_C) (scan_lines (s_raw sc))), (map strip_first_word (lines_h known (only H_C) (scan_lines (s_raw sc)))).
    split; [exact K|]. split; [apply (contents _ _ _ K)|].
    assert (C : orn (s_obj sc' A_comments) = map strip_first_word (lines_h known (only H_C) (scan_lines (s_raw sc)))).
    { apply (collected E known Hk A_comments orn strip_first_word (only H_C) s name sc s' sc' Hf).
      - intros h line w w' Hh Hw H. apply only_true in Hh. subst h. cbn [process] in H. unfold process_C in H. minv H.
        assert (W : me w0 A_comments = Some (v ++ [strip_first_word line])) by (destruct (find _ line) as [[|n]|]; mgo H1; auto).
        rewrite H0. apply whenScan_ok in H. destruct H as [[_ H]|[_ H]]; [mgo H|subst w']; rewrite W; reflexivity.
      - others.
      - noposts.
      - initial. }
    pose proof (present A_comments _ _ _ _ _ Hf ltac:(discriminate)) as Hp.
    destruct (s_obj sc' A_comments) as [c|]; [apply f_equal; exact C|congruence].
  Qed.
  Lemma C23_R_lemma s name sc s' sc' ls : first_interpret E known s name sc s' sc' -> lines_of (s_raw sc) ls ->
    exists cs ts, Keeps (control H_R) ls cs /\ Forall2 content cs ts /\ if_any (s_obj sc' A_R) ts.
  Proof.
    intros Hf Hl. apply lines_of_scan_lines in Hl. subst ls.
    pose proof (keeps_control known Hk H_R (s_raw sc) ltac:(discriminate) ltac:(discriminate)) as K.
    eexists. eexists. split; [exact K|]. split; [apply (contents _ _ _ K)|].
    apply (listed A_R str (fun o => o) strip_first_word H_R s name sc s' sc' Hf).
    - intros line w w' _ H. cbn [process] in H. unfold process_R in H. mgo H. rewrite strip_strip_first. reflexivity.
    - others.
    - noposts.
    - missing A_R.
  Qed.
  Lemma C23_U_lemma s name sc s' sc' ls : first_interpret E known s name sc s' sc' -> lines_of (s_raw sc) ls ->
    exists cs ts, Keeps (control H_U) ls cs /\ Forall2 content cs ts /\ if_any (s_obj sc' A_U) ts.
  Proof.
    intros Hf Hl. apply lines_of_scan_lines in Hl. subst ls.
    pose proof (keeps_control known Hk H_U (s_raw sc) ltac:(discriminate) ltac:(discriminate)) as K.
    eexists. eexists. split; [exact K|]. split; [apply (contents _ _ _ K)|].
    apply (listed A_U str (fun o => o) strip_first_word H_U s name sc s' sc' Hf).
    - intros line w w' _ H. cbn [process] in H. unfold process_U in H. mgo H. rewrite strip_strip_first. reflexivity.
    - others.
    - noposts.
    - missing A_U.
  Qed.
  Lemma C23_data_lines_lemma s name sc s' sc' ls : first_interpret E known s name sc s' sc' -> lines_of (s_raw sc) ls ->
    exists ds, Keeps (fun l => control H_data l \/ control H_atA l) ls ds /\ s_obj sc' A_data_lines = Some ds.
  Proof.
    intros Hf Hl. apply lines_of_scan_lines in Hl. subst ls. set (hs := fun h => only H_data h || only H_atA h).
    exists (lines_h known hs (scan_lines (s_raw sc))). split.
    - apply lines_h_keeps; [apply scan_lines_no_lf|]. intros l Hl. unfold hs. rewrite <- !(eff_control known Hk) by (auto; discriminate).
      unfold of_h. destruct (eff known l) as [h|]; [|split; [discriminate|intros [Q|Q]; discriminate]].
      rewrite orb_true_iff, !only_true. split; intros [Q|Q]; [left|right|left|right]; congruence.
    - assert (C : orn (s_obj sc' A_data_lines) = map (fun l => l) (lines_h known hs (scan_lines (s_raw sc)))).
      { apply (collected E known Hk A_data_lines orn (fun l => l) hs s name sc s' sc' Hf).
        - intros h line w w' Hh Hw H. unfold hs in Hh. rewrite orb_true_iff, !only_true in Hh.
          assert (P : process_data line w = (w', Ok tt)) by (destruct Hh; subst h; exact H). clear H. unfold process_data in P. mgo P. mfin.
        - intros h; destruct h; cbn; intros Hn Q; try discriminate; decompose [or] Q; try discriminate; auto.
        - noposts.
        - initial. }
      rewrite map_id in C. pose proof (present A_data_lines _ _ _ _ _ Hf ltac:(discriminate)) as Hp.
      destruct (s_obj sc' A_data_lines) as [c|]; [apply f_equal; exact C|congruence].
  Qed.
  Lemma C23_P_lemma s name sc s' sc' ls : first_interpret E known s name sc s' sc' -> lines_of (s_raw sc) ls ->
    exists cs rows, Keeps (control H_P) ls cs /\ Forall2 (fun l ws => exists t, content l t /\ fields t ws) cs rows /\ s_obj sc' A_P = Some rows.
  Proof.
    intros Hf Hl. apply lines_of_scan_lines in Hl. subst ls.
    pose proof (keeps_control known Hk H_P (s_raw sc) ltac:(discriminate) ltac:(discriminate)) as K.
    eexists. exists (map (fun l => words (strip_first_word l)) (lines_h known (only H_P) (scan_lines (s_raw sc)))).
    split; [exact K|]. split.
    - pose proof (contents _ _ _ K) as F. clear - F. induction (lines_h known (only H_P) (scan_lines (s_raw sc))) as [|l t IH]; [constructor|].
      cbn [map] in *. inversion F; subst. constructor; auto. eexists. split; [eauto|]. apply fields_words; auto.
    - assert (C : orn (s_obj sc' A_P) = map (fun l => words (strip_first_word l)) (lines_h known (only H_P) (scan_lines (s_raw sc)))).
      { apply (collected E known Hk A_P orn (fun l => words (strip_first_word l)) (only H_P) s name sc s' sc' Hf).
        - intros h line w w' Hh Hw H. apply only_true in Hh. subst h. cbn [process] in H. unfold process_P in H. minv H. rewrite Hw in H. mgo H. mfin.
        - others.
        - noposts.
        - initial. }
      pose proof (present A_P _ _ _ _ _ Hf ltac:(discriminate)) as Hp.
      destruct (s_obj sc' A_P) as [c|]; [apply f_equal; exact C|congruence].
  Qed.

  (** dictionaries filled line by line *)
  Lemma dset_last {V} (kf : str -> str) (vf : str -> V) ls d k :
    dget k (fold_left (fun d l => dset (kf l) (vf l) d) ls d) =
      match List.find (fun l => seqb (kf l) k) (rev ls) with Some l => Some (vf l) | None => dget k d end.
  Proof.
    revert d; induction ls as [|l ls IH]; intros d; [reflexivity|]. cbn [fold_left rev]. rewrite IH.
    assert (Q : forall p (a b : list str), List.find p (a ++ b) = match List.find p a with Some x => Some x | None => List.find p b end).
    { intros p a b. induction a as [|x a IHa]; [reflexivity|]. cbn. destruct (p x); auto. }
    rewrite Q. destruct (List.find _ (rev ls)); [reflexivity|]. cbn. destruct (seqb (kf l) k) eqn:E1.
    - apply seqb_eq in E1. subst k. apply dget_dset_same.
    - apply dget_dset_other. intros Q1. rewrite Q1, seqb_refl in E1. discriminate.
  Qed.
  Lemma find_app {A} p (a b : list A) : List.find p (a ++ b) = match List.find p a with Some x => Some x | None => List.find p b end.
  Proof. induction a as [|x a IHa]; [reflexivity|]. cbn. destruct (p x); auto. Qed.
  Lemma find_rev {A} (p : A -> bool) ls l : List.find p (rev ls) = Some l <-> exists pre post, ls = pre ++ l :: post /\ p l = true /\ Forall (fun x => p x = false) post.
  Proof.
    split.
    - induction ls as [|x ls IH] using rev_ind; [discriminate|]. rewrite rev_unit. cbn. destruct (p x) eqn:Ex.
      + intros Q. injection Q as <-. exists ls, []. auto.
      + intros Q. destruct (IH Q) as (pre & post & -> & Hp & Hf). exists pre, (post ++ [x]). rewrite <- app_assoc. split; auto. split; auto.
        apply Forall_app; auto.
    - intros (pre & post & -> & Hp & Hf). rewrite rev_app_distr. cbn [rev]. rewrite !find_app.
      assert (N : List.find p (rev post) = None).
      { destruct (List.find p (rev post)) as [x|] eqn:Ef; auto. apply find_some in Ef. destruct Ef as [Hi Hx]. apply in_rev in Hi.
        rewrite Forall_forall in Hf. rewrite (Hf _ Hi) in Hx. discriminate. }
      rewrite N. cbn. rewrite Hp. reflexivity.
  Qed.
  Lemma find_last {V} (key : str -> str -> Prop) (kf : str -> str) (vf : str -> V) ls k v :
    (forall l k, In l ls -> (key l k <-> kf l = k)) ->
    (dget k (fold_left (fun d l => dset (kf l) (vf l) d) ls []) = Some v <-> exists l, last_with key k ls l /\ v = vf l).
  Proof.
    intros H. rewrite dset_last. split.
    - destruct (List.find _ (rev ls)) as [l|] eqn:Ef; [|discriminate]. intros Q. injection Q as <-. exists l. split; auto.
      apply find_rev in Ef. destruct Ef as (pre & post & -> & Hp & Hf). exists pre, post. split; auto. apply seqb_eq in Hp.
      split; [apply H; auto; apply in_elt|]. rewrite Forall_forall in *. intros x Hx Q. apply H in Q; [|apply in_or_app; right; right; auto].
      specialize (Hf _ Hx). rewrite Q, seqb_refl in Hf. discriminate.
    - intros (l & (pre & post & -> & Hp & Hf) & ->). assert (Ef : List.find (fun l => seqb (kf l) k) (rev (pre ++ l :: post)) = Some l).
      { apply find_rev. exists pre, post. split; auto. split; [apply seqb_eq; apply H; auto; apply in_elt|]. rewrite Forall_forall in *.
        intros x Hx. destruct (seqb (kf x) k) eqn:Ek; auto. apply seqb_eq in Ek. exfalso. apply (Hf _ Hx). apply H; auto. apply in_or_app; right; right; auto. }
      rewrite Ef. reflexivity.
  Qed.

  (** the first word of a numbered control line *)
  Lemma numbered_word h p l : (forall w, belongs h w -> exists t, w = L p ++ t /\ Forall (fun c => is_space c = false) t) ->
    Forall (fun c => is_space c = false) (L p) -> control h l -> exists t ws, words l = (L p ++ t) :: ws.
  Proof.
    intros Hb Hp (a & w & rest & -> & Ha & Hw & (c & t0 & -> & Hc) & Hbw). destruct (Hb _ Hbw) as (t & Et & Ht). rewrite Et.
    exists t. eexists. rewrite words_space_app by (apply blank_forallb; auto). apply words_word_space.
    - rewrite <- Et. discriminate.
    - apply nospace_Forall. apply Forall_app; auto.
    - reflexivity.
  Qed.
  Definition hash_key (l : str) : str := match words l with w :: _ => lstrip_by (is_c 35%N) w | [] => [] end.
  Lemma dec_not_space c : is_dec c = true -> is_space c = false.
  Proof. intros H. destruct (is_space c) eqn:Q; auto. apply TimeFacts.space_not_dec in Q. congruence. Qed.
  Lemma C23_G_lemma s name sc s' sc' ls : first_interpret E known s name sc s' sc' -> lines_of (s_raw sc) ls ->
    exists gs G, Keeps (control H_G) ls gs /\ s_obj sc' A_G = Some G /\ NoDup (keys G) /\
      forall k v, dget k G = Some v <-> exists l, last_with (fun l k => first_word_is l (L "#" ++ k)) k gs l /\ content l v.
  Proof.
    intros Hf Hl. apply lines_of_scan_lines in Hl. subst ls.
    pose proof (keeps_control known Hk H_G (s_raw sc) ltac:(discriminate) ltac:(discriminate)) as K.
    exists (lines_h known (only H_G) (scan_lines (s_raw sc))).
    set (gs := lines_h known (only H_G) (scan_lines (s_raw sc))) in *.
    assert (C : (match s_obj sc' A_G with Some d => d | None => [] end) = fold_left (fun d l => dset (hash_key l) (strip_first_word l) d) gs []).
    { destruct (first_interpret_ran _ _ _ _ _ _ _ Hf) as (w0 & w1 & w & R).
      destruct (ran_w0 _ _ _ _ _ _ _ _ _ R) as (Hw & Hm & _). rewrite (ran_obj _ _ _ _ _ _ _ _ _ R), (posts_keep E A_G w1 w (Ok tt)) by (auto using (ran_posts _ _ _ _ _ _ _ _ _ R); noposts).
      rewrite (collect_attr E known Hk A_G (fun o => match o with Some d => d | None => [] end) (fun l d => dset (hash_key l) (strip_first_word l) d) (only H_G)) with (w := w0) (lines := scan_lines (s_raw sc)); auto using (ran_lines _ _ _ _ _ _ _ _ _ R).
      - rewrite Hm. destruct (ran_fresh _ _ _ _ _ _ _ _ _ R) as [Q _]. rewrite Q; [reflexivity|]. cbn; intros Q'; decompose [or] Q'; try discriminate; auto.
      - intros h line w2 w3 Hh Hw2 H. apply only_true in Hh. subst h. cbn [process] in H. unfold process_G, first_word in H. mgo H. mfin.
        unfold hash_key. destruct (words line) as [|wd wds]; [discriminate|]. match goal with Q : index 0 _ = Ok _ |- _ => cbn in Q; injection Q as Q; rewrite Q end. reflexivity.
      - intros h Hh. assert (Hn : h <> H_G) by (intros ->; discriminate). revert Hn. generalize h. others. }
    exists (fold_left (fun d l => dset (hash_key l) (strip_first_word l) d) gs []). split; [exact K|]. split.
    { pose proof (present A_G _ _ _ _ _ Hf ltac:(discriminate)) as Hp. destruct (s_obj sc' A_G) as [c|]; [apply f_equal; exact C|congruence]. }
    assert (Kc := proj2 (Keeps_incl _ _ _ K)). rewrite Forall_forall in Kc. split.
    { assert (N : forall ls d, NoDup (keys d) -> NoDup (keys (fold_left (fun d l => dset (hash_key l) (strip_first_word l) d) ls d))).
      { induction ls as [|l ls IH]; intros d Hd; [exact Hd|]. cbn [fold_left]. apply IH. apply NoDup_dset; auto. }
      apply N. constructor. }
    intros k v. rewrite (find_last (fun l k => first_word_is l (L "#" ++ k)) hash_key strip_first_word).
    - split; intros (l & Hlast & Hv); exists l; split; auto; destruct Hlast as (pre & post & Eg & _ & _);
        assert (Hin : In l gs) by (rewrite Eg; apply in_elt); apply (content_strip l v) in Hv || (apply content_strip; [|auto]); auto;
        eapply control_SP; apply Kc; auto.
    - intros l k' Hin. destruct (numbered_word H_G "#G" l) as (t & ws & Hws); [| |apply Kc; auto|].
      + intros w [(ds & -> & _ & Hd)|Q]; [exists ds; split; auto; eapply Forall_impl; [|exact Hd]; intros c; apply dec_not_space|subst w].
        exists (L "\d+"). split; [reflexivity|]. repeat constructor.
      + repeat constructor.
      + rewrite first_word_words. unfold hash_key. rewrite Hws. split.
        * intros [ws' Q]. apply (f_equal (fun l => tl (hd [] l))) in Q. cbn in Q. rewrite <- Q. reflexivity.
        * intros <-. exists ws. reflexivity.
  Qed.
End Handlers.
