(** Which post-processors run for a scan. *)
From Coq Require Import String Lia.
From Verif Require Import Uni Py PyFacts Keys Handlers Reader SpecText SpecReader SpecHistory SpecKeys SpecInterp
  KeyFacts DispatchFacts FrameFacts StateFacts InterpFacts MonadFacts.
Import ListNotations.
Local Open Scope list_scope.

Definition label_of (p : pp) : str :=
  L (match p with
     | PP_geo => "diffractometer geometry" | PP_counter _ => "counter cross-referencing" | PP_posx => "positioner cross-referencing"
     | PP_motor => "motor_positions" | PP_data => "scan_data" | PP_unicat => "unicat_metadata" | PP_uxml => "UXML_metadata" end)%string.
Definition post_of (h : hid) : option pp :=
  match h with
  | H_G => Some PP_geo | H_J => Some (PP_counter H_J) | H_j => Some (PP_counter H_j) | H_o => Some PP_posx | H_P => Some PP_motor
  | H_data | H_atA => Some PP_data | H_V => Some PP_unicat | H_UXML => Some PP_uxml | _ => None
  end.
Definition posts_ok (d : dict pp) : Prop := NoDup (keys d) /\ Forall (fun kv => fst kv = label_of (snd kv)) d.
Definition add_post (h : hid) (d : dict pp) : dict pp := match post_of h with Some p => dadd (label_of p) p d | None => d end.
Definition posts (w : world) : dict pp := match me w A_posts with Some d => d | None => [] end.

Lemma posts_ok_add h d : posts_ok d -> posts_ok (add_post h d).
Proof.
  intros [H1 H2]. unfold add_post. destruct (post_of h) as [p|]; [|split; auto]. unfold dadd. destruct (has (label_of p) d) eqn:E; [split; auto|].
  split.
  - rewrite keys_app. cbn. apply NoDup_snoc; auto. intros Q. apply has_In in Q. congruence.
  - apply Forall_app; split; auto.
Qed.
Lemma same_label p q : label_of p = label_of q -> p = q \/ (exists a b, p = PP_counter a /\ q = PP_counter b).
Proof. destruct p, q; intros H; try discriminate H; auto. right; eauto. Qed.

Section Posts.
  Context (E : env) (known : list hid) (Hk : incl all_hids known).

  Lemma process_posts h line w w' : is_scan w = true -> process E h line w = (w', Ok tt) -> posts w' = add_post h (posts w).
  Proof.
    intros Hw H. destruct (post_of h) as [p|] eqn:Ep.
    - unfold add_post. rewrite Ep. destruct h; try discriminate Ep; injection Ep as <-; cbn [process] in H; unfold posts.
      + unfold process_G in H. mgo H. mfin.
      + unfold process_J in H. mgo H. mfin.
      + unfold process_j in H. mgo H. mfin.
      + unfold process_o in H. mgo H. mfin.
      + unfold process_P in H. minv H. rewrite Hw in H. mgo H. mfin.
      + unfold process_data in H. mgo H. mfin.
      + unfold process_data in H. mgo H. mfin.
      + unfold process_V in H. mgo H. mfin.
      + unfold process_UXML in H. mgo H. mfin.
    - unfold add_post. rewrite Ep. pose proof (frame_process E h line w) as (_ & [F _] & _). rewrite H in F. cbn [fst] in F.
      unfold posts. rewrite F; [reflexivity|]. destruct h; try discriminate Ep; cbn; intros Q; decompose [or] Q; try discriminate; auto.
  Qed.
  Lemma posts_after lines w w' : is_scan w = true -> iterM (scan_line E known) lines w = (w', Ok tt) ->
    posts w' = folded known (fun h _ d => add_post h d) lines (posts w).
  Proof. intros Hw H. apply (collect E known Hk posts (fun h _ d => add_post h d)) in H; auto; [tauto|]. intros. apply process_posts with (line := line); auto. Qed.

  Lemma folded_ok lines d : posts_ok d -> posts_ok (folded known (fun h _ d => add_post h d) lines d).
  Proof.
    unfold folded. revert d; induction lines as [|l ls IH]; intros d Hd; [exact Hd|]. cbn [fold_left]. apply IH.
    destruct (eff known l); auto. apply posts_ok_add; auto.
  Qed.
  Lemma add_post_has h d k : has k (add_post h d) = true <-> has k d = true \/ exists p, post_of h = Some p /\ k = label_of p.
  Proof.
    unfold add_post. destruct (post_of h) as [p|].
    - unfold dadd. destruct (has (label_of p) d) eqn:Eh.
      + split; [auto|]. intros [H|(q & Q & ->)]; auto. congruence.
      + rewrite !has_In, keys_app, in_app_iff. cbn. split; intros [H|H]; auto; [|destruct H as (q & Q & ->); injection Q as <-; auto].
        destruct H as [<-|[]]. right. eauto.
    - split; auto. intros [H|(p & Q & _)]; [auto|discriminate].
  Qed.
  Lemma folded_has lines d k : has k (folded known (fun h _ d => add_post h d) lines d) = true <->
    has k d = true \/ exists l h p, In l lines /\ eff known l = Some h /\ post_of h = Some p /\ k = label_of p.
  Proof.
    unfold folded. revert d; induction lines as [|l ls IH]; intros d; cbn [fold_left].
    - split; auto. intros [H|(l & h & p & [] & _)]; auto.
    - rewrite IH. destruct (eff known l) as [h|] eqn:El.
      + rewrite add_post_has. split.
        * intros [[H|(p & Q1 & Q2)]|(l' & h' & p & H1 & H2)]; [auto|right; exists l, h, p; simpl; auto|right; exists l', h', p; simpl; tauto].
        * intros [H|(l' & h' & p & [<-|H1] & H2 & H3 & H4)]; [auto| |right; exists l', h', p; auto]. left; right. exists p. split; congruence.
      + split.
        * intros [H|(l' & h' & p & H1 & H2)]; [auto|right; exists l', h', p; simpl; tauto].
        * intros [H|(l' & h' & p & [<-|H1] & H2 & H3)]; [auto|congruence|right; exists l', h', p; auto].
  Qed.

  (** the post-processors other than [p] *)
  Lemma iter_app {A} (f : A -> M unit) a b w w' : iterM f (a ++ b) w = (w', Ok tt) -> exists w1, iterM f a w = (w1, Ok tt) /\ iterM f b w1 = (w', Ok tt).
  Proof.
    revert w; induction a as [|x a IH]; intros w H; [exists w; split; [reflexivity|exact H]|]. cbn [app] in H.
    apply iter_bind in H. destruct H as (w1 & H1 & H2). destruct (IH _ H2) as (w2 & H3 & H4). exists w2. split; auto.
    cbn [iterM]. unfold mbind. rewrite H1. exact H3.
  Qed.
  Lemma iter_posts_frame (S : list attr) ps w w' : (forall q, In q ps -> forall a, In a S -> ~ In a (post_sets q)) -> iterM (run_post E) ps w = (w', Ok tt) ->
    is_scan w' = is_scan w /\ (forall a, In a S -> me w' a = me w a) /\ peer_step [] (peer w) (peer w').
  Proof.
    revert w; induction ps as [|q ps IH]; intros w HS H; [inversion H; subst; repeat split; auto; apply peer_step_refl|].
    apply iter_bind in H. destruct H as (w1 & H1 & H2). pose proof (frame_post E q w) as (F1 & [F2 _] & F3). rewrite H1 in F1, F2, F3. cbn [fst] in *.
    destruct (IH w1) as (I1 & I2 & I3); auto; [intros; apply HS; auto; right; auto|].
    split; [congruence|]. split; [|eapply peer_step_trans; eauto]. intros a Ha. rewrite I2 by auto. apply F2. apply HS; auto. left; auto.
  Qed.
  Lemma posts_run (S : list attr) p w1 w : (forall q, label_of q <> label_of p -> forall a, In a S -> ~ In a (post_sets q)) ->
    run_posts E w1 = (w, Ok tt) -> posts_ok (posts w1) -> In p (values (posts w1)) ->
    exists wa wb, run_post E p wa = (wb, Ok tt) /\ is_scan wa = is_scan w1 /\ (forall a, In a S -> me wa a = me w1 a) /\ peer_step [] (peer w1) (peer wa) /\
      (forall a, In a S -> me w a = me wb a) /\ peer_step [] (peer wb) (peer w).
  Proof.
    intros HS H [Hn Hl] Hin. unfold run_posts in H. apply mbind_ok in H. destruct H as (w2 & d & H1 & H2). apply getA_ok in H1. destruct H1 as [-> H1].
    unfold posts in *. rewrite H1 in *. unfold values in *. apply in_map_iff in Hin. destruct Hin as ([k q] & Hq & Hin). cbn in Hq. subst q.
    apply in_split in Hin. destruct Hin as (d1 & d2 & ->). rewrite map_app in H2. cbn [map snd] in H2.
    apply iter_app in H2. destruct H2 as (wa & Ha & H2). apply iter_bind in H2. destruct H2 as (wb & Hb & Hc).
    assert (Hk0 : k = label_of p) by (rewrite Forall_forall in Hl; apply (Hl (k, p)); apply in_elt). subst k.
    assert (D : forall q, In q (map snd d1) \/ In q (map snd d2) -> label_of q <> label_of p).
    { intros q Q E1. rewrite keys_app in Hn. cbn in Hn. apply NoDup_remove_2 in Hn. apply Hn. apply in_or_app.
      rewrite Forall_forall in Hl. destruct Q as [Q|Q]; [left|right]; apply in_map_iff in Q; destruct Q as ([k q'] & <- & Q); cbn in *;
        (apply in_map_iff; exists (k, q'); split; [|exact Q]); cbn; rewrite <- E1;
        apply (Hl (k, q')); apply in_or_app; simpl; auto. }
    exists wa, wb. destruct (iter_posts_frame S _ _ _ (fun q Q => HS q (D q (or_introl Q))) Ha) as (A1 & A2 & A3).
    destruct (iter_posts_frame S _ _ _ (fun q Q => HS q (D q (or_intror Q))) Hc) as (C1 & C2 & C3). repeat split; auto.
  Qed.
  Lemma posts_values p d : posts_ok d -> (forall h, p <> PP_counter h) -> has (label_of p) d = true -> In p (values d).
  Proof.
    intros [_ Hl] Hc Hh. unfold has in Hh. destruct (dget (label_of p) d) as [q|] eqn:Eg; [|discriminate]. apply ReaderFacts4.dget_In in Eg.
    rewrite Forall_forall in Hl. pose proof (Hl _ Eg) as Q. cbn in Q. apply same_label in Q. destruct Q as [->|(a & b & -> & _)]; [|exfalso; eapply Hc; eauto].
    unfold values. apply in_map_iff. exists (label_of q, q). auto.
  Qed.

  (** in an interpretation: post-processor [p] runs once if a line asks for it *)
  Lemma ran_post (S : list attr) s sc s' sc' w0 w1 w h p : ran E known s sc s' sc' w0 w1 w ->
    (forall q, label_of q <> label_of p -> forall a, In a S -> ~ In a (post_sets q)) -> post_of h = Some p -> (forall h', p <> PP_counter h') ->
    (exists l, In l (scan_lines (s_raw sc)) /\ eff known l = Some h) ->
    exists wa wb, run_post E p wa = (wb, Ok tt) /\ is_scan wa = true /\ (forall a, In a S -> me wa a = me w1 a) /\ peer_step [] (peer w1) (peer wa) /\
      (forall a, In a S -> me w a = me wb a) /\ peer_step [] (peer wb) (peer w).
  Proof.
    intros R HS Hp Hc (l & Hl & He). destruct (ran_w0 _ _ _ _ _ _ _ _ _ R) as (Hw & Hm & _).
    pose proof (posts_after _ _ _ Hw (ran_lines _ _ _ _ _ _ _ _ _ R)) as P.
    assert (P0 : posts w0 = []).
    { unfold posts. rewrite Hm. destruct (ran_fresh _ _ _ _ _ _ _ _ _ R) as [Q _]. rewrite Q; [reflexivity|]. cbn; intros Q'; decompose [or] Q'; try discriminate; auto. }
    rewrite P0 in P. assert (Pok : posts_ok (posts w1)) by (rewrite P; apply folded_ok; split; constructor).
    assert (Hin : In p (values (posts w1))).
    { apply posts_values; auto. rewrite P. apply folded_has. right. exists l, h, p. auto. }
    destruct (posts_run S p w1 w HS (ran_posts _ _ _ _ _ _ _ _ _ R) Pok Hin) as (wa & wb & Q1 & Q2 & Q3).
    exists wa, wb. split; auto. split; [|exact Q3]. rewrite Q2.
    pose proof (collect E known Hk (fun _ => tt) (fun _ _ x => x)) as C. destruct (C ltac:(auto) _ _ _ Hw (ran_lines _ _ _ _ _ _ _ _ _ R)); auto.
  Qed.
  (** and not at all if none does *)
  Lemma ran_no_post (a : attr) s sc s' sc' w0 w1 w : ran E known s sc s' sc' w0 w1 w ->
    (forall l h p, In l (scan_lines (s_raw sc)) -> eff known l = Some h -> post_of h = Some p -> ~ In a (post_sets p)) -> me w a = me w1 a.
  Proof.
    intros R HS. destruct (ran_w0 _ _ _ _ _ _ _ _ _ R) as (Hw & Hm & _).
    pose proof (posts_after _ _ _ Hw (ran_lines _ _ _ _ _ _ _ _ _ R)) as P.
    assert (P0 : posts w0 = []).
    { unfold posts. rewrite Hm. destruct (ran_fresh _ _ _ _ _ _ _ _ _ R) as [Q _]. rewrite Q; [reflexivity|]. cbn; intros Q'; decompose [or] Q'; try discriminate; auto. }
    rewrite P0 in P. assert (Pok : posts_ok (posts w1)) by (rewrite P; apply folded_ok; split; constructor).
    pose proof (ran_posts _ _ _ _ _ _ _ _ _ R) as H. unfold run_posts in H. apply mbind_ok in H. destruct H as (w2 & d & H1 & H2). apply getA_ok in H1. destruct H1 as [-> H1].
    refine (proj1 (proj2 (iter_posts_frame [a] (values d) w1 w _ H2)) a _); [|left; auto].
    intros q Hq b [<-|[]]. assert (Ed : d = posts w1) by (unfold posts; rewrite H1; auto).
    unfold values in Hq. apply in_map_iff in Hq. destruct Hq as ([k q'] & <- & Hin). cbn.
    destruct Pok as [Pn Pl]. assert (Hk0 : has k (posts w1) = true) by (apply has_In; rewrite <- Ed; apply in_map_iff; exists (k, q'); auto).
    assert (Ek : k = label_of q') by (rewrite Forall_forall in Pl; apply (Pl (k, q')); rewrite <- Ed; auto).
    rewrite P in Hk0. apply folded_has in Hk0. destruct Hk0 as [Q|(l & h & p & L1 & L2 & L3 & L4)]; [discriminate|].
    specialize (HS l h p L1 L2 L3). rewrite Ek in L4. apply same_label in L4. destruct L4 as [->|(x & y & -> & ->)]; auto.
  Qed.
End Posts.
