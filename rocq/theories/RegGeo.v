(** The writer of the diffractometer is registered for every scan that has one *)
From Coq Require Import String.
From Verif Require Import Py PyFacts Utils Scanf Keys KeyFacts Geom Handlers Reader MonadFacts FrameFacts StateFacts SpecKeys SpecHistory HistInv RegFacts RegAll RegAll2 RegAll3
  SpecText SpecInterp InterpFacts H5 Writer KeepFacts SpecWriter WriterFacts SaveFacts.
Import ListNotations.
Local Open Scope list_scope.

(** the postprocessor is there only after a line of the geometry *)
Definition GEO : str := L "diffractometer geometry".
Definition GI (o : obj) : Prop := (posted PP_geo o -> exists g, o A_G = Some g /\ g <> []) /\ exists d, o A_h5 = Some d /\ forall v, dget GEO d = Some v -> v = H_G.
Definition GR (o : obj) : Prop := exists d, o A_h5 = Some d /\ dget GEO d = Some H_G.
Definition gz {A} (m : M A) : Prop := forall w, (GI (me w) -> GI (me (fst (m w)))) /\ (GR (me w) -> GR (me (fst (m w)))).
Lemma gz_same {A} (m : M A) : (forall w, me (fst (m w)) A_G = me w A_G /\ me (fst (m w)) A_posts = me w A_posts /\ me (fst (m w)) A_h5 = me w A_h5) -> gz m.
Proof. intros H w. destruct (H w) as (H1 & H2 & H3). unfold GI, GR, posted. rewrite H1, H2, H3. auto. Qed.
Lemma gz_ret {A} (x : A) : gz (ret x). Proof. apply gz_same; auto. Qed.
Lemma gz_raise {A} e : gz (@raise A e). Proof. apply gz_same; auto. Qed.
Lemma gz_lift {A} (r : res A) : gz (lift r). Proof. apply gz_same; auto. Qed.
Lemma gz_getA a : gz (getA a). Proof. apply gz_same; auto. Qed.
Lemma gz_hasA a : gz (hasA a). Proof. apply gz_same; auto. Qed.
Lemma gz_getP a : gz (getP a). Proof. apply gz_same; auto. Qed.
Lemma gz_ask : gz askScan. Proof. apply gz_same; auto. Qed.
Lemma gz_setA a v : a <> A_G -> a <> A_posts -> a <> A_h5 -> gz (setA a v).
Proof. intros H1 H2 H3. apply gz_same. intros w. unfold setA. cbn [fst me]. rewrite !upd_other by auto. auto. Qed.
Lemma gz_setP a v : gz (setP a v).
Proof. apply gz_same. intros w. unfold setP. destruct (peer w); [destruct (is_scan w)|]; repeat split; reflexivity. Qed.
Lemma gz_bind {A B} (m : M A) (k : A -> M B) : gz m -> (forall a, gz (k a)) -> gz (mbind m k).
Proof.
  intros H1 H2 w. unfold mbind. specialize (H1 w). destruct (m w) as [w1 [a|e]]; cbn [fst] in *; [|auto].
  destruct H1 as [A1 A2]. destruct (H2 a w1) as [B1 B2]. auto.
Qed.
Lemma gz_iterM {A} (f : A -> M unit) l : (forall x, gz (f x)) -> gz (iterM f l).
Proof. intros H. induction l; cbn [iterM]; [apply gz_ret|apply gz_bind; auto]. Qed.
Lemma gz_ensure a i : a <> A_G -> a <> A_posts -> a <> A_h5 -> gz (ensure a i).
Proof. intros H1 H2 H3. apply gz_bind; [apply gz_hasA|]. intros []; [apply gz_ret|apply gz_setA; auto]. Qed.
Lemma gz_addH5 l h : l <> GEO \/ h = H_G -> gz (addH5 l h).
Proof.
  intros Hl w. unfold addH5, mbind, getA. destruct (me w A_h5) as [d|] eqn:Ed; cbn [fst]; [|auto].
  unfold setA. cbn [fst me]. unfold GI, GR, posted. rewrite !upd_same, !upd_other by discriminate. rewrite Ed. split.
  - intros [H (d' & Eq & H')]. split; [exact H|]. injection Eq; intros <-. eexists. split; [reflexivity|]. intros v. rewrite dget_dadd. destruct (dget GEO d) as [x|] eqn:D.
    + intros X. injection X; intros <-. auto.
    + destruct (seqb GEO l) eqn:Es; [|discriminate]. apply seqb_eq in Es. intros X. injection X; intros <-. destruct Hl as [Hl|Hl]; congruence.
  - intros (d' & Eq & D). injection Eq; intros <-. eexists. split; [reflexivity|]. rewrite dget_dadd, D. reflexivity.
Qed.
Lemma gz_addPost l f : f <> PP_geo -> gz (addPost l f).
Proof.
  intros N w. unfold addPost, mbind, getA. destruct (me w A_posts) as [d|] eqn:Ed; cbn [fst]; [|auto].
  unfold setA. cbn [fst me]. unfold GI, GR, posted. rewrite upd_same, !upd_other by discriminate. split; [|auto]. intros [H H']. split; [|exact H'].
  intros (d' & Eq & D). apply H.
  exists d. split; [exact Ed|]. injection Eq; intros <-. unfold dadd in D. destruct (has (L l) d); [exact D|].
  unfold values in *. rewrite map_app in D. apply in_app_iff in D. destruct D as [D|[D|[]]]; [exact D|cbn in D; congruence].
Qed.
Lemma gz_whenScan m : gz m -> gz (whenScan m).
Proof. intros H. apply gz_bind; [apply gz_ask|]. intros []; auto. apply gz_ret. Qed.
Lemma gz_whenHeader m : gz m -> gz (whenHeader m).
Proof. intros H. apply gz_bind; [apply gz_ask|]. intros []; auto. apply gz_ret. Qed.
Ltac gzo := repeat first
  [ apply gz_ret | apply gz_raise | apply gz_lift | apply gz_getA | apply gz_hasA | apply gz_getP | apply gz_ask
  | apply gz_setA; discriminate | apply gz_setP | apply gz_ensure; discriminate | apply gz_addPost; discriminate | apply gz_addH5; first [left; apply seqb_neq; reflexivity | right; reflexivity]
  | apply gz_whenScan | apply gz_whenHeader | apply gz_iterM; intros
  | apply gz_bind; [|intros]
  | match goal with |- gz (match ?x with _ => _ end) => destruct x end
  | match goal with |- gz (let '(_, _) := ?x in _) => destruct x end ].
Lemma dset_ne {V} k (v : V) d : dset k v d <> [].
Proof. destruct d as [|[k' v'] d]; cbn; [discriminate|]. destruct (seqb k k'); discriminate. Qed.
Lemma gz_G text : gz (process_G text).
Proof.
  apply gz_bind; [apply gz_lift|]. intros k w. unfold mbind at 1 3. unfold getA. destruct (me w A_G) as [g|] eqn:Eg; [|auto]. unfold mbind. unfold setA. cbv iota beta.
  match goal with |- (_ -> GI (me (fst (addPost ?l ?p ?w1)))) /\ _ => assert (X : me (fst (addPost l p w1)) A_G = me w1 A_G /\ me (fst (addPost l p w1)) A_h5 = me w1 A_h5) end.
  { unfold addPost, mbind, getA. cbn [me]. rewrite upd_other by discriminate. destruct (me w A_posts); [|auto]. unfold setA. cbn [fst me]. rewrite !(upd_other A_posts) by discriminate. auto. }
  destruct X as [X Y]. unfold GI, GR. rewrite X, Y. cbn [me]. rewrite upd_same, upd_other by discriminate. split; [|auto].
  intros [_ H]. split; [|exact H]. intros _. eexists. split; [reflexivity|]. apply dset_ne.
Qed.
Lemma gz_X fmts text : gz (process_X_fmts fmts text).
Proof.
  induction fmts as [|f fmts IH]; cbn [process_X_fmts]; [apply gz_ret|].
  apply gz_bind; [apply gz_lift|]. intros [[|[a|a|a] [|[b|b|b] [|]]]|]; try apply gz_raise; auto.
  repeat (apply gz_bind; [apply gz_setA; discriminate|intros]). apply gz_addH5. left. apply seqb_neq; reflexivity.
Qed.
Lemma gz_process E h text : gz (process E h text).
Proof.
  destruct h; cbn [process]; try apply gz_G; try apply gz_X;
  unfold process_F, process_D, check_ts, process_C, process_I, process_J, process_j, process_L, process_M, process_T, process_N, process_O, process_o,
      process_P, process_Q, process_R, process_U, process_data, process_CALIB, process_CHANN, process_CTIME, process_ROI,
      process_VA, process_VD, process_VE, process_XPCS, process_CCD, process_MD, process_unrec, process_UIM, process_H, process_V, process_UXML, value_name; try (gzo; fail).
Qed.
Lemma gz_post E p : gz (run_post E p).
Proof.
  destruct p; cbn [run_post];
  unfold post_geo, post_counter, post_posx, post_motor, motor_row, motor_cell, add_icomment, post_data, post_unicat, unicat_row, unicat_cell, post_uxml; gzo.
Qed.

Section Geo.
  Context (E : env) (known : list hid) (Hk : incl all_hids known).
  Lemma reg_G s0 s versions ks s' f r n sc v : history E known s0 -> saves E known s0 s -> save E known versions ks s = (s', f, r) ->
    dget n (scans s') = Some sc -> s_done sc = true -> s_obj sc A_diffractometer = Some v -> registered H_G sc.
  Proof.
    intros Hh Hs H Hd D Hv. assert (X : GR (s_obj sc)).
    2:{ destruct X as (d & A & B). exists d. split; [exact A|]. apply dget_In in B. apply (in_map snd) in B. exact B. }
    refine (post_reg E known Hk A_diffractometer PP_geo GR (fun v => True) _ _ _ ltac:(intros h'; destruct h'; cbn; intuition discriminate) ltac:(intros p Np; destruct p; first [congruence|cbn; intuition discriminate])
      GI _ _ _ _ _ _ _ s0 s versions ks s' f r n sc v Hh Hs H Hd D Hv I).
    - intros h' text w. apply gz_process.
    - intros p w. apply gz_post.
    - intros M o o' S (d & A & B). exists d. split; [|exact B]. rewrite <- A. apply S. apply may_not; discriminate.
    - intros file. split; [|exists []; split; [reflexivity|discriminate]]. intros (d & A & B). cbn in A. injection A; intros <-. destruct B.
    - intros h' text w. apply gz_process.
    - intros p w. apply gz_post.
    - intros M o o' S [Ho (d & A & B)]. assert (Eq : o' A_posts = o A_posts) by (apply S; apply may_not; discriminate). assert (Eg : o' A_G = o A_G) by (apply S; apply may_not; discriminate).
      assert (Eh : o' A_h5 = o A_h5) by (apply S; apply may_not; discriminate). unfold GI, posted. rewrite Eg, Eq, Eh. split; [exact Ho|]. exists d. auto.
    - intros w w' u Lk [Z (d & Z1 & Z2)] P H1 v0 _ _. destruct (Z P) as (g & G1 & G2). cbn [run_post] in H1. unfold post_geo in H1. unfold mbind at 1 in H1. unfold getA at 1 in H1. rewrite G1 in H1.
      destruct g as [|c g]; [destruct (G2 eq_refl)|]. unfold mbind at 1 in H1.
      assert (R : GR (me (fst (addH5 GEO H_G w)))).
      { unfold addH5, mbind, getA. rewrite Z1. unfold setA. cbn [fst me]. exists (dadd GEO H_G d). rewrite upd_same. split; [reflexivity|]. rewrite dget_dadd.
        destruct (dget GEO d) as [x|] eqn:Dg; [rewrite (Z2 x); auto|rewrite seqb_refl; reflexivity]. }
      fold GEO in H1. destruct (addH5 GEO H_G w) as [w1 [u1|e]]; [|discriminate H1]. cbn [fst] in R.
      match type of H1 with ?m w1 = _ => assert (X : gz m) end.
      { apply gz_bind; [gzo|intros]. apply gz_bind; [gzo|intros]. intros w2. match goal with |- context [mbind ?m ?k w2] => assert (Y : gz (mbind m k)) by gzo; exact (Y w2) end. }
      destruct (X w1) as [_ X2]; rewrite H1 in X2. apply X2. exact R.
    - intros file v0 X. cbn in X. discriminate X.
    - repeat split; discriminate.
  Qed.
End Geo.
