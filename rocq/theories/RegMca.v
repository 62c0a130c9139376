(** The writers of the MCA group are registered when the scan has the values they write *)
From Coq Require Import String Lia.
From Verif Require Import Py PyFacts Utils Keys Handlers Reader SpecHistory SpecInterp SpecWriter NamesFacts Writer FrameFacts StateFacts RegAll RegAll2 RegAll3 KeepFacts H5 SpecH5 SaveFacts McaWrite.
Import ListNotations.
Local Open Scope list_scope.

(** the keys that a handler sets in the dictionary *)
Definition hkeys (h : hid) : list str :=
  match h with H_CALIB => [L "CALIB"] | H_CHANN => chann_keys | H_CTIME => ctime_keys | H_ROI => [L "ROI"] | _ => [] end.
Definition mcad (o : obj) (k : str) : option mcaval := match o A_MCA with Some m => dget k m | None => None end.
Definition only (ks : list str) (m : M unit) : Prop := forall w k, ~ In k ks -> mcad (me (fst (m w))) k = mcad (me w) k.

Lemma only_then ks (f : dict mcaval -> dict mcaval) (n : M unit) : (forall m k, ~ In k ks -> dget k (f m) = dget k m) ->
  (forall w, me (fst (n w)) A_MCA = me w A_MCA) ->
  only ks (ensure A_MCA [] ;; let! m := getA A_MCA in setA A_MCA (f m) ;; n).
Proof.
  intros Hf Hn w k Nk. unfold mcad, ensure, hasA, getA, setA, ret, mbind. destruct (me w A_MCA) as [m|] eqn:E.
  - rewrite E. cbn [me]. rewrite Hn. cbn [me]. rewrite upd_same. apply Hf; exact Nk.
  - cbn [me]. rewrite upd_same. rewrite Hn. cbn [me]. rewrite upd_same. rewrite Hf by exact Nk. reflexivity.
Qed.
Lemma only_lift {A} ks (r : res A) (k : A -> M unit) : (forall x, only ks (k x)) -> only ks (let! x := lift r in k x).
Proof. intros H w. unfold mbind, lift. destruct r as [x|e]; [apply H|reflexivity]. Qed.
Lemma only_raise ks e : only ks (raise e). Proof. intros w k _. reflexivity. Qed.
Lemma addH5_mca l h w : me (fst (addH5 l h w)) A_MCA = me w A_MCA.
Proof.
  unfold addH5, mbind, getA. destruct (me w A_h5) as [d|]; [|reflexivity]. unfold setA. cbn [fst me]. apply upd_other. discriminate.
Qed.

Ltac ne := intros ->; match goal with N : ~ In _ _ |- _ => apply N; cbn; tauto end.
Lemma process_only E h text : only (hkeys h) (process E h text).
Proof.
  assert (D : {In h [H_CALIB; H_CHANN; H_CTIME; H_ROI]} + {~ In h [H_CALIB; H_CHANN; H_CTIME; H_ROI]}) by (apply in_dec; decide equality).
  destruct D as [[<-|[<-|[<-|[<-|[]]]]]|N]; cbn [process hkeys].
  - unfold process_CALIB. apply only_lift. intros [|a [|b [|c [|d v]]]]; try apply only_raise.
    apply (only_then [L "CALIB"] (fun m => dset (L "CALIB") (MCalib (dset (L "c") (NF c) (dset (L "b") (NF b) (dset (L "a") (NF a) (match dget (L "CALIB") m with Some (MCalib d) => d | _ => [] end))))) m)); [|intros; apply addH5_mca].
    intros m k Nk. apply dget_dset_other. ne.
  - unfold process_CHANN. apply only_lift. intros [|a [|b [|c [|d v]]]]; try apply only_raise. apply only_lift. intros lst. apply only_lift. intros r.
    apply (only_then chann_keys (fun m => dset (L "reduction_coef") (MNum (NF r)) (dset (L "last_saved") (MNum (NI c)) (dset (L "first_saved") (MNum (NI b)) (dset (L "number_saved") (MNum (NI a)) m))))); [|intros; apply addH5_mca].
    intros m k Nk. rewrite !dget_dset_other; [reflexivity|ne|ne|ne|ne].
  - unfold process_CTIME. apply only_lift. intros [|a [|b [|c [|d v]]]]; try apply only_raise.
    apply (only_then ctime_keys (fun m => dset (L "elapsed_real_time") (MNum (NF c)) (dset (L "elapsed_live_time") (MNum (NF b)) (dset (L "preset_time") (MNum (NF a)) m)))); [|intros; apply addH5_mca].
    intros m k Nk. rewrite !dget_dset_other; [reflexivity|ne|ne|ne].
  - unfold process_ROI. cbv zeta. apply only_lift. intros z. apply only_lift. intros y.
    intros w k Nk.
    pose proof (only_then [L "ROI"] (fun m => dset (L "ROI") (MRoi (dset (strip (slice_to (pos_of (rfind_c SP (slice_to (pos_of (rfind_c SP (strip_first_word text))) (strip_first_word text))))
      (slice_to (pos_of (rfind_c SP (strip_first_word text))) (strip_first_word text)))) (y, z) (match dget (L "ROI") m with Some (MRoi d) => d | _ => [] end))) m) (ret tt)
      ltac:(intros m0 k0 N0; apply dget_dset_other; ne) ltac:(reflexivity) w k Nk) as X.
    rewrite <- X. unfold mcad, ensure, hasA, getA, setA, ret, mbind. destruct (me w A_MCA) as [m|] eqn:Em; [rewrite Em; reflexivity|]. cbn [me]. rewrite upd_same. reflexivity.
  - intros w k _. destruct (frame_process E h text w) as (_ & [B2 _] & _). unfold mcad. rewrite B2; [reflexivity|].
    intros X. apply N. destruct h; cbn in X |- *; intuition discriminate.
Qed.

(** the scan has a value for writer [h] *)
Definition has_item (h : hid) (m : dict mcaval) : Prop := exists n v l, mca_item m h n v l.
Definition wants (h : hid) (o : obj) : Prop := exists k v, In k (hkeys h) /\ mcad o k = Some v.
Definition AIM (h : hid) (o : obj) : Prop := wants h o -> regd h o.
Lemma item_wants h n v l m (o : obj) : o A_MCA = Some m -> mca_item m h n v l -> wants h o.
Proof.
  intros Em [k d v0 A B C|k v0 A B|k v0 A B]; unfold wants, mcad; rewrite Em.
  - exists (L "CALIB"), (MCalib d). split; [left; reflexivity|exact A].
  - unfold num_of in B. destruct (dget k m) as [x|] eqn:D; [|discriminate]. exists k, x. auto.
  - unfold num_of in B. destruct (dget k m) as [x|] eqn:D; [|discriminate]. exists k, x. auto.
Qed.
Lemma keys_apart h h' k : h <> h' -> In k (hkeys h) -> ~ In k (hkeys h').
Proof.
  intros N A B. revert A B.
  assert (X : forall l1 l2 : list str, forallb (fun x => negb (existsb (seqb x) l2)) l1 = true -> In k l1 -> In k l2 -> False).
  { intros l1 l2 F I1 I2. rewrite forallb_forall in F. specialize (F k I1). apply negb_true_iff in F.
    assert (existsb (seqb k) l2 = true) by (apply existsb_exists; exists k; split; [exact I2|apply seqb_refl]). congruence. }
  destruct h, h'; try congruence; cbn [hkeys]; try (intros []; fail); try (intros _ []; fail); apply X; reflexivity.
Qed.

Section Reg.
  Context (h : hid) (Hh : In h [H_CALIB; H_CHANN; H_CTIME]).
  Definition ALM (o : obj) : Prop := labk o /\ AIM h o.
  Definition AKM {A} (m : M A) : Prop := forall w, is_scan w = true -> ALM (me w) -> is_scan (fst (m w)) = true /\ ALM (me (fst (m w))).
  Lemma AKM_bind {A B} (m : M A) (k : A -> M B) : AKM m -> (forall a, AKM (k a)) -> AKM (mbind m k).
  Proof.
    intros H1 H2 w Sc H. unfold mbind. destruct (H1 w Sc H) as [S1 I1]. destruct (m w) as [w1 [a|e]]; cbn [fst] in *; [apply H2; auto|auto].
  Qed.
  Lemma AKM_iterM {A} (f : A -> M unit) l : (forall y, AKM (f y)) -> AKM (iterM f l).
  Proof. intros H. induction l; cbn [iterM]; [intros w Sc X; auto|apply AKM_bind; auto]. Qed.
  Lemma run_ok {A B} (x : A) (k : A -> M B) w : (let! v := lift (Ok x) in k v) w = k x w. Proof. reflexivity. Qed.
  Lemma run_no {A B} (e : exn) (k : A -> M B) w : (let! v := lift (Raise e) in k v) w = (w, Raise e). Proof. reflexivity. Qed.
  (** after its own line the writer is there, or nothing has changed *)
  Lemma own_line E text w : labk (me w) -> regd h (me (fst (process E h text w))) \/ forall k, mcad (me (fst (process E h text w))) k = mcad (me w) k.
  Proof.
    intros Lk.
    assert (T : forall f, (regd h (me (fst ((ensure A_MCA [] ;; let! m := getA A_MCA in setA A_MCA (f m) ;; addH5 (key_of h) h) w))))).
    { intros f. unfold ensure, hasA, getA, setA, ret, mbind. destruct (me w A_MCA) as [m|] eqn:Em; [rewrite Em|cbn [me]; rewrite upd_same];
        apply addH5_regd; cbn [me]; unfold labk; rewrite !upd_other by discriminate; exact Lk. }
    destruct Hh as [<-|[<-|[<-|[]]]]; cbn [process].
    - unfold process_CALIB. destruct (mapM py_float _) as [[|a [|b [|c [|d v]]]]|e]; rewrite ?run_ok, ?run_no; try (right; reflexivity). left.
      apply (T (fun m => dset (L "CALIB") (MCalib (dset (L "c") (NF c) (dset (L "b") (NF b) (dset (L "a") (NF a) (match dget (L "CALIB") m with Some (MCalib d) => d | _ => [] end))))) m)).
    - unfold process_CHANN. destruct (mapM py_int _) as [[|a [|b [|c [|d v]]]]|e]; rewrite ?run_ok, ?run_no; try (right; reflexivity).
      destruct (index _ _) as [lst|e]; rewrite ?run_ok, ?run_no; [|right; reflexivity]. destruct (py_float lst) as [r|e]; rewrite ?run_ok, ?run_no; [|right; reflexivity]. left.
      apply (T (fun m => dset (L "reduction_coef") (MNum (NF r)) (dset (L "last_saved") (MNum (NI c)) (dset (L "first_saved") (MNum (NI b)) (dset (L "number_saved") (MNum (NI a)) m))))).
    - unfold process_CTIME. destruct (mapM py_float _) as [[|a [|b [|c [|d v]]]]|e]; rewrite ?run_ok, ?run_no; try (right; reflexivity). left.
      apply (T (fun m => dset (L "elapsed_real_time") (MNum (NF c)) (dset (L "elapsed_live_time") (MNum (NF b)) (dset (L "preset_time") (MNum (NF a)) m)))).
  Qed.
  Lemma AKM_process E h' text : AKM (process E h' text).
  Proof.
    intros w Sc [H1 H2]. destruct (ra_process E h' text w) as (A1 & A2 & _). destruct (frame_process E h' text w) as (B1 & _).
    split; [congruence|]. split; [auto|]. intros (k & v & K1 & K2).
    assert (D : {h' = h} + {h' <> h}) by decide equality. destruct D as [->|D].
    - destruct (own_line E text w H1) as [X|X]; [exact X|]. apply A2. apply H2. exists k, v. split; [exact K1|]. rewrite <- X. exact K2.
    - apply A2, H2. exists k, v. split; [exact K1|]. rewrite <- K2. symmetry. apply process_only. apply (keys_apart h h'); auto.
  Qed.
  Lemma AKM_scan_line E known line : AKM (scan_line E known line).
  Proof.
    unfold scan_line. destruct line as [|c l]; [intros w Sc H; auto|]. apply AKM_bind; [intros w Sc H; auto|].
    intros [h'|]; [|apply AKM_process]. destruct h'; first [apply AKM_process|intros w Sc H; auto].
  Qed.
  Lemma AKM_interpret E known raw : AKM (interpret_scan E known raw).
  Proof.
    unfold interpret_scan, run_posts. apply AKM_bind; [apply AKM_iterM; intros; apply AKM_scan_line|]. intros _.
    apply AKM_bind; [intros w Sc H; auto|]. intros ps. apply AKM_iterM. intros p w Sc [H1 H2].
    destruct (ra_post E p w) as (A1 & A2 & _). destruct (frame_post E p w) as (B1 & [B2 _] & _). split; [congruence|]. split; [auto|].
    intros (k & v & K1 & K2). apply A2, H2. exists k, v. split; [exact K1|]. rewrite <- K2. unfold mcad. rewrite B2; [reflexivity|]. destruct p; cbn; intuition discriminate.
  Qed.
  Lemma mca_reg E known s0 s versions ks s' f r n sc : history E known s0 -> saves E known s0 s -> save E known versions ks s = (s', f, r) ->
    dget n (scans s') = Some sc -> wants h (s_obj sc) -> registered h sc.
  Proof.
    intros Hs0 Hs H Hd Hw. apply regd_In. assert (T : ALM (s_obj sc)); [|destruct T as [_ T]; apply T; auto].
    revert Hs0 Hs H Hd. apply (after_save E known (fun sc => ALM (s_obj sc))).
    - intros. split; [apply labk_init|]. intros (k & v & K1 & K2). discriminate K2.
    - intros l sc1 p H. apply (AKM_process E H_D l (mk_w true (s_obj sc1) p)); auto.
    - intros sc1 p w r0 H _ Ei. pose proof (AKM_interpret E known (s_raw sc1) (mk_w true (s_obj sc1) p) eq_refl H) as [_ K]. rewrite Ei in K. cbn [fst] in K.
      split; [exact K|intros _; exact K].
    - intros sc1 o [H1 H2] S. split; [eapply labk_same; eauto|]. intros (k & v & K1 & K2). eapply regd_same; [exact S|]. apply H2. exists k, v. split; [exact K1|].
      rewrite <- K2. assert (X : (o : obj) A_MCA = s_obj sc1 A_MCA) by (apply S; apply may_not; discriminate). unfold mcad. exact (f_equal (fun q : option (dict mcaval) => match q with Some m => dget k m | None => None end) (eq_sym X)).
  Qed.
End Reg.
