(** The writers of the control lines are registered for every scan that has what they write, II *)
From Coq Require Import String.
From Verif Require Import Py PyFacts Utils Scanf Keys KeyFacts Geom Handlers Reader MonadFacts FrameFacts StateFacts SpecHistory HistInv RegFacts RegAll
  H5 Writer KeepFacts SpecWriter WriterFacts SaveFacts.
Import ListNotations.
Local Open Scope list_scope.

(** ** what holds of every scan of every history and of every save after it *)
Section HistSave.
  Context (E : env) (known : list hid) (Q : scan -> Prop).
  Context (QI : forall part S n cmd hdr file, Q (mk_scan part S n cmd hdr (scan_init file) true false)).
  Context (QD : forall l sc p, Q sc -> Q (with_obj (me (fst (process_D E l (mk_w true (s_obj sc) p)))) sc)).
  Context (QR : forall sc p w r, Q sc -> s_done sc = false ->
    interpret_scan E known (s_raw sc) (mk_w true (s_obj sc) p) = (w, r) ->
    Q (with_obj (me w) (with_flags false false sc)) /\
    (r = Ok tt -> Q (with_flags false true (with_obj (me w) (with_flags false false sc))))).
  Context (QS : forall sc o, Q sc -> same_but (mesh_cmd (s_cmd sc)) (s_obj sc) o -> Q (with_obj o sc)).
  Notation QN := (HistInv.NS Q).
  Lemma save_scan_NS e name s f s' f' r : QN s -> save_scan E known e name s f = (s', f', r) -> QN s'.
  Proof.
    intros Hs. unfold save_scan. destruct (interpret E known name s) as [s1 [x|]] eqn:Ei; pose proof (interpret_NS E known Q QR _ _ _ _ Hs Ei) as T1.
    { intros H; inversion H; subst; auto. }
    destruct (dget name (scans s1)) as [sc|] eqn:Eg; [|intros H; inversion H; subst; auto].
    destruct (nth_error (headers s1) (s_hdr sc)) as [h|] eqn:En; [|intros H; inversion H; subst; auto].
    destruct (save_objs e sc (mk_ws (s_obj sc) (h_obj h) f)) as [w r0] eqn:Es.
    destruct (kp_save_objs (mesh_cmd (s_cmd sc)) e sc (fun x => x) (mk_ws (s_obj sc) (h_obj h) f)) as [K1 _]. rewrite Es in K1. cbn [fst w_scan] in K1.
    intros H; inversion H; subst; clear H. unfold HistInv.NS. cbn [set_headers scans set_scans]. apply Forall_dset; [exact T1|]. cbn [snd].
    unfold HistInv.NS in T1. rewrite Forall_forall in T1. apply QS; [|exact K1]. apply (T1 _ (dget_In _ _ _ Eg)).
  Qed.
  Lemma save_key_NS first k s f s' f' r : QN s -> save_key E known first k s f = (s', f', r) -> QN s'.
  Proof.
    intros Hs. unfold save_key. destruct (sbind _ _ f) as [f1 [e|x]]; [|intros H; inversion H; subst; auto].
    destruct (getScan k s) as [[sc|]|x]; try (intros H; inversion H; subst; auto; fail).
    destruct (save_scan E known e (s_num sc) s f1) as [[s2 f2] r2] eqn:Es. pose proof (save_scan_NS _ _ _ _ _ _ _ Hs Es) as T.
    destruct r2; [intros H; inversion H; subst; auto|]. destruct (sbind _ _ f2) as [f3 [u|x]]; intros H; inversion H; subst; auto.
  Qed.
  Lemma save_keys_NS ks : forall first s f s' f' r, QN s -> save_keys E known first ks s f = (s', f', r) -> QN s'.
  Proof.
    induction ks as [|k ks IH]; intros first s f s' f' r Hs; cbn [save_keys]; [intros H; inversion H; subst; auto|].
    destruct (save_key E known first k s f) as [[s1 f1] r1] eqn:E1. pose proof (save_key_NS _ _ _ _ _ _ _ Hs E1) as T1.
    destruct r1; [intros H; inversion H; subst; auto|]. intros H. eapply IH; eauto.
  Qed.
  Lemma save_NS versions ks s s' f r : QN s -> save E known versions ks s = (s', f, r) -> QN s'.
  Proof.
    intros Hs. unfold save. destruct (root_attributes versions s) as [l|x]; [|intros H; inversion H; subst; auto].
    destruct (addAttributes root l new_file) as [f0 [u|x]]; [|intros H; inversion H; subst; auto].
    apply save_keys_NS. auto.
  Qed.
  Lemma saves_NS s s' : QN s -> saves E known s s' -> QN s'.
  Proof.
    intros G H. induction H as [|s1 versions ks H IH Hk]; [auto|].
    destruct (save E known versions ks s1) as [[s2 f] r] eqn:Es. eapply save_NS; eauto.
  Qed.
  Lemma after_save s0 s versions ks s' f r n sc : history E known s0 -> saves E known s0 s -> save E known versions ks s = (s', f, r) ->
    dget n (scans s') = Some sc -> Q sc.
  Proof.
    intros Hh Hs H Hd. assert (T : QN s') by (eapply save_NS; [|exact H]; eapply saves_NS; [|exact Hs]; apply (history_NS E known Q); auto).
    unfold HistInv.NS in T. rewrite Forall_forall in T. apply (T _ (dget_In _ _ _ Hd)).
  Qed.
End HistSave.

Lemma may_not (x : attr) M : x <> A_counter_xref -> x <> A_positioner_xref -> x <> A_L -> ~ may_change M x.
Proof. intros A B C [X|[X|[_ X]]]; auto. Qed.
Lemma labk_same M o o' : same_but M o o' -> labk o -> labk o'.
Proof. intros S (d & A & B). exists d. rewrite S; auto. apply may_not; discriminate. Qed.
Lemma regd_same M o o' h : same_but M o o' -> regd h o -> regd h o'.
Proof. intros S (d & A & B). exists d. rewrite S; auto. apply may_not; discriminate. Qed.
Lemma labk_init file : labk (scan_init file).
Proof. exists []. split; [reflexivity|discriminate]. Qed.

(** *** an attribute that only handler [h] sets, which registers its writer then *)
Section AttrReg.
  Context (x : attr) (h : hid) (N : ty x -> Prop).
  Definition AI (o : obj) : Prop := forall v, o x = Some v -> N v -> regd h o.
  Definition AL (o : obj) : Prop := labk o /\ AI o.
  Context (Xs : forall h', h' <> h -> ~ In x (sets h')).
  Context (Xp : forall p, ~ In x (post_sets p)).
  Context (Xd : forall E text w, is_scan w = true -> labk (me w) -> AI (me w) -> AI (me (fst (process E h text w)))).
  Context (X0 : forall file v, scan_init file x = Some v -> ~ N v).
  Context (Xm : x <> A_counter_xref /\ x <> A_positioner_xref /\ x <> A_L).

  Definition AK {A} (m : M A) : Prop := forall w, is_scan w = true -> AL (me w) -> is_scan (fst (m w)) = true /\ AL (me (fst (m w))).
  Lemma AK_frame {A} S T (m : M A) : frame S T m -> ~ In x S -> ra m -> AK m.
  Proof.
    intros F Ni R w Sc [H1 H2]. destruct (R w) as (A1 & A2 & _). destruct (F w) as (B1 & [B2 _] & _). split; [congruence|]. split; [auto|].
    intros v Hv Nv. apply A2. apply (H2 v); auto. rewrite <- B2; auto.
  Qed.
  Lemma AK_bind {A B} (m : M A) (k : A -> M B) : AK m -> (forall a, AK (k a)) -> AK (mbind m k).
  Proof.
    intros H1 H2 w Sc H. unfold mbind. destruct (H1 w Sc H) as [S1 I1]. destruct (m w) as [w1 [a|e]]; cbn [fst] in *; [apply H2; auto|auto].
  Qed.
  Lemma AK_iterM {A} (f : A -> M unit) l : (forall y, AK (f y)) -> AK (iterM f l).
  Proof. intros H. induction l; cbn [iterM]; [intros w Sc X; auto|apply AK_bind; auto]. Qed.
  Lemma AK_process E h' text : AK (process E h' text).
  Proof.
    assert (D : {h' = h} + {h' <> h}) by decide equality. destruct D as [->|D].
    - intros w Sc [H1 H2]. destruct (ra_process E h text w) as (A1 & _). destruct (frame_process E h text w) as (B1 & _).
      split; [congruence|]. split; auto.
    - apply (AK_frame (sets h') (peer_sets h')); [apply frame_process|auto|apply ra_process].
  Qed.
  Lemma AK_scan_line E known line : AK (scan_line E known line).
  Proof.
    unfold scan_line. destruct line as [|c l]; [intros w Sc H; auto|]. apply AK_bind; [intros w Sc H; auto|].
    intros [h'|]; [|apply AK_process]. destruct h'; first [apply AK_process|intros w Sc H; auto].
  Qed.
  Lemma AK_interpret E known raw : AK (interpret_scan E known raw).
  Proof.
    unfold interpret_scan, run_posts. apply AK_bind; [apply AK_iterM; intros; apply AK_scan_line|]. intros _.
    apply AK_bind; [intros w Sc H; auto|]. intros ps. apply AK_iterM. intros p.
    apply (AK_frame (post_sets p) []); [apply frame_post|apply Xp|apply ra_post].
  Qed.
  Lemma attr_reg E known s0 s versions ks s' f r n sc v : history E known s0 -> saves E known s0 s -> save E known versions ks s = (s', f, r) ->
    dget n (scans s') = Some sc -> s_obj sc x = Some v -> N v -> exists sw, s_obj sc A_h5 = Some sw /\ In h (values sw).
  Proof.
    intros Hh Hs H Hd Hv Nv. apply regd_In. assert (T : AL (s_obj sc)); [|destruct T as [_ T]; apply (T v); auto].
    revert Hh Hs H Hd. apply (after_save E known (fun sc => AL (s_obj sc))).
    - intros. split; [apply labk_init|]. intros v0 H1 H2. destruct (X0 _ _ H1 H2).
    - intros l sc1 p H. apply (AK_process E H_D l (mk_w true (s_obj sc1) p)); auto.
    - intros sc1 p w r0 H _ Ei. pose proof (AK_interpret E known (s_raw sc1) (mk_w true (s_obj sc1) p) eq_refl H) as [_ K]. rewrite Ei in K. cbn [fst] in K.
      split; [exact K|intros _; exact K].
    - intros sc1 o [H1 H2] S. split; [eapply labk_same; eauto|]. intros v0 A B. eapply regd_same; [exact S|]. apply (H2 v0); auto.
      rewrite <- A. symmetry. apply S. destruct Xm as (M1 & M2 & M3). apply may_not; auto.
  Qed.
End AttrReg.

(** *** the attributes *)
Definition some_text (v : str) : Prop := v <> [].
Ltac xs := let h' := fresh in let N := fresh in intros h' N; destruct h'; first [congruence|cbn; intuition discriminate].
Ltac xp := let p := fresh in intros p; destruct p; cbn; intuition discriminate.
Ltac xm := repeat split; discriminate.

(** steps that set an attribute before the writer is registered, and cannot fail *)
Lemma AI_other x h N o o' : o' x = o x -> o' A_h5 = o A_h5 -> AI x h N o -> AI x h N o'.
Proof. intros A B H v Hv Nv. destruct (H v) as (d & D1 & D2); [congruence|auto|]. exists d. split; [congruence|auto]. Qed.

(** [m] then registers; if [m] fails the attribute is as before *)
Lemma AI_then x h N (m : M unit) w : ra m -> labk (me w) -> AI x h N (me w) ->
  (forall w1 e, m w = (w1, Raise e) -> me w1 x = me w x \/ forall v, me w1 x = Some v -> ~ N v) -> AI x h N (me (fst (mbind m (fun _ => addH5 (key_of h) h) w))).
Proof.
  intros R Lk Ai F. destruct (R w) as (A1 & A2 & _). unfold mbind. destruct (m w) as [w1 [u|e]] eqn:Em; cbn [fst] in *.
  - intros v _ _. apply addH5_regd. auto.
  - intros v Hv Nv. apply A2. destruct (F w1 e eq_refl) as [X|X]; [|destruct (X v Hv Nv)]. apply (Ai v); auto. congruence.
Qed.
Lemma mbind_assoc {A B C} (m : M A) (k : A -> M B) (l : B -> M C) w : mbind (mbind m k) l w = mbind m (fun a => mbind (k a) l) w.
Proof. unfold mbind. destruct (m w) as [w1 [a|e]]; reflexivity. Qed.

Section Inst.
  Context (E : env) (known : list hid).
  Definition registered (h : hid) (sc : scan) : Prop := exists sw, s_obj sc A_h5 = Some sw /\ In h (values sw).
  Context (s0 s s' : sdf) (versions : attrs_t) (ks : list skey) (f : h5) (r : option exn) (n : str) (sc : scan).
  Context (Hh : history E known s0) (Hs : saves E known s0 s) (H : save E known versions ks s = (s', f, r)) (Hd : dget n (scans s') = Some sc).


  Lemma reg_M v : s_obj sc A_M = Some v -> v <> [] -> registered H_M sc.
  Proof.
    intros. eapply (attr_reg A_M H_M some_text); eauto; [xs|xp| | |xm].
    - intros E0 text w Sc Lk Ai. cbn [process]. unfold process_M. destruct (value_name text) as [v0 n0].
      rewrite <- mbind_assoc. apply AI_then; auto; [rao|]. intros w1 e X. unfold mbind, setA in X. discriminate.
    - intros file v0 H2 Nv. cbn in H2. injection H2; intros <-. apply Nv. reflexivity.
  Qed.
  Lemma reg_T v : s_obj sc A_T = Some v -> v <> [] -> registered H_T sc.
  Proof.
    intros. eapply (attr_reg A_T H_T some_text); eauto; [xs|xp| | |xm].
    - intros E0 text w Sc Lk Ai. cbn [process]. unfold process_T. destruct (value_name text) as [v0 n0].
      rewrite <- mbind_assoc. apply AI_then; auto; [rao|]. intros w1 e X. unfold mbind, setA in X. discriminate.
    - intros file v0 H2 Nv. cbn in H2. injection H2; intros <-. apply Nv. reflexivity.
  Qed.
  Lemma reg_C v : s_obj sc A_comments = Some v -> v <> [] -> registered H_C sc.
  Proof.
    intros. eapply (attr_reg A_comments H_C (fun v => v <> [])); eauto; [xs|xp| | |xm].
    - intros E0 text w Sc Lk Ai. cbn [process]. unfold process_C.
      set (m := let! c := getA A_comments in setA A_comments (c ++ [strip_first_word text]) ;;
          match find (L "Scan aborted after ") text with Some (S n) => setA A_aborted (skipn (S n) text) | _ => ret tt end).
      replace (me (fst _)) with (me (fst (mbind m (fun _ => addH5 (key_of H_C) H_C) w))).
      + apply AI_then; auto; [unfold m; rao|]. intros w1 e X. unfold m, mbind, getA in X. destruct (me w A_comments) eqn:Ec; [|injection X; intros _ <-; left; first [reflexivity|assumption]].
        unfold setA at 1 in X. destruct (find _ _) as [[|k]|]; discriminate.
      + unfold m. rewrite !mbind_assoc. unfold mbind, getA. destruct (me w A_comments); [|reflexivity]. unfold setA at 1.
        unfold whenScan, mbind, askScan. destruct (find _ _) as [[|k]|]; unfold ret, setA; cbn [is_scan]; rewrite ?Sc; reflexivity.
    - intros file v0 H2 Nv. cbn in H2. injection H2; intros <-. apply Nv. reflexivity.
  Qed.
  Lemma reg_Q v : s_obj sc A_Q = Some (Some v) -> registered H_Q sc.
  Proof.
    intros. eapply (attr_reg A_Q H_Q (fun v => v <> None)); eauto; [xs|xp| | |xm|discriminate].
    - intros E0 text w Sc Lk Ai. cbn [process]. unfold process_Q. destruct (strip_first_word text) as [|c t]; [exact Ai|].
      set (m := let! q := lift (mapM py_float (words (c :: t))) in setA A_Q (Some q)).
      replace (me (fst _)) with (me (fst (mbind m (fun _ => addH5 (key_of H_Q) H_Q) w))).
      + apply AI_then; auto; [unfold m; rao|]. intros w1 e X. unfold m, mbind, lift in X. destruct (mapM _ _); [discriminate|injection X; intros _ <-; left; first [reflexivity|assumption]].
      + unfold m. rewrite mbind_assoc. reflexivity.
    - intros file v0 H2 Nv. cbn in H2. injection H2; intros <-. apply Nv. reflexivity.
  Qed.
  Lemma reg_X v : s_obj sc A_TEMP_SP = Some v -> registered H_X sc.
  Proof.
    intros. eapply (attr_reg A_TEMP_SP H_X (fun v => True)); eauto; [xs|xp| | |xm].
    - intros E0 text w Sc Lk Ai. cbn [process]. unfold process_X. induction X_formats as [|f0 fm IH]; cbn [process_X_fmts]; [exact Ai|].
      unfold mbind at 1. unfold lift. destruct (snd (scanf [] f0 text)) as [[[|[a|a|a] [|[b|b|b] [|]]]|]|e]; try exact Ai; try exact IH.
      rewrite <- mbind_assoc. apply AI_then; auto; [rao|]. intros w1 e X. unfold mbind, setA in X. discriminate.
    - intros file v0 H2. cbn in H2. discriminate.
  Qed.
  Lemma reg_X' v : s_obj sc A_DEGC_SP = Some v -> registered H_X sc.
  Proof.
    intros. eapply (attr_reg A_DEGC_SP H_X (fun v => True)); eauto; [xs|xp| | |xm].
    - intros E0 text w Sc Lk Ai. cbn [process]. unfold process_X. induction X_formats as [|f0 fm IH]; cbn [process_X_fmts]; [exact Ai|].
      unfold mbind at 1. unfold lift. destruct (snd (scanf [] f0 text)) as [[[|[a|a|a] [|[b|b|b] [|]]]|]|e]; try exact Ai; try exact IH.
      rewrite <- mbind_assoc. apply AI_then; auto; [rao|]. intros w1 e X. unfold mbind, setA in X. discriminate.
    - intros file v0 H2. cbn in H2. discriminate.
  Qed.
  Lemma reg_R v : s_obj sc A_R = Some v -> v <> [] -> registered H_R sc.
  Proof.
    intros. eapply (attr_reg A_R H_R (fun v => v <> [])); eauto; [xs|xp| | |xm].
    - intros E0 text w Sc Lk Ai. cbn [process]. unfold process_R.
      set (m := ensure A_R [] ;; let! r := getA A_R in setA A_R (r ++ [strip (strip_first_word text)])).
      replace (me (fst _)) with (me (fst (mbind m (fun _ => addH5 (key_of H_R) H_R) w))).
      + apply AI_then; auto; [unfold m; rao|]. intros w1 e X. unfold m, ensure, mbind, hasA, getA in X.
        destruct (me w A_R) eqn:Er; unfold ret, setA in X; [rewrite Er in X; discriminate|cbn [me] in X; rewrite upd_same in X; discriminate].
      + unfold m, ensure, mbind, hasA, getA. destruct (me w A_R) eqn:Er; unfold ret, setA; rewrite ?Er; [reflexivity|]. cbn [me]. rewrite upd_same. reflexivity.
    - intros file v0 H2 Nv. cbn in H2. discriminate.
  Qed.
  Lemma reg_U v : s_obj sc A_U = Some v -> v <> [] -> registered H_U sc.
  Proof.
    intros. eapply (attr_reg A_U H_U (fun v => v <> [])); eauto; [xs|xp| | |xm].
    - intros E0 text w Sc Lk Ai. cbn [process]. unfold process_U.
      set (m := ensure A_U [] ;; let! r := getA A_U in setA A_U (r ++ [strip (strip_first_word text)])).
      replace (me (fst _)) with (me (fst (mbind m (fun _ => addH5 (key_of H_U) H_U) w))).
      + apply AI_then; auto; [unfold m; rao|]. intros w1 e X. unfold m, ensure, mbind, hasA, getA in X.
        destruct (me w A_U) eqn:Er; unfold ret, setA in X; [rewrite Er in X; discriminate|cbn [me] in X; rewrite upd_same in X; discriminate].
      + unfold m, ensure, mbind, hasA, getA. destruct (me w A_U) eqn:Er; unfold ret, setA; rewrite ?Er; [reflexivity|]. cbn [me]. rewrite upd_same. reflexivity.
    - intros file v0 H2 Nv. cbn in H2. discriminate.
  Qed.
  Lemma reg_unrec v : s_obj sc A_unrec = Some v -> v <> [] -> registered H_unrec sc.
  Proof.
    intros. eapply (attr_reg A_unrec H_unrec (fun v => v <> [])); eauto; [xs|xp| | |xm].
    - intros E0 text w Sc Lk Ai. cbn [process]. unfold process_unrec.
      set (m := ensure A_unrec [] ;; let! r := getA A_unrec in setA A_unrec (r ++ [text])).
      replace (me (fst _)) with (me (fst (mbind m (fun _ => addH5 (key_of H_unrec) H_unrec) w))).
      + apply AI_then; auto; [unfold m; rao|]. intros w1 e X. unfold m, ensure, mbind, hasA, getA in X.
        destruct (me w A_unrec) eqn:Er; unfold ret, setA in X; [rewrite Er in X; discriminate|cbn [me] in X; rewrite upd_same in X; discriminate].
      + unfold m, ensure, mbind, hasA, getA. destruct (me w A_unrec) eqn:Er; unfold ret, setA; rewrite ?Er; [reflexivity|]. cbn [me]. rewrite upd_same. reflexivity.
    - intros file v0 H2 Nv. cbn in H2. discriminate.
  Qed.
  Lemma reg_MD v : s_obj sc A_MD = Some v -> v <> [] -> registered H_MD sc.
  Proof.
    intros. eapply (attr_reg A_MD H_MD (fun v => v <> [])); eauto; [xs|xp| | |xm].
    - intros E0 text w Sc Lk Ai. cbn [process]. unfold process_MD.
      set (kv := fun d : ty A_MD => (if (5 <? pos_of (find_c 61%N text))%Z then
                let! k := lift (index 1 (words text)) in ret (k, strip (slice_from (pos_of (find_c 61%N text) + 1) text))
              else ret (L "MD_line_" ++ str_of_nat (List.length d + 1), strip text))).
      set (m := ensure A_MD [] ;; let! d := getA A_MD in let! q := kv d in setA A_MD (dset (fst q) (snd q) d)).
      replace (me (fst _)) with (me (fst (mbind m (fun _ => addH5 (key_of H_MD) H_MD) w))).
      + apply AI_then; auto; [unfold m, kv; rao|]. intros w1 e X. unfold m, ensure, mbind, hasA, getA in X.
        destruct (me w A_MD) eqn:Er.
        * unfold ret at 1 in X. rewrite Er in X. unfold kv in X. destruct (5 <? _)%Z; [|discriminate]. unfold mbind, lift in X.
          destruct (index 1 (words text)); [discriminate|injection X; intros _ <-; left; first [reflexivity|assumption]].
        * unfold setA at 1 in X. cbn [me] in X. rewrite upd_same in X. unfold kv in X. destruct (5 <? _)%Z; [|discriminate]. unfold mbind, lift in X.
          destruct (index 1 (words text)); [discriminate|inversion X; subst]. right. cbn [me]. rewrite upd_same. intros v0 Hv Nv. injection Hv; intros <-. apply Nv. reflexivity.
      + unfold m, ensure, mbind, hasA, getA. destruct (me w A_MD) as [d0|] eqn:Er; cbv beta.
        * unfold kv. destruct (5 <? _)%Z; unfold ret, lift, mbind; rewrite ?Er; [|reflexivity]. destruct (index 1 (words text)); reflexivity.
        * unfold kv. destruct (5 <? _)%Z; unfold ret, lift, mbind, setA; cbn [me]; rewrite ?upd_same; [|reflexivity]. destruct (index 1 (words text)); reflexivity.
    - intros file v0 H2 Nv. cbn in H2. discriminate.
  Qed.
End Inst.
