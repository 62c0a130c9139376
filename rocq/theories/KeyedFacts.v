(** Keyed lines of beamline plugins, #Q and #X lines. *)
From Coq Require Import String Lia.
From Verif Require Import Uni Py PyFacts NumFacts Utils Keys Scanf Handlers Geom Reader SpecText SpecUtils SpecReader SpecNum SpecHistory SpecKeys SpecInterp SpecData SpecMeta SpecDecimal SpecScanf SpecMca
  TextFacts UtilsFacts KeyFacts ReaderFacts2 ReaderFacts4 ReaderFacts5 DispatchFacts FrameFacts StateFacts InterpFacts MonadFacts HandlerFacts PostFacts DataFacts DataFacts2 LastFacts MetaFacts MetaLineFacts DecimalFacts ScanfFacts McaFacts.
Import ListNotations.
Local Open Scope list_scope.

Section Keyed.
  Context (E : env) (known : list hid) (Hk : incl all_hids known).
  Ltac noposts := intros p; destruct p; cbn; intros Q; decompose [or] Q; try discriminate; auto.
  Ltac others := intros h'; destruct h'; cbn; intros Hn Q; try (apply Hn; reflexivity); decompose [or] Q; try discriminate; auto.

  (** a dictionary attribute that one handler makes and fills *)
  Lemma keyed (a : attr) {V} (e : option (ty a) -> option (dict V)) h kf vf (good : str -> Prop) (key : str -> str -> Prop) (value : str -> V -> Prop) s name sc s' sc' ls :
    h <> H_unrec -> h <> H_S ->
    (forall line w w', process E h line w = (w', Ok tt) -> good line /\ e (me w' a) = Some (dset (kf line) (vf line) (orn (e (me w a))))) ->
    (forall h', h' <> h -> ~ In a (sets h')) -> (forall p, ~ In a (post_sets p)) -> ~ In a D3 -> (forall file, scan_init file a = None) -> e None = None ->
    (forall l k, control h l -> good l -> (key l k <-> kf l = k)) -> (forall l v, control h l -> good l -> (value l v <-> v = vf l)) ->
    first_interpret E known s name sc s' sc' -> lines_of (s_raw sc) ls ->
    exists rs, Keeps (control h) ls rs /\ Forall good rs /\ from_lines (e (s_obj sc' a)) rs key value.
  Proof.
    intros Hu HS H1 H2 H3 H4 H5 H6 H7 H8 Hf Hl. apply lines_of_scan_lines in Hl. subst ls. destruct (first_interpret_ran _ _ _ _ _ _ _ Hf) as (w0 & w1 & w & R).
    pose proof (keeps_control known Hk h (s_raw sc) Hu HS) as K. destruct (Keeps_incl _ _ _ K) as [Ki Kc]. rewrite Forall_forall in Kc.
    exists (lines_h known (only h) (Handlers.scan_lines (s_raw sc))). split; [exact K|].
    destruct (ran_w0 _ _ _ _ _ _ _ _ _ R) as (_ & Hm & _).
    destruct (dict_view E known Hk (fun w => e (me w a)) kf vf good h (Handlers.scan_lines (s_raw sc))) with (w := w0) (w' := w1) as [Hg Hv].
    - exact H1.
    - intros h' line v v' Hn Hp. pose proof (frame_process E h' line v) as (_ & [F _] & _). rewrite Hp in F. cbn [fst] in F. rewrite F; auto.
    - rewrite Hm. rewrite (untouched_none _ _ a (ran_fresh _ _ _ _ _ _ _ _ _ R) H4 (H5 _)). exact H6.
    - exact (ran_lines _ _ _ _ _ _ _ _ _ R).
    - split; [exact Hg|]. rewrite Forall_forall in Hg. rewrite (ran_obj _ _ _ _ _ _ _ _ _ R), (posts_keep E a w1 w (Ok tt) H3 (ran_posts _ _ _ _ _ _ _ _ _ R)).
      eapply from_fold; [exact Hv| |]; intros; [apply H7|apply H8]; auto.
  Qed.
  Lemma hashed (a : attr) (e : option (ty a) -> option (dict str)) h p s name sc s' sc' ls : h <> H_unrec -> h <> H_S -> shape_of h = Numbered p -> key_of h = L p ++ L "\d+" ->
    Forall (fun c => is_space c = false) (L p) -> (exists t, L p = 35%N :: t /\ forall t', t <> 35%N :: t' /\ t <> []) ->
    (forall line w w', process E h line w = (w', Ok tt) -> e (me w' a) = Some (dset (hash_key line) (strip_first_word line) (orn (e (me w a))))) ->
    (forall h', h' <> h -> ~ In a (sets h')) -> (forall p, ~ In a (post_sets p)) -> ~ In a D3 -> (forall file, scan_init file a = None) -> e None = None ->
    first_interpret E known s name sc s' sc' -> lines_of (s_raw sc) ls ->
    exists rs, Keeps (control h) ls rs /\ from_lines (e (s_obj sc' a)) rs (fun l k => first_word_is l (L "#" ++ k)) content.
  Proof.
    intros Hu HS G1 G2 G3 (u & G4 & G5) H1 H2 H3 H4 H5 H6 Hf Hl.
    destruct (keyed a (V := str) e h hash_key strip_first_word (fun _ => True) (fun l k => first_word_is l (L "#" ++ k)) content s name sc s' sc' ls Hu HS) with (9 := Hf) (10 := Hl) as (rs & K1 & _ & K2); auto.
    - intros l k Hc _. destruct (numbered_word h p l) as (t & ws & Hws); [|exact G3|exact Hc|].
      + intros w [Q|Q]; [rewrite G1 in Q; destruct Q as (ds & -> & _ & Hd); exists ds; split; auto; eapply Forall_impl; [|exact Hd]; intros c; apply dec_not_space|]. subst w. exists (L "\d+"). split; [exact G2|repeat constructor].
      + rewrite first_word_words. unfold hash_key. rewrite Hws, G4.
        assert (El : lstrip_by (is_c 35%N) ((35%N :: u) ++ t) = u ++ t).
        { cbn [app lstrip_by]. change (is_c 35%N 35%N) with true. cbv iota. destruct u as [|c u]; [destruct (G5 []); congruence|]. cbn [app lstrip_by]. destruct (is_c 35%N c) eqn:Ec; auto.
          apply N.eqb_eq in Ec. subst c. destruct (G5 u). congruence. }
        rewrite El. split.
        * intros [ws' Q]. apply (f_equal (fun l => tl (hd [] l))) in Q. cbn in Q. exact Q.
        * intros <-. exists ws. reflexivity.
    - intros l v Hc _. apply content_strip. eapply control_SP; eauto.
    - eauto.
  Qed.
  Ltac hfin line := unfold hash_key; destruct (words line) as [|wd wds]; [discriminate|]; match goal with Q : index 0 _ = Ok _ |- _ => cbn in Q; injection Q as Q; rewrite Q end.
  Lemma C88_VA_lemma s name sc s' sc' ls : first_interpret E known s name sc s' sc' -> lines_of (s_raw sc) ls ->
    exists rs, Keeps (control H_VA) ls rs /\ from_lines (s_obj sc' A_VA) rs (fun l k => first_word_is l (L "#" ++ k)) content.
  Proof.
    apply (hashed A_VA (fun o => o) H_VA "#VA"); [discriminate|discriminate|reflexivity|reflexivity|repeat constructor|eexists; split; [reflexivity|split; discriminate]| |others|noposts|cbn; intros Q; decompose [or] Q; try discriminate; auto|reflexivity|reflexivity].
    intros line w w' H. cbn [process] in H. unfold process_VA, first_word in H. mgo H. apply whenHeader_ok in H. destruct H as [[_ H]|[_ H]]; [mgo H|subst w'; mattr]; hfin line; destruct (me w A_VA); mfin.
  Qed.
  Lemma C88_VD_lemma s name sc s' sc' ls : first_interpret E known s name sc s' sc' -> lines_of (s_raw sc) ls ->
    exists rs, Keeps (control H_VD) ls rs /\ from_lines (s_obj sc' A_VD) rs (fun l k => first_word_is l (L "#" ++ k)) content.
  Proof.
    apply (hashed A_VD (fun o => o) H_VD "#VD"); [discriminate|discriminate|reflexivity|reflexivity|repeat constructor|eexists; split; [reflexivity|split; discriminate]| |others|noposts|cbn; intros Q; decompose [or] Q; try discriminate; auto|reflexivity|reflexivity].
    intros line w w' H. cbn [process] in H. unfold process_VD, first_word in H. mgo H. apply whenHeader_ok in H. destruct H as [[_ H]|[_ H]]; [mgo H|subst w'; mattr]; hfin line; destruct (me w A_VD); mfin.
  Qed.
  Lemma C88_VE_lemma s name sc s' sc' ls : first_interpret E known s name sc s' sc' -> lines_of (s_raw sc) ls ->
    exists rs, Keeps (control H_VE) ls rs /\ from_lines (s_obj sc' A_VE) rs (fun l k => first_word_is l (L "#" ++ k)) content.
  Proof.
    apply (hashed A_VE (fun o => o) H_VE "#VE"); [discriminate|discriminate|reflexivity|reflexivity|repeat constructor|eexists; split; [reflexivity|split; discriminate]| |others|noposts|cbn; intros Q; decompose [or] Q; try discriminate; auto|reflexivity|reflexivity].
    intros line w w' H. cbn [process] in H. unfold process_VE, first_word in H. mgo H. apply whenHeader_ok in H. destruct H as [[_ H]|[_ H]]; [mgo H|subst w'; mattr]; hfin line; destruct (me w A_VE); mfin.
  Qed.
  Lemma C88_XPCS_lemma s name sc s' sc' ls : first_interpret E known s name sc s' sc' -> lines_of (s_raw sc) ls ->
    exists rs, Keeps (control H_XPCS) ls rs /\ from_lines (s_obj sc' A_XPCS) rs (fun l k => exists t v, content l t /\ fields t (k :: v)) (fun l v => exists t k, content l t /\ fields t (k :: v)).
  Proof.
    intros Hf Hl. destruct (keyed A_XPCS (V := list str) (fun o => o) H_XPCS (fun l => hd [] (words (strip_first_word l))) (fun l => tl (words (strip_first_word l))) (fun l => words (strip_first_word l) <> [])
      (fun l k => exists t v, content l t /\ fields t (k :: v)) (fun l v => exists t k, content l t /\ fields t (k :: v)) s name sc s' sc' ls ltac:(discriminate) ltac:(discriminate)) with (9 := Hf) (10 := Hl) as (rs & K1 & _ & K2);
      [|others|noposts|cbn; intros Q; decompose [or] Q; try discriminate; auto|reflexivity|reflexivity| | |exists rs; split; [exact K1|exact K2]].
    - intros line w w' H. cbn [process] in H. unfold process_XPCS in H. mgo H.
      assert (Hw : words (strip_first_word line) <> []) by (destruct (words (strip_first_word line)); discriminate).
      split; [exact Hw|]. apply whenScan_ok in H. destruct (words (strip_first_word line)) as [|wd wds]; [congruence|]. match goal with Q : index 0 _ = Ok _ |- _ => cbn in Q; injection Q as Q; rewrite <- Q in H end.
      cbn [hd tl skipn] in *. destruct H as [[_ H]|[_ H]]; [mgo H|subst w'; mattr]; destruct (me w A_XPCS); mfin.
    - intros l k Hc Hg. split.
      + intros (t & v & Ht & Hv). apply content_strip in Ht; [|eapply control_SP; eauto]. apply fields_words in Hv. rewrite <- Ht, <- Hv. reflexivity.
      + intros <-. exists (strip_first_word l), (tl (words (strip_first_word l))). split; [apply content_strip; [eapply control_SP; eauto|auto]|]. apply fields_words. destruct (words (strip_first_word l)); [congruence|reflexivity].
    - intros l v Hc Hg. split.
      + intros (t & k & Ht & Hv). apply content_strip in Ht; [|eapply control_SP; eauto]. apply fields_words in Hv. rewrite <- Ht, <- Hv. reflexivity.
      + intros ->. exists (strip_first_word l), (hd [] (words (strip_first_word l))). split; [apply content_strip; [eapply control_SP; eauto|auto]|]. apply fields_words. destruct (words (strip_first_word l)); [congruence|reflexivity].
  Qed.
  Lemma C88_CCD_lemma s name sc s' sc' ls : first_interpret E known s name sc s' sc' -> lines_of (s_raw sc) ls ->
    exists rs, Keeps (control H_CCD) ls rs /\ from_lines (s_obj sc' A_CCD) rs (fun l k => exists t v, content l t /\ fields t (k :: v)) (fun l v => exists t k, content l t /\ fields t (k :: v)).
  Proof.
    intros Hf Hl. destruct (keyed A_CCD (V := list str) (fun o => o) H_CCD (fun l => hd [] (words (strip_first_word l))) (fun l => tl (words (strip_first_word l))) (fun l => words (strip_first_word l) <> [])
      (fun l k => exists t v, content l t /\ fields t (k :: v)) (fun l v => exists t k, content l t /\ fields t (k :: v)) s name sc s' sc' ls ltac:(discriminate) ltac:(discriminate)) with (9 := Hf) (10 := Hl) as (rs & K1 & _ & K2);
      [|others|noposts|cbn; intros Q; decompose [or] Q; try discriminate; auto|reflexivity|reflexivity| | |exists rs; split; [exact K1|exact K2]].
    - intros line w w' H. cbn [process] in H. unfold process_CCD in H. mgo H.
      assert (Hw : words (strip_first_word line) <> []) by (destruct (words (strip_first_word line)); discriminate).
      split; [exact Hw|]. apply whenScan_ok in H. destruct (words (strip_first_word line)) as [|wd wds]; [congruence|]. match goal with Q : index 0 _ = Ok _ |- _ => cbn in Q; injection Q as Q; rewrite <- Q in H end.
      cbn [hd tl skipn] in *. destruct H as [[_ H]|[_ H]]; [mgo H|subst w'; mattr]; destruct (me w A_CCD); mfin.
    - intros l k Hc Hg. split.
      + intros (t & v & Ht & Hv). apply content_strip in Ht; [|eapply control_SP; eauto]. apply fields_words in Hv. rewrite <- Ht, <- Hv. reflexivity.
      + intros <-. exists (strip_first_word l), (tl (words (strip_first_word l))). split; [apply content_strip; [eapply control_SP; eauto|auto]|]. apply fields_words. destruct (words (strip_first_word l)); [congruence|reflexivity].
    - intros l v Hc Hg. split.
      + intros (t & k & Ht & Hv). apply content_strip in Ht; [|eapply control_SP; eauto]. apply fields_words in Hv. rewrite <- Ht, <- Hv. reflexivity.
      + intros ->. exists (strip_first_word l), (hd [] (words (strip_first_word l))). split; [apply content_strip; [eapply control_SP; eauto|auto]|]. apply fields_words. destruct (words (strip_first_word l)); [congruence|reflexivity].
  Qed.
  Lemma C88_UIM_lemma s name sc s' sc' ls : first_interpret E known s name sc s' sc' -> lines_of (s_raw sc) ls ->
    exists us, Keeps (control H_UIM) ls us /\ if_any (s_obj sc' A_UIM) us.
  Proof.
    intros Hf Hl. apply lines_of_scan_lines in Hl. subst ls.
    exists (lines_h known (only H_UIM) (Handlers.scan_lines (s_raw sc))). split; [apply keeps_control; auto; discriminate|].
    rewrite <- (map_id (lines_h _ _ _)). apply (listed E known Hk A_UIM str (fun o => o) (fun l => l) H_UIM s name sc s' sc' Hf).
    - intros line w w' _ H. cbn [process] in H. unfold process_UIM in H. mgo H. destruct (me w A_UIM); mfin.
    - others.
    - noposts.
    - intros o Ho. refine (untouched_none _ _ A_UIM Ho _ _); [cbn; intros Q; decompose [or] Q; try discriminate; auto|reflexivity].
  Qed.

  (** a value that some lines of one handler give *)
  Lemma last_given {X} (view : world -> X) (parse : str -> option X) (good : str -> Prop) h s sc s' sc' w0 w1 w : h <> H_unrec -> h <> H_S ->
    (forall line w w', process E h line w = (w', Ok tt) -> good line /\ view w' = match parse line with Some v => v | None => view w end) ->
    (forall h' line w w', h' <> h -> process E h' line w = (w', Ok tt) -> view w' = view w) -> ran E known s sc s' sc' w0 w1 w ->
    Forall (fun l => control h l -> good l) (Handlers.scan_lines (s_raw sc)) /\
    ((Forall (fun l => control h l -> parse l = None) (Handlers.scan_lines (s_raw sc)) /\ view w1 = view w0) \/
     exists pre l post v, Handlers.scan_lines (s_raw sc) = pre ++ l :: post /\ control h l /\ parse l = Some v /\ Forall (fun l => control h l -> parse l = None) post /\ view w1 = v).
  Proof.
    intros Hu HS H1 H2 R. pose proof (scan_lines_no_lf (s_raw sc)) as N. pose proof (ran_lines _ _ _ _ _ _ _ _ _ R) as Hl. revert N Hl. generalize (Handlers.scan_lines (s_raw sc)) w0. clear R.
    induction l as [|l ls IH]; intros u N Hl.
    - inversion Hl; subst. split; [constructor|]. left. auto.
    - apply iter_bind in Hl. destruct Hl as (u1 & Hl & Hls). rewrite (scan_line_eff E known Hk) in Hl. inversion N as [|? ? N1 N2]; subst.
      destruct (IH _ N2 Hls) as [G IH']. split.
      { constructor; [|exact G]. intros Q. apply (eff_control known Hk) in Q; auto. rewrite Q in Hl. apply (H1 _ _ _ Hl). }
      destruct IH' as [[I1 I2]|(pre & x & post & v & I1 & I2 & I3 & I4 & I5)].
      + destruct (eff known l) as [h'|] eqn:El.
        * destruct (hid_eq_dec h' h) as [->|Hn].
          -- destruct (H1 _ _ _ Hl) as [_ H3]. apply (eff_control known Hk) in El; auto. destruct (parse l) as [v|] eqn:Ep.
             ++ right. exists [], l, ls, v. split; [reflexivity|]. split; auto. split; auto. split; auto. congruence.
             ++ left. split; [constructor; auto|congruence].
          -- left. rewrite (H2 _ _ _ _ Hn Hl) in I2. split; auto. constructor; auto. intros Q. apply (eff_control known Hk) in Q; auto. congruence.
        * inversion Hl; subst. left. split; auto. constructor; auto. intros Q. apply (eff_control known Hk) in Q; auto. congruence.
      + right. exists (l :: pre), x, post, v. rewrite I1. auto.
  Qed.
  (** attributes that only one handler sets *)
  Lemma kept_by (S : list attr) h : (forall h' a, h' <> h -> In a S -> ~ In a (sets h')) ->
    forall h' line w w', h' <> h -> process E h' line w = (w', Ok tt) -> forall a, In a S -> me w' a = me w a.
  Proof. intros HS h' line w w' Hn Hp a Ha. pose proof (frame_process E h' line w) as (_ & [F _] & _). rewrite Hp in F. cbn [fst] in F. apply F. apply HS; auto. Qed.

  (** Q *)
  Definition q_parse (line : str) : option (option (option (list fl))) :=
    match strip_first_word line with [] => None | t => match mapM py_float (words t) with Ok q => Some (Some (Some q)) | _ => None end end.
  Lemma C89_Q_lemma s name sc s' sc' ls : first_interpret E known s name sc s' sc' -> lines_of (s_raw sc) ls ->
    (Forall (fun l => control H_Q l -> content l []) ls /\ attr_is sc' A_Q None) \/
    exists pre l post t ws q, ls = pre ++ l :: post /\ control H_Q l /\ content l t /\ t <> [] /\ fields t ws /\ Forall2 (fun w f => py_float w = Ok f) ws q /\
      Forall (fun l => control H_Q l -> content l []) post /\ attr_is sc' A_Q (Some q).
  Proof.
    intros Hf Hl. apply lines_of_scan_lines in Hl. subst ls. destruct (first_interpret_ran _ _ _ _ _ _ _ Hf) as (w0 & w1 & w & R).
    assert (Ea : s_obj sc' A_Q = me w1 A_Q).
    { rewrite (ran_obj _ _ _ _ _ _ _ _ _ R). apply (posts_keep E A_Q w1 w (Ok tt)); [noposts|apply (ran_posts _ _ _ _ _ _ _ _ _ R)]. }
    assert (E0 : me w0 A_Q = Some None).
    { destruct (ran_w0 _ _ _ _ _ _ _ _ _ R) as (_ & Hm & _). rewrite Hm. destruct (ran_fresh _ _ _ _ _ _ _ _ _ R) as [Q _]. rewrite Q; [reflexivity|]. cbn; intros Q'; decompose [or] Q'; try discriminate; auto. }
    destruct (last_given (fun w => me w A_Q) q_parse (fun l => strip_first_word l = [] \/ exists q, mapM py_float (words (strip_first_word l)) = Ok q) H_Q s sc s' sc' w0 w1 w ltac:(discriminate) ltac:(discriminate)) with (3 := R) as [Hg [[H1 H2]|(pre & l & post & v & H1 & H2 & H3 & H4 & H5)]].
    - intros line u u' Hp. cbn [process] in Hp. unfold process_Q in Hp. unfold q_parse. destruct (strip_first_word line) as [|c t] eqn:Et.
      + apply ret_ok in Hp. destruct Hp as [-> _]. auto.
      + mgo Hp. match goal with Q : mapM py_float _ = Ok _ |- _ => rewrite Q end. split; eauto.
    - intros h' line u u' Hn Hp. apply (kept_by [A_Q] H_Q ltac:(intros h'' a Hn' [<-|[]] K; destruct h''; cbn in K; try congruence; decompose [or] K; try discriminate; auto) h' line u u' Hn Hp). left. reflexivity.
    - left. unfold attr_is. rewrite Ea, H2, E0. split; [|reflexivity]. rewrite Forall_forall in *. intros l Hl Hc. apply content_strip; [eapply control_SP; eauto|]. specialize (H1 _ Hl Hc). specialize (Hg _ Hl Hc). unfold q_parse in H1.
      destruct Hg as [Hg|[q Hq]]; [congruence|]. destruct (strip_first_word l); [reflexivity|]. rewrite Hq in H1. discriminate.
    - right. unfold q_parse in H3. destruct (strip_first_word l) as [|c t] eqn:Et; [discriminate|]. destruct (mapM py_float (words (c :: t))) as [q|] eqn:Eq; [|discriminate]. injection H3 as H3.
      exists pre, l, post, (c :: t), (words (c :: t)), q. split; auto. split; auto. split; [apply content_strip; [eapply control_SP; eauto|auto]|]. split; [discriminate|]. split; [apply fields_words; auto|].
      split; [apply mapM_F2; auto|]. split; [|unfold attr_is; rewrite Ea, H5; exact (eq_sym H3)]. rewrite H1, Forall_app in Hg. destruct Hg as [_ Hg]. inversion Hg as [|? ? _ Hg']; subst. clear Hg. rewrite Forall_forall in *. intros l' Hl' Hc.
      apply content_strip; [eapply control_SP; eauto|]. specialize (H4 _ Hl' Hc). specialize (Hg' _ Hl' Hc). unfold q_parse in H4. destruct Hg' as [Hg'|[q' Hq]]; [congruence|]. destruct (strip_first_word l'); [reflexivity|]. rewrite Hq in H4. discriminate.
  Qed.
End Keyed.

(** formats of #X *)
Definition numeral (c : N) : Prop := is_sign c = true \/ is_dec c = true \/ c = 46%N.
Section Inv.
  Context {R : Type}.
  Lemma one_inv (p : N -> bool) (k : cont (R := R)) s r : m_one p k s = Some r -> exists c t, s = c :: t /\ p c = true /\ k t = Some r.
  Proof. unfold m_one. destruct s as [|c t]; [discriminate|]. destruct (p c) eqn:Ec; [|discriminate]. eauto. Qed.
  Lemma orelse_inv (a b : option R) r : orelse a b = Some r -> a = Some r \/ b = Some r.
  Proof. unfold orelse. destruct a; auto. Qed.
  Lemma star_inv (p : N -> bool) (k : cont (R := R)) s r : m_star p k s = Some r -> exists u t, s = u ++ t /\ Forall (fun c => p c = true) u /\ k t = Some r.
  Proof.
    induction s as [|c s IH]; cbn [m_star]; intros H; [exists [], []; auto|]. destruct (p c) eqn:Ec; [|exists [], (c :: s); auto].
    apply orelse_inv in H. destruct H as [H|H]; [|exists [], (c :: s); auto]. destruct (IH H) as (u & t & -> & Hu & Hk). exists (c :: u), t. auto.
  Qed.
  Lemma plus_inv (p : N -> bool) (k : cont (R := R)) s r : m_plus p k s = Some r -> exists u t, s = u ++ t /\ u <> [] /\ Forall (fun c => p c = true) u /\ k t = Some r.
  Proof.
    intros H. apply one_inv in H. destruct H as (c & t & -> & Hc & H). apply star_inv in H. destruct H as (u & t' & -> & Hu & Hk). exists (c :: u), t'. split; [reflexivity|]. split; [discriminate|]. auto.
  Qed.
  Lemma mant_inv (k : cont (R := R)) s r : m_mant k s = Some r -> exists u t, s = u ++ t /\ u <> [] /\ Forall numeral u /\ k t = Some r.
  Proof.
    unfold m_mant. intros H. apply orelse_inv in H. destruct H as [H|H].
    - apply plus_inv in H. destruct H as (u & t & -> & Hn & Hu & H). assert (Hu' : Forall numeral u) by (eapply Forall_impl; [|exact Hu]; intros c Hc; right; left; exact Hc).
      apply orelse_inv in H. destruct H as [H|H]; [|exists u, t; auto]. apply one_inv in H. destruct H as (c & t' & -> & Hc & H). apply star_inv in H. destruct H as (v & t & -> & Hv & H).
      exists (u ++ c :: v), t. split; [rewrite <- app_assoc; reflexivity|]. split; [destruct u; discriminate|]. split; [|exact H]. apply Forall_app. split; auto. constructor.
      + right; right. apply N.eqb_eq in Hc. auto.
      + eapply Forall_impl; [|exact Hv]. intros x Hx. right; left; exact Hx.
    - apply one_inv in H. destruct H as (c & t' & -> & Hc & H). apply plus_inv in H. destruct H as (v & t & -> & _ & Hv & H). exists (c :: v), t. split; [reflexivity|]. split; [discriminate|]. split; [|exact H]. constructor.
      + right; right. apply N.eqb_eq in Hc. auto.
      + eapply Forall_impl; [|exact Hv]. intros x Hx. right; left; exact Hx.
  Qed.
  Lemma float_inv (k : cont (R := R)) s r : m_conv Cf k s = Some r -> exists u t, s = u ++ t /\ u <> [] /\ Forall numeral u /\ k t = Some r.
  Proof.
    cbn [m_conv]. unfold m_opt. intros H. apply orelse_inv in H. destruct H as [H|H]; [|apply mant_inv; auto]. apply one_inv in H. destruct H as (c & t & -> & Hc & H). apply mant_inv in H.
    destruct H as (u & t' & -> & Hn & Hu & H). exists (c :: u), t'. split; [reflexivity|]. split; [discriminate|]. split; [constructor; auto; left; auto|auto].
  Qed.
End Inv.
Lemma fixed_numeral t m e : fixed_text t m e -> Forall numeral t /\ t <> [].
Proof.
  intros (sg & neg & ip & dot & fp & Hs & Hi & Hf & Hd & Hn & -> & _). split.
  - assert (D : forall ds, Forall digit ds -> Forall numeral ds) by (intros ds H; apply digits_dec in H; eapply Forall_impl; [|exact H]; intros c Hc; right; left; exact Hc).
    apply Forall_app. split; [destruct Hs as [[-> _]|[[-> _]|[-> _]]]; constructor; auto; left; reflexivity|]. apply Forall_app. split; auto. apply Forall_app. split; auto.
    destruct Hd as [->|[-> _]]; constructor; auto. right; right; reflexivity.
  - intros Q. apply app_eq_nil in Q. destruct Q as [_ Q]. apply app_eq_nil in Q. destruct Q as [-> Q]. apply app_eq_nil in Q. destruct Q as [_ ->]. apply Hn. reflexivity.
Qed.
(** a numeral and what follows *)
Lemma numeral_split a u : Forall numeral a -> Forall numeral u -> forall c t r, ~ numeral c -> a ++ c :: t = u ++ r -> exists v, a = u ++ v /\ r = v ++ c :: t.
Proof.
  revert u; induction a as [|x a IH]; intros [|y u] Ha Hu c t r Hc H; cbn [app] in H.
  - exists []. auto.
  - injection H as -> _. inversion Hu; subst. contradiction.
  - exists (x :: a). auto.
  - injection H as -> H. inversion Ha; inversion Hu; subst. destruct (IH u) with (c := c) (t := t) (r := r) as (v & -> & ->); auto. exists v. auto.
Qed.
Lemma pieces_lit c ps s gs : m_pieces (PChar c :: ps) s = Some gs -> exists t, s = c :: t /\ m_pieces ps t = Some gs.
Proof. cbn [m_pieces]. intros H. apply one_inv in H. destruct H as (c' & t & -> & Hc & H). apply N.eqb_eq in Hc. subst c'. eauto. Qed.
Lemma pieces_float ps s gs : m_pieces (PConv Cf :: ps) s = Some gs -> exists u t gs', s = u ++ t /\ u <> [] /\ Forall numeral u /\ m_pieces ps t = Some gs'.
Proof.
  cbn [m_pieces]. intros H. apply float_inv in H. destruct H as (u & t & -> & Hn & Hu & H). destruct (m_pieces ps t) as [gs'|] eqn:E1; [|discriminate]. exists u, t, gs'. auto.
Qed.
Lemma not_numeral c : is_sign c = false -> is_dec c = false -> c <> 46%N -> ~ numeral c.
Proof. intros H1 H2 H3 [Q|[Q|Q]]; congruence. Qed.
Ltac nn := apply not_numeral; [reflexivity|reflexivity|discriminate].
Definition fmt1 := L "#X %fKohm (%fC)". Definition fmt2 := L "#X %f %f". Definition fmt3 := L "#X Control: %fK  Sample: %fK".
Definition ps1 := map PChar (L "#X ") ++ PConv Cf :: map PChar (L "Kohm (") ++ PConv Cf :: map PChar (L "C)").
Definition ps2 := map PChar (L "#X ") ++ PConv Cf :: map PChar (L " ") ++ PConv Cf :: [].
Lemma scanf_none fmt ps s : compile fmt = Ok ps -> m_pieces ps s = None -> snd (scanf [] fmt s) = Ok None.
Proof. intros H1 H2. unfold scanf, scanf_compile. cbn [dget]. rewrite H1. cbn [snd]. unfold scanf_with. rewrite H2. reflexivity. Qed.
Lemma pieces_lits t ps s : m_pieces (map PChar t ++ ps) (t ++ s) = m_pieces ps s.
Proof. induction t as [|c t IH]; [reflexivity|]. cbn [map app m_pieces m_one]. unfold is_c. rewrite N.eqb_refl. exact IH. Qed.
Lemma not_fmt1_num a c t : Forall numeral a -> ~ numeral c -> c <> 75%N -> snd (scanf [] fmt1 (L "#X " ++ a ++ c :: t)) = Ok None.
Proof.
  intros Ha Hc HK. apply (scanf_none _ ps1); [reflexivity|]. unfold ps1. rewrite pieces_lits.
  match goal with |- ?x = None => destruct x as [gs|] eqn:E1; auto end. exfalso.
  apply pieces_float in E1. destruct E1 as (u & r & gs' & Q1 & Hu & Hn & E1). cbn [map L app list_ascii_of_string] in E1. apply pieces_lit in E1. destruct E1 as (r' & -> & _).
  destruct (numeral_split a u Ha Hn c t _ Hc Q1) as (v & -> & Q). destruct v as [|x v]; cbn [app] in Q; injection Q as <- _; [apply HK; reflexivity|].
  apply Forall_app in Ha. destruct Ha as [_ Ha]. inversion Ha as [|? ? Hx _]; subst. revert Hx. nn.
Qed.
Lemma not_float c s ps : ~ numeral c -> m_pieces (PConv Cf :: ps) (c :: s) = None.
Proof.
  intros Hc. destruct (m_pieces (PConv Cf :: ps) (c :: s)) as [gs|] eqn:E1; auto. exfalso. apply pieces_float in E1. destruct E1 as (u & r & gs' & Q & Hu & Hn & _).
  destruct u as [|x u]; [congruence|]. injection Q as -> _. inversion Hn; subst. contradiction.
Qed.
Lemma not_fmt1_C s : snd (scanf [] fmt1 (L "#X " ++ 67%N :: s)) = Ok None.
Proof. apply (scanf_none _ ps1); [reflexivity|]. unfold ps1. rewrite pieces_lits. apply not_float. nn. Qed.
Lemma not_fmt2_C s : snd (scanf [] fmt2 (L "#X " ++ 67%N :: s)) = Ok None.
Proof. apply (scanf_none _ ps2); [reflexivity|]. unfold ps2. rewrite pieces_lits. apply not_float. nn. Qed.
Lemma printed_lits t : Forall (fun c => ~ In c (L "%^$|")) t -> forall fmt s vs, printed fmt s vs -> printed (t ++ fmt) (t ++ s) vs.
Proof. induction 1; intros; cbn [app]; [auto|]. apply Pr_lit; auto. Qed.
Ltac lits := repeat constructor; intros Q; cbn in Q; decompose [or] Q; try discriminate; auto.
Lemma ends_f c t : is_dec c = false -> c <> 46%N -> ends (L "%f") (c :: t).
Proof.
  intros H1 H2. unfold ends. split; [intros [Q|[Q|Q]]; discriminate|]. split; [|split; [intros [Q|[Q|Q]]; discriminate|split; [discriminate|intros [Q|Q]; discriminate]]].
  intros _ (c' & t' & Q & Hc). injection Q as <- <-. unfold any_digit in Hc. destruct Hc; congruence.
Qed.
Lemma ends_f_not t : ~ starts_with (fun c => any_digit c \/ c = 46%N) t -> ends (L "%f") t.
Proof. intros H. unfold ends. split; [intros [Q|[Q|Q]]; discriminate|]. split; [auto|split; [intros [Q|[Q|Q]]; discriminate|split; [discriminate|intros [Q|Q]; discriminate]]]. Qed.
Definition x_parse (line : str) : res (option (fl * fl)) :=
  (fix go fmts := match fmts with
     | [] => Ok None
     | f :: t => match snd (scanf [] f line) with
                 | Ok (Some [VFloat a; VFloat b]) => Ok (Some (a, b))
                 | Ok None => go t
                 | Ok (Some _) => Raise ValueError
                 | Raise e => Raise e
                 end
     end) X_formats.
Lemma x_form_parse l a b : x_form l a b -> x_parse l = Ok (Some (a, b)).
Proof.
  unfold x_parse, X_formats. cbn [map]. change (L "#X %fKohm (%fC)") with fmt1. change (L "#X %f %f") with fmt2. change (L "#X Control: %fK  Sample: %fK") with fmt3. intros H. destruct H as [a m e b m' e' rest Ha Hb|a m e b m' e' rest Ha Hb Hr|a m e b m' e' rest Ha Hb].
  - assert (P : snd (scanf [] fmt1 (L "#X " ++ a ++ L "Kohm (" ++ b ++ L "C)" ++ rest)) = Ok (Some [VFloat (FDec m e); VFloat (FDec m' e')])); [|rewrite P; reflexivity].
    apply C46_lemma; [constructor|]. change fmt1 with (L "#X " ++ L "%f" ++ L "Kohm (" ++ L "%f" ++ L "C)" ++ []).
    apply printed_lits; [lits|]. apply Pr_field; [constructor; auto|apply ends_f; [reflexivity|discriminate]|]. apply printed_lits; [lits|]. apply Pr_field; [constructor; auto|apply ends_f; [reflexivity|discriminate]|]. apply printed_lits; [lits|]. constructor.
  - destruct (fixed_numeral _ _ _ Ha) as [Na _].
    assert (P1 : snd (scanf [] fmt1 (L "#X " ++ a ++ L " " ++ b ++ rest)) = Ok None) by (apply (not_fmt1_num a SP (b ++ rest) Na); [nn|discriminate]). rewrite P1.
    assert (P : snd (scanf [] fmt2 (L "#X " ++ a ++ L " " ++ b ++ rest)) = Ok (Some [VFloat (FDec m e); VFloat (FDec m' e')])); [|rewrite P; reflexivity].
    apply C46_lemma; [constructor|]. change fmt2 with (L "#X " ++ L "%f" ++ L " " ++ L "%f" ++ []).
    apply printed_lits; [lits|]. apply Pr_field; [constructor; auto|apply ends_f; [reflexivity|discriminate]|]. apply printed_lits; [lits|]. apply Pr_field; [constructor; auto|apply ends_f_not; auto|]. constructor.
  - assert (P1 : snd (scanf [] fmt1 (L "#X Control: " ++ a ++ L "K  Sample: " ++ b ++ L "K" ++ rest)) = Ok None) by (apply (not_fmt1_C (L "ontrol: " ++ a ++ L "K  Sample: " ++ b ++ L "K" ++ rest))). rewrite P1.
    assert (P2 : snd (scanf [] fmt2 (L "#X Control: " ++ a ++ L "K  Sample: " ++ b ++ L "K" ++ rest)) = Ok None) by (apply (not_fmt2_C (L "ontrol: " ++ a ++ L "K  Sample: " ++ b ++ L "K" ++ rest))). rewrite P2.
    assert (P : snd (scanf [] fmt3 (L "#X Control: " ++ a ++ L "K  Sample: " ++ b ++ L "K" ++ rest)) = Ok (Some [VFloat (FDec m e); VFloat (FDec m' e')])); [|rewrite P; reflexivity].
    apply C46_lemma; [constructor|]. change fmt3 with (L "#X Control: " ++ L "%f" ++ L "K  Sample: " ++ L "%f" ++ L "K" ++ []).
    apply printed_lits; [lits|]. apply Pr_field; [constructor; auto|apply ends_f; [reflexivity|discriminate]|]. apply printed_lits; [lits|]. apply Pr_field; [constructor; auto|apply ends_f; [reflexivity|discriminate]|]. apply printed_lits; [lits|]. constructor.
Qed.
Lemma process_X_ok line w w' : process_X line w = (w', Ok tt) -> exists r, x_parse line = Ok r /\
  match r with Some (a, b) => me w' A_TEMP_SP = Some a /\ me w' A_DEGC_SP = Some b | None => w' = w end.
Proof.
  unfold process_X, x_parse. generalize X_formats. induction l as [|f l IH]; cbn [process_X_fmts]; intros H.
  - apply ret_ok in H. destruct H as [-> _]. exists None. auto.
  - apply mbind_ok in H. destruct H as (w1 & v & G & H). apply lift_ok in G. destruct G as [-> G]. rewrite G.
    destruct v as [[|[?|?|a] [|[?|?|b] [|? ?]]]|]; try (apply raise_ok in H; destruct H).
    + exists (Some (a, b)). split; [reflexivity|]. mgo H. split; mfin.
    + apply IH; auto.
Qed.
Section X.
  Context (E : env) (known : list hid) (Hk : incl all_hids known).
  Lemma C89_X_lemma s name sc s' sc' ls : first_interpret E known s name sc s' sc' -> lines_of (s_raw sc) ls ->
    (Forall (fun l => ~ control H_X l) ls -> s_obj sc' A_TEMP_SP = None /\ s_obj sc' A_DEGC_SP = None) /\
    (forall l a b, last_line_of H_X ls l -> x_form l a b -> attr_is sc' A_TEMP_SP a /\ attr_is sc' A_DEGC_SP b).
  Proof.
    intros Hf Hl.
    destruct (last_attr E known Hk H_X [A_TEMP_SP; A_DEGC_SP] _ _ _ _ _ _ ltac:(discriminate) ltac:(discriminate)
      ltac:(intros h' a K1 K2; destruct h'; try congruence; cbn in *; intros K3; decompose [or] K3; subst; decompose [or] K2; try discriminate; auto)
      ltac:(intros p a K2; destruct p; cbn in *; intros K3; decompose [or] K3; subst; decompose [or] K2; try discriminate; auto)
      ltac:(intros a K2 K3; cbn in *; decompose [or] K3; subst; decompose [or] K2; try discriminate; auto) Hf Hl) as [[H1 H2]|(l' & wa & wb & H1 & H2 & H3 & H4)].
    - split.
      + intros _. rewrite !H2 by (simpl; auto). auto.
      + intros l a b (pre & post & -> & Hc & _) _. rewrite Forall_forall in H1. exfalso. apply (H1 l); auto. apply in_elt.
    - split.
      + intros H. destruct H1 as (pre & post & -> & Hc & _). rewrite Forall_forall in H. exfalso. apply (H l'); auto. apply in_elt.
      + intros l a b Hll Hx. rewrite (last_line_fun _ _ _ _ H1 Hll) in H3. cbn [process] in H3. apply process_X_ok in H3. destruct H3 as (r & Hr & H3). rewrite (x_form_parse _ _ _ Hx) in Hr. injection Hr as <-.
        unfold attr_is. rewrite !H4 by (simpl; auto). exact H3.
  Qed.
End X.
