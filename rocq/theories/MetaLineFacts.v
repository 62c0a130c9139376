(** C61: proofs about #MD lines. *)
From Coq Require Import String Lia.
From Verif Require Import Uni Py PyFacts NumFacts Utils Keys Handlers Reader SpecText SpecUtils SpecReader SpecNum SpecHistory SpecKeys SpecInterp SpecMeta
  TextFacts UtilsFacts KeyFacts ReaderFacts2 ReaderFacts5 DispatchFacts FrameFacts StateFacts InterpFacts MonadFacts HandlerFacts MetaFacts.
Import ListNotations.
Local Open Scope list_scope.

(** the lines read so far and the dictionary *)
Inductive md_state : list str -> dict str -> Prop :=
| Md_nil : md_state [] []
| Md_pair ls d l k v : md_state ls d -> md_pair l k v -> md_state (ls ++ [l]) (dset k v d)
| Md_bad ls d l v : md_state ls d -> md_bad l -> trimmed l v -> md_state (ls ++ [l]) (dset (L "MD_line_" ++ str_of_nat (List.length d + 1)) v d).


Lemma trimmed_strip s t : trimmed s t <-> t = strip s.
Proof.
  unfold trimmed. rewrite tight_tight_by. split.
  - intros ((u & v & -> & Hu & Hv) & Ht). symmetry. apply strip_by_tight; auto; apply blank_forallb; auto.
  - intros ->. destruct (strip_by_split is_space s) as (a & b & Hs & Ha & Hb & Ht). split; [|exact Ht].
    exists a, b. split; [exact Hs|]. split; apply blank_forallb; auto.
Qed.
Lemma find_pair l n : find_c 61%N l = Some n -> exists a b, l = a ++ L "=" ++ b /\ ~ In 61%N a /\ List.length a = n /\ slice_from (Z.of_nat n + 1) l = b.
Proof.
  intros H. pose proof (find_c_spec 61%N l) as S. rewrite H in S. destruct S as (a & b & Hl & Hi & Hn).
  exists a, b. split; [exact Hl|]. split; [auto|]. split; [exact Hn|]. replace (Z.of_nat n + 1)%Z with (Z.of_nat (S n)) by lia.
  rewrite slice_from_nat, Hl, skipn_app, (skipn_all2 a) by lia. cbn [app]. replace (S n - List.length a) with 1 by lia. reflexivity.
Qed.
Lemma first_eq (a b a' b' : str) : a ++ L "=" ++ b = a' ++ L "=" ++ b' -> ~ In 61%N a -> ~ In 61%N a' -> a = a' /\ b = b'.
Proof.
  revert a'. induction a as [|x a IH]; intros [|x' a'] H Ha Ha'; cbn [app] in H.
  - change (L "=" ++ b = L "=" ++ b') in H. apply app_inv_head in H. auto.
  - exfalso. apply Ha'. left. change (61%N :: b = x' :: a' ++ L "=" ++ b') in H. injection H as H _. auto.
  - exfalso. apply Ha. left. change (x :: a ++ L "=" ++ b = 61%N :: b') in H. injection H as H _. auto.
  - injection H as H1 H2. subst x'. destruct (IH a' H2) as [-> ->]; [intros Q; apply Ha; right; auto|intros Q; apply Ha'; right; auto|auto].
Qed.
Lemma md_pair_inj l k v k' v' : md_pair l k v -> md_pair l k' v' -> k = k' /\ v = v'.
Proof.
  intros (a & b & Hl & Ha & _ & Hk & Hv) (a' & b' & Hl' & Ha' & _ & Hk' & Hv'). rewrite Hl in Hl'. destruct (first_eq _ _ _ _ Hl' Ha Ha') as [<- <-].
  apply trimmed_strip in Hv, Hv'. apply second_words in Hk, Hk'. destruct Hk as (w & ws & H1), Hk' as (w' & ws' & H2). split; congruence.
Qed.
Lemma md_pair_bad l k v : md_pair l k v -> ~ md_bad l.
Proof. intros (a & b & Hl & Ha & Hn & _) Hb. specialize (Hb _ _ Hl Ha). lia. Qed.

Lemma last_snoc {A} (key : A -> str -> Prop) k ls x l : last_with key k (ls ++ [x]) l <-> (key x k /\ l = x) \/ (~ key x k /\ last_with key k ls l).
Proof.
  split.
  - intros (pre & post & E & Hk & Hf). destruct post as [|y post] using rev_ind.
    + apply app_inj_tail in E. destruct E as [_ <-]. auto.
    + clear IHpost. right. change (l :: post ++ [y]) with ((l :: post) ++ [y]) in E. rewrite app_assoc in E. apply app_inj_tail in E. destruct E as [-> ->].
      apply Forall_app in Hf. destruct Hf as [Hf Hy]. inversion Hy; subst. split; auto. exists pre, post. auto.
  - intros [[Hk ->]|[Hk (pre & post & -> & Hl & Hf)]].
    + exists ls, []. split; [reflexivity|]. split; [auto|constructor].
    + exists pre, (post ++ [x]). split; [rewrite <- app_assoc; reflexivity|]. split; auto. apply Forall_app. split; auto.
Qed.

Lemma state_nodup ls d : md_state ls d -> NoDup (keys d).
Proof. induction 1; [constructor|apply NoDup_dset; auto|apply NoDup_dset; auto]. Qed.
Lemma state_each ls d : md_state ls d -> Forall (fun l => (exists k v, md_pair l k v) \/ md_bad l) ls.
Proof. induction 1; [constructor| |]; apply Forall_app; split; auto; constructor; eauto. Qed.
Lemma line_key_make n : line_key (L "MD_line_" ++ str_of_nat n).
Proof. exists (str_of_nat n), n. split; [apply numeral_str|reflexivity]. Qed.
Lemma state_get ls d : md_state ls d -> forall k v, ~ line_key k ->
  (dget k d = Some v <-> exists l, last_with (fun l k => exists v, md_pair l k v) k ls l /\ md_pair l k v).
Proof.
  induction 1 as [|ls d l k0 v0 H IH Hp|ls d l v0 H IH Hb Ht]; intros k v Hk.
  - split; [discriminate|]. intros (l & (pre & post & E & _) & _). destruct pre; discriminate.
  - destruct (str_eq_dec k k0) as [->|Hn].
    + rewrite dget_dset_same. split.
      * intros Q. injection Q as <-. exists l. rewrite last_snoc. eauto.
      * intros (l' & Hl & Hp'). apply last_snoc in Hl. destruct Hl as [[_ ->]|[Q _]]; [|exfalso; eauto]. destruct (md_pair_inj _ _ _ _ _ Hp Hp'). congruence.
    + rewrite dget_dset_other by auto. rewrite IH by auto. split; intros (l' & Hl & Hp'); exists l'; split; auto.
      * apply last_snoc. right. split; auto. intros (v' & Q). destruct (md_pair_inj _ _ _ _ _ Hp Q). congruence.
      * apply last_snoc in Hl. destruct Hl as [[(v' & Q) ->]|[_ Hl]]; auto. destruct (md_pair_inj _ _ _ _ _ Hp Q). congruence.
  - assert (Hn : k <> L "MD_line_" ++ str_of_nat (List.length d + 1)) by (intros ->; apply Hk, line_key_make).
    rewrite dget_dset_other by auto. rewrite IH by auto. split; intros (l' & Hl & Hp'); exists l'; split; auto.
    + apply last_snoc. right. split; auto. intros (v' & Q). exact (md_pair_bad _ _ _ Q Hb).
    + apply last_snoc in Hl. destruct Hl as [[(v' & Q) ->]|[_ Hl]]; auto. destruct (md_pair_bad _ _ _ Q Hb).
Qed.

(** the made keys *)
Definition small (d : dict str) : Prop := forall k, In k (keys d) -> line_key k -> exists n, n <= List.length d /\ k = L "MD_line_" ++ str_of_nat n.
Lemma length_dset {V} k (v : V) d : List.length d <= List.length (dset k v d).
Proof. induction d as [|[k' v'] d IH]; cbn [dset List.length]; [lia|]. destruct (seqb k k'); cbn [List.length]; lia. Qed.
Lemma Keeps_snoc {A} (P : A -> Prop) l k x : Keeps P l k -> (P x -> Keeps P (l ++ [x]) (k ++ [x])) /\ (~ P x -> Keeps P (l ++ [x]) k).
Proof.
  induction 1 as [|y l k Hy H IH|y l k Hy H IH]; split; intros Hx; cbn [app].
  - apply Keeps_yes; auto; constructor.
  - apply Keeps_no; auto; constructor.
  - apply Keeps_yes; auto. apply IH; auto.
  - apply Keeps_yes; auto. apply IH; auto.
  - apply Keeps_no; auto. apply IH; auto.
  - apply Keeps_no; auto. apply IH; auto.
Qed.
Lemma Keeps_dset (P : str -> Prop) k v (d es : dict str) : ~ P k -> Keeps (fun kv => P (fst kv)) d es -> Keeps (fun kv => P (fst kv)) (dset k v d) es.
Proof.
  intros Hk H. induction H as [|[k' v'] d es Hy H IH|[k' v'] d es Hy H IH]; cbn [dset].
  - apply Keeps_no; auto. constructor.
  - destruct (seqb k k') eqn:E; [apply seqb_eq in E; subst k'; destruct (Hk Hy)|apply Keeps_yes; auto].
  - destruct (seqb k k') eqn:E; [apply Keeps_no; auto|apply Keeps_no; auto].
Qed.
Lemma state_small ls d : md_state ls d -> (forall l k v, In l ls -> md_pair l k v -> ~ line_key k) -> small d.
Proof.
  induction 1 as [|ls d l k0 v0 H IH Hp|ls d l v0 H IH Hb Ht]; intros Hg k Hin Hk.
  - destruct Hin.
  - apply keys_dset_in in Hin. destruct Hin as [->|Hin]; [exfalso; refine (Hg l k0 v0 _ Hp Hk); apply in_elt|].
    destruct (IH ltac:(intros x k1 v1 Hx; apply Hg; apply in_or_app; auto) k Hin Hk) as (n & Hn & Q). exists n. split; auto.
    pose proof (length_dset k0 v0 d). lia.
  - apply keys_dset_in in Hin. destruct Hin as [->|Hin].
    + exists (List.length d + 1). split; [|reflexivity]. assert (F : ~ In (L "MD_line_" ++ str_of_nat (List.length d + 1)) (keys d)).
      { intros Q. destruct (IH ltac:(intros x k1 v1 Hx; apply Hg; apply in_or_app; auto) _ Q Hk) as (n & Hn & Q'). apply app_inv_head in Q'. apply str_of_nat_inj in Q'. lia. }
      rewrite dset_fresh by auto. rewrite app_length. cbn. lia.
    + destruct (IH ltac:(intros x k1 v1 Hx; apply Hg; apply in_or_app; auto) k Hin Hk) as (n & Hn & Q). exists n. split; auto.
      pose proof (length_dset (L "MD_line_" ++ str_of_nat (List.length d + 1)) v0 d). lia.
Qed.
Lemma state_bad ls d : md_state ls d -> (forall l k v, In l ls -> md_pair l k v -> ~ line_key k) ->
  exists bs es, Keeps md_bad ls bs /\ Keeps (fun kv => line_key (fst kv)) d es /\ Forall2 (fun l kv => trimmed l (snd kv)) bs es.
Proof.
  induction 1 as [|ls d l k0 v0 H IH Hp|ls d l v0 H IH Hb Ht]; intros Hg.
  - exists [], []. split; [constructor|]. split; constructor.
  - destruct IH as (bs & es & H1 & H2 & H3); [intros x k v Hx; apply Hg; apply in_or_app; auto|]. exists bs, es. split; [|split; auto].
    + apply (proj2 (Keeps_snoc md_bad ls bs l H1)). exact (md_pair_bad _ _ _ Hp).
    + apply Keeps_dset; auto. refine (Hg l k0 v0 _ Hp); apply in_elt.
  - assert (Hg' : forall x k v, In x ls -> md_pair x k v -> ~ line_key k) by (intros x k v Hx; apply Hg; apply in_or_app; auto).
    destruct (IH Hg') as (bs & es & H1 & H2 & H3). exists (bs ++ [l]), (es ++ [(L "MD_line_" ++ str_of_nat (List.length d + 1), v0)]). split; [|split].
    + apply (proj1 (Keeps_snoc md_bad ls bs l H1)). auto.
    + rewrite dset_fresh; [|intros Q; destruct (state_small _ _ H Hg' _ Q (line_key_make _)) as (n & Hn & Q'); apply app_inv_head in Q'; apply str_of_nat_inj in Q'; lia].
      apply (proj1 (Keeps_snoc (fun kv => line_key (fst kv)) d es (L "MD_line_" ++ str_of_nat (List.length d + 1), v0) H2)). apply line_key_make.
    + apply Forall2_app; auto.
Qed.

Section Lines.
  Context (E : env) (known : list hid) (Hk : incl all_hids known).
  Definition md_inv (done : list str) (w : world) : Prop :=
    exists d, md_state done d /\ me w A_MD = match done with [] => None | _ => Some d end.
  Lemma md_step line w w' done : md_inv done w -> process_MD line w = (w', Ok tt) -> md_inv (done ++ [line]) w'.
  Proof.
    intros (d & Hd & Hm) H. assert (E0 : match done with [] => @None (dict str) | _ => Some d end = None -> d = []).
    { destruct done; [|discriminate]. intros _. inversion Hd; auto; destruct ls; discriminate. }
    unfold process_MD in H. apply mbind_ok in H. destruct H as (w1 & u & H1 & H). apply ensure_ok in H1. destruct H1 as (_ & _ & H1 & _).
    assert (Hw1 : me w1 A_MD = Some d).
    { transitivity (Some (match me w A_MD with Some v => v | None => @nil (str * str) end)); [exact H1|]. rewrite Hm. destruct done; [rewrite (E0 eq_refl)|]; reflexivity. }
    clear H1. apply mbind_ok in H. destruct H as (w2 & d2 & H2 & H). apply getA_ok in H2. destruct H2 as [<- H2]. rewrite Hw1 in H2. apply Some_inj in H2. subst d2.
    cbv zeta in H. apply mbind_ok in H. destruct H as (w3 & [k v] & H3 & H). apply mbind_ok in H. destruct H as (w4 & u4 & H4 & H). apply setA_ok in H4. cbn [fst snd] in H4.
    assert (Hw : me w' A_MD = Some (dset k v d)).
    { apply addH5_ok in H. destruct H as (_ & _ & H & _). rewrite H by discriminate. subst w4. cbn [me]. apply upd_same. }
    exists (dset k v d). split; [|rewrite Hw; destruct done; reflexivity].
    destruct (find_c 61%N line) as [n|] eqn:Ef.
    - apply find_pair in Ef. destruct Ef as (a & b & El & Ha & Hn & Hb). cbn [pos_of] in H3. destruct (5 <? Z.of_nat n)%Z eqn:E5.
      + apply Z.ltb_lt in E5. apply mbind_ok in H3. destruct H3 as (w5 & k5 & H5 & H3). apply lift_ok in H5. destruct H5 as [_ H5]. apply ret_ok in H3. destruct H3 as [_ H3].
        injection H3 as -> ->. apply Md_pair; auto. exists a, b. split; [auto|]. split; [auto|]. split; [lia|]. split; [|apply trimmed_strip; congruence].
        apply second_words. destruct (words line) as [|x [|y ws]]; [discriminate|discriminate|]. exists x, ws. cbn in H5. injection H5 as ->. reflexivity.
      + apply Z.ltb_ge in E5. apply ret_ok in H3. destruct H3 as [_ H3]. injection H3 as -> ->. apply Md_bad; [exact Hd| |apply trimmed_strip; auto].
        intros a' b' El' Ha'. rewrite El in El'. destruct (first_eq _ _ _ _ El' Ha Ha') as [<- _]. lia.
    - cbn [pos_of] in H3. change (5 <? -1)%Z with false in H3. apply ret_ok in H3. destruct H3 as [_ H3]. injection H3 as -> ->. apply Md_bad; [exact Hd| |apply trimmed_strip; auto].
      apply find_c_none in Ef. intros a' b' El' _. exfalso. apply Ef. rewrite El'. apply in_or_app. right. left. reflexivity.
  Qed.

  Lemma C61_lemma s name sc s' sc' ls : first_interpret E known s name sc s' sc' -> lines_of (s_raw sc) ls ->
    exists ms d, Keeps (control H_MD) ls ms /\ ((ms = [] /\ s_obj sc' A_MD = None) \/ (ms <> [] /\ s_obj sc' A_MD = Some d)) /\ md_state ms d.
  Proof.
    intros Hf Hl. apply lines_of_scan_lines in Hl. subst ls.
    pose proof (keeps_control known Hk H_MD (s_raw sc) ltac:(discriminate) ltac:(discriminate)) as K.
    destruct (first_interpret_ran E known _ _ _ _ _ Hf) as (w0 & w1 & w & R).
    destruct (ran_w0 _ _ _ _ _ _ _ _ _ R) as (Hw & Hm & _).
    assert (Hinit : md_inv [] w0).
    { exists []. split; [constructor|]. rewrite Hm. refine (untouched_none _ _ A_MD (ran_fresh _ _ _ _ _ _ _ _ _ R) _ _); [|reflexivity]. cbn; intros Q; decompose [or] Q; try discriminate; auto. }
    pose proof (iter_inv E (scan_line E known) (eff known) (scan_step E known Hk) (only H_MD) md_inv) as IV.
    specialize (IV ltac:(intros h line u u' done Hh Hi Hpr; apply only_true in Hh; subst h; eapply md_step; eauto)).
    assert (IK : forall h line u u' done, only H_MD h = false -> md_inv done u -> process E h line u = (u', Ok tt) -> md_inv done u').
    { intros h line u u' done Hh (d & Hd & Hi) Hpr. exists d. split; [exact Hd|]. rewrite <- Hi. pose proof (frame_process E h line u) as (_ & [F _] & _). rewrite Hpr in F. cbn [fst] in F. apply F.
      destruct h; cbn; intros Q; try discriminate Hh; decompose [or] Q; try discriminate; auto. }
    specialize (IV IK _ _ _ [] (ran_lines _ _ _ _ _ _ _ _ _ R) Hinit). clear IK. cbn [app] in IV.
    change (List.filter (chosen (eff known) (only H_MD)) (scan_lines (s_raw sc))) with (lines_h known (only H_MD) (scan_lines (s_raw sc))) in IV.
    destruct IV as (d & Hd & Hi). exists (lines_h known (only H_MD) (scan_lines (s_raw sc))), d. split; [exact K|]. split; [|exact Hd].
    rewrite (ran_obj _ _ _ _ _ _ _ _ _ R), (posts_keep E A_MD w1 w (Ok tt) ltac:(intros p; destruct p; cbn; intros Q; decompose [or] Q; try discriminate; auto) (ran_posts _ _ _ _ _ _ _ _ _ R)).
    rewrite Hi. destruct (lines_h known (only H_MD) (scan_lines (s_raw sc))); [left; auto|right; split; [discriminate|reflexivity]].
  Qed.
  Lemma C61_full s name sc s' sc' ls : first_interpret E known s name sc s' sc' -> lines_of (s_raw sc) ls ->
    exists ms d, Keeps (control H_MD) ls ms /\ ((ms = [] /\ s_obj sc' A_MD = None) \/ (ms <> [] /\ s_obj sc' A_MD = Some d)) /\ NoDup (keys d) /\
      Forall (fun l => (exists k v, md_pair l k v) \/ md_bad l) ms /\
      (forall k v, ~ line_key k -> (dget k d = Some v <-> exists l, last_with (fun l k => exists v, md_pair l k v) k ms l /\ md_pair l k v)) /\
      ((forall l k v, In l ms -> md_pair l k v -> ~ line_key k) ->
       exists bs es, Keeps md_bad ms bs /\ Keeps (fun kv => line_key (fst kv)) d es /\ Forall2 (fun l kv => trimmed l (snd kv)) bs es).
  Proof.
    intros Hf Hl. destruct (C61_lemma _ _ _ _ _ _ Hf Hl) as (ms & d & H1 & H2 & H3). exists ms, d. split; [exact H1|]. split; [exact H2|].
    split; [eapply state_nodup; eauto|]. split; [eapply state_each; eauto|]. split; [apply state_get; auto|apply state_bad; auto].
  Qed.
End Lines.
