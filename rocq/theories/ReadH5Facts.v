(** Reading back what was written *)
From Coq Require Import String Lia.
From Verif Require Import Py PyFacts Utils H5 SpecH5 SpecLinks SpecEntry H5Facts FrameH5 H5Exact SaveFacts EznxFacts MetaWrite2 EntryFacts ReadH5 SpecReadH5.
Import ListNotations.
Local Open Scope list_scope.

Lemma more_leads f f' i ps j : more f f' -> leads f i ps j -> leads f' i ps j.
Proof. intros (M & _) H. induction H; [constructor|econstructor; [apply M; eassumption|auto]]. Qed.
Lemma more_resolve f f' i p j : more f f' -> resolve i p f = Some j -> resolve i p f' = Some j.
Proof. intros M. unfold resolve. destruct p as [|c p]; [discriminate|]. rewrite !walk_leads. apply more_leads. exact M. Qed.
Lemma leads_app f i ps j qs k : leads f i ps j -> leads f j qs k -> leads f i (ps ++ qs) k.
Proof. induction 1; [auto|]. intros H2. cbn [app]. econstructor; eauto. Qed.

Lemma value_read v r : value_back v r -> read_value v = Ok r.
Proof.
  intros [s|x|l H|l H]; try reflexivity.
  - destruct l as [|a [|b l]]; cbn in H; try lia. reflexivity.
  - unfold read_value. cbn [List.length Nat.ltb Nat.leb]. destruct l as [|a [|b l]]; cbn in H; try lia. reflexivity.
Qed.
Lemma field_read g n f j v r : resolve (h_id g) n f = Some j -> dataset f j v -> value_back v r -> read_nexus_field g n f = Ok (Some r).
Proof. intros H (a & D) V. unfold read_nexus_field. rewrite H, D. cbn [bind]. rewrite (value_read v r V). reflexivity. Qed.

(** making a path *)
Lemma dig_walk ps : forall i f f' g, ok5 f -> dig ps i f = (f', Ok g) -> leads f' i ps g.
Proof.
  induction ps as [|n ps IH]; intros i f f' g K H; cbn [dig] in H.
  - assert (g = i) by congruence. subst. constructor.
  - destruct (nth_error f i) as [[ms a|v a]|] eqn:E; [|discriminate|discriminate]. destruct (dget n ms) as [j|] eqn:D.
    + pose proof (hq_dig ps j f K) as [_ M]. rewrite H in M. cbn [fst] in M. econstructor; [|eapply IH; eauto]. destruct M as (M & _). apply M. exists ms, a. auto.
    + apply MetaWrite2.bind_ok in H. destruct H as (j & f1 & H1 & H). apply MetaWrite2.bind_ok in H. destruct H as (u & f2 & H2 & H).
      pose proof (hq_alloc (Group [] []) ltac:(intros ? ? X; injection X; auto) f K) as [K1 _]. rewrite H1 in K1. cbn [fst] in K1.
      pose proof (hq_add i n j f1 K1) as [K2 _]. rewrite H2 in K2. cbn [fst] in K2.
      pose proof (hq_dig ps j f2 K2) as [_ M]. rewrite H in M. cbn [fst] in M. econstructor; [|eapply IH; eauto]. destruct M as (M & _). apply M.
      unfold add_member in H2. destruct (nth_error f1 i) as [[ms1 a1|]|] eqn:E1; [|discriminate|discriminate]. destruct (has n ms1) eqn:Hn; [discriminate|].
      destruct (Nat.leb (List.length f1) j); [discriminate|]. exists (ms1 ++ [(n, j)]), a1.
      assert (f2 = put_nth i (Group (ms1 ++ [(n, j)]) a1) f1) by congruence. subst f2.
      rewrite (put_nth_error _ _ _ _ E1), Nat.eqb_refl. split; [reflexivity|]. apply dget_none_app. exact Hn.
Qed.
Lemma create_leads i p nd f f' j : ok5 f -> (forall ms at_, nd = Group ms at_ -> ms = []) -> create_at i p nd f = (f', Ok j) ->
  parts p <> [] /\ leads f' (start i p) (parts p) j /\ nth_error f' j = Some nd.
Proof.
  intros K Hn H. unfold create_at in H. destruct (rev (parts p)) as [|n r] eqn:Er; [discriminate|].
  assert (Ep : parts p = rev r ++ [n]) by (rewrite <- (rev_involutive (parts p)), Er; reflexivity).
  apply MetaWrite2.bind_ok in H. destruct H as (g & f1 & H1 & H). apply MetaWrite2.bind_ok in H. destruct H as (u & f2 & H2 & H). apply MetaWrite2.bind_ok in H. destruct H as (j1 & f3 & H3 & H).
  apply MetaWrite2.bind_ok in H. destruct H as (u4 & f4 & H4 & H). unfold sret in H. assert (f4 = f' /\ j1 = j) as [-> ->] by (split; congruence). clear H.
  pose proof (hq_dig (rev r) (start i p) f K) as [K1 _]. rewrite H1 in K1. cbn [fst] in K1. pose proof (dig_walk _ _ _ _ _ K H1) as W.
  assert (f2 = f1) by (unfold free in H2; congruence). subst f2.
  pose proof (hq_alloc nd Hn f1 K1) as [K3 M3]. rewrite H3 in K3, M3. cbn [fst] in K3, M3.
  pose proof (hq_add g n j f3 K3) as [K4 M4]. rewrite H4 in K4, M4. cbn [fst] in K4, M4.
  assert (Ej : j = List.length f1 /\ f3 = f1 ++ [nd]) by (unfold alloc in H3; split; congruence). destruct Ej as [Ej E3].
  unfold add_member in H4. destruct (nth_error f3 g) as [[ms1 a1|]|] eqn:E1; [|discriminate|discriminate]. destruct (has n ms1) eqn:Hh; [discriminate|].
  destruct (Nat.leb (List.length f3) j); [discriminate|]. assert (E4 : f' = put_nth g (Group (ms1 ++ [(n, j)]) a1) f3) by congruence.
  assert (Ng : g <> j).
  { intros ->. rewrite Ej in E1. rewrite E3, nth_error_app2, Nat.sub_diag in E1 by lia. cbn in E1. destruct r as [|x r'].
    - cbn in W. inversion W; subst. unfold free in H2. assert (X : nth_error f1 (List.length f1) = None) by (apply nth_error_None; lia). rewrite X in H2. discriminate.
    - unfold free in H2. assert (X : nth_error f1 (List.length f1) = None) by (apply nth_error_None; lia). subst j. rewrite X in H2. discriminate. }
  split; [rewrite Ep; destruct (rev r); discriminate|]. split.
  - rewrite Ep. apply (leads_app _ _ _ g).
    + apply (more_leads f1); [|exact W]. eapply more_trans; eauto.
    + econstructor; [|constructor]. exists (ms1 ++ [(n, j)]), a1. rewrite E4, (put_nth_error _ _ _ _ E1), Nat.eqb_refl. split; [reflexivity|]. apply dget_none_app. exact Hh.
  - rewrite E4, (put_nth_error _ _ _ _ E1). destruct (Nat.eqb_spec j g); [congruence|]. rewrite E3, Ej, nth_error_app2, Nat.sub_diag by lia. reflexivity.
Qed.

Lemma back_value d r : comes_back d r -> exists v, to_hval d = Ok v /\ value_back v r.
Proof.
  assert (A : forall s u, ascii_of s u -> ascii s = u).
  { induction 1 as [|c s t H _ IH|c s t H _ IH]; [reflexivity| |]; unfold ascii; cbn [List.filter]; fold (ascii s).
    - destruct (N.ltb_spec c 128); [congruence|lia].
    - destruct (N.ltb_spec c 128); [lia|exact IH]. }
  assert (M : forall l m, Forall2 ascii_of l m -> map ascii l = m).
  { induction 1 as [|s u l m H _ IH]; [reflexivity|]. cbn [map]. rewrite (A s u H), IH. reflexivity. }
  intros [s u H|x|l m Hl H|l Hl|s u H|x|a n H1 H2 H3].
  - exists (HTexts [ascii s]). split; [reflexivity|]. rewrite (A s u H). constructor.
  - exists (HArr [1] [x]). split; [reflexivity|constructor].
  - exists (HTexts (map ascii l)). split; [destruct l; [cbn in Hl; lia|reflexivity]|]. rewrite (M l m H). constructor. rewrite <- (M l m H), map_length. exact Hl.
  - exists (HArr [List.length l] l). split; [destruct l; reflexivity|constructor; exact Hl].
  - exists (HTexts [ascii s]). split; [reflexivity|]. rewrite (A s u H). constructor.
  - exists (HArr [1] [x]). split; [reflexivity|constructor].
  - exists (HArr [n] (flat a)). split; [unfold to_hval; rewrite H1; destruct n; [lia|reflexivity]|]. rewrite <- H3. constructor. lia.
Qed.

Lemma made_value o n d l f f' h v : ok5 f -> makeDataset o n d l f = (f', Ok h) -> to_hval d = Ok v -> exists i, resolve (h_id o) n f' = Some i /\ dataset f' i v.
Proof.
  intros K H Ev. unfold makeDataset in H. apply MetaWrite2.bind_ok in H. destruct H as (v1 & f1 & H1 & H).
  unfold slift in H1. assert (f1 = f /\ v1 = v) as [-> ->] by (rewrite Ev in H1; split; congruence).
  apply MetaWrite2.bind_ok in H. destruct H as (i & f2 & H2 & H). cbv zeta in H. apply MetaWrite2.bind_ok in H. destruct H as (u & f3 & H3 & H). unfold sret in H. assert (f3 = f') by congruence. subst f3.
  destruct (create_leads (h_id o) n (Dset v []) f f2 i K ltac:(discriminate) H2) as (P & W & D).
  pose proof (hq_create (h_id o) n (Dset v []) ltac:(discriminate) f K) as [K2 _]. rewrite H2 in K2. cbn [fst] in K2.
  pose proof (hq_attrs (mk_handle i (sub_name (h_name o) n)) l f2 K2) as [_ M]. rewrite H3 in M. cbn [fst] in M.
  assert (R2 : resolve (h_id o) n f2 = Some i) by (unfold resolve; destruct n as [|c n']; [exfalso; apply P; reflexivity|apply walk_leads; exact W]).
  exists i. split; [eapply more_resolve; eauto|]. destruct M as (_ & M & _). apply M. exists []. exact D.
Qed.
Lemma written_value f o n d l f' h v : eznx_file f -> write_dataset o n d l f = (f', Ok h) -> to_hval d = Ok v -> exists i, resolve (h_id o) n f' = Some i /\ dataset f' i v.
Proof.
  intros K H R. apply eznx_ok in K. unfold write_dataset in H. apply MetaWrite2.bind_ok in H. destruct H as (b & f1 & H1 & H). unfold hin in H1. assert (f1 = f) by congruence. subst f1.
  apply MetaWrite2.bind_ok in H. destruct H as (u & f2 & H2 & H). destruct b.
  - pose proof (hdel_ok o n f K) as K2. rewrite H2 in K2. cbn [fst] in K2. eapply made_value; eauto.
  - unfold sret in H2. assert (f2 = f) by congruence. subst f2. eapply made_value; eauto.
Qed.
Lemma refused_value v e : refused v e -> read_value v = Raise e.
Proof. intros [sh vs H|n|]; try reflexivity. unfold read_value. destruct sh as [|a [|b sh]]; cbn in H; try lia. reflexivity. Qed.
Lemma refused_written d e : refused_data d e -> exists v, to_hval d = Ok v /\ refused v e.
Proof.
  intros [r rows H|a n m sh H|n| |]; cbn [to_hval].
  - assert (F : forallb (fun x => Nat.eqb (List.length x) (List.length r)) rows = true) by (apply forallb_forall; intros x Hx; apply Nat.eqb_eq; exact (H x Hx)).
    cbn [forallb]. rewrite F. eexists. split; [reflexivity|]. constructor. cbn. lia.
  - rewrite H. eexists. split; [reflexivity|]. constructor. cbn. lia.
  - eexists. split; [reflexivity|]. constructor. cbn. lia.
  - eexists. split; [reflexivity|constructor].
  - eexists. split; [reflexivity|constructor].
Qed.
Lemma written_refused f o n d l f' h e : eznx_file f -> write_dataset o n d l f = (f', Ok h) -> refused_data d e -> read_nexus_field o n f' = Raise e.
Proof.
  intros K H R. destruct (refused_written d e R) as (v & V & Rv). destruct (written_value f o n d l f' h v K H V) as (i & Hi & (a & D)).
  unfold read_nexus_field. rewrite Hi, D, (refused_value v e Rv). reflexivity.
Qed.

Lemma made_read o n d l f f' h r : ok5 f -> makeDataset o n d l f = (f', Ok h) -> comes_back d r -> read_nexus_field o n f' = Ok (Some r).
Proof.
  intros K H R. destruct (back_value d r R) as (v & Ev & Vb). unfold makeDataset in H. apply MetaWrite2.bind_ok in H. destruct H as (v1 & f1 & H1 & H).
  unfold slift in H1. assert (f1 = f /\ v1 = v) as [-> ->] by (rewrite Ev in H1; split; congruence).
  apply MetaWrite2.bind_ok in H. destruct H as (i & f2 & H2 & H). cbv zeta in H. apply MetaWrite2.bind_ok in H. destruct H as (u & f3 & H3 & H). unfold sret in H. assert (f3 = f') by congruence. subst f3.
  destruct (create_leads (h_id o) n (Dset v []) f f2 i K ltac:(discriminate) H2) as (P & W & D).
  pose proof (hq_create (h_id o) n (Dset v []) ltac:(discriminate) f K) as [K2 _]. rewrite H2 in K2. cbn [fst] in K2.
  pose proof (hq_attrs (mk_handle i (sub_name (h_name o) n)) l f2 K2) as [_ M]. rewrite H3 in M. cbn [fst] in M.
  assert (R2 : resolve (h_id o) n f2 = Some i) by (unfold resolve; destruct n as [|c n']; [exfalso; apply P; reflexivity|apply walk_leads; exact W]).
  eapply field_read; [eapply more_resolve; eauto| |exact Vb]. destruct M as (_ & M & _). apply M. exists []. exact D.
Qed.
Lemma written_read f o n d l f' h r : eznx_file f -> write_dataset o n d l f = (f', Ok h) -> comes_back d r -> read_nexus_field o n f' = Ok (Some r).
Proof.
  intros K H R. apply eznx_ok in K. unfold write_dataset in H. apply MetaWrite2.bind_ok in H. destruct H as (b & f1 & H1 & H). unfold hin in H1. assert (f1 = f) by congruence. subst f1.
  apply MetaWrite2.bind_ok in H. destruct H as (u & f2 & H2 & H). destruct b.
  - pose proof (hdel_ok o n f K) as K2. rewrite H2 in K2. cbn [fst] in K2. eapply made_read; eauto.
  - unfold sret in H2. assert (f2 = f) by congruence. subst f2. eapply made_read; eauto.
Qed.

Lemma adds_more f f' : adds f f' -> ok5 f -> more f f'.
Proof.
  induction 1 as [|f o l f' r f'' H _ IH|f o n c l f' r f'' H _ IH|f o n c l f' r f'' H _ IH|f o n d l f' r f'' H _ IH|f o s t f' r f'' H _ IH]; intros K; [apply more_refl|..].
  - pose proof (hq_attrs o l f K) as [K1 M]. rewrite H in K1, M. eapply more_trans; [exact M|apply IH; exact K1].
  - pose proof (hq_makeGroup o n c l f K) as [K1 M]. rewrite H in K1, M. eapply more_trans; [exact M|apply IH; exact K1].
  - pose proof (hq_openGroup o n c l f K) as [K1 M]. rewrite H in K1, M. eapply more_trans; [exact M|apply IH; exact K1].
  - pose proof (hq_makeDataset o n d l f K) as [K1 M]. rewrite H in K1, M. eapply more_trans; [exact M|apply IH; exact K1].
  - pose proof (hq_makeLink o s t f K) as [K1 M]. rewrite H in K1, M. eapply more_trans; [exact M|apply IH; exact K1].
Qed.
Lemma adds_read f f' g n r : eznx_file f -> adds f f' -> read_nexus_field g n f = Ok (Some r) -> read_nexus_field g n f' = Ok (Some r).
Proof.
  intros K A H. pose proof (adds_more f f' A (eznx_ok f K)) as M. unfold read_nexus_field in *. destruct (resolve (h_id g) n f) as [j|] eqn:E; [|discriminate].
  rewrite (more_resolve f f' _ _ _ M E). destruct (nth_error f j) as [[ms a|v a]|] eqn:D; try discriminate.
  destruct M as (_ & M & _). destruct (M j v) as (a' & D'); [exists a; exact D|]. rewrite D'. exact H.
Qed.

(** fields of a file *)
Lemma resolve_path f ps j : Forall plain_name ps -> at_path f ps j -> resolve 0 (path_text ps) f = Some j.
Proof.
  intros P H. assert (E : path_text ps = SLASH :: join [SLASH] ps) by reflexivity. rewrite E. unfold resolve. apply walk_leads.
  rewrite parts_abs, (parts_join ps P). unfold start. destruct (prefixb _ _); exact H.
Qed.
Lemma leads_fun f i ps j k : leads f i ps j -> leads f i ps k -> j = k.
Proof. intros H1 H2. apply walk_leads in H1. apply walk_leads in H2. congruence. Qed.
Lemma resolve_name f g n j : plain_name n -> member f g n j -> resolve g n f = Some j.
Proof. intros Hn (ms & at_ & H & D). rewrite (resolve_plain g n ms at_ f Hn H). exact D. Qed.
Lemma leads_snoc f i ps n j : leads f i (ps ++ [n]) j -> exists g, leads f i ps g /\ member f g n j.
Proof.
  revert i. induction ps as [|p ps IH]; intros i H; cbn [app] in H; inversion H as [|? ? k ? ? A B]; subst.
  - inversion B; subst. exists i. split; [constructor|exact A].
  - destruct (IH k B) as (g & X & Y). exists g. split; [econstructor; eauto|exact Y].
Qed.
(** by its path, and by its name in its group *)
Lemma fields_read f ps n v l r : Forall plain_name (ps ++ [n]) -> field_at f (ps ++ [n]) v l -> value_back v r ->
  read_nexus_field root (path_text (ps ++ [n])) f = Ok (Some r) /\
  forall g, at_path f ps (h_id g) -> read_nexus_field g n f = Ok (Some r).
Proof.
  intros P (j & A & D & _) V. split.
  - eapply field_read; [apply resolve_path; eauto|exact D|exact V].
  - intros g G. apply leads_snoc in A. destruct A as (g' & A1 & A2). assert (g' = h_id g) by (eapply leads_fun; eauto). subst g'.
    eapply field_read; [apply resolve_name; [|exact A2]|exact D|exact V]. apply Forall_app in P. destruct P as [_ P]. inversion P; auto.
Qed.
Lemma group_read f ps j fields rs : Forall plain_name ps -> at_path f ps j ->
  Forall2 (fun n r => forall g, h_id g = j -> read_nexus_field g n f = Ok r) fields rs ->
  exists d, read_nexus_group_fields root (path_text ps) fields f = Ok d /\ (forall n, In n fields <-> In n (keys d)) /\
    forall n r, In n fields -> (forall g, h_id g = j -> read_nexus_field g n f = Ok r) -> dget n d = Some r.
Proof.
  intros P A F. unfold read_nexus_group_fields, hget. cbn [root h_id snd]. rewrite (resolve_path f ps j P A). cbn [bind].
  set (g := mk_handle j (sub_name (h_name root) (path_text ps))).
  assert (M : mapM (fun key => do v <- read_nexus_field g key f; Ok (key, v)) fields = Ok (combine fields rs)).
  { clear A P. induction F as [|n r fields rs H F IH]; [reflexivity|]. cbn [mapM combine]. rewrite (H g eq_refl). cbn [bind]. rewrite IH. reflexivity. }
  rewrite M. cbn [bind]. eexists. split; [reflexivity|].
  assert (K : forall (l : list (str * option got)) d, (forall n, In n (keys (fold_left (fun d kv => dset (fst kv) (snd kv) d) l d)) <-> In n (map fst l) \/ In n (keys d)) /\
     forall n r, (forall r', In (n, r') l -> r' = r) -> (In n (map fst l) \/ dget n d = Some r) -> dget n (fold_left (fun d kv => dset (fst kv) (snd kv) d) l d) = Some r).
  { induction l as [|[m x] l IHl]; intros d; cbn [fold_left map fst snd].
    - split; [intros n; simpl; tauto|]. intros n r _ [[]|H]. exact H.
    - destruct (IHl (dset m x d)) as [K1 K2]. split.
      + intros n. rewrite K1, keys_dset_in. cbn [In]. split; intros X; repeat (destruct X as [X|X]); auto.
      + intros n r H1 H2. apply K2; [intros r' X; apply H1; right; exact X|].
        destruct (in_dec (list_eq_dec N.eq_dec) n (map fst l)) as [I|I]; [left; exact I|right].
        destruct (list_eq_dec N.eq_dec m n) as [->|N].
        * rewrite dget_dset_same. f_equal. apply H1. left. reflexivity.
        * rewrite dget_dset_other by congruence. destruct H2 as [[X|X]|X]; [congruence|contradiction|exact X]. }
  assert (C : map fst (combine fields rs) = fields) by (clear A P M; induction F as [|? ? ? ? _ _ IH]; [reflexivity|cbn; rewrite IH; reflexivity]).
  destruct (K (combine fields rs) []) as [K1 K2]. rewrite C in K1, K2. split.
  - intros n. rewrite K1. cbn. tauto.
  - intros n r Hn Hr. apply K2; [|left; exact Hn]. intros r' Hi. specialize (Hr g eq_refl).
    assert (X : read_nexus_field g n f = Ok r').
    { clear - F Hi. induction F as [|m x fields rs H F IH]; [destruct Hi|]. cbn [combine] in Hi. destruct Hi as [E|Hi]; [|auto]. inversion E; subst. apply H. reflexivity. }
    congruence.
Qed.
(** what cannot be read *)
Lemma fields_refused f ps n v l e : Forall plain_name (ps ++ [n]) -> field_at f (ps ++ [n]) v l -> refused v e ->
  read_nexus_field root (path_text (ps ++ [n])) f = Raise e /\
  forall g, at_path f ps (h_id g) -> read_nexus_field g n f = Raise e.
Proof.
  intros P (j & A & (a & D) & _) V. apply refused_value in V. split.
  - unfold read_nexus_field. cbn [root h_id]. rewrite (resolve_path f _ j P A), D, V. reflexivity.
  - intros g G. apply leads_snoc in A. destruct A as (g' & A1 & A2). assert (g' = h_id g) by (eapply leads_fun; eauto). subst g'.
    apply Forall_app in P. destruct P as [_ P]. inversion P as [|? ? Hn _]; subst. unfold read_nexus_field. rewrite (resolve_name f _ n j Hn A2), D, V. reflexivity.
Qed.
