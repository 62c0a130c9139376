(** What the calls of eznx do to any file *)
From Coq Require Import String Lia.
From Verif Require Import Py PyFacts Utils H5 SpecH5 H5Facts FrameH5 H5Exact SaveFacts.
Import ListNotations.
Local Open Scope list_scope.

(** nothing is lost *)
Definition more (f f' : h5) : Prop :=
  (forall i n j, member f i n j -> member f' i n j) /\ (forall i v, dataset f i v -> dataset f' i v) /\
  (forall i, is_group f i -> is_group f' i) /\ List.length f <= List.length f'.
Lemma more_refl f : more f f. Proof. unfold more. auto. Qed.
Lemma more_trans f g h : more f g -> more g h -> more f h.
Proof. intros (A1 & A2 & A3 & A4) (B1 & B2 & B3 & B4). split; [auto|split; [auto|split; [auto|lia]]]. Qed.

Definition hq {A} (m : HM A) : Prop := forall f, ok5 f -> ok5 (fst (m f)) /\ more f (fst (m f)).
Lemma hq_ret {A} (x : A) : hq (sret x). Proof. intros f H. split; [auto|apply more_refl]. Qed.
Lemma hq_raise {A} e : hq (@sraise h5 A e). Proof. intros f H. split; [auto|apply more_refl]. Qed.
Lemma hq_lift {A} (r : res A) : hq (slift r). Proof. intros f H. split; [auto|apply more_refl]. Qed.
Lemma hq_bind {A B} (m : HM A) (k : A -> HM B) : hq m -> (forall x, hq (k x)) -> hq (sbind m k).
Proof.
  intros Hm Hk f I. rewrite sbind_eq. destruct (Hm f I) as [I1 M1]. destruct (m f) as [f1 [x|e]]; cbn [fst] in *; [|auto].
  destruct (Hk x f1 I1) as [I2 M2]. split; [auto|eapply more_trans; eauto].
Qed.
Lemma hq_iter {A} (g : A -> HM unit) l : (forall x, hq (g x)) -> hq (siter g l).
Proof. intros H. induction l as [|x l IH]; [apply hq_ret|]. cbn [siter]. apply hq_bind; auto. Qed.

Lemma hq_alloc nd : (forall ms at_, nd = Group ms at_ -> ms = []) -> hq (alloc nd).
Proof.
  intros Hn f [W B]. unfold alloc. cbn [fst].
  assert (K : forall i x, nth_error f i = Some x -> nth_error (f ++ [nd]) i = Some x).
  { intros i x H. rewrite nth_error_app1; auto. apply nth_error_Some. congruence. }
  split; [split|].
  - intros i ms a H. rewrite nth_snoc in H. destruct (Nat.eqb i (List.length f)); [|eapply W; eauto].
    injection H; intros E. rewrite (Hn _ _ E). constructor.
  - intros i ms a n j H Hin. rewrite app_length. rewrite nth_snoc in H. destruct (Nat.eqb i (List.length f)).
    + injection H; intros E. rewrite (Hn _ _ E) in Hin. destruct Hin.
    + pose proof (B _ _ _ _ _ H Hin). lia.
  - split; [|split; [|split]].
    + intros i n j (ms & a & H & D). exists ms, a. auto.
    + intros i v (a & H). exists a. auto.
    + intros i (ms & a & H). exists ms, a. auto.
    + rewrite app_length. lia.
Qed.
Lemma hq_add i n j : hq (add_member i n j).
Proof.
  intros f [W B]. unfold add_member. destruct (nth_error f i) as [[ms a|]|] eqn:E; try (split; [split; auto|apply more_refl]).
  destruct (has n ms) eqn:Hn; [split; [split; auto|apply more_refl]|]. destruct (Nat.leb_spec (List.length f) j) as [Lj|Lj]; [split; [split; auto|apply more_refl]|].
  cbn [fst]. pose proof (put_nth_error i (Group (ms ++ [(n, j)]) a) _ f E) as X.
  split; [split|].
  - intros k m t H. rewrite X in H. destruct (Nat.eqb k i); [|eapply W; eauto]. injection H; intros _ <-. apply NoDup_snoc_key; auto. eapply W; eauto.
  - intros k m t n' j' H Hin. rewrite put_length. rewrite X in H. destruct (Nat.eqb k i); [|eapply B; eauto]. injection H; intros _ <-.
    apply in_app_iff in Hin. destruct Hin as [Hin|[Hin|[]]]; [eapply B; eauto|congruence].
  - split; [|split; [|split]].
    + intros k n' j' (m & t & H & D). unfold member. rewrite X. destruct (Nat.eqb_spec k i) as [->|N]; [|eauto].
      exists (ms ++ [(n, j)]), a. split; [auto|]. rewrite dget_app. assert (m = ms) by congruence. subst m. rewrite D. reflexivity.
    + intros k v (t & H). exists t. rewrite X. destruct (Nat.eqb_spec k i) as [->|N]; [congruence|auto].
    + intros k (m & t & H). unfold is_group. rewrite X. destruct (Nat.eqb k i); eauto.
    + rewrite put_length. lia.
Qed.
Lemma hq_free i n : hq (free i n). Proof. intros f H. split; [auto|apply more_refl]. Qed.
Lemma hq_dig ps : forall i, hq (dig ps i).
Proof.
  induction ps as [|n ps IH]; intros i f I; cbn [dig]; [split; [auto|apply more_refl]|].
  destruct (nth_error f i) as [[ms a|]|] eqn:E; try (split; [auto|apply more_refl]). destruct (dget n ms) as [j|]; [apply IH; auto|].
  refine (hq_bind (alloc (Group [] [])) (fun j => add_member i n j >>> dig ps j) _ _ f I).
  - apply hq_alloc. intros ? ? X. injection X; auto.
  - intros j. apply hq_bind; [apply hq_add|]. intros _. apply IH.
Qed.
Lemma hq_link i p j : hq (link_at i p j).
Proof. unfold link_at. destruct (rev (parts p)) as [|n r]; [apply hq_raise|]. apply hq_bind; [apply hq_dig|]. intros g. apply hq_add. Qed.
Lemma hq_create i p nd : (forall ms at_, nd = Group ms at_ -> ms = []) -> hq (create_at i p nd).
Proof.
  intros Hn. unfold create_at. destruct (rev (parts p)) as [|n r]; [apply hq_raise|]. apply hq_bind; [apply hq_dig|]. intros g.
  apply hq_bind; [apply hq_free|]. intros _. apply hq_bind; [apply hq_alloc; auto|]. intros j. apply hq_bind; [apply hq_add|]. intros _. apply hq_ret.
Qed.
Lemma hq_attr i k v : hq (set_attr i k v).
Proof.
  intros f [W B]. destruct (nth_error f i) as [nd|] eqn:E; [|unfold set_attr; rewrite E; split; [split; auto|apply more_refl]].
  assert (G : exists nd', set_attr i k v f = (put_nth i nd' f, Ok tt) /\
     (forall ms t, nd' = Group ms t -> exists t', nd = Group ms t') /\ (forall ms t, nd = Group ms t -> exists t', nd' = Group ms t') /\ (forall x t, nd = Dset x t -> exists t', nd' = Dset x t')).
  { unfold set_attr. rewrite E. destruct nd as [ms a|x a]; eexists; (split; [reflexivity|]); (split; [|split]); intros ? ? X; inversion X; subst; eauto. }
  destruct G as (nd' & -> & G1 & G2 & G3). cbn [fst]. pose proof (put_nth_error i nd' _ f E) as X.
  split; [split|].
  - intros j m t H. rewrite X in H. destruct (Nat.eqb j i); [|eapply W; eauto]. injection H; intros Q. destruct (G1 _ _ Q) as (t' & ->). eapply W; eauto.
  - intros j m t n' j' H Hin. rewrite put_length. rewrite X in H. destruct (Nat.eqb j i); [|eapply B; eauto]. injection H; intros Q. destruct (G1 _ _ Q) as (t' & ->). eapply B; eauto.
  - split; [|split; [|split]].
    + intros j n' j' (m & t & H & D). unfold member. rewrite X. destruct (Nat.eqb_spec j i) as [->|N]; [|eauto].
      destruct (G2 m t) as (t' & ->); [congruence|eauto].
    + intros j x (t & H). unfold dataset. rewrite X. destruct (Nat.eqb_spec j i) as [->|N]; [|eauto]. destruct (G3 x t) as (t' & ->); [congruence|eauto].
    + intros j (m & t & H). unfold is_group. rewrite X. destruct (Nat.eqb_spec j i) as [->|N]; [|eauto]. destruct (G2 m t) as (t' & ->); [congruence|eauto].
    + rewrite put_length. lia.
Qed.
Lemma hq_attrs o l : hq (addAttributes o l). Proof. apply hq_iter. intros kv. apply hq_attr. Qed.
Lemma hq_makeGroup o n c l : hq (makeGroup o n c l).
Proof.
  unfold makeGroup. apply hq_bind; [apply hq_create; intros ? ? X; injection X; auto|]. intros i. apply hq_bind; [apply hq_attr|]. intros _.
  apply hq_bind; [apply hq_attrs|]. intros _. apply hq_ret.
Qed.
Lemma hq_openGroup o n c l : hq (openGroup o n c l).
Proof.
  intros f I. unfold openGroup. destruct (resolve (h_id o) n f) as [j|]; [|apply hq_makeGroup; auto].
  apply (hq_bind (addAttributes (mk_handle j (sub_name (h_name o) n)) l) (fun _ => sret (mk_handle j (sub_name (h_name o) n)))); auto; [apply hq_attrs|intros; apply hq_ret].
Qed.
Lemma hq_makeDataset o n d l : hq (makeDataset o n d l).
Proof.
  unfold makeDataset. apply hq_bind; [apply hq_lift|]. intros v. apply hq_bind; [apply hq_create; discriminate|]. intros i.
  apply hq_bind; [apply hq_attrs|]. intros _. apply hq_ret.
Qed.
Lemma hq_makeLink o s t : hq (makeLink o s t).
Proof.
  unfold makeLink. apply hq_bind.
  - intros f I. destruct (has _ _); [split; [auto|apply more_refl]|apply hq_attr; auto].
  - intros _. apply hq_bind; [intros f I; split; [auto|apply more_refl]|]. intros h. apply hq_link.
Qed.

(** what is lost when a link is removed *)
Definition less (g : nat) (n : str) (f f' : h5) : Prop :=
  (forall i m j, member f i m j -> (i, m) <> (g, n) -> member f' i m j) /\ (forall i v, dataset f i v -> dataset f' i v) /\
  (forall i, is_group f i -> is_group f' i) /\ List.length f <= List.length f'.
Lemma del_member_ok g n f f' r : ok5 f -> del_member g n f = (f', r) -> ok5 f' /\ less g n f f' /\ (r = Ok tt -> forall j, ~ member f' g n j).
Proof.
  intros [W B] H. unfold del_member in H. assert (L0 : less g n f f) by (unfold less; auto).
  destruct (nth_error f g) as [[ms a|v a]|] eqn:E; [|injection H; intros <- <-; (split; [split; auto|split; [auto|discriminate]])..].
  destruct (has n ms) eqn:Hn; injection H; intros <- <-; [|split; [split; auto|split; [auto|discriminate]]].
  pose proof (put_nth_error g (Group (ddel n ms) a) _ f E) as X. split; [split|split].
  - intros k m t Hk. rewrite X in Hk. destruct (Nat.eqb k g); [|eapply W; eauto]. injection Hk; intros _ <-. apply NoDup_ddel. eapply W; eauto.
  - intros k m t n' j' Hk Hin. rewrite put_length. rewrite X in Hk. destruct (Nat.eqb k g); [|eapply B; eauto]. injection Hk; intros _ <-. apply In_ddel in Hin. eapply B; eauto.
  - split; [|split; [|split]].
    + intros k m j (ms' & t & Hk & D) N. unfold member. rewrite X. destruct (Nat.eqb_spec k g) as [->|Nk]; [|eauto].
      exists (ddel n ms), a. split; [auto|]. assert (ms' = ms) by congruence. subst ms'. rewrite dget_ddel_other; [exact D|congruence].
    + intros k v (t & Hk). exists t. rewrite X. destruct (Nat.eqb_spec k g) as [->|Nk]; [congruence|auto].
    + intros k (ms' & t & Hk). unfold is_group. rewrite X. destruct (Nat.eqb k g); eauto.
    + rewrite put_length. lia.
  - intros _ j (ms' & t & Hk & D). rewrite X, Nat.eqb_refl in Hk. injection Hk; intros _ <-. rewrite dget_ddel_same in D by (eapply W; eauto). discriminate.
Qed.
Lemma hdel_ok g p f : ok5 f -> ok5 (fst (hdel g p f)).
Proof.
  intros I. unfold hdel. destruct (rev (parts p)) as [|n r]; [auto|]. destruct (walk (rev r) (start (h_id g) p) f) as [i|]; [|auto].
  destruct (del_member i n f) as [f' x] eqn:E. apply (del_member_ok i n f f' x I E).
Qed.
Lemma write_dataset_ok o n d l f : ok5 f -> ok5 (fst (write_dataset o n d l f)).
Proof.
  intros I. unfold write_dataset. rewrite sbind_eq. unfold hin. destruct (resolve (h_id o) n f) as [i|]; cbv iota beta; rewrite sbind_eq.
  - pose proof (hdel_ok o n f I) as J. destruct (hdel o n f) as [f1 [u|e]]; cbn [fst] in *; [|auto]. apply hq_makeDataset. auto.
  - unfold sret. apply hq_makeDataset. auto.
Qed.

(** every file made by eznx calls *)
Lemma eznx_ok f : eznx_file f -> ok5 f.
Proof.
  induction 1 as [|f o l f' r H IH E|f o n c l f' r H IH E|f o n c l f' r H IH E|f o n d l f' r H IH E|f o n d l f' r H IH E|f o s t f' r H IH E].
  - split.
    + intros i ms a X. destruct i as [|[|i]]; cbn in X; try discriminate. injection X; intros _ <-. constructor.
    + intros i ms a n j X Hin. destruct i as [|[|i]]; cbn in X; try discriminate. injection X; intros _ <-. destruct Hin.
  - pose proof (hq_attrs o l f IH) as [Q _]. rewrite E in Q. exact Q.
  - pose proof (hq_makeGroup o n c l f IH) as [Q _]. rewrite E in Q. exact Q.
  - pose proof (hq_openGroup o n c l f IH) as [Q _]. rewrite E in Q. exact Q.
  - pose proof (hq_makeDataset o n d l f IH) as [Q _]. rewrite E in Q. exact Q.
  - pose proof (write_dataset_ok o n d l f IH) as Q. rewrite E in Q. exact Q.
  - pose proof (hq_makeLink o s t f IH) as [Q _]. rewrite E in Q. exact Q.
Qed.
Lemma eznx_bounded f i n j : eznx_file f -> member f i n j -> j < List.length f.
Proof. intros H (ms & a & X & D). destruct (eznx_ok f H) as [_ B]. eapply B; [exact X|]. apply dget_In. exact D. Qed.

(** write_dataset under a plain name *)
Lemma write_plain f o n d l v : eznx_file f -> is_group f (h_id o) -> plain_name n -> to_hval d = Ok v ->
  exists f' h, write_dataset o n d l f = (f', Ok h) /\ List.length f <= h_id h /\
    member f' (h_id o) n (h_id h) /\ dataset f' (h_id h) v /\
    (forall k x, In (k, x) l -> NoDup (map fst l) -> attribute f' (h_id h) k x) /\
    (forall m j, m <> n -> (member f' (h_id o) m j <-> member f (h_id o) m j)) /\
    (forall j, j <> h_id o -> j < List.length f -> nth_error f' j = nth_error f j) /\
    (forall k x, attribute f' (h_id o) k x <-> attribute f (h_id o) k x) .
Proof.
  intros Hf (ms & a & Hg) Hp Hv. destruct (eznx_ok f Hf) as [W B].
  rewrite (write_dataset_eq o n d l v ms a f Hp Hv (W _ _ _ Hg) Hg). eexists. eexists. split; [reflexivity|]. cbn [h_id].
  assert (Hi : h_id o < List.length f) by (apply nth_error_Some; congruence).
  pose proof (made_nth (h_id o) n (ddel n ms) a (with_attrs (Dset v []) l) f _ Hg) as M.
  assert (M0 := M (h_id o)). rewrite Nat.eqb_refl in M0. assert (M1 := M (List.length f)). rewrite Nat.eqb_refl in M1.
  destruct (Nat.eqb_spec (List.length f) (h_id o)) as [X|_] in M1; [lia|].
  split; [lia|]. split; [|split; [|split; [|split; [|split]]]].
  - exists (ddel n ms ++ [(n, List.length f)]), a. split; [exact M0|]. rewrite dget_app.
    rewrite dget_ddel_same by (eapply W; eauto). cbn [dget]. rewrite seqb_refl. reflexivity.
  - unfold dataset. rewrite M1. cbn [with_attrs]. eauto.
  - intros k x Hin ND. eexists. split; [exact M1|]. cbn [with_attrs].
    assert (G : forall l at_, NoDup (map fst l) -> In (k, x) l -> dget k (fold_left (fun a kv => dset (fst kv) (snd kv) a) l at_) = Some x).
    { clear. assert (Z : forall l at_, ~ In k (map fst l) -> dget k (fold_left (fun (a : dict aval) kv => dset (fst kv) (snd kv) a) l at_) = dget k at_).
      { induction l as [|[k' x'] l IH]; intros at_ N; [reflexivity|]. cbn [fold_left fst snd map In] in *. rewrite IH by tauto. apply dget_dset_other. intros Q; apply N; left; auto. }
      induction l as [|[k' x'] l IH]; intros at_ N Hin; [destruct Hin|]. cbn [fold_left fst snd map] in *. inversion N; subst.
      destruct Hin as [Q|Hin]; [injection Q; intros -> ->; rewrite Z by auto; apply dget_dset_same|apply IH; auto]. }
    apply G; auto.
  - intros m j Nm. split.
    + intros (ms' & a' & X & D). rewrite M0 in X. injection X; intros _ <-. exists ms, a. split; [auto|]. rewrite dget_app in D.
      rewrite dget_ddel_other in D by auto. destruct (dget m ms); [auto|]. cbn [dget] in D. destruct (seqb m n) eqn:Em; [apply seqb_eq in Em; congruence|discriminate].
    + intros (ms' & a' & X & D). rewrite Hg in X. injection X; intros _ <-. exists (ddel n ms ++ [(n, List.length f)]), a. split; [auto|]. rewrite dget_app.
      rewrite dget_ddel_other by auto. rewrite D. reflexivity.
  - intros j Nj Lj. rewrite M. destruct (Nat.eqb_spec j (h_id o)); [contradiction|]. destruct (Nat.eqb_spec j (List.length f)); [lia|reflexivity].
  - intros k x. unfold attribute. split; intros (nd & X & D).
    + rewrite M0 in X. injection X; intros <-. exists (Group ms a). auto.
    + rewrite Hg in X. injection X; intros <-. exists (Group (ddel n ms ++ [(n, List.length f)]) a). auto.
Qed.

(** openGroup under any path *)
Lemma open_keeps f o p c l f' r : eznx_file f -> openGroup o p c l f = (f', r) -> more f f'.
Proof. intros Hf H. pose proof (hq_openGroup o p c l f (eznx_ok f Hf)) as [_ Q]. rewrite H in Q. exact Q. Qed.
Lemma make_keeps f o p c l f' r : eznx_file f -> makeGroup o p c l f = (f', r) -> more f f'.
Proof. intros Hf H. pose proof (hq_makeGroup o p c l f (eznx_ok f Hf)) as [_ Q]. rewrite H in Q. exact Q. Qed.
Lemma open_existing f o n c l i : eznx_file f -> plain_name n -> member f (h_id o) n i ->
  exists f' h, openGroup o n c l f = (f', Ok h) /\ h_id h = i.
Proof.
  intros Hf Hp (ms & a & Hg & D). unfold openGroup. rewrite (resolve_plain _ n ms a f Hp Hg), D. cbv zeta. rewrite sbind_eq.
  destruct (eznx_ok f Hf) as [_ B]. pose proof (B _ _ _ _ _ Hg (dget_In _ _ _ D)) as Li. apply nth_error_Some in Li.
  destruct (nth_error f i) as [nd|] eqn:En; [|congruence]. rewrite (addAttributes_eq (mk_handle i (sub_name (h_name o) n)) l nd f En). eexists. eexists. split; reflexivity.
Qed.
