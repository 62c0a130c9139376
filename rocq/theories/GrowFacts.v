(** What only adds to a file: the links made at the end of an entry, the default plot, later entries *)
From Coq Require Import String Lia.
From Verif Require Import Py PyFacts Utils SpecUtils H5 SpecH5 H5Facts FrameH5 Writer.
Import ListNotations.
Local Open Scope list_scope.

Definition TGT : str := L "target".
(** a node that grew *)
Definition ext (nd nd' : node) : Prop :=
  match nd, nd' with
  | Group ms at_, Group ms' at' => (forall n j, dget n ms = Some j -> dget n ms' = Some j) /\ (forall k, k <> TGT -> dget k at' = dget k at_)
  | Dset v at_, Dset v' at' => v' = v /\ (forall k, k <> TGT -> dget k at' = dget k at_)
  | _, _ => False
  end.
Lemma ext_refl nd : ext nd nd.
Proof. destruct nd; simpl; auto. Qed.
Lemma ext_trans a b c : ext a b -> ext b c -> ext a c.
Proof.
  destruct a, b, c; simpl; try tauto; intros [A B] [C D]; split.
  - auto. - intros k N. rewrite D, B; auto. - congruence. - intros k N. rewrite D, B; auto.
Qed.
(** every object but the root grew at most *)
Definition grow (f f' : h5) : Prop := List.length f <= List.length f' /\
  forall i nd, 1 <= i -> nth_error f i = Some nd -> exists nd', nth_error f' i = Some nd' /\ ext nd nd'.
Lemma grow_refl f : grow f f.
Proof. split; [lia|]. intros i nd _ H. exists nd. split; [auto|apply ext_refl]. Qed.
Lemma grow_trans f g h : grow f g -> grow g h -> grow f h.
Proof.
  intros [A B] [C D]. split; [lia|]. intros i nd Hi H. destruct (B i nd Hi H) as (nd1 & H1 & X1). destruct (D i nd1 Hi H1) as (nd2 & H2 & X2).
  exists nd2. split; [auto|eapply ext_trans; eauto].
Qed.
Lemma grow_same f f' : List.length f <= List.length f' -> (forall i, 1 <= i < List.length f -> nth_error f' i = nth_error f i) -> grow f f'.
Proof.
  intros A B. split; [auto|]. intros i nd Hi H. exists nd. split; [|apply ext_refl]. rewrite B; auto. split; [auto|]. apply nth_error_Some. congruence.
Qed.

Lemma grow_member f f' i n j : grow f f' -> 1 <= i -> member f i n j -> member f' i n j.
Proof.
  intros [_ G] Hi (ms & at_ & H & D). destruct (G i _ Hi H) as ([ms' at'|v at'] & H' & X); simpl in X; [|destruct X].
  exists ms', at'. split; [auto|]. apply X; auto.
Qed.
Lemma grow_dataset f f' i v : grow f f' -> 1 <= i -> dataset f i v -> dataset f' i v.
Proof.
  intros [_ G] Hi (at_ & H). destruct (G i _ Hi H) as ([ms' at'|v' at'] & H' & X); simpl in X; [destruct X|].
  destruct X as [-> _]. exists at'. auto.
Qed.
Lemma grow_attribute f f' i k v : grow f f' -> 1 <= i -> k <> TGT -> attribute f i k v -> attribute f' i k v.
Proof.
  intros [_ G] Hi N (nd & H & D). destruct (G i _ Hi H) as (nd' & H' & X). exists nd'. split; [auto|].
  destruct nd, nd'; simpl in *; try tauto; destruct X as [_ X]; rewrite X; auto.
Qed.
Lemma grow_group f f' i : grow f f' -> 1 <= i -> is_group f i -> is_group f' i.
Proof.
  intros [_ G] Hi (ms & at_ & H). destruct (G i _ Hi H) as ([ms' at'|v at'] & H' & X); simpl in X; [|destruct X]. eexists; eexists; eauto.
Qed.
Lemma grow_nx f f' i c : grow f f' -> 1 <= i -> nx_group f i c -> nx_group f' i c.
Proof. intros G Hi [A B]. split; [eapply grow_group; eauto|eapply grow_attribute; eauto]. apply seqb_neq; reflexivity. Qed.
(** whether an attribute is missing stays the same, too *)
Definition no_attribute (f : h5) (i : nat) (k : str) : Prop :=
  exists nd, nth_error f i = Some nd /\ dget k (match nd with Group _ a => a | Dset _ a => a end) = None.
Lemma grow_no_attribute f f' i k : grow f f' -> 1 <= i -> k <> TGT -> no_attribute f i k -> no_attribute f' i k.
Proof.
  intros [_ G] Hi N (nd & H & D). destruct (G i _ Hi H) as (nd' & H' & X). exists nd'. split; [auto|].
  destruct nd, nd'; simpl in *; try tauto; destruct X as [_ X]; rewrite X; auto.
Qed.

Section Grow.
  Context (f0 : h5).
  Definition gk {A} (m : HM A) (Q : A -> Prop) : Prop := forall f, grow f0 f ->
    grow f0 (fst (m f)) /\ (forall x, snd (m f) = Ok x -> Q x).
  Lemma gk_id {A} (m : HM A) : (forall f, fst (m f) = f) -> gk m (fun _ => True).
  Proof. intros H f G. rewrite H. auto. Qed.
  Lemma gk_bind {A B} (m : HM A) (k : A -> HM B) Q R : gk m Q -> (forall x, Q x -> gk (k x) R) -> gk (sbind m k) R.
  Proof.
    intros Hm Hk f G. rewrite sbind_eq. destruct (Hm f G) as [G1 Q1]. destruct (m f) as [f1 [x|e]]; cbn [fst snd] in *; [|split; [auto|discriminate]].
    apply Hk; auto.
  Qed.
  Lemma gk_weak {A} (m : HM A) (Q R : A -> Prop) : (forall x, Q x -> R x) -> gk m Q -> gk m R.
  Proof. intros H K f G. destruct (K f G). auto. Qed.
  Lemma gk_ret {A} (x : A) (Q : A -> Prop) : Q x -> gk (sret x) Q.
  Proof. intros H f G. split; [auto|]. intros y E. inversion E; subst; auto. Qed.
  Lemma gk_raise {A} e (Q : A -> Prop) : gk (sraise e) Q.
  Proof. intros f G. split; [auto|discriminate]. Qed.
  Lemma gk_iter {A} (g : A -> HM unit) l : (forall x, In x l -> gk (g x) (fun _ => True)) -> gk (siter g l) (fun _ => True).
  Proof.
    induction l as [|x l IH]; intros H; cbn [siter]; [apply gk_ret; auto|]. eapply gk_bind; [apply H; left; auto|].
    intros _ _. apply IH. intros y Hy. apply H. right; auto.
  Qed.

  Lemma grow_put f i nd nd' : grow f0 f -> nth_error f i = Some nd -> (1 <= i -> i < List.length f0 -> ext nd nd') -> grow f0 (put_nth i nd' f).
  Proof.
    intros [A B] H X. split; [rewrite put_length; auto|]. intros j n0 Hj Hn. destruct (B j n0 Hj Hn) as (n1 & H1 & X1).
    rewrite (put_nth_error _ _ _ _ H). destruct (Nat.eqb_spec j i) as [->|Ne]; [|eauto].
    exists nd'. split; [auto|]. rewrite H in H1. inversion H1; subst. eapply ext_trans; [exact X1|]. apply X; auto.
    apply nth_error_Some. congruence.
  Qed.
  Lemma set_attr_gk i k v : List.length f0 <= i \/ k = TGT \/ i = 0 -> gk (set_attr i k v) (fun _ => True).
  Proof.
    intros H f G. unfold set_attr. destruct (nth_error f i) as [[ms a|x a]|] eqn:E; cbn [fst snd]; (split; [|auto]); [| |auto];
      (eapply grow_put; [exact G|exact E|]); intros H1 H2; (destruct H as [H|[->|H]]; [lia| |lia]); simpl; (split; [auto|]);
      intros k N; rewrite dget_dset_other; auto.
  Qed.
  Lemma add_member_gk i n j : gk (add_member i n j) (fun _ => True).
  Proof.
    intros f G. unfold add_member. destruct (nth_error f i) as [[ms a|x a]|] eqn:E; cbn [fst snd]; auto.
    destruct (has n ms) eqn:Hn; cbn [fst snd]; auto. destruct (Nat.leb (List.length f) j); cbn [fst snd]; auto. split; [|auto].
    eapply grow_put; [exact G|exact E|]. intros _ _. simpl. split; [|auto]. intros m x D. rewrite dget_app, D. reflexivity.
  Qed.
  Lemma alloc_gk nd : gk (alloc nd) (fun j => List.length f0 <= j).
  Proof.
    intros f [A B]. unfold alloc. cbn [fst snd]. split.
    - split; [rewrite app_length; lia|]. intros i n Hi H. destruct (B i n Hi H) as (n' & H' & X). exists n'. split; [|auto].
      rewrite nth_error_app1; [auto|]. apply nth_error_Some. congruence.
    - intros x E. inversion E; subst. auto.
  Qed.
  Lemma dig_gk ps : forall i, gk (dig ps i) (fun _ => True).
  Proof.
    induction ps as [|n ps IH]; intros i f G; [cbn; auto|]. cbn [dig]. destruct (nth_error f i) as [[ms a|x a]|]; cbn [fst snd]; auto.
    destruct (dget n ms) as [j|]; [apply IH; auto|].
    refine (gk_bind (alloc (Group [] [])) _ _ (fun _ => True) (alloc_gk _) _ f G). intros j _.
    eapply gk_bind; [apply add_member_gk|]. intros _ _. apply IH.
  Qed.
  Lemma free_gk i n : gk (free i n) (fun _ => True).
  Proof. apply gk_id. auto. Qed.
  Lemma link_at_gk i p j : gk (link_at i p j) (fun _ => True).
  Proof.
    unfold link_at. destruct (rev (parts p)) as [|n r]; [apply gk_raise|]. eapply gk_bind; [apply dig_gk|]. intros. apply add_member_gk.
  Qed.
  Lemma create_gk i p nd : gk (create_at i p nd) (fun j => List.length f0 <= j).
  Proof.
    unfold create_at. destruct (rev (parts p)) as [|n r]; [apply gk_raise|]. eapply gk_bind; [apply dig_gk|]. intros g _.
    eapply gk_bind; [apply free_gk|]. intros _ _. eapply gk_bind; [apply alloc_gk|]. intros j Hj.
    eapply gk_bind; [apply add_member_gk|]. intros _ _. apply gk_ret; auto.
  Qed.
  Lemma addAttributes_gk o l : List.length f0 <= h_id o \/ h_id o = 0 -> gk (addAttributes o l) (fun _ => True).
  Proof. intros H. unfold addAttributes. apply gk_iter. intros x _. apply set_attr_gk. tauto. Qed.
  Lemma makeGroup_gk o n c l : gk (makeGroup o n c l) (fun _ => True).
  Proof.
    unfold makeGroup. eapply gk_bind; [apply create_gk|]. intros i Hi. cbv zeta. eapply gk_bind; [apply set_attr_gk; auto|]. intros _ _.
    eapply gk_bind; [apply addAttributes_gk; auto|]. intros _ _. apply gk_ret; auto.
  Qed.
  Lemma makeDataset_gk o n d l : gk (makeDataset o n d l) (fun _ => True).
  Proof.
    unfold makeDataset. eapply gk_bind; [apply gk_id; auto|]. intros v _. eapply gk_bind; [apply create_gk|]. intros i Hi. cbv zeta.
    eapply gk_bind; [apply addAttributes_gk; auto|]. intros _ _. apply gk_ret; auto.
  Qed.
  Ltac gb := eapply gk_bind; [|intros ? ?].
  Ltac gi := apply gk_id; reflexivity.
  Ltac gt := apply set_attr_gk; right; left; reflexivity.
  Lemma link_in_gk g n t : gk (link_in g n t) (fun _ => True).
  Proof. unfold link_in. gb; [apply link_at_gk|]. gb; [gi|]. gt. Qed.
  Lemma final_links_gk e : gk (final_links e) (fun _ => True).
  Proof.
    unfold final_links, link_diffractometer, link_positioners, link_monitor, link_temperature.
    gb. { instantiate (1 := fun _ => True). gb; [gi|]. destruct x; [|apply gk_ret; auto]. gb; [gi|]. gb; [gi|]. gb; [apply link_at_gk|]. gb; [gi|]. gt. }
    gb. { instantiate (1 := fun _ => True). gb; [gi|]. gb; [gi|]. destruct (x0 && x1); [|apply gk_ret; auto]. gb; [gi|]. gt. }
    gb. { instantiate (1 := fun _ => True). gb; [gi|]. gb; [gi|]. destruct (x1 || x2); [|apply gk_ret; auto].
      gb; [instantiate (1 := fun _ => True); destruct x1; gi|]. gb; [apply makeGroup_gk|]. apply link_in_gk. }
    gb; [gi|]. gb; [gi|]. destruct (x2 || x3); [|apply gk_ret; auto]. gb; [gi|]. gb; [apply makeGroup_gk|].
    gb. { instantiate (1 := fun _ => True). destruct x2; [|apply gk_ret; auto]. gb; [gi|]. apply link_in_gk. }
    destruct x3; [|apply gk_ret; auto]. gb; [gi|]. apply link_in_gk.
  Qed.
  Lemma ensure_data_gk e : gk (ensure_data e) (fun _ => True).
  Proof.
    unfold ensure_data. gb; [gi|]. destruct x; [apply gk_ret; auto|]. gb; [apply makeGroup_gk|]. cbv zeta. gb; [apply makeDataset_gk|].
    unfold unit_of. gb; [apply makeDataset_gk|]. apply gk_ret; auto.
  Qed.
End Grow.
Lemma gk_grow {A} (m : HM A) Q f f' r : gk f m Q -> m f = (f', r) -> grow f f'.
Proof. intros K H. destruct (K f (grow_refl f)) as [G _]. rewrite H in G. exact G. Qed.
