(** What the writers of one NXentry leave alone: invariants of the HDF5 operations.

    [P] are protected objects, [a] is the group of the entry and [sk] its name in the root.  From
    unprotected groups the only way to a protected object is the member "data" of the entry. *)
From Coq Require Import String Lia.
From Verif Require Import Py PyFacts Utils SpecUtils H5 SpecH5 H5Facts.
Import ListNotations.
Local Open Scope list_scope.

Definition DATA : str := L "data".
Definition NXC : str := L "NX_class".

Lemma sbind_eq {S A B} (m : St S A) (k : A -> St S B) s :
  sbind m k s = match m s with (s', Ok x) => k x s' | (s', Raise e) => (s', Raise e) end.
Proof. reflexivity. Qed.

Section Frame.
  Context (P : nat -> Prop) (a : nat) (sk : str).

  Record Inv (f : h5) : Prop := mk_inv {
    inv_wf : wf f;
    inv_bd : bounded f;
    inv_root : member f 0 sk a;
    inv_P0 : P 0;
    inv_Pa : ~ P a;
    inv_lt : forall j, P j -> j < List.length f;
    inv_alt : a < List.length f;
    inv_link : forall i ms at_ n j, ~ P i -> nth_error f i = Some (Group ms at_) -> In (n, j) ms ->
               j <> a /\ (P j -> i = a /\ n = DATA) }.

  Record Fr0 (f f' : h5) : Prop := mk_fr {
    fr_len : List.length f <= List.length f';
    fr_P : forall i, P i -> nth_error f' i = nth_error f i;
    fr_data : forall d, member f a DATA d -> member f' a DATA d;
    fr_cls : forall i v, attribute f i NXC v -> attribute f' i NXC v;
    fr_grp : forall i, is_group f i -> is_group f' i }.

  (** the data group is only made with its class *)
  Definition Fr (f f' : h5) : Prop :=
    Fr0 f f' /\ forall d, member f' a DATA d -> member f a DATA d \/ nx_group f' d "NXdata".

  Lemma Fr0_refl f : Fr0 f f.
  Proof. constructor; auto. Qed.
  Lemma Fr0_trans f g h : Fr0 f g -> Fr0 g h -> Fr0 f h.
  Proof.
    intros [A1 A2 A3 A4 A5] [B1 B2 B3 B4 B5]. constructor; auto; try lia.
    intros i Hi. rewrite B2, A2; auto.
  Qed.
  Lemma Fr0_class f f' d c : Fr0 f f' -> nx_group f d c -> nx_group f' d c.
  Proof. intros H [A B]. split; [apply (fr_grp _ _ H); auto|apply (fr_cls _ _ H); auto]. Qed.
  Lemma Fr_refl f : Fr f f.
  Proof. split; [apply Fr0_refl|auto]. Qed.
  Lemma Fr_trans f g h : Fr f g -> Fr g h -> Fr f h.
  Proof.
    intros [A1 A2] [B1 B2]. split; [eapply Fr0_trans; eauto|]. intros d H.
    destruct (B2 d H) as [G|G]; auto. destruct (A2 d G) as [F|F]; auto. right. eapply Fr0_class; eauto.
  Qed.

  (** a new object *)
  Lemma snoc_keeps f nd : Inv f -> (forall ms at_, nd = Group ms at_ -> ms = []) ->
    Inv (f ++ [nd]) /\ Fr f (f ++ [nd]).
  Proof.
    intros I Hn. assert (Lk : forall i x, nth_error f i = Some x -> nth_error (f ++ [nd]) i = Some x).
    { intros i x H. rewrite nth_error_app1; auto. apply nth_error_Some. congruence. }
    split.
    - constructor.
      + intros i ms at_ H. rewrite nth_snoc in H. destruct (Nat.eqb i (List.length f)).
        * inversion H; subst. rewrite (Hn ms at_ eq_refl). constructor.
        * eapply inv_wf; eauto.
      + intros i ms at_ n j H Hin. rewrite app_length. rewrite nth_snoc in H. destruct (Nat.eqb i (List.length f)).
        * inversion H; subst. rewrite (Hn ms at_ eq_refl) in Hin. destruct Hin.
        * pose proof (inv_bd f I i ms at_ n j H Hin). lia.
      + destruct (inv_root f I) as [ms [at_ [H D]]]. exists ms, at_. auto.
      + apply (inv_P0 f I).
      + apply (inv_Pa f I).
      + intros j H. rewrite app_length. simpl. pose proof (inv_lt f I j H). lia.
      + rewrite app_length. pose proof (inv_alt f I). lia.
      + intros i ms at_ n j NP H Hin. rewrite nth_snoc in H. destruct (Nat.eqb i (List.length f)).
        * inversion H; subst. rewrite (Hn ms at_ eq_refl) in Hin. destruct Hin.
        * eapply inv_link; eauto.
    - split. { constructor.
      + rewrite app_length. lia.
      + intros i Hi. apply nth_error_app1. apply (inv_lt f I i Hi).
      + intros d [ms [at_ [H D]]]. exists ms, at_; auto.
      + intros i v [x [H D]]. exists x; auto.
      + intros i [ms [at_ H]]. exists ms, at_; auto. }
    intros d [ms [at_ [H D]]]. left. exists ms, at_. split; auto.
    rewrite nth_error_app1 in H; auto. apply (inv_alt f I).
  Qed.

  (** a changed group *)
  Lemma put_group_keeps f i ms at_ ms' : Inv f -> ~ P i -> nth_error f i = Some (Group ms at_) ->
    NoDup (keys ms') ->
    (forall n j, In (n, j) ms' -> In (n, j) ms \/ (j <> a /\ ~ P j /\ j < List.length f)) ->
    (i = a -> forall d, dget DATA ms = Some d -> dget DATA ms' = Some d) ->
    Inv (put_nth i (Group ms' at_) f) /\ Fr0 f (put_nth i (Group ms' at_) f) /\
    ((i = a -> forall d, dget DATA ms' = Some d -> dget DATA ms = Some d) ->
     Fr f (put_nth i (Group ms' at_) f)).
  Proof.
    intros I NP H ND Hin Hd.
    pose proof (put_nth_error i (Group ms' at_) _ f H) as E.
    assert (N0 : i <> 0) by (intros ->; apply NP; apply (inv_P0 f I)).
    match goal with |- ?A /\ ?B /\ (?C -> _) => enough (X : A /\ B) end.
    { destruct X as [X1 X2]. split; [auto|split; [auto|]]. intros Hn. split; auto.
      intros d [m [t [H1 D]]]. left. rewrite E in H1. destruct (Nat.eqb_spec a i) as [Ea|N].
      - injection H1; intros <- <-. exists ms, at_. split; [congruence|apply Hn; auto].
      - exists m, t; auto. }
    split.
    - constructor.
      + intros k m t Hk. rewrite E in Hk. destruct (Nat.eqb_spec k i) as [->|N].
        * inversion Hk; subst; auto.
        * eapply inv_wf; eauto.
      + intros k m t n j Hk Hj. rewrite put_length. rewrite E in Hk. destruct (Nat.eqb_spec k i) as [->|N].
        * inversion Hk; subst. destruct (Hin n j Hj) as [Ho|[_ [_ B]]]; auto. eapply (inv_bd f I); eauto.
        * eapply (inv_bd f I); eauto.
      + destruct (inv_root f I) as [m [t [H1 D]]]. exists m, t. rewrite E.
        destruct (Nat.eqb_spec 0 i); [congruence|auto].
      + apply (inv_P0 f I).
      + apply (inv_Pa f I).
      + intros j Hj. rewrite put_length. apply (inv_lt f I j Hj).
      + rewrite put_length. apply (inv_alt f I).
      + intros k m t n j NPk Hk Hj. rewrite E in Hk. destruct (Nat.eqb_spec k i) as [->|N].
        * inversion Hk; subst. destruct (Hin n j Hj) as [Ho|[A [B _]]].
          -- apply (inv_link f I i ms t n j NP H Ho).
          -- split; [auto|tauto].
        * eapply inv_link; eauto.
    - constructor.
      + rewrite put_length; lia.
      + intros k Pk. rewrite E. destruct (Nat.eqb_spec k i); [subst; contradiction|auto].
      + intros d [m [t [H1 D]]]. unfold member. rewrite E. destruct (Nat.eqb_spec a i) as [Ea|N].
        * exists ms', at_. split; auto. apply Hd; auto. congruence.
        * exists m, t; auto.
      + intros k v [x [H1 D]]. unfold attribute. rewrite E. destruct (Nat.eqb_spec k i) as [->|N].
        * exists (Group ms' at_). split; auto. rewrite H in H1. inversion H1; subst. exact D.
        * exists x; auto.
      + intros k [m [t H1]]. unfold is_group. rewrite E. destruct (Nat.eqb_spec k i); eauto.
  Qed.

  (** changed attributes *)
  Lemma attrs_keeps f i nd k v : Inv f -> ~ P i -> nth_error f i = Some nd ->
    (k <> NXC \/ dget NXC (node_attrs nd) = None) ->
    let nd' := match nd with
               | Group ms at_ => Group ms (dset k v at_)
               | Dset x at_ => Dset x (dset k v at_)
               end in
    Inv (put_nth i nd' f) /\ Fr f (put_nth i nd' f).
  Proof.
    intros I NP H Hk nd'.
    pose proof (put_nth_error i nd' _ f H) as E.
    assert (N0 : i <> 0) by (intros ->; apply NP; apply (inv_P0 f I)).
    assert (G : forall ms t, nd' = Group ms t -> exists t', nd = Group ms t').
    { subst nd'. intros ms t. destruct nd; intros X; inversion X; subst; eauto. }
    split.
    - constructor.
      + intros j m t Hj. rewrite E in Hj. destruct (Nat.eqb_spec j i) as [->|N].
        * inversion Hj as [Hj']. destruct (G _ _ Hj') as [t' ->]. eapply inv_wf; eauto.
        * eapply inv_wf; eauto.
      + intros j m t n j' Hj Hin. rewrite put_length. rewrite E in Hj. destruct (Nat.eqb_spec j i) as [->|N].
        * inversion Hj as [Hj']. destruct (G _ _ Hj') as [t' ->]. eapply (inv_bd f I); eauto.
        * eapply (inv_bd f I); eauto.
      + destruct (inv_root f I) as [m [t [H1 D]]]. exists m, t. rewrite E.
        destruct (Nat.eqb_spec 0 i); [congruence|auto].
      + apply (inv_P0 f I).
      + apply (inv_Pa f I).
      + intros j Hj. rewrite put_length. apply (inv_lt f I j Hj).
      + rewrite put_length. apply (inv_alt f I).
      + intros j m t n j' NPj Hj Hin. rewrite E in Hj. destruct (Nat.eqb_spec j i) as [->|N].
        * inversion Hj as [Hj']. destruct (G _ _ Hj') as [t' ->].
          apply (inv_link f I i m t' n j' NP H Hin).
        * eapply inv_link; eauto.
    - split. { constructor.
      + rewrite put_length; lia.
      + intros j Pj. rewrite E. destruct (Nat.eqb_spec j i); [subst; contradiction|auto].
      + intros d [m [t [H1 D]]]. unfold member. rewrite E. destruct (Nat.eqb_spec a i) as [Ea|N].
        * subst i. rewrite H in H1. inversion H1; subst nd. exists m, (dset k v t). split; auto.
        * exists m, t; auto.
      + intros j w [x [H1 D]]. unfold attribute. rewrite E. destruct (Nat.eqb_spec j i) as [->|N].
        * rewrite H in H1. inversion H1; subst x. exists nd'. split; auto.
          fold (node_attrs nd) in D. subst nd'.
          destruct Hk as [Hk|Hk]; [|congruence].
          destruct nd; simpl in D |- *; rewrite dget_dset_other by congruence; exact D.
        * exists x; auto.
      + intros j [m [t H1]]. unfold is_group. rewrite E. destruct (Nat.eqb_spec j i) as [->|N]; [|eauto].
        rewrite H in H1. inversion H1; subst nd. subst nd'. eauto. }
    intros d [m [t [H1 D]]]. left. rewrite E in H1. destruct (Nat.eqb_spec a i) as [Ea|N].
      + inversion H1 as [Hj']. destruct (G _ _ Hj') as [t' ->]. exists m, t'. split; [congruence|auto].
      + exists m, t; auto.
  Qed.

  (* ---------------------------------------------------------------- *)
  (** operations that keep the invariant; [Q] holds of the result *)
  Definition hk {A} (m : HM A) (Q : A -> Prop) : Prop := forall f, Inv f ->
    Inv (fst (m f)) /\ Fr f (fst (m f)) /\ (forall x, snd (m f) = Ok x -> Q x).

  Lemma hk_ret {A} (x : A) (Q : A -> Prop) : Q x -> hk (sret x) Q.
  Proof. intros H f I. simpl. split; [auto|split; [apply Fr_refl|]]. intros y E; inversion E; subst; auto. Qed.
  Lemma hk_raise {A} e (Q : A -> Prop) : hk (sraise e) Q.
  Proof. intros f I. simpl. split; [auto|split; [apply Fr_refl|discriminate]]. Qed.
  Lemma hk_lift {A} (r : res A) (Q : A -> Prop) : (forall x, r = Ok x -> Q x) -> hk (slift r) Q.
  Proof. intros H f I. simpl. split; [auto|split; [apply Fr_refl|auto]]. Qed.
  Lemma hk_bind {A B} (m : HM A) (k : A -> HM B) Q R :
    hk m Q -> (forall x, Q x -> hk (k x) R) -> hk (sbind m k) R.
  Proof.
    intros Hm Hk f I. unfold sbind. destruct (Hm f I) as [I1 [F1 Q1]].
    destruct (m f) as [f1 [x|e]]; simpl in *.
    - destruct (Hk x (Q1 x eq_refl) f1 I1) as [I2 [F2 Q2]]. split; [auto|split; [eapply Fr_trans; eauto|auto]].
    - split; [auto|split; [auto|discriminate]].
  Qed.
  Lemma hk_weak {A} (m : HM A) (Q R : A -> Prop) : (forall x, Q x -> R x) -> hk m Q -> hk m R.
  Proof. intros H K f I. destruct (K f I) as [X [Y Z]]. auto. Qed.
  Lemma hk_iter {A} (g : A -> HM unit) l : (forall x, In x l -> hk (g x) (fun _ => True)) ->
    hk (siter g l) (fun _ => True).
  Proof.
    induction l as [|x l IH]; simpl; intros H.
    - apply hk_ret; auto.
    - eapply hk_bind; [apply H; auto|]. intros _ _. apply IH. intros y Hy; apply H; auto.
  Qed.
  Lemma hk_unit {A} (m : HM A) Q : hk m Q -> hk (sbind m (fun _ => sret tt)) (fun _ => True).
  Proof. intros H. eapply hk_bind; [exact H|]. intros; apply hk_ret; auto. Qed.

  Lemma walk_ok f ps i j : Inv f -> ~ P i -> (i = a -> hd [] ps <> DATA) -> walk ps i f = Some j ->
    ~ P j /\ (ps <> [] -> j <> a).
  Proof.
    intros I. revert i. induction ps as [|n ps IH]; simpl; intros i NP Hd H.
    - inversion H; subst. split; auto.
    - destruct (nth_error f i) as [[ms at_|]|] eqn:E; try discriminate.
      destruct (dget n ms) as [k|] eqn:D; [|discriminate].
      destruct (inv_link f I i ms at_ n k NP E (dget_In _ _ _ D)) as [K1 K2].
      assert (NPk : ~ P k) by (intros Pk; destruct (K2 Pk); apply Hd; auto).
      destruct (IH k NPk ltac:(intros; congruence) H) as [J1 J2].
      split; auto. intros _. destruct ps as [|m ps]; [simpl in H; congruence|]. apply J2; discriminate.
  Qed.

  Lemma start_rel i p : prefixb [SLASH] p = false -> start i p = i.
  Proof. unfold start. intros ->. reflexivity. Qed.

  (** a path that can be used from object [i] *)
  Definition usable (i : nat) (p : str) : Prop :=
    prefixb [SLASH] p = false /\ ~ P i /\ (i = a -> hd [] (parts p) <> DATA).

  Lemma resolve_ok f i p j : Inv f -> usable i p -> resolve i p f = Some j ->
    ~ P j /\ (parts p <> [] -> j <> a).
  Proof.
    intros I [R [NP Hd]] H. unfold resolve in H. destruct p as [|c p]; [discriminate|].
    rewrite (start_rel i _ R) in H. eapply walk_ok; eauto.
  Qed.

  Lemma hin_keeps g p : hk (hin g p) (fun _ => True).
  Proof. intros f I. simpl. split; [auto|split; [apply Fr_refl|auto]]. Qed.
  Lemma hget_keeps g p : usable (h_id g) p ->
    hk (hget g p) (fun o => ~ P (h_id o) /\ (parts p <> [] -> h_id o <> a) /\ h_name o = sub_name (h_name g) p).
  Proof.
    intros U f I. unfold hget. simpl. split; [auto|split; [apply Fr_refl|]].
    intros x H. destruct (resolve (h_id g) p f) as [j|] eqn:E; [|discriminate].
    inversion H; subst. simpl. destruct (resolve_ok f _ _ _ I U E). auto.
  Qed.

  Lemma add_member_spec i n j f : ~ P i -> ~ P j -> j <> a -> Inv f ->
    let f' := fst (add_member i n j f) in
    Inv f' /\ Fr0 f f' /\ ((i = a -> n <> DATA) -> Fr f f') /\
    (forall d, member f' a DATA d -> member f a DATA d \/ (d = j /\ snd (add_member i n j f) = Ok tt)).
  Proof.
    intros NP NPj Nj I f'. subst f'. unfold add_member.
    destruct (nth_error f i) as [[ms at_|]|] eqn:E;
      try (simpl; split; [auto|split; [apply Fr0_refl|split; [intros; apply Fr_refl|auto]]]).
    destruct (has n ms) eqn:Hn; [split; [auto|split; [apply Fr0_refl|split; [intros; apply Fr_refl|auto]]]|].
    destruct (Nat.leb_spec (List.length f) j) as [Lj|Lj]; [split; [auto|split; [apply Fr0_refl|split; [intros; apply Fr_refl|auto]]]|]. cbn [fst snd].
    destruct (put_group_keeps f i ms at_ (ms ++ [(n, j)]) I NP E) as [X [Y Z]].
    - apply NoDup_snoc_key; auto. eapply inv_wf; eauto.
    - intros m k Hin. apply in_app_iff in Hin. destruct Hin as [Hin|[Hin|[]]]; auto.
      inversion Hin; subst. right; auto.
    - intros _ d Hd. rewrite dget_app, Hd. reflexivity.
    - split; [auto|split; [auto|split]].
      + intros Hd. apply Z. intros Ea d. rewrite dget_app. destruct (dget DATA ms); auto.
        cbn [dget]. destruct (seqb DATA n) eqn:En; [apply seqb_eq in En; destruct (Hd Ea); auto|discriminate].
      + intros d [m [t [H1 D]]]. rewrite (put_nth_error _ _ _ _ E) in H1.
        destruct (Nat.eqb_spec a i) as [Ea|N].
        * injection H1; intros <- <-. rewrite dget_app in D. destruct (dget DATA ms) as [d0|] eqn:Dm.
          -- left. exists ms, at_. split; congruence.
          -- right. cbn [dget] in D. destruct (seqb DATA n); [|discriminate]. split; [congruence|auto].
        * left. exists m, t; auto.
  Qed.
  Lemma add_member_keeps i n j : ~ P i -> (i = a -> n <> DATA) -> ~ P j -> j <> a -> hk (add_member i n j) (fun _ => True).
  Proof. intros NP Hn NPj Nj f I. destruct (add_member_spec i n j f NP NPj Nj I) as [A [_ [B _]]]. auto. Qed.

  Lemma dig_keeps ps i : ~ P i -> (i = a -> hd [] ps <> DATA) ->
    hk (dig ps i) (fun g => ~ P g /\ (ps <> [] -> g <> a)).
  Proof.
    revert i. induction ps as [|n ps IH]; intros i NP Hd f I.
    - simpl. split; [auto|split; [apply Fr_refl|]]. intros x E; inversion E; subst. tauto.
    - cbn [dig]. destruct (nth_error f i) as [[ms at_|]|] eqn:E;
        try (simpl; split; [auto|split; [apply Fr_refl|discriminate]]).
      destruct (dget n ms) as [k|] eqn:D.
      + destruct (inv_link f I i ms at_ n k NP E (dget_In _ _ _ D)) as [K1 K2].
        assert (NPk : ~ P k) by (intros Pk; destruct (K2 Pk); apply Hd; auto).
        destruct (IH k NPk ltac:(intros; congruence) f I) as [X [Y Z]].
        split; [auto|split; [auto|]]. intros x Ex. destruct (Z x Ex) as [Z1 Z2]. split; auto.
        intros _. destruct ps; [simpl in Ex; congruence|apply Z2; discriminate].
      + destruct (snoc_keeps f (Group [] []) I) as [I1 F1]; [intros ? ? X; inversion X; auto|].
        assert (NPn : ~ P (List.length f)) by (intros X; apply (inv_lt f I) in X; lia).
        assert (Nna : List.length f <> a) by (pose proof (inv_alt f I); lia).
        unfold alloc, sbind.
        destruct (add_member_keeps i n (List.length f) NP Hd NPn Nna _ I1) as [I2 [F2 _]].
        destruct (add_member i n (List.length f) (f ++ [Group [] []])) as [f2 [u|e]]; simpl in *.
        * destruct (IH (List.length f) NPn ltac:(intros; congruence) f2 I2) as [X [Y Z]].
          split; [auto|split; [eapply Fr_trans; [eapply Fr_trans; eauto|auto]|]].
          intros x Ex. destruct (Z x Ex) as [Z1 Z2]. split; auto.
          intros _. destruct ps; [simpl in Ex; congruence|apply Z2; discriminate].
        * split; [auto|split; [eapply Fr_trans; eauto|discriminate]].
  Qed.

  (** a path at which something can be made *)
  Definition makeable (i : nat) (p : str) : Prop :=
    prefixb [SLASH] p = false /\ ~ P i /\ (i = a -> 2 <= List.length (parts p) -> hd [] (parts p) <> DATA).
  Lemma usable_makeable i p : usable i p -> makeable i p.
  Proof. intros [A [B C]]. split; [|split]; auto. Qed.

  Lemma rev_cons {A} (l r : list A) x : rev l = x :: r -> l = rev r ++ [x].
  Proof. intros H. rewrite <- (rev_involutive l), H. reflexivity. Qed.

  Lemma makeable_dig i p n r : makeable i p -> rev (parts p) = n :: r ->
    start i p = i /\ ~ P i /\ (i = a -> hd [] (rev r) <> DATA).
  Proof.
    intros [R [NP H]] E. split; [apply start_rel; auto|split; [auto|]]. intros Ea.
    apply rev_cons in E. rewrite E in H. rewrite app_length in H. simpl in H.
    destruct (rev r) as [|x l] eqn:Er; [cbn [hd]; apply seqb_neq; reflexivity|].
    simpl in H. apply H; auto. lia.
  Qed.

  Lemma usable_last i p n r : usable i p -> rev (parts p) = n :: r -> forall g,
    (rev r = [] -> g = i) -> (rev r <> [] -> g <> a) -> g = a -> n <> DATA.
  Proof.
    intros [R [NP H]] E g G1 G2 Ea. apply rev_cons in E. rewrite E in H.
    destruct (rev r) as [|x l]; [|exfalso; apply G2; [discriminate|auto]].
    apply H. rewrite <- G1; auto.
  Qed.
  Lemma dig_nil i f : dig [] i f = (f, Ok i).
  Proof. reflexivity. Qed.
  Lemma link_at_keeps i p j : usable i p -> ~ P j -> j <> a -> hk (link_at i p j) (fun _ => True).
  Proof.
    intros U NPj Nj. unfold link_at. destruct (rev (parts p)) as [|n r] eqn:E; [apply hk_raise|].
    destruct (makeable_dig i p n r (usable_makeable _ _ U) E) as [-> [NP Hd]].
    pose proof (usable_last i p n r U E) as UL.
    eapply hk_bind with (Q := fun g => ~ P g /\ (g = a -> n <> DATA)).
    - intros f I. destruct (dig_keeps (rev r) i NP Hd f I) as [A [B C]]. split; [auto|split; [auto|]].
      intros g Hg. destruct (C g Hg) as [C1 C2]. split; auto. apply UL; auto.
      intros Er. rewrite Er, dig_nil in Hg. inversion Hg; auto.
    - intros g [Hg Hn]. apply add_member_keeps; auto.
  Qed.

  Definition bare (nd : node) : Prop := (nd = Group [] [] \/ exists v, nd = Dset v []).
  Lemma bare_empty nd : bare nd -> forall ms at_, nd = Group ms at_ -> ms = [].
  Proof. intros [->|[v ->]] ms at_ H; inversion H; auto. Qed.

  Lemma add_member_nth f i n j k nd : i <> k -> nth_error f k = Some nd ->
    nth_error (fst (add_member i n j f)) k = Some nd.
  Proof.
    intros N H. unfold add_member. destruct (nth_error f i) as [[ms t|]|]; auto.
    destruct (has n ms); auto. destruct (Nat.leb (List.length f) j); auto. cbn [fst]. rewrite put_other; auto.
  Qed.

  Lemma create_spec f i p nd : Inv f -> makeable i p -> bare nd ->
    let f' := fst (create_at i p nd f) in
    Inv f' /\ Fr0 f f' /\ (usable i p -> Fr f f') /\
    (forall d, member f' a DATA d -> member f a DATA d \/ nx_group f' d "NXdata" \/ snd (create_at i p nd f) = Ok d) /\
    forall j, snd (create_at i p nd f) = Ok j -> nth_error f' j = Some nd /\ ~ P j /\ j <> a.
  Proof.
    intros I M Hb f'. subst f'. unfold create_at.
    assert (ID : forall g, Inv g -> Fr f g -> Inv g /\ Fr0 f g /\ (usable i p -> Fr f g) /\
       (forall d, member g a DATA d -> member f a DATA d \/ nx_group g d "NXdata" \/ False)).
    { intros g Ig Fg. split; [auto|split; [apply Fg|split; [auto|]]]. intros d Hd. destruct (proj2 Fg d Hd); auto. }
    destruct (rev (parts p)) as [|n r] eqn:E.
    { simpl. destruct (ID f I (Fr_refl f)) as [A [B [C D]]].
      split; [auto|split; [auto|split; [auto|split; [|discriminate]]]].
      intros d Hd. destruct (D d Hd) as [|[|[]]]; auto. }
    destruct (makeable_dig i p n r M E) as [-> [NP Hd]].
    destruct (dig_keeps (rev r) i NP Hd f I) as [I1 [F1 Q1]].
    assert (UL : usable i p -> forall g, snd (dig (rev r) i f) = Ok g -> g = a -> n <> DATA).
    { intros U g Hg. destruct (Q1 g Hg) as [_ C2]. apply (usable_last i p n r U E); auto.
      intros Er. rewrite Er, dig_nil in Hg. inversion Hg; auto. }
    rewrite sbind_eq. destruct (dig (rev r) i f) as [f1 [g|e]]; cbn [fst snd] in *.
    2:{ destruct (ID f1 I1 F1) as [A [B [C D]]].
      split; [auto|split; [auto|split; [auto|split; [|discriminate]]]].
      intros d Hdd. destruct (D d Hdd) as [|[|[]]]; auto. }
    destruct (ID f1 I1 F1) as [_ [B1 [C1 D1]]].
    destruct (Q1 g eq_refl) as [NPg _]. rewrite sbind_eq. unfold free.
    destruct (nth_error f1 g) as [[ms at_|]|] eqn:Eg; cbn [fst snd];
      try (split; [auto|split; [auto|split; [auto|split; [|discriminate]]]]; intros d Hdd; destruct (D1 d Hdd) as [|[|[]]]; auto; fail).
    destruct (has n ms) eqn:Hn; cbn [fst snd];
      [split; [auto|split; [auto|split; [auto|split; [|discriminate]]]]; intros d Hdd; destruct (D1 d Hdd) as [|[|[]]]; auto|].
    destruct (snoc_keeps f1 nd I1 (bare_empty nd Hb)) as [I2 F2].
    assert (NPn : ~ P (List.length f1)) by (intros X; apply (inv_lt f1 I1) in X; lia).
    assert (Nna : List.length f1 <> a) by (pose proof (inv_alt f1 I1); lia).
    destruct (add_member_spec g n (List.length f1) _ NPg NPn Nna I2) as [I3 [F3 [G3 D3]]].
    assert (Ng : g <> List.length f1).
    { intros ->. assert (X : List.length f1 < List.length f1) by (apply nth_error_Some; congruence). lia. }
    pose proof (add_member_nth (f1 ++ [nd]) g n (List.length f1) (List.length f1) nd Ng) as K.
    rewrite sbind_eq. unfold alloc. rewrite sbind_eq.
    destruct (add_member g n (List.length f1) (f1 ++ [nd])) as [f3 [u|e]]; cbn [fst snd sret] in *.
    - split; [auto|split; [|split; [|split]]].
      + eapply Fr0_trans; [exact B1|eapply Fr0_trans; [apply F2|auto]].
      + intros U. eapply Fr_trans; [exact F1|eapply Fr_trans; [exact F2|apply G3; exact (UL U g eq_refl)]].
      + intros d Hdd. destruct (D3 d Hdd) as [X|[-> _]]; [|auto].
        destruct (proj2 F2 d X) as [Y|Y].
        * destruct (D1 d Y) as [Z|[Z|[]]]; auto. right; left.
          eapply Fr0_class; [|exact Z]. eapply Fr0_trans; [apply F2|auto].
        * right; left. eapply Fr0_class; [exact F3|exact Y].
      + intros j X; inversion X; subst j. split; [|auto]. apply K. rewrite nth_snoc, Nat.eqb_refl. auto.
    - split; [auto|split; [|split; [|split]]].
      + eapply Fr0_trans; [exact B1|eapply Fr0_trans; [apply F2|auto]].
      + intros U. eapply Fr_trans; [exact F1|eapply Fr_trans; [exact F2|apply G3; exact (UL U g eq_refl)]].
      + intros d Hdd. destruct (D3 d Hdd) as [X|[_ X]]; [|discriminate].
        destruct (proj2 F2 d X) as [Y|Y].
        * destruct (D1 d Y) as [Z|[Z|[]]]; auto. right; left.
          eapply Fr0_class; [|exact Z]. eapply Fr0_trans; [apply F2|auto].
        * right; left. eapply Fr0_class; [exact F3|exact Y].
      + discriminate.
  Qed.

  Lemma set_attr_keeps i k v : ~ P i -> k <> NXC -> hk (set_attr i k v) (fun _ => True).
  Proof.
    intros NP N f I. unfold set_attr.
    destruct (nth_error f i) as [nd|] eqn:E; [|simpl; split; [auto|split; [apply Fr_refl|auto]]].
    destruct (attrs_keeps f i nd k v I NP E (or_introl N)) as [X Y].
    destruct nd; simpl in *; auto.
  Qed.

  Definition no_class (l : attrs_t) : Prop := Forall (fun kv => fst kv <> NXC) l.
  Lemma addAttributes_keeps o l : ~ P (h_id o) -> no_class l -> hk (addAttributes o l) (fun _ => True).
  Proof.
    intros NP N. unfold addAttributes. apply hk_iter. intros x Hx.
    unfold no_class in N. rewrite Forall_forall in N. apply set_attr_keeps; auto.
  Qed.

  (** handles of the entry and of objects below it *)
  Definition ent (h : handle) : Prop := h_id h = a /\ h_name h = name_at [sk].
  Definition sub (ps : list str) (h : handle) : Prop :=
    ~ P (h_id h) /\ h_id h <> a /\ h_name h = name_at (sk :: ps) /\ Forall plain_name (sk :: ps).
  Definition known_at (ps : list str) (h : handle) : Prop :=
    Forall plain_name (sk :: ps) /\ h_name h = name_at (sk :: ps) /\ ~ P (h_id h) /\
    (ps <> [] -> h_id h <> a).

  Lemma sub_known ps h : sub ps h -> known_at ps h.
  Proof. intros [A [B [C D]]]. split; auto. Qed.

  Lemma created ps h p j : known_at ps h -> prefixb [SLASH] p = false -> ~ P j -> j <> a ->
    sub (ps ++ parts p) (mk_handle j (sub_name (h_name h) p)).
  Proof.
    intros [Hp [Hn [_ _]]] R NP Na. split; [auto|split; [auto|split]].
    - simpl. rewrite Hn. rewrite sub_name_at by auto. reflexivity.
    - apply Forall_cons; [apply (Forall_inv Hp)|]. apply Forall_app. split; [apply (Forall_inv_tail Hp)|apply parts_good].
  Qed.

  Lemma makeGroup_keeps ps g p c l : known_at ps g ->
    usable (h_id g) p \/ (makeable (h_id g) p /\ c = L "NXdata") -> no_class l ->
    hk (makeGroup g p c l) (fun o => sub (ps ++ parts p) o).
  Proof.
    intros K M0 N f I. unfold makeGroup.
    assert (M : makeable (h_id g) p) by (destruct M0 as [U|[U _]]; [apply usable_makeable|]; auto).
    destruct (create_spec f (h_id g) p (Group [] []) I M) as [I1 [F1 [G1 [D1 Q1]]]]; [left; auto|].
    rewrite sbind_eq.
    destruct (create_at (h_id g) p (Group [] []) f) as [f1 [j|e]]; cbn [fst snd] in *.
    2:{ split; [auto|split; [|discriminate]]. split; [auto|]. intros d Hd.
        destruct (D1 d Hd) as [|[|]]; auto. discriminate. }
    destruct (Q1 j eq_refl) as [E [NPj Nj]].
    destruct (attrs_keeps f1 j (Group [] []) NXC (AText c) I1 NPj E) as [I2 F2]; [right; reflexivity|].
    rewrite sbind_eq. unfold set_attr. rewrite E.
    set (o := mk_handle j (sub_name (h_name g) p)) in *.
    assert (KK : hk (addAttributes o l >>> sret o) (fun o => sub (ps ++ parts p) o)).
    { eapply hk_bind; [apply addAttributes_keeps; auto|]. intros _ _. apply hk_ret.
      apply created; auto. apply M. }
    destruct (KK _ I2) as [I3 [F3 Q3]].
    split; [auto|split; [|auto]].
    destruct M0 as [U|[_ Hc]]; [eapply Fr_trans; [apply G1; auto|eapply Fr_trans; eauto]|].
    split; [eapply Fr0_trans; [exact F1|eapply Fr0_trans; [apply F2|apply F3]]|].
    intros d Hd. destruct (proj2 F3 d Hd) as [H3|H3]; auto.
    destruct (proj2 F2 d H3) as [H2|H2].
    - destruct (D1 d H2) as [H1|[H1|H1]]; auto.
      + right. eapply Fr0_class; [|exact H1]. eapply Fr0_trans; [apply F2|apply F3].
      + inversion H1; subst d. right. eapply Fr0_class; [apply F3|].
        cbv zeta beta iota. split.
        * exists [], (dset NXC (AText c) []). rewrite (put_nth_error _ _ _ _ E), Nat.eqb_refl. reflexivity.
        * exists (Group [] (dset NXC (AText c) [])). rewrite (put_nth_error _ _ _ _ E), Nat.eqb_refl.
          split; [reflexivity|]. rewrite Hc. apply dget_dset_same.
    - right. eapply Fr0_class; [apply F3|exact H2].
  Qed.

  Lemma openGroup_keeps ps g p c l : known_at ps g -> usable (h_id g) p -> parts p <> [] -> no_class l ->
    hk (openGroup g p c l) (fun o => sub (ps ++ parts p) o).
  Proof.
    intros K U Ne N f I. unfold openGroup. destruct (resolve (h_id g) p f) as [j|] eqn:E.
    - destruct (resolve_ok f _ _ _ I U E) as [NPj Nj]. cbv zeta.
      set (o := mk_handle j (sub_name (h_name g) p)).
      assert (KK : hk (addAttributes o l >>> sret o) (fun o => sub (ps ++ parts p) o)).
      { eapply hk_bind; [apply addAttributes_keeps; auto|]. intros _ _. apply hk_ret.
        apply created; auto. apply U. }
      apply KK; auto.
    - apply makeGroup_keeps; auto.
  Qed.

  Lemma makeDataset_keeps ps g p d l : known_at ps g -> usable (h_id g) p -> no_class l ->
    hk (makeDataset g p d l) (fun o => sub (ps ++ parts p) o).
  Proof.
    intros K U N. pose proof (usable_makeable _ _ U) as M. unfold makeDataset. eapply hk_bind; [apply hk_lift with (Q := fun _ => True); auto|].
    intros v _ f I. cbv zeta.
    destruct (create_spec f (h_id g) p (Dset v []) I M) as [I1 [_ [F1 [_ Q1]]]]; [right; eauto|].
    specialize (F1 U).
    rewrite sbind_eq.
    destruct (create_at (h_id g) p (Dset v []) f) as [f1 [j|e]]; simpl in *;
      [|split; [auto|split; [auto|discriminate]]].
    destruct (Q1 j eq_refl) as [E [NPj Nj]].
    set (o := mk_handle j (sub_name (h_name g) p)) in *.
    assert (KK : hk (addAttributes o l >>> sret o) (fun o => sub (ps ++ parts p) o)).
    { eapply hk_bind; [apply addAttributes_keeps; auto|]. intros _ _. apply hk_ret.
      apply created; auto. apply M. }
    destruct (KK _ I1) as [I3 [F3 Q3]].
    split; [auto|split; [eapply Fr_trans; eauto|auto]].
  Qed.

  Lemma hdel_keeps g p : usable (h_id g) p -> hk (hdel g p) (fun _ => True).
  Proof.
    intros U f I. unfold hdel. destruct (rev (parts p)) as [|n r] eqn:E;
      [simpl; split; [auto|split; [apply Fr_refl|auto]]|].
    pose proof U as [R [NP Hd]]. rewrite (start_rel _ _ R).
    apply rev_cons in E.
    destruct (walk (rev r) (h_id g) f) as [i|] eqn:W; [|simpl; split; [auto|split; [apply Fr_refl|auto]]].
    assert (Hd' : h_id g = a -> hd [] (rev r) <> DATA).
    { intros Ea. specialize (Hd Ea). rewrite E in Hd. destruct (rev r); cbn [app hd] in *; [apply seqb_neq; reflexivity|auto]. }
    destruct (walk_ok f _ _ _ I NP Hd' W) as [NPi Hi].
    unfold del_member. destruct (nth_error f i) as [[ms at_|]|] eqn:Ei;
      try (simpl; split; [auto|split; [apply Fr_refl|auto]]).
    destruct (has n ms) eqn:Hn; [|simpl; split; [auto|split; [apply Fr_refl|auto]]]. simpl.
    destruct (put_group_keeps f i ms at_ (ddel n ms) I NPi Ei) as [X [_ Y]].
    - apply NoDup_ddel. eapply inv_wf; eauto.
    - intros m k Hin. left. eapply In_ddel; eauto.
    - intros Ea d Hdd. rewrite dget_ddel_other; auto. intros Ed.
      destruct (rev r) as [|x t] eqn:Er.
      + simpl in W. inversion W; subst i. apply Hd; auto. rewrite E. simpl. auto.
      + apply Hi; [discriminate|auto].
    - split; [auto|split; [|auto]]. apply Y. intros _ d Hdd. apply (dget_ddel_sub DATA n ms d); [|exact Hdd].
      exact (inv_wf f I i ms at_ Ei).
  Qed.

  Lemma write_dataset_keeps ps g p d l : known_at ps g -> usable (h_id g) p -> no_class l ->
    hk (write_dataset g p d l) (fun o => sub (ps ++ parts p) o).
  Proof.
    intros K U N. unfold write_dataset. eapply hk_bind; [apply hin_keeps|]. intros b _.
    eapply hk_bind with (Q := fun _ => True); [destruct b; [apply hdel_keeps; auto|apply hk_ret; auto]|].
    intros _ _. apply makeDataset_keeps; auto.
  Qed.

  (** a link made through absolute names *)
  Lemma makeLink_keeps g s ps n qs : ~ P (h_id s) ->
    Forall is_ascii (sk :: ps) -> Forall plain_name (sk :: ps) -> h_name s = name_at (sk :: ps) ->
    ps <> [] -> hd [] ps <> DATA ->
    Forall is_ascii (sk :: qs) -> Forall plain_name (sk :: qs) -> qs <> [] -> hd [] qs <> DATA ->
    is_ascii n -> plain_name n ->
    hk (makeLink g s (name_at (sk :: qs) ++ [SLASH] ++ n)) (fun _ => True).
  Proof.
    intros NP As Pl Hn Ne Nd Aq Pq Neq Ndq An Pn. unfold makeLink.
    eapply hk_bind with (Q := fun _ => True).
    { intros f I. destruct (has (L "target") (attrs_at (h_id s) f)).
      - simpl. split; [auto|split; [apply Fr_refl|auto]].
      - apply set_attr_keeps; auto. apply seqb_neq; reflexivity. }
    intros _ _. rewrite Hn, (ascii_id (name_at (sk :: ps))) by (apply is_ascii_name_at; auto).
    intros f I.
    assert (KS : hk (hget g (name_at (sk :: ps))) (fun o => ~ P (h_id o) /\ h_id o <> a)).
    { clear f I. intros f I. unfold hget. cbn [fst snd]. split; [auto|split; [apply Fr_refl|]].
      intros x H. destruct (resolve (h_id g) (name_at (sk :: ps)) f) as [j|] eqn:E; [|discriminate].
      inversion H; subst x. cbn [h_id]. unfold resolve in E. unfold name_at in E at 1. cbn [app] in E.
      rewrite parts_name_at in E by auto.
      unfold start in E. unfold name_at in E. cbn [app prefixb] in E. rewrite N.eqb_refl in E. cbn [andb] in E.
      cbn [walk] in E. destruct (inv_root f I) as [ms [at_ [H0 D]]]. rewrite H0, D in E.
      destruct (walk_ok f ps a j I (inv_Pa f I)) as [A B]; auto. }
    apply (hk_bind _ _ _ (fun _ => True) KS); [|exact I]. clear f I.
    intros o [NPo Nao].
    assert (PJ : parts (ascii (name_at (sk :: qs) ++ [SLASH] ++ n)) = sk :: qs ++ [n]).
    { assert (EE : name_at (sk :: qs) ++ [SLASH] ++ n = name_at (sk :: qs ++ [n])).
      { unfold name_at. rewrite <- !app_assoc. f_equal.
        clear. revert sk. induction qs as [|q qs IH]; intros k; [reflexivity|].
        change (join [SLASH] (k :: q :: qs)) with (k ++ [SLASH] ++ join [SLASH] (q :: qs)).
        change (join [SLASH] (k :: (q :: qs) ++ [n])) with (k ++ [SLASH] ++ join [SLASH] (q :: qs ++ [n])).
        rewrite <- !app_assoc. f_equal. f_equal. apply IH. }
      rewrite EE. rewrite ascii_id.
      - apply parts_name_at. change (sk :: qs ++ [n]) with ((sk :: qs) ++ [n]). apply Forall_app. auto.
      - apply is_ascii_name_at. change (sk :: qs ++ [n]) with ((sk :: qs) ++ [n]). apply Forall_app. auto. }
    assert (ST : start (h_id g) (ascii (name_at (sk :: qs) ++ [SLASH] ++ n)) = 0).
    { unfold start, name_at. cbn [app]. unfold ascii. cbn [List.filter]. reflexivity. }
    unfold link_at. rewrite PJ, ST.
    change (sk :: qs ++ [n]) with ((sk :: qs) ++ [n]). rewrite rev_app_distr. cbn [rev app].
    rewrite rev_app_distr, rev_involutive. cbn [rev app].
    eapply hk_bind with (Q := fun g => ~ P g /\ g <> a).
    - intros f I. cbn [dig]. destruct (inv_root f I) as [ms [at_ [H0 D]]]. rewrite H0, D.
      destruct (dig_keeps qs a (inv_Pa f I)) with (f := f) as [A [B C]]; auto.
      split; [auto|split; [auto|]]. intros x Hx. destruct (C x Hx) as [C1 C2]. auto.
    - intros g' [NPg Nag]. apply add_member_keeps; auto.
  Qed.
End Frame.
