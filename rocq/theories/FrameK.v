(** What the writers of one NXentry leave alone, II: protected objects below the entry.

    [P] are protected objects, [a] is the group of the entry and [sk] its name in the root.  [K] are protected paths
    below the entry: from unprotected groups the protected objects are only reached by links at these paths.  A path of
    [K] is a name in the entry or a name in one of the special groups of the entry, whose names are in [Uq]; [II] are
    such groups that exist.  The special groups are linked only once; the group of the spectra may be linked
    in the instrument, too. *)
From Coq Require Import String Lia.
From Verif Require Import Py PyFacts Utils SpecUtils H5 SpecH5 H5Facts FrameH5.
Import ListNotations.
Local Open Scope list_scope.

Definition INS : str := L "instrument".
Definition SAM : str := L "sample".
Definition URES : str := L "UserResults".
Definition URSV : str := L "UserReserved".
Definition Uq (n : str) : Prop := In n [INS; SAM; URES; URSV].
Definition MCAn : str := L "MCA".

Section FrameK.
  Context (P : nat -> Prop) (a : nat) (sk : str) (K : list str -> Prop) (II : nat -> str -> Prop).
  Definition link (f : h5) (i : nat) (n : str) (j : nat) : Prop := exists ms at_, nth_error f i = Some (Group ms at_) /\ In (n, j) ms.

  Record Inv (f : h5) : Prop := mk_inv {
    inv_wf : wf f;
    inv_bd : bounded f;
    inv_root : member f 0 sk a;
    inv_P0 : P 0;
    inv_Pa : ~ P a;
    inv_lt : forall j, P j -> j < List.length f;
    inv_alt : a < List.length f;
    inv_link : forall i n j, ~ P i -> link f i n j ->
               j <> a /\ (P j -> (i = a /\ K [n]) \/ exists g, II i g /\ K [g; n]);
    inv_uq : forall i n j g, ~ P i -> link f i n j -> Uq g -> member f a g j -> i = a /\ n = g;
    inv_I : forall j g, II j g -> Uq g /\ ~ P j /\ j <> a /\ member f a g j;
    inv_mca : forall i n j, ~ P i -> link f i n j -> member f a MCAn j -> (i = a /\ n = MCAn) \/ (n = MCAn /\ member f a INS i) }.

  Record Fr (f f' : h5) : Prop := mk_fr {
    fr_len : List.length f <= List.length f';
    fr_P : forall i, P i -> nth_error f' i = nth_error f i;
    fr_top : forall n j, K [n] -> member f a n j -> member f' a n j;
    fr_sub : forall i g n j, II i g -> K [g; n] -> member f i n j -> member f' i n j }.

  Lemma Fr_refl f : Fr f f.
  Proof. constructor; auto. Qed.
  Lemma Fr_trans f g h : Fr f g -> Fr g h -> Fr f h.
  Proof.
    intros [A1 A2 A3 A4] [B1 B2 B3 B4]. constructor; eauto; try lia.
    intros i Hi. rewrite B2, A2; auto.
  Qed.

  Lemma member_link f i n j : member f i n j -> link f i n j.
  Proof. intros (m & x & A & B). exists m, x. split; [auto|apply dget_In; auto]. Qed.
  Lemma link_member f i n j : wf f -> link f i n j -> member f i n j.
  Proof. intros W (m & x & A & B). exists m, x. split; [auto|apply In_dget; [eapply W; eauto|auto]]. Qed.

  (** a new object *)
  Lemma snoc_link f nd i n j : (forall ms at_, nd = Group ms at_ -> ms = []) -> link (f ++ [nd]) i n j <-> link f i n j.
  Proof.
    intros Hn. split; intros (m & x & A & B).
    - rewrite nth_snoc in A. destruct (Nat.eqb i (List.length f)).
      + inversion A; subst. rewrite (Hn m x eq_refl) in B. destruct B.
      + exists m, x; auto.
    - exists m, x. split; [|auto]. rewrite nth_error_app1; auto. apply nth_error_Some. congruence.
  Qed.
  Lemma snoc_wf f nd : (forall ms at_, nd = Group ms at_ -> ms = []) -> wf f -> wf (f ++ [nd]).
  Proof.
    intros Hn W i ms at_ H. rewrite nth_snoc in H. destruct (Nat.eqb i (List.length f)).
    - inversion H; subst. rewrite (Hn ms at_ eq_refl). constructor.
    - eapply W; eauto.
  Qed.
  Lemma snoc_member f nd i n j : wf f -> (forall ms at_, nd = Group ms at_ -> ms = []) -> member (f ++ [nd]) i n j <-> member f i n j.
  Proof.
    intros W Hn. split; intros H.
    - apply link_member; [auto|]. apply (snoc_link f nd); [auto|]. apply member_link; auto.
    - apply link_member; [apply snoc_wf; auto|]. apply snoc_link; [auto|]. apply member_link; auto.
  Qed.
  Lemma snoc_keeps f nd : Inv f -> (forall ms at_, nd = Group ms at_ -> ms = []) ->
    Inv (f ++ [nd]) /\ Fr f (f ++ [nd]).
  Proof.
    intros I Hn. pose proof (inv_wf f I) as W. split.
    - constructor.
      + apply snoc_wf; auto.
      + intros i ms at_ n j H Hin. rewrite app_length. assert (X : link f i n j) by (apply (snoc_link f nd); [auto|exists ms, at_; auto]).
        destruct X as (m & x & A & B). pose proof (inv_bd f I i m x n j A B). lia.
      + apply snoc_member; auto. apply (inv_root f I).
      + apply (inv_P0 f I).
      + apply (inv_Pa f I).
      + intros j H. rewrite app_length. simpl. pose proof (inv_lt f I j H). lia.
      + rewrite app_length. pose proof (inv_alt f I). lia.
      + intros i n j NP H. apply snoc_link in H; [|auto]. apply (inv_link f I i n j); auto.
      + intros i n j g NP H U M. apply snoc_link in H; [|auto]. apply snoc_member in M; auto. eapply inv_uq; eauto.
      + intros j g H. destruct (inv_I f I j g H) as (A & B & C & D). repeat (split; [auto|]). apply snoc_member; auto.
      + intros i n j NP H M. apply snoc_link in H; [|auto]. apply snoc_member in M; auto. destruct (inv_mca f I i n j NP H M) as [X|[X Y]]; [left; exact X|right]. split; [exact X|]. apply snoc_member; auto.
    - constructor.
      + rewrite app_length. lia.
      + intros i Hi. apply nth_error_app1. apply (inv_lt f I i Hi).
      + intros n j _ M. apply snoc_member; auto.
      + intros i g n j _ _ M. apply snoc_member; auto.
  Qed.

  (** a removed link *)
  Lemma put_link f i ms at_ ms' k n j : nth_error f i = Some (Group ms at_) ->
    link (put_nth i (Group ms' at_) f) k n j <-> (k = i /\ In (n, j) ms') \/ (k <> i /\ link f k n j).
  Proof.
    intros H. pose proof (put_nth_error i (Group ms' at_) _ f H) as E. split.
    - intros (m & x & A & B). rewrite E in A. destruct (Nat.eqb_spec k i) as [->|N].
      + inversion A; subst. auto.
      + right. split; [auto|exists m, x; auto].
    - intros [[-> B]|[N (m & x & A & B)]].
      + exists ms', at_. rewrite E, Nat.eqb_refl. auto.
      + exists m, x. rewrite E. destruct (Nat.eqb_spec k i); [congruence|auto].
  Qed.
  Lemma put_wf f i ms at_ ms' : nth_error f i = Some (Group ms at_) -> NoDup (keys ms') -> wf f -> wf (put_nth i (Group ms' at_) f).
  Proof.
    intros H ND W k m t Hk. rewrite (put_nth_error i (Group ms' at_) _ f H) in Hk. destruct (Nat.eqb_spec k i) as [->|N].
    - inversion Hk; subst; auto.
    - eapply W; eauto.
  Qed.
  Lemma link_at f i ms at_ n j : nth_error f i = Some (Group ms at_) -> In (n, j) ms -> link f i n j.
  Proof. intros. exists ms, at_; auto. Qed.
  Lemma link_of f i ms at_ n j : nth_error f i = Some (Group ms at_) -> link f i n j -> In (n, j) ms.
  Proof. intros H (m & x & A & B). rewrite H in A. inversion A; subst; auto. Qed.

  Lemma ddel_out {V} k (d : dict V) x : NoDup (keys d) -> ~ In (k, x) (ddel k d).
  Proof.
    induction d as [|[k' y] d IH]; simpl; intros ND; [auto|]. inversion ND; subst. destruct (seqb k k') eqn:Ek.
    - apply seqb_eq in Ek. subst. intros H. apply H1. apply (in_map fst) in H. exact H.
    - simpl. intros [H|H]; [inversion H; subst; rewrite seqb_refl in Ek; discriminate|]. apply IH; auto.
  Qed.
  Lemma ddel_In {V} k n (x : V) d : n <> k -> In (n, x) d -> In (n, x) (ddel k d).
  Proof.
    intros N. induction d as [|[k' y] d IH]; simpl; [auto|]. intros [H|H].
    - inversion H; subst. destruct (seqb k n) eqn:Ek; [apply seqb_eq in Ek; congruence|left; auto].
    - destruct (seqb k k'); [exact H|]. right. auto.
  Qed.

  Lemma del_keeps f i ms at_ n : Inv f -> ~ P i -> nth_error f i = Some (Group ms at_) ->
    (i = a -> ~ K [n] /\ ~ Uq n) -> (forall g, II i g -> ~ K [g; n]) ->
    let f' := put_nth i (Group (ddel n ms) at_) f in Inv f' /\ Fr f f'.
  Proof.
    intros I NP H Ha Hs f'. pose proof (inv_wf f I) as W.
    assert (N0 : i <> 0) by (intros ->; apply NP; apply (inv_P0 f I)).
    assert (W' : wf f') by (eapply put_wf; [exact H|apply NoDup_ddel; eapply W; eauto|auto]).
    assert (LK : forall k m j, link f' k m j -> link f k m j).
    { intros k m j X. apply (put_link f i ms at_ (ddel n ms) k m j H) in X. destruct X as [[-> B]|[_ X]]; [|auto].
      eapply link_at; [exact H|]. eapply In_ddel; eauto. }
    assert (KL : forall k m j, link f k m j -> (k = i -> m <> n) -> link f' k m j).
    { intros k m j X N. apply (put_link f i ms at_ (ddel n ms) k m j H). destruct (Nat.eq_dec k i) as [->|Nk]; [left|right; auto].
      split; [auto|]. apply ddel_In; [apply N; auto|]. eapply link_of; eauto. }
    assert (KM : forall k m j, member f k m j -> (k = i -> m <> n) -> member f' k m j).
    { intros. apply link_member; [auto|]. apply KL; [|auto]. apply member_link; auto. }
    split.
    - constructor.
      + auto.
      + intros k m t x j Hk Hj. unfold f'. rewrite put_length.
        assert (X : link f k x j) by (apply LK; exists m, t; auto). destruct X as (m1 & t1 & X1 & X2). eapply (inv_bd f I); eauto.
      + apply KM; [apply (inv_root f I)|]. intros; congruence.
      + apply (inv_P0 f I).
      + apply (inv_Pa f I).
      + intros j Hj. unfold f'. rewrite put_length. apply (inv_lt f I j Hj).
      + unfold f'. rewrite put_length. apply (inv_alt f I).
      + intros k m j NPk X. apply (inv_link f I k m j NPk). auto.
      + intros k m j g NPk X U M. apply (inv_uq f I k m j g NPk); auto. apply link_member; [auto|]. apply LK. apply member_link; auto.
      + intros j g X. destruct (inv_I f I j g X) as (A & B & C & D). repeat (split; [auto|]). apply KM; [auto|].
        intros Ei ->. apply Ha; auto.
      + intros k m j NPk X M. assert (M0 : member f a MCAn j) by (apply link_member; [auto|]; apply LK; apply member_link; auto).
        destruct (inv_mca f I k m j NPk (LK _ _ _ X) M0) as [Q|[Q1 Q2]]; [left; exact Q|right]. split; [exact Q1|]. apply KM; [exact Q2|].
        intros Ei Q. apply (proj2 (Ha (eq_sym Ei))). rewrite <- Q. left. reflexivity.
    - constructor.
      + unfold f'. rewrite put_length; lia.
      + intros k Pk. unfold f'. rewrite (put_nth_error _ _ _ _ H). destruct (Nat.eqb_spec k i); [subst; contradiction|auto].
      + intros m j Km M. apply KM; [auto|]. intros Ei ->. destruct (Ha (eq_sym Ei)); auto.
      + intros k g m j Ik Km M. apply KM; [auto|]. intros -> ->. apply (Hs g); auto.
  Qed.

  (** a new link; [j] is not linked yet, or not to become special *)
  Lemma add_keeps f i ms at_ n j : Inv f -> ~ P i -> nth_error f i = Some (Group ms at_) -> has n ms = false ->
    ~ P j -> j <> a -> j < List.length f ->
    ((forall k m, ~ P k -> ~ link f k m j) \/ ((forall g, Uq g -> ~ member f a g j) /\ (i = a -> ~ Uq n /\ n <> MCAn) /\ (member f a MCAn j -> n = MCAn /\ member f a INS i))) ->
    let f' := put_nth i (Group (ms ++ [(n, j)]) at_) f in Inv f' /\ Fr f f'.
  Proof.
    intros I NP H Hn NPj Nj Lj Hj f'. pose proof (inv_wf f I) as W.
    assert (N0 : i <> 0) by (intros ->; apply NP; apply (inv_P0 f I)).
    assert (W' : wf f') by (eapply put_wf; [exact H|apply NoDup_snoc_key; [eapply W; eauto|auto]|auto]).
    assert (LK : forall k m x, link f' k m x -> link f k m x \/ (k = i /\ m = n /\ x = j)).
    { intros k m x X. apply (put_link f i ms at_ _ k m x H) in X. destruct X as [[-> B]|[_ X]]; [|auto].
      apply in_app_iff in B. destruct B as [B|[B|[]]]; [left; eapply link_at; eauto|inversion B; auto]. }
    assert (KL : forall k m x, link f k m x -> link f' k m x).
    { intros k m x X. apply (put_link f i ms at_ _ k m x H). destruct (Nat.eq_dec k i) as [->|Nk]; [left|right; auto].
      split; [auto|]. apply in_app_iff. left. eapply link_of; eauto. }
    assert (KM : forall k m x, member f k m x -> member f' k m x).
    { intros. apply link_member; [auto|]. apply KL. apply member_link; auto. }
    assert (MK : forall k m x, member f' k m x -> member f k m x \/ (k = i /\ m = n /\ x = j)).
    { intros k m x X. apply member_link, LK in X. destruct X as [X|X]; [left; apply link_member; auto|auto]. }
    split.
    - constructor.
      + auto.
      + intros k m t x y Hk Hy. unfold f'. rewrite put_length.
        assert (X : link f' k x y) by (exists m, t; auto). apply LK in X. destruct X as [(m1 & t1 & X1 & X2)|(-> & -> & ->)]; [|auto].
        eapply (inv_bd f I); eauto.
      + apply KM. apply (inv_root f I).
      + apply (inv_P0 f I).
      + apply (inv_Pa f I).
      + intros y Hy. unfold f'. rewrite put_length. apply (inv_lt f I y Hy).
      + unfold f'. rewrite put_length. apply (inv_alt f I).
      + intros k m y NPk X. apply LK in X. destruct X as [X|(-> & -> & ->)]; [apply (inv_link f I k m y NPk); auto|].
        split; [auto|]. intros; contradiction.
      + intros k m y g NPk X U M. apply LK in X. apply MK in M. destruct M as [M|(Ea & -> & ->)].
        * destruct X as [X|(-> & -> & ->)]; [apply (inv_uq f I k m y g NPk); auto|].
          exfalso. destruct Hj as [Hj|[Hj _]]; [|eapply Hj; eauto]. apply (Hj a g (inv_Pa f I)). apply member_link; auto.
        * destruct X as [X|(-> & -> & _)]; [|auto]. destruct Hj as [Hj|(_ & Hj & _)]; [exfalso; eapply Hj; eauto|]. specialize (Hj (eq_sym Ea)).
          exfalso. apply (proj1 Hj); auto.
      + intros y g X. destruct (inv_I f I y g X) as (A & B & C & D). repeat (split; [auto|]). apply KM; auto.
      + intros k m y NPk X M. apply LK in X. apply MK in M. destruct M as [M|(Ea & En & Ey)].
        * destruct X as [X|(-> & -> & ->)].
          -- destruct (inv_mca f I k m y NPk X M) as [Q|[Q1 Q2]]; [left; exact Q|right]. split; [exact Q1|apply KM; exact Q2].
          -- destruct Hj as [Hj|(_ & _ & Hj)]; [exfalso; apply (Hj a MCAn (inv_Pa f I)); apply member_link; auto|].
             destruct (Hj M) as [Q1 Q2]. right. split; [exact Q1|apply KM; exact Q2].
        * subst y. destruct X as [X|(-> & -> & _)]; [|left; split; auto].
          destruct Hj as [Hj|(_ & Hj & _)]; [exfalso; eapply Hj; eauto|]. exfalso. apply (proj2 (Hj (eq_sym Ea))). symmetry. exact En.
    - constructor.
      + unfold f'. rewrite put_length; lia.
      + intros k Pk. unfold f'. rewrite (put_nth_error _ _ _ _ H). destruct (Nat.eqb_spec k i); [subst; contradiction|auto].
      + intros m y _ M. apply KM; auto.
      + intros k g m y _ _ M. apply KM; auto.
  Qed.

  (** changed attributes *)
  Lemma attrs_keeps f i nd k v : Inv f -> ~ P i -> nth_error f i = Some nd ->
    let nd' := match nd with
               | Group ms at_ => Group ms (dset k v at_)
               | Dset x at_ => Dset x (dset k v at_)
               end in
    Inv (put_nth i nd' f) /\ Fr f (put_nth i nd' f).
  Proof.
    intros I NP H nd'. pose proof (inv_wf f I) as W.
    pose proof (put_nth_error i nd' _ f H) as E. set (f' := put_nth i nd' f) in *.
    assert (N0 : i <> 0) by (intros ->; apply NP; apply (inv_P0 f I)).
    assert (LK : forall k m x, link f' k m x <-> link f k m x).
    { intros j m x. unfold link. split; intros (m1 & t1 & A & B).
      - rewrite E in A. destruct (Nat.eqb_spec j i) as [->|N]; [|exists m1, t1; auto].
        subst nd'. destruct nd as [ms t|]; inversion A; subst. exists m1, t. auto.
      - rewrite E. destruct (Nat.eqb_spec j i) as [->|N]; [|exists m1, t1; auto].
        rewrite H in A. inversion A; subst nd. subst nd'. exists m1, (dset k v t1). auto. }
    assert (W' : wf f').
    { intros j m t A. rewrite E in A. destruct (Nat.eqb_spec j i) as [->|N]; [|eapply W; eauto].
      subst nd'. destruct nd as [ms t1|]; inversion A; subst. eapply W; eauto. }
    assert (KM : forall k m x, member f' k m x <-> member f k m x).
    { intros j m x. split; intros X; (apply link_member; [auto|]); apply LK; apply member_link; auto. }
    split.
    - constructor.
      + auto.
      + intros j m t n y A B. unfold f'. rewrite put_length. assert (X : link f j n y) by (apply LK; exists m, t; auto).
        destruct X as (m1 & t1 & X1 & X2). eapply (inv_bd f I); eauto.
      + apply KM. apply (inv_root f I).
      + apply (inv_P0 f I).
      + apply (inv_Pa f I).
      + intros j Hj. unfold f'. rewrite put_length. apply (inv_lt f I j Hj).
      + unfold f'. rewrite put_length. apply (inv_alt f I).
      + intros j n y NPj X. apply LK in X. apply (inv_link f I j n y NPj X).
      + intros j n y g NPj X U M. apply LK in X. apply KM in M. eapply inv_uq; eauto.
      + intros j g X. destruct (inv_I f I j g X) as (A & B & C & D). repeat (split; [auto|]). apply KM; auto.
      + intros j n y NPj X M. apply LK in X. apply KM in M. destruct (inv_mca f I j n y NPj X M) as [Q|[Q1 Q2]]; [left; exact Q|right; split; [exact Q1|apply KM; exact Q2]].
    - constructor.
      + unfold f'. rewrite put_length; lia.
      + intros j Pj. rewrite E. destruct (Nat.eqb_spec j i); [subst; contradiction|auto].
      + intros n j _ M. apply KM; auto.
      + intros j g n y _ _ M. apply KM; auto.
  Qed.

  (* ---------------------------------------------------------------- *)
  Definition hk {A} (m : HM A) (Q : A -> Prop) : Prop := forall f, Inv f ->
    Inv (fst (m f)) /\ Fr f (fst (m f)) /\ (forall x, snd (m f) = Ok x -> Q x).

  Lemma hk_ret {A} (x : A) (Q : A -> Prop) : Q x -> hk (sret x) Q.
  Proof. intros H f I. simpl. split; [auto|split; [apply Fr_refl|]]. intros y E; inversion E; subst; auto. Qed.
  Lemma hk_raise {A} e (Q : A -> Prop) : hk (sraise e) Q.
  Proof. intros f I. simpl. split; [auto|split; [apply Fr_refl|discriminate]]. Qed.
  Lemma hk_lift {A} (r : res A) (Q : A -> Prop) : (forall x, r = Ok x -> Q x) -> hk (slift r) Q.
  Proof. intros H f I. simpl. split; [auto|split; [apply Fr_refl|auto]]. Qed.
  Lemma hk_bind {A B} (m : HM A) (k : A -> HM B) Q R :
    hk m Q -> (forall x, Q x -> hk (k x) R) -> hk (sbind m k) R.
  Proof.
    intros Hm Hk f I. unfold sbind. destruct (Hm f I) as [I1 [F1 Q1]].
    destruct (m f) as [f1 [x|e]]; simpl in *.
    - destruct (Hk x (Q1 x eq_refl) f1 I1) as [I2 [F2 Q2]]. split; [auto|split; [eapply Fr_trans; eauto|auto]].
    - split; [auto|split; [auto|discriminate]].
  Qed.
  Lemma hk_weak {A} (m : HM A) (Q R : A -> Prop) : (forall x, Q x -> R x) -> hk m Q -> hk m R.
  Proof. intros H G f I. destruct (G f I) as [X [Y Z]]. auto. Qed.
  Lemma hk_iter {A} (g : A -> HM unit) l : (forall x, In x l -> hk (g x) (fun _ => True)) ->
    hk (siter g l) (fun _ => True).
  Proof.
    induction l as [|x l IH]; simpl; intros H.
    - apply hk_ret; auto.
    - eapply hk_bind; [apply H; auto|]. intros _ _. apply IH. intros y Hy; apply H; auto.
  Qed.
  Lemma hk_unit {A} (m : HM A) Q : hk m Q -> hk (sbind m (fun _ => sret tt)) (fun _ => True).
  Proof. intros H. eapply hk_bind; [exact H|]. intros; apply hk_ret; auto. Qed.

  (** object [i] may be the one at path [ps] of the entry *)
  Definition pos (i : nat) (ps : list str) : Prop := ~ P i /\ (i = a -> ps = []) /\ (forall g, II i g -> ps = [g]).
  (** a path below the entry that does not lead to a protected one *)
  Definition clear (p : list str) : Prop := ~ K (firstn 1 p) /\ ~ K (firstn 2 p).

  Lemma pos_a : ~ P a -> (forall g, ~ II a g) -> pos a [].
  Proof. intros H H2. split; [auto|split; [auto|]]. intros g X. exfalso. eapply H2; eauto. Qed.
  Lemma Ia f : Inv f -> forall g, ~ II a g.
  Proof. intros I g X. destruct (inv_I f I a g X) as (_ & _ & N & _). auto. Qed.

  Lemma step_pos f i ps n j : Inv f -> pos i ps -> link f i n j -> (ps = [] -> ~ K [n]) -> (forall g, ps = [g] -> ~ K [g; n]) ->
    pos j (ps ++ [n]) /\ j <> a /\ (forall g, Uq g -> member f a g j -> ps ++ [n] = [g]).
  Proof.
    intros I (NP & Pa & PI) Lk C1 C2. destruct (inv_link f I i n j NP Lk) as [Na HP].
    assert (U : forall g, Uq g -> member f a g j -> ps ++ [n] = [g]).
    { intros g Ug M. destruct (inv_uq f I i n j g NP Lk Ug M) as [-> ->]. rewrite (Pa eq_refl). reflexivity. }
    split; [|auto]. split; [|split; [congruence|]].
    - intros Pj. destruct (HP Pj) as [[-> Kn]|(g & Ig & Kn)]; [apply C1; auto|apply (C2 g); auto].
    - intros g Ig. destruct (inv_I f I j g Ig) as (Ug & _ & _ & M). auto.
  Qed.
  Lemma clear_step ps n qs : clear (ps ++ n :: qs) -> (ps = [] -> ~ K [n]) /\ (forall g, ps = [g] -> ~ K [g; n]).
  Proof. intros [C1 C2]. split; [intros ->; exact C1|intros g ->; exact C2]. Qed.
  Lemma clear_app ps n qs : clear (ps ++ n :: qs) -> clear ((ps ++ [n]) ++ qs).
  Proof. rewrite <- app_assoc. auto. Qed.

  Lemma walk_ok f qs : forall i ps j, Inv f -> pos i ps -> clear (ps ++ qs) -> walk qs i f = Some j ->
    pos j (ps ++ qs) /\ (qs <> [] -> j <> a /\ forall g, Uq g -> member f a g j -> ps ++ qs = [g]).
  Proof.
    induction qs as [|n qs IH]; simpl; intros i ps j I Hp C H.
    - inversion H; subst. rewrite app_nil_r. split; [auto|congruence].
    - destruct (nth_error f i) as [[ms at_|]|] eqn:E; try discriminate.
      destruct (dget n ms) as [k|] eqn:D; [|discriminate].
      destruct (clear_step _ _ _ C) as [C1 C2].
      destruct (step_pos f i ps n k I Hp) as (P1 & P2 & P3); [exists ms, at_; split; [auto|apply dget_In; auto]|auto|auto|].
      destruct (IH k (ps ++ [n]) j I P1 (clear_app _ _ _ C) H) as [Q1 Q2].
      rewrite <- app_assoc in Q1, Q2. cbn [app] in Q1, Q2. split; [auto|]. intros _.
      destruct qs as [|m qs]; [|apply Q2; discriminate]. simpl in H. inversion H; subst k. auto.
  Qed.

  (** handles *)
  Definition hat (ps : list str) (h : handle) : Prop :=
    pos (h_id h) ps /\ (ps = [] -> h_id h = a) /\ h_name h = name_at (sk :: ps) /\ Forall plain_name (sk :: ps).

  Lemma resolve_ok f ps h p j : Inv f -> hat ps h -> prefixb [SLASH] p = false -> clear (ps ++ parts p) -> resolve (h_id h) p f = Some j ->
    pos j (ps ++ parts p) /\ (parts p <> [] -> j <> a /\ forall g, Uq g -> member f a g j -> ps ++ parts p = [g]).
  Proof.
    intros I (Hp & _) R C H. unfold resolve in H. destruct p as [|c p]; [discriminate|].
    rewrite (start_rel _ _ R) in H. eapply walk_ok; eauto.
  Qed.
  Lemma named_hat ps h p j : hat ps h -> prefixb [SLASH] p = false -> parts p <> [] -> pos j (ps ++ parts p) -> 
    hat (ps ++ parts p) (mk_handle j (sub_name (h_name h) p)).
  Proof.
    intros (Hp & _ & Hn & Pl) R Ne Hj. split; [exact Hj|split; [|split]].
    - intros X. apply app_eq_nil in X. destruct X. contradiction.
    - simpl. rewrite Hn. rewrite sub_name_at by auto. reflexivity.
    - change (sk :: ps ++ parts p) with ((sk :: ps) ++ parts p). apply Forall_app. split; [auto|apply parts_good].
  Qed.

  Lemma hin_keeps g p : hk (hin g p) (fun _ => True).
  Proof. intros f I. simpl. split; [auto|split; [apply Fr_refl|auto]]. Qed.
  Lemma hget_keeps ps g p : hat ps g -> prefixb [SLASH] p = false -> parts p <> [] -> clear (ps ++ parts p) ->
    hk (hget g p) (fun o => hat (ps ++ parts p) o).
  Proof.
    intros Hg R Ne C f I. unfold hget. simpl. split; [auto|split; [apply Fr_refl|]].
    intros x H. destruct (resolve (h_id g) p f) as [j|] eqn:E; [|discriminate].
    inversion H; subst. destruct (resolve_ok f ps g p j I Hg R C E) as [A B]. apply named_hat; auto.
  Qed.

  Lemma add_member_keeps i n j f : Inv f -> ~ P i -> ~ P j -> j <> a ->
    ((forall k m, ~ P k -> ~ link f k m j) \/ ((forall g, Uq g -> ~ member f a g j) /\ (i = a -> ~ Uq n /\ n <> MCAn) /\ (member f a MCAn j -> n = MCAn /\ member f a INS i))) ->
    let f' := fst (add_member i n j f) in Inv f' /\ Fr f f'.
  Proof.
    intros I NP NPj Nj Hj f'. subst f'. unfold add_member.
    destruct (nth_error f i) as [[ms at_|]|] eqn:E; try (simpl; split; [auto|apply Fr_refl]).
    destruct (has n ms) eqn:Hn; [split; [auto|apply Fr_refl]|].
    destruct (Nat.leb_spec (List.length f) j) as [Lj|Lj]; [split; [auto|apply Fr_refl]|]. cbn [fst snd].
    apply add_keeps; auto.
  Qed.
  Lemma fresh_unlinked f nd : Inv f -> (forall ms at_, nd = Group ms at_ -> ms = []) ->
    forall k m, ~ P k -> ~ link (f ++ [nd]) k m (List.length f).
  Proof.
    intros I Hn k m _ X. apply snoc_link in X; [|auto]. destruct X as (m1 & t1 & A & B).
    pose proof (inv_bd f I k m1 t1 m (List.length f) A B). lia.
  Qed.
  Lemma fresh_pos f ps : Inv f -> pos (List.length f) ps.
  Proof.
    intros I. split; [|split].
    - intros X. apply (inv_lt f I) in X. lia.
    - intros X. pose proof (inv_alt f I). lia.
    - intros g X. destruct (inv_I f I _ g X) as (_ & _ & _ & M). apply member_link in M. destruct M as (m1 & t1 & A & B).
      pose proof (inv_bd f I _ m1 t1 _ _ A B). lia.
  Qed.

  Lemma dig_keeps qs : forall i ps, pos i ps -> clear (ps ++ qs) ->
    hk (dig qs i) (fun g => pos g (ps ++ qs) /\ (qs <> [] -> g <> a) /\ (qs = [] -> g = i)).
  Proof.
    induction qs as [|n qs IH]; intros i ps Hp C f I.
    - simpl. split; [auto|split; [apply Fr_refl|]]. intros x E; inversion E; subst. rewrite app_nil_r. split; [auto|split; [congruence|auto]].
    - cbn [dig]. destruct (nth_error f i) as [[ms at_|]|] eqn:E;
        try (simpl; split; [auto|split; [apply Fr_refl|discriminate]]).
      assert (App : (ps ++ [n]) ++ qs = ps ++ n :: qs) by (rewrite <- app_assoc; reflexivity).
      destruct (dget n ms) as [k|] eqn:D.
      + destruct (clear_step _ _ _ C) as [C1 C2].
        destruct (step_pos f i ps n k I Hp) as (P1 & P2 & P3); [exists ms, at_; split; [auto|apply dget_In; auto]|auto|auto|].
        destruct (IH k (ps ++ [n]) P1 (clear_app _ _ _ C) f I) as [X [Y Z]].
        split; [auto|split; [auto|]]. intros x Ex. destruct (Z x Ex) as [Z1 [Z2 Z3]]. rewrite App in Z1. split; [auto|split; [|discriminate]].
        intros _. destruct qs; [rewrite (Z3 eq_refl); auto|apply Z2; discriminate].
      + destruct (snoc_keeps f (Group [] []) I) as [I1 F1]; [intros ? ? X; inversion X; auto|].
        destruct (fresh_pos f (ps ++ [n]) I) as (NPn & Nna & NI).
        assert (Na : List.length f <> a) by (pose proof (inv_alt f I); lia).
        unfold alloc, sbind.
        destruct (add_member_keeps i n (List.length f) (f ++ [Group [] []]) I1 (proj1 Hp) NPn Na) as [I2 F2].
        { left. apply fresh_unlinked; [auto|]. intros ? ? X; inversion X; auto. }
        destruct (add_member i n (List.length f) (f ++ [Group [] []])) as [f2 [u|e]]; simpl in *.
        * destruct (IH (List.length f) (ps ++ [n]) (conj NPn (conj Nna NI)) (clear_app _ _ _ C) f2 I2) as [X [Y Z]].
          split; [auto|split; [eapply Fr_trans; [eapply Fr_trans; eauto|auto]|]].
          intros x Ex. destruct (Z x Ex) as [Z1 [Z2 Z3]]. rewrite App in Z1. split; [auto|split; [|discriminate]].
          intros _. destruct qs; [rewrite (Z3 eq_refl); auto|apply Z2; discriminate].
        * split; [auto|split; [eapply Fr_trans; eauto|discriminate]].
  Qed.

  Lemma create_keeps i ps p nd f : Inv f -> pos i ps -> prefixb [SLASH] p = false -> clear (ps ++ removelast (parts p)) -> bare nd ->
    Inv (fst (create_at i p nd f)) /\ Fr f (fst (create_at i p nd f)) /\
    forall j, snd (create_at i p nd f) = Ok j -> pos j (ps ++ parts p) /\ parts p <> [].
  Proof.
    intros I Hp R C Hb. unfold create_at.
    destruct (rev (parts p)) as [|n r] eqn:E; [simpl; split; [auto|split; [apply Fr_refl|discriminate]]|].
    apply rev_cons in E. rewrite E in C. rewrite removelast_last in C. rewrite (start_rel i p R).
    destruct (dig_keeps (rev r) i ps Hp C f I) as [I1 [F1 Q1]].
    rewrite sbind_eq. destruct (dig (rev r) i f) as [f1 [g|e]]; cbn [fst snd] in *;
      [|split; [auto|split; [auto|discriminate]]].
    destruct (Q1 g eq_refl) as ((NPg & _) & _ & _). rewrite sbind_eq. unfold free.
    destruct (nth_error f1 g) as [[ms at_|]|] eqn:Eg; cbn [fst snd];
      try (split; [auto|split; [auto|discriminate]]).
    destruct (has n ms) eqn:Hn; cbn [fst snd]; [split; [auto|split; [auto|discriminate]]|].
    destruct (snoc_keeps f1 nd I1 (bare_empty nd Hb)) as [I2 F2].
    pose proof (fresh_pos f1 (ps ++ parts p) I1) as Hj. pose proof Hj as (NPn & Nna & NI).
    assert (Na : List.length f1 <> a) by (pose proof (inv_alt f1 I1); lia).
    destruct (add_member_keeps g n (List.length f1) (f1 ++ [nd]) I2 NPg NPn Na) as [I3 F3].
    { left. apply fresh_unlinked; [auto|]. apply bare_empty; auto. }
    rewrite sbind_eq. unfold alloc. rewrite sbind_eq.
    destruct (add_member g n (List.length f1) (f1 ++ [nd])) as [f3 [u|e]]; cbn [fst snd sret] in *.
    - split; [auto|split; [eapply Fr_trans; [exact F1|eapply Fr_trans; eauto]|]].
      intros j X; inversion X; subst j. split; [auto|]. rewrite E. destruct (rev r); discriminate.
    - split; [auto|split; [eapply Fr_trans; [exact F1|eapply Fr_trans; eauto]|discriminate]].
  Qed.

  Lemma set_attr_keeps i k v : ~ P i -> hk (set_attr i k v) (fun _ => True).
  Proof.
    intros NP f I. unfold set_attr.
    destruct (nth_error f i) as [nd|] eqn:E; [|simpl; split; [auto|split; [apply Fr_refl|auto]]].
    destruct (attrs_keeps f i nd k v I NP E) as [X Y].
    destruct nd; simpl in *; auto.
  Qed.
  Lemma addAttributes_keeps o l : ~ P (h_id o) -> hk (addAttributes o l) (fun _ => True).
  Proof. intros NP. unfold addAttributes. apply hk_iter. intros x Hx. apply set_attr_keeps; auto. Qed.

  (** a path at which something can be made *)
  Definition ppath (ps : list str) (p : str) : Prop := prefixb [SLASH] p = false /\ clear (ps ++ removelast (parts p)).
  Lemma makeGroup_keeps ps g p c l : hat ps g -> ppath ps p -> hk (makeGroup g p c l) (fun o => hat (ps ++ parts p) o).
  Proof.
    intros Hg [R C] f I. unfold makeGroup. rewrite sbind_eq.
    destruct (create_keeps (h_id g) ps p (Group [] []) f I (proj1 Hg) R C) as [I1 [F1 Q1]]; [left; auto|].
    destruct (create_at (h_id g) p (Group [] []) f) as [f1 [j|e]]; cbn [fst snd] in *;
      [|split; [auto|split; [auto|discriminate]]].
    destruct (Q1 j eq_refl) as [Hj Ne].
    set (o := mk_handle j (sub_name (h_name g) p)) in *.
    assert (KK : hk (set_attr j (L "NX_class") (AText c) >>> addAttributes o l >>> sret o) (fun o => hat (ps ++ parts p) o)).
    { eapply hk_bind; [apply set_attr_keeps; apply Hj|]. intros _ _.
      eapply hk_bind; [apply addAttributes_keeps; apply Hj|]. intros _ _. apply hk_ret. apply named_hat; auto. }
    destruct (KK _ I1) as [I3 [F3 Q3]]. split; [auto|split; [eapply Fr_trans; eauto|auto]].
  Qed.
  Lemma ppath_clear ps p : prefixb [SLASH] p = false -> clear (ps ++ parts p) -> ps ++ removelast (parts p) <> [] \/ ~ K [] -> ppath ps p.
  Proof.
    intros R [C1 C2] N. split; [auto|].
    destruct (parts p) as [|x q] eqn:E using rev_ind; [simpl; rewrite app_nil_r in *; split; auto|]. clear IHq.
    rewrite removelast_last in *. rewrite app_assoc in C1, C2. destruct (ps ++ q) as [|y [|z t]]; [|split; simpl in *; auto..].
    destruct N as [N|N]; [congruence|]. split; exact N.
  Qed.
  Context (K0 : ~ K []).
  Lemma ppath_of ps p : prefixb [SLASH] p = false -> clear (ps ++ parts p) -> ppath ps p.
  Proof. intros. apply ppath_clear; auto. Qed.
  Lemma openGroup_keeps ps g p c l : hat ps g -> prefixb [SLASH] p = false -> parts p <> [] -> clear (ps ++ parts p) ->
    hk (openGroup g p c l) (fun o => hat (ps ++ parts p) o).
  Proof.
    intros Hg R Ne C f I. unfold openGroup. destruct (resolve (h_id g) p f) as [j|] eqn:E.
    - destruct (resolve_ok f ps g p j I Hg R C E) as [Hj _]. cbv zeta.
      set (o := mk_handle j (sub_name (h_name g) p)).
      assert (KK : hk (addAttributes o l >>> sret o) (fun o => hat (ps ++ parts p) o)).
      { eapply hk_bind; [apply addAttributes_keeps; apply Hj|]. intros _ _. apply hk_ret. apply named_hat; auto. }
      apply KK; auto.
    - apply makeGroup_keeps; auto. apply ppath_of; auto.
  Qed.
  Lemma makeDataset_keeps ps g p d l : hat ps g -> ppath ps p -> hk (makeDataset g p d l) (fun o => hat (ps ++ parts p) o).
  Proof.
    intros Hg [R C]. unfold makeDataset. eapply hk_bind; [apply hk_lift with (Q := fun _ => True); auto|].
    intros v _ f I. cbv zeta. rewrite sbind_eq.
    destruct (create_keeps (h_id g) ps p (Dset v []) f I (proj1 Hg) R C) as [I1 [F1 Q1]]; [right; eauto|].
    destruct (create_at (h_id g) p (Dset v []) f) as [f1 [j|e]]; cbn [fst snd] in *;
      [|split; [auto|split; [auto|discriminate]]].
    destruct (Q1 j eq_refl) as [Hj Ne].
    set (o := mk_handle j (sub_name (h_name g) p)) in *.
    assert (KK : hk (addAttributes o l >>> sret o) (fun o => hat (ps ++ parts p) o)).
    { eapply hk_bind; [apply addAttributes_keeps; apply Hj|]. intros _ _. apply hk_ret. apply named_hat; auto. }
    destruct (KK _ I1) as [I3 [F3 Q3]].
    split; [auto|split; [eapply Fr_trans; eauto|auto]].
  Qed.

  (** a path at which something can be replaced *)
  Definition wpath (ps : list str) (p : str) : Prop :=
    prefixb [SLASH] p = false /\ clear (ps ++ parts p) /\ (forall g, Uq g -> ps ++ parts p <> [g]).
  Lemma hdel_keeps ps g p : hat ps g -> wpath ps p -> hk (hdel g p) (fun _ => True).
  Proof.
    intros Hg (R & C & U) f I. unfold hdel. destruct (rev (parts p)) as [|n r] eqn:E;
      [simpl; split; [auto|split; [apply Fr_refl|auto]]|].
    rewrite (start_rel _ _ R). apply rev_cons in E.
    destruct (walk (rev r) (h_id g) f) as [i|] eqn:W; [|simpl; split; [auto|split; [apply Fr_refl|auto]]].
    assert (C' : clear (ps ++ rev r)).
    { assert (X : ppath ps p) by (apply ppath_of; auto). destruct X as [_ X]. rewrite E, removelast_last in X. auto. }
    destruct (walk_ok f _ _ _ _ I (proj1 Hg) C' W) as [(NPi & Pa & PI) _].
    unfold del_member. destruct (nth_error f i) as [[ms at_|]|] eqn:Ei;
      try (simpl; split; [auto|split; [apply Fr_refl|auto]]).
    destruct (has n ms) eqn:Hn; [|simpl; split; [auto|split; [apply Fr_refl|auto]]]. cbn [fst snd].
    rewrite E, app_assoc in C, U. destruct (clear_step (ps ++ rev r) n [] C) as [C1 C2].
    destruct (del_keeps f i ms at_ n I NPi Ei) as [X Y]; [| |split; auto].
    - intros Ea. specialize (Pa Ea). split; [apply C1; auto|]. intros Un. apply (U n Un). rewrite Pa. reflexivity.
    - intros g' Ig. apply C2. auto.
  Qed.
  Lemma wpath_ppath ps p : wpath ps p -> ppath ps p.
  Proof. intros (A & B & _). apply ppath_of; auto. Qed.
  Lemma write_dataset_keeps ps g p d l : hat ps g -> wpath ps p -> hk (write_dataset g p d l) (fun o => hat (ps ++ parts p) o).
  Proof.
    intros Hg W. unfold write_dataset. eapply hk_bind; [apply hin_keeps|]. intros b _.
    eapply hk_bind with (Q := fun _ => True); [destruct b; [eapply hdel_keeps; eauto|apply hk_ret; auto]|].
    intros _ _. apply makeDataset_keeps; [auto|apply wpath_ppath; auto].
  Qed.

  Lemma dig_old qs : forall i f k m j, link (fst (dig qs i f)) k m j -> j < List.length f -> link f k m j.
  Proof.
    assert (Len : forall (i : nat) n (j : nat) f, List.length (fst (add_member i n j f)) = List.length f).
    { intros i n j f. unfold add_member. destruct (nth_error f i) as [[ms at_|]|]; auto. destruct (has n ms); auto.
      destruct (Nat.leb _ _); auto. cbn [fst]. apply put_length. }
    induction qs as [|n qs IH]; intros i f k m j H Lj; [exact H|]. cbn [dig] in H.
    destruct (nth_error f i) as [[ms at_|]|] eqn:E; [|exact H|exact H]. destruct (dget n ms) as [x|]; [eapply IH; eauto|].
    unfold alloc, sbind in H. pose proof (Len i n (List.length f) (f ++ [Group [] []])) as Ln.
    assert (AM : forall k m j, link (fst (add_member i n (List.length f) (f ++ [Group [] []]))) k m j -> j < List.length f -> link f k m j).
    { clear - E. intros k m j X Lj. unfold add_member in X.
      assert (Li : i < List.length f) by (apply nth_error_Some; congruence). rewrite nth_error_app1, E in X by auto.
      assert (S1 : link (f ++ [Group [] []]) k m j -> link f k m j) by (apply snoc_link; intros ? ? Y; inversion Y; auto).
      destruct (has n ms); [auto|]. destruct (Nat.leb _ _); [auto|]. cbn [fst] in X.
      apply (put_link _ i ms at_) in X; [|rewrite nth_error_app1; auto]. destruct X as [[-> X]|[_ X]]; [|auto].
      apply in_app_iff in X. destruct X as [X|[X|[]]]; [exists ms, at_; auto|]. inversion X; subst. lia. }
    destruct (add_member i n (List.length f) (f ++ [Group [] []])) as [f2 [u|e]]; cbn [fst] in *; [|auto].
    apply AM; [|auto]. eapply IH; [exact H|]. rewrite Ln, app_length. simpl. lia.
  Qed.

  (** the group of the spectra is only at these places *)
  Lemma walk_app f qs n : forall i, walk (qs ++ [n]) i f = match walk qs i f with Some k => walk [n] k f | None => None end.
  Proof.
    induction qs as [|q qs IH]; intros i; [reflexivity|]. cbn [app walk]. destruct (nth_error f i) as [[ms at_|]|]; [|reflexivity|reflexivity].
    destruct (dget q ms) as [k|]; [|reflexivity]. exact (IH k).
  Qed.
  Lemma walk_mca f ps j : Inv f -> clear ps -> ps <> [] -> walk ps a f = Some j -> member f a MCAn j -> ps = [MCAn] \/ ps = [INS; MCAn].
  Proof.
    intros I C Ne E M. destruct (exists_last Ne) as (qs & n & ->). rewrite walk_app in E. destruct (walk qs a f) as [i|] eqn:W; [|discriminate].
    assert (Cq : clear qs).
    { destruct C as [C1 C2]. destruct qs as [|x [|y t]]; cbn [firstn app] in *; [split; exact K0|split; auto|split; auto]. }
    destruct (walk_ok f qs a [] i I (pos_a (inv_Pa f I) (Ia f I)) Cq W) as [(NPi & Pa & _) B]. cbn [walk] in E.
    destruct (nth_error f i) as [[ms at_|]|] eqn:Ei; try discriminate. destruct (dget n ms) as [k|] eqn:D; [|discriminate]. injection E; intros ->.
    assert (Lk : link f i n j) by (exists ms, at_; split; [auto|apply dget_In; auto]).
    destruct (inv_mca f I i n j NPi Lk M) as [[Q1 Q2]|[Q1 Q2]].
    - left. rewrite Q2. destruct qs as [|x qs]; [reflexivity|]. exfalso. apply (proj1 (B ltac:(discriminate))). exact Q1.
    - right. rewrite Q1. destruct qs as [|x qs].
      + exfalso. cbn [walk] in W. injection W; intros <-. apply (proj1 (inv_link f I a INS a (inv_Pa f I) (member_link _ _ _ _ Q2))). reflexivity.
      + pose proof (proj2 (B ltac:(discriminate)) INS ltac:(left; reflexivity) Q2) as Q. cbn [app] in Q. rewrite Q. reflexivity.
  Qed.
  Lemma dget_end n (ms : dict nat) j : dget n ms = None -> dget n (ms ++ [(n, j)]) = Some j.
  Proof.
    induction ms as [|[k x] ms IH]; cbn [app dget]; [rewrite seqb_refl; auto|]. destruct (seqb n k); [discriminate|exact IH].
  Qed.
  Lemma dig_one n i f f1 g : wf f -> dig [n] i f = (f1, Ok g) -> member f1 i n g.
  Proof.
    intros W H. cbn [dig] in H. destruct (nth_error f i) as [[ms at_|]|] eqn:E; try discriminate. destruct (dget n ms) as [k|] eqn:D.
    - unfold sret in H. injection H; intros <- <-. exists ms, at_. auto.
    - unfold alloc, sbind, sret, add_member in H. rewrite nth_error_app1, E in H by (apply nth_error_Some; congruence).
      unfold has in H. rewrite D in H. destruct (Nat.leb _ _); [discriminate|]. injection H; intros <- <-.
      exists (ms ++ [(n, List.length f)]), at_. split; [|apply dget_end; exact D].
      rewrite (put_nth_error i _ (Group ms at_) _); [rewrite Nat.eqb_refl; reflexivity|]. rewrite nth_error_app1; [exact E|]. apply nth_error_Some. congruence.
  Qed.

  (** a link made through absolute names *)
  Lemma makeLink_keeps g s ps n qs : ~ P (h_id s) ->
    Forall is_ascii (sk :: ps) -> Forall plain_name (sk :: ps) -> h_name s = name_at (sk :: ps) ->
    ps <> [] -> clear ps -> (forall g, Uq g -> ps <> [g]) ->
    Forall is_ascii (sk :: qs) -> Forall plain_name (sk :: qs) -> qs <> [] -> clear qs ->
    is_ascii n -> plain_name n -> (ps <> [MCAn] /\ ps <> [INS; MCAn]) \/ (n = MCAn /\ qs = [INS]) ->
    hk (makeLink g s (name_at (sk :: qs) ++ [SLASH] ++ n)) (fun _ => True).
  Proof.
    intros NP As Pl Hn Ne Cp Up Aq Pq Neq Cq An Pn Hm. unfold makeLink.
    eapply hk_bind with (Q := fun _ => True).
    { intros f I. destruct (has (L "target") (attrs_at (h_id s) f)).
      - simpl. split; [auto|split; [apply Fr_refl|auto]].
      - apply set_attr_keeps; auto. }
    intros _ _. rewrite Hn, (ascii_id (name_at (sk :: ps))) by (apply is_ascii_name_at; auto).
    intros f I. rewrite sbind_eq. unfold hget.
    destruct (resolve (h_id g) (name_at (sk :: ps)) f) as [j|] eqn:E; [|cbn [fst snd]; split; [auto|split; [apply Fr_refl|discriminate]]].
    cbn [h_id]. unfold resolve in E. unfold name_at in E at 1. cbn [app] in E.
    rewrite parts_name_at in E by auto.
    unfold start in E. unfold name_at in E. cbn [app prefixb] in E. rewrite N.eqb_refl in E. cbn [andb] in E.
    cbn [walk] in E. destruct (inv_root f I) as [ms [at_ [H0 D]]]. rewrite H0, D in E.
    destruct (walk_ok f ps a [] j I (pos_a (inv_Pa f I) (Ia f I)) Cp E) as [(NPj & _) B]. destruct (B Ne) as [Nj Uj].
    assert (Unj : forall g0, Uq g0 -> ~ member f a g0 j) by (intros g0 Ug M; apply (Up g0 Ug); exact (Uj g0 Ug M)).
    assert (Lj : j < List.length f).
    { clear - E Ne I. assert (X : exists x t, ps = x ++ [t]). { destruct ps as [|y l] using rev_ind; [congruence|eauto]. }
      destruct X as (x & t & ->). clear Ne. revert E. generalize a. induction x as [|y x IH]; cbn [app walk]; intros k E.
      - destruct (nth_error f k) as [[m z|]|] eqn:En; try discriminate. destruct (dget t m) as [q|] eqn:D; [|discriminate].
        inversion E; subst q. eapply (inv_bd f I); [exact En|apply dget_In; exact D].
      - destruct (nth_error f k) as [[m z|]|]; try discriminate. destruct (dget y m); [|discriminate]. eauto. }
    assert (PJ : parts (ascii (name_at (sk :: qs) ++ [SLASH] ++ n)) = sk :: qs ++ [n]).
    { assert (EE : name_at (sk :: qs) ++ [SLASH] ++ n = name_at (sk :: qs ++ [n])).
      { unfold name_at. rewrite <- !app_assoc. f_equal.
        clear. revert sk. induction qs as [|q qs IH]; intros k; [reflexivity|].
        change (join [SLASH] (k :: q :: qs)) with (k ++ [SLASH] ++ join [SLASH] (q :: qs)).
        change (join [SLASH] (k :: (q :: qs) ++ [n])) with (k ++ [SLASH] ++ join [SLASH] (q :: qs ++ [n])).
        rewrite <- !app_assoc. f_equal. f_equal. apply IH. }
      rewrite EE. rewrite ascii_id.
      - apply parts_name_at. change (sk :: qs ++ [n]) with ((sk :: qs) ++ [n]). apply Forall_app. auto.
      - apply is_ascii_name_at. change (sk :: qs ++ [n]) with ((sk :: qs) ++ [n]). apply Forall_app. auto. }
    assert (ST : start (h_id g) (ascii (name_at (sk :: qs) ++ [SLASH] ++ n)) = 0).
    { unfold start, name_at. cbn [app]. unfold ascii. cbn [List.filter]. reflexivity. }
    unfold H5.link_at. rewrite PJ, ST.
    change (sk :: qs ++ [n]) with ((sk :: qs) ++ [n]). rewrite rev_app_distr. cbn [rev app].
    rewrite rev_app_distr, rev_involutive. cbn [rev app]. rewrite sbind_eq. cbn [dig]. rewrite H0, D.
    destruct (dig_keeps qs a [] (pos_a (inv_Pa f I) (Ia f I)) Cq f I) as [I1 [F1 Q1]].
    assert (Un1 : forall g0, Uq g0 -> ~ member (fst (dig qs a f)) a g0 j).
    { intros g0 Ug M. apply member_link, dig_old in M; [|exact Lj]. apply (Unj g0 Ug). apply link_member; [apply (inv_wf f I)|auto]. }
    assert (Mc : forall f1 g', dig qs a f = (f1, Ok g') -> member f1 a MCAn j -> n = MCAn /\ member f1 a INS g').
    { intros f1 g' Ed M. destruct Hm as [[Hm1 Hm2]|[-> ->]]; [|split; [reflexivity|]; eapply dig_one; [apply (inv_wf f I)|exact Ed]].
      exfalso. assert (M0 : member f a MCAn j).
      { apply link_member; [apply (inv_wf f I)|]. apply (dig_old qs a); [|exact Lj]. rewrite Ed. apply member_link. exact M. }
      destruct (walk_mca f ps j I Cp Ne E M0); contradiction. }
    destruct (dig qs a f) as [f1 [g'|e]]; cbn [fst snd] in *; [|split; [auto|split; [auto|discriminate]]]. specialize (Mc f1 g' eq_refl).
    destruct (Q1 g' eq_refl) as ((NPg & Ga & _) & Ng & _).
    destruct (add_member_keeps g' n j f1 I1 NPg NPj Nj) as [I2 F2].
    { right. split; [auto|]. split; [intros X; exfalso; apply (Ng Neq X)|exact Mc]. }
    destruct (add_member g' n j f1) as [f2 r]. cbn [fst snd] in *. split; [auto|split; [eapply Fr_trans; eauto|auto]].
  Qed.
End FrameK.
