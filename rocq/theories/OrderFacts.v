(** Orders and sorting. *)
From Coq Require Import String Lia Permutation Sorted QArith Qpower.
From Verif Require Import Py PyFacts Time SpecNum.
Import ListNotations.
Local Open Scope list_scope.

Lemma Qpower_p10 e : (0 <= e)%Z -> Qpower (inject_Z 10) e == inject_Z (p10 e).
Proof.
  intros H. unfold p10. rewrite <- (Z2Nat.id e H). generalize (Z.to_nat e) as n. clear. induction n as [|n IH].
  - reflexivity.
  - rewrite Nat2Z.inj_succ, Z.pow_succ_r by lia. unfold Z.succ. rewrite Qpower_plus by discriminate. rewrite IH, inject_Z_mult.
    rewrite Qmult_comm. reflexivity.
Qed.
Lemma decQ_shift m e k : (k <= e)%Z -> decQ m e == inject_Z (m * p10 (e - k)) * Qpower (inject_Z 10) k.
Proof.
  intros H. unfold decQ. replace e with ((e - k) + k)%Z at 1 by lia. rewrite Qpower_plus by discriminate.
  rewrite Qpower_p10 by lia. rewrite inject_Z_mult. ring.
Qed.
Lemma Qpower_pos10 k : 0 < Qpower (inject_Z 10) k.
Proof. apply Qpower_0_lt. reflexivity. Qed.
Lemma dec_leb m e m' e' : fl_leb (FDec m e) (FDec m' e') = true <-> decQ m e <= decQ m' e'.
Proof.
  cbn [fl_leb]. set (k := Z.min e e'). rewrite (decQ_shift m e k), (decQ_shift m' e' k) by lia.
  rewrite Qmult_le_r by apply Qpower_pos10. rewrite <- Zle_Qle. rewrite Z.leb_le. tauto.
Qed.
Lemma fl_leb_num a b : fl_leb a b = true <-> num_le a b.
Proof.
  destruct a as [m e|[|]|], b as [m' e'|[|]|]; try (apply dec_leb); simpl; split; auto; discriminate.
Qed.
Lemma num_le_trans a b c : num_le a b -> num_le b c -> num_le a c.
Proof.
  destruct a as [m e|[|]|], b as [m' e'|[|]|], c as [m'' e''|[|]|]; simpl; try tauto. apply Qle_trans.
Qed.
Lemma num_le_total a b : is_nan a = false -> is_nan b = false -> num_le a b \/ num_le b a.
Proof.
  destruct a as [m e|[|]|], b as [m' e'|[|]|]; simpl; try discriminate; auto. intros _ _.
  destruct (Qlt_le_dec (decQ m e) (decQ m' e')); auto. left. apply Qlt_le_weak; auto.
Qed.

Lemma zlist_leb_total a b : zlist_leb a b = true \/ zlist_leb b a = true.
Proof.
  revert b; induction a as [|x a IH]; destruct b as [|y b]; simpl; auto.
  destruct (x <? y)%Z eqn:E1, (y <? x)%Z eqn:E2; auto.
Qed.
Lemma zlist_leb_trans a b c : zlist_leb a b = true -> zlist_leb b c = true -> zlist_leb a c = true.
Proof.
  revert b c; induction a as [|x a IH]; destruct b as [|y b]; destruct c as [|z c]; simpl; auto; try discriminate.
  destruct (x <? y)%Z eqn:E1, (y <? x)%Z eqn:E2, (y <? z)%Z eqn:E3, (z <? y)%Z eqn:E4; try lia; try discriminate;
    destruct (x <? z)%Z eqn:E5; auto; destruct (z <? x)%Z eqn:E6; try lia; eauto.
Qed.
Lemma zlist_leb_lt x y a b : zlist_leb (x :: a) (y :: b) = true <-> (x < y)%Z \/ (x = y /\ zlist_leb a b = true).
Proof.
  simpl. destruct (x <? y)%Z eqn:E1; [split; auto; left; lia|]. destruct (y <? x)%Z eqn:E2; split; try discriminate.
  - intros [?|[? _]]; lia.
  - intros; right; split; [lia|auto].
  - intros [?|[_ ?]]; auto; lia.
Qed.
Lemma tm_leb_time a b : tm_leb a b = true <-> time_le a b.
Proof.
  unfold tm_leb, tm_list. rewrite !zlist_leb_lt. unfold time_le, time_lt. destruct a as [y m d h mi s w], b as [y2 m2 d2 h2 mi2 s2 w2]. cbn [year mon mday hour minute sec wday].
  split.
  - intros H. repeat (destruct H as [H|[? H]]; [left; lia|]). right. subst. reflexivity.
  - intros [H|H]; [|inversion H; subst; repeat (right; split; [reflexivity|]); reflexivity].
    destruct H as [?|[? [?|[? [?|[? [?|[? [?|[? [?|[? ?]]]]]]]]]]]]; [left; lia|right; split; auto; left; lia| | | | | ];
      repeat (first [left; lia|right; split; [lia|]]).
Qed.
Lemma tm_leb_total a b : tm_leb a b = true \/ tm_leb b a = true. Proof. apply zlist_leb_total. Qed.
Lemma tm_leb_trans a b c : tm_leb a b = true -> tm_leb b c = true -> tm_leb a c = true. Proof. apply zlist_leb_trans. Qed.

(** ** sorting *)
Lemma before_filter {A} (p : A -> bool) l a b : before l a b -> p a = true -> p b = true -> before (List.filter p l) a b.
Proof.
  intros (x & y & z & ->) Ha Hb. exists (List.filter p x), (List.filter p y), (List.filter p z).
  rewrite filter_app. simpl. rewrite Ha, filter_app. simpl. rewrite Hb. auto.
Qed.
Lemma filter_cons_split {A} (p : A -> bool) l a m : List.filter p l = a :: m -> exists x y, l = x ++ a :: y /\ List.filter p y = m.
Proof.
  induction l as [|c l IH]; simpl; [discriminate|]. destruct (p c).
  - intros H; inversion H; subst. exists [], l; auto.
  - intros H. destruct (IH H) as (x & y & -> & ?). exists (c :: x), y; auto.
Qed.
Lemma filter_app_split {A} (p : A -> bool) l a b : List.filter p l = a ++ b -> exists x y, l = x ++ y /\ List.filter p x = a /\ List.filter p y = b.
Proof.
  revert a; induction l as [|c l IH]; simpl; intros a H.
  - symmetry in H. apply app_eq_nil in H. destruct H; subst. exists [], []; auto.
  - destruct (p c) eqn:E.
    + destruct a as [|d a]; simpl in H.
      * exists [], (c :: l). simpl. rewrite E. auto.
      * inversion H; subst. destruct (IH _ H2) as (x & y & -> & <- & <-). exists (d :: x), y. simpl. rewrite E. auto.
    + destruct (IH _ H) as (x & y & -> & <- & <-). exists (c :: x), y. simpl. rewrite E. auto.
Qed.
Lemma before_unfilter {A} (p : A -> bool) l a b : before (List.filter p l) a b -> before l a b.
Proof.
  intros (x & y & z & H). apply filter_app_split in H. destruct H as (x1 & r & -> & _ & H).
  apply filter_cons_split in H. destruct H as (x2 & r2 & -> & H).
  apply filter_app_split in H. destruct H as (y1 & r3 & -> & _ & H).
  apply filter_cons_split in H. destruct H as (y2 & z2 & -> & _).
  exists (x1 ++ x2), (y1 ++ y2), z2. rewrite <- !app_assoc. auto.
Qed.

Section Sorting.
  Context {A : Type} (leb : A -> A -> bool) (Hr : A -> Prop).
  Hypothesis total : forall x y, Hr x -> Hr y -> leb x y = true \/ leb y x = true.
  Hypothesis trans : forall x y z, Hr x -> Hr y -> Hr z -> leb x y = true -> leb y z = true -> leb x z = true.

  Lemma insert_In x l z : In z (insert leb x l) -> z = x \/ In z l.
  Proof. intros H. apply (Permutation_in z (insert_perm leb x l)) in H. simpl in H. intuition auto. Qed.
  Lemma isort_sorted_on l : Forall Hr l -> StronglySorted (fun a b => leb a b = true) (isort leb l).
  Proof.
    induction 1 as [|x l Hx Hl IH]; simpl; [constructor|].
    assert (Hs : Forall Hr (isort leb l)).
    { rewrite Forall_forall in *. intros z Hz. apply Hl. eapply Permutation_in; [apply isort_perm|]; eauto. }
    revert IH Hs. generalize (isort leb l) as m. induction 1 as [|y m Hsm IHm Hy]; intros Hs; simpl; [repeat constructor|].
    inversion Hs; subst. destruct (leb x y) eqn:E.
    - constructor; [constructor; auto|]. constructor; auto. rewrite Forall_forall in *. intros z Hz.
      eapply trans with (y := y); auto.
    - constructor; auto. rewrite Forall_forall in *. intros z Hz. apply insert_In in Hz. destruct Hz as [->|Hz]; auto.
      destruct (total x y Hx); auto; congruence.
  Qed.
  Lemma isort_stable_on l a b : Forall Hr l -> before l a b -> leb a b = true -> leb b a = true -> before (isort leb l) a b.
  Proof.
    intros HF Hb Hab Hba. assert (Ha : Hr a /\ Hr b).
    { destruct Hb as (x & y & z & ->). rewrite !Forall_app in HF. destruct HF as [_ HF]. inversion HF as [|? ? H1 H2]; subst.
      rewrite Forall_app in H2. destruct H2 as [_ H2]. inversion H2; auto. }
    destruct Ha as [Ha Hb'].
    set (p := fun c => leb a c && leb c a).
    apply (before_unfilter p).
    assert (Q : List.filter p (isort leb l) = List.filter p l).
    { clear Hb. induction HF as [|x l Hx Hl IH]; simpl; auto. destruct (p x) eqn:E.
      - rewrite <- IH. assert (Hs : Forall Hr (isort leb l)).
        { rewrite Forall_forall in *. intros z Hz. apply Hl. eapply Permutation_in; [apply isort_perm|]; eauto. }
        revert Hs. generalize (isort leb l) as m. clear IH. induction m as [|y m IHm]; intros Hs; simpl; [rewrite E; auto|].
        inversion Hs; subst. destruct (leb x y) eqn:Exy; simpl; [rewrite E; auto|].
        destruct (p y) eqn:Ey; auto. exfalso. unfold p in *. apply andb_true_iff in E. apply andb_true_iff in Ey.
        assert (leb x y = true); [|congruence]. apply trans with (y := a); tauto.
      - rewrite <- IH. generalize (isort leb l) as m. induction m as [|y m IHm]; simpl; [rewrite E; auto|].
        destruct (leb x y); simpl; [rewrite E; auto|]. rewrite IHm; auto. }
    rewrite Q. apply before_filter; auto; unfold p; rewrite ?Hab, ?Hba; auto.
    destruct (total a a) as [->| ->]; auto.
  Qed.
End Sorting.

Lemma before_map {A B} (f : A -> B) l a b : before l a b -> before (map f l) (f a) (f b).
Proof. intros (x & y & z & ->). exists (map f x), (map f y), (map f z). rewrite !map_app. simpl. rewrite map_app. auto. Qed.
