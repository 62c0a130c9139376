(** The writer of #UXML keeps the frame of FrameH5.v: it changes nothing outside of its group. *)
From Coq Require Import String Lia.
From Verif Require Import Py PyFacts Utils Keys Geom Handlers H5 SpecH5 H5Facts FrameH5 Writer.
Import ListNotations.
Local Open Scope list_scope.

(** ** trees *)
Section XInd.
  Context (Q : xnode -> Prop)
    (Hc : Q XComment) (Hd : forall n t u l x, Q (XData n t u l x))
    (Hg : forall n c u l b, Forall Q b -> Q (XGroup n c u l b)) (Hl : forall n t, Q (XLink n t)).
  Fixpoint xnode_ind2 (x : xnode) : Q x :=
    match x with
    | XComment => Hc
    | XData n t u l y => Hd n t u l y
    | XGroup n c u l b => Hg n c u l b ((fix go (b : list xnode) : Forall Q b :=
        match b with [] => Forall_nil _ | y :: b => Forall_cons _ (xnode_ind2 y) (go b) end) b)
    | XLink n t => Hl n t
    end.
End XInd.

Lemma ux_group_eq g n c u l b d f : ux_item g (XGroup n c u l b) d f =
  (let* o := makeGroup g n c (ux_attrs l) in ux_items o b (ux_unique u o d)) f.
Proof.
  cbn [ux_item]. rewrite !sbind_eq. destruct (makeGroup g n c (ux_attrs l) f) as [f1 [o|x]]; [|reflexivity].
  generalize (ux_unique u o d). clear. revert f1. induction b as [|y b IH]; intros f1 d; [reflexivity|].
  cbn [ux_items]. rewrite !sbind_eq. destruct (ux_item o y d f1) as [f2 [d2|x]]; [|reflexivity]. apply IH.
Qed.

Lemma ncname_plain n : ncname n = true -> plain_name n.
Proof.
  unfold ncname. destruct n as [|c n]; [discriminate|]. rewrite andb_true_iff, forallb_forall. intros [A B].
  split; [discriminate|split].
  - intros E. injection E; intros _ ->. discriminate A.
  - intros H. apply B in H. discriminate H.
Qed.
Lemma mem_class l : forallb (fun kv : str * str => mem (fst kv) data_attrs) l = true \/ forallb (fun kv : str * str => mem (fst kv) group_attrs) l = true ->
  no_class (ux_attrs l).
Proof.
  intros H. unfold no_class, ux_attrs. rewrite Forall_map. apply Forall_forall. intros [k v] Hin. cbn [fst].
  intros ->. destruct H as [H|H]; rewrite forallb_forall in H; specialize (H _ Hin); vm_compute in H; discriminate H.
Qed.

(** ** names without their characters that are not ASCII *)
Lemma ascii_app x y : ascii (x ++ y) = ascii x ++ ascii y.
Proof. apply filter_app. Qed.
Lemma ascii_slash n : ~ In SLASH n -> ~ In SLASH (ascii n).
Proof. intros H X. apply filter_In in X. apply H. apply X. Qed.
Lemma no_slash_rel n : ~ In SLASH n -> prefixb [SLASH] n = false.
Proof.
  destruct n as [|c n]; [reflexivity|]. intros H. cbn [prefixb]. rewrite andb_true_r. apply N.eqb_neq. intros E. apply H. left. symmetry. exact E.
Qed.
Lemma parts_ascii k u qs : plain_name k -> is_ascii k -> plain_name u -> is_ascii u ->
  exists qs', parts (ascii (name_at (k :: u :: qs))) = k :: u :: qs'.
Proof.
  intros Pk Ak Pu Au. unfold name_at. change ([SLASH] ++ join [SLASH] (k :: u :: qs)) with (SLASH :: k ++ SLASH :: join [SLASH] (u :: qs)).
  change (SLASH :: k ++ SLASH :: join [SLASH] (u :: qs)) with ([SLASH] ++ k ++ [SLASH] ++ join [SLASH] (u :: qs)).
  rewrite !ascii_app. change (ascii [SLASH]) with [SLASH]. cbn [app]. rewrite parts_abs, (ascii_id k Ak), parts_slash by exact Pk.
  destruct qs as [|q qs].
  - cbn [join]. rewrite (ascii_id u Au), parts_plain by exact Pu. exists []. reflexivity.
  - change (join [SLASH] (u :: q :: qs)) with (u ++ [SLASH] ++ join [SLASH] (q :: qs)).
    rewrite !ascii_app. change (ascii [SLASH]) with [SLASH]. cbn [app]. rewrite (ascii_id u Au), parts_slash by exact Pu. eauto.
Qed.
Lemma start_ascii i ps : start i (ascii (name_at ps)) = 0.
Proof. reflexivity. Qed.

Section Frame.
  Context (P : nat -> Prop) (a : nat) (sk : str) (Hsk : plain_name sk) (Ask : is_ascii sk).
  Notation Inv := (Inv P a sk). Notation Fr := (Fr P a). Notation hk := (hk P a sk).
  Notation sub := (sub P a sk).

  Lemma link_rel g s p ps qs n : sub (p :: ps) s -> is_ascii p -> p <> DATA -> sub qs g -> ~ In SLASH n ->
    hk (makeLink g s n) (fun _ => True).
  Proof.
    intros [A1 [A2 [A3 A4]]] Ap Nd [B1 [B2 _]] Hn. unfold makeLink.
    eapply hk_bind with (Q := fun _ => True).
    { intros f I. destruct (has (L "target") (attrs_at (h_id s) f)).
      - simpl. split; [auto|split; [apply Fr_refl|auto]].
      - apply set_attr_keeps; auto. apply seqb_neq; reflexivity. }
    intros _ _. rewrite A3.
    assert (Pp : plain_name p) by (inversion A4 as [|? ? _ X]; inversion X; auto).
    destruct (parts_ascii sk p ps Hsk Ask Pp Ap) as [qs' EP].
    eapply hk_bind with (Q := fun o => ~ P (h_id o) /\ h_id o <> a).
    - intros f I. unfold hget. cbn [fst snd]. split; [auto|split; [apply Fr_refl|]].
      intros x H. destruct (resolve (h_id g) (ascii (name_at (sk :: p :: ps))) f) as [j|] eqn:E; [|discriminate].
      inversion H; subst x. cbn [h_id].
      change (walk (parts (ascii (name_at (sk :: p :: ps)))) (start (h_id g) (ascii (name_at (sk :: p :: ps)))) f = Some j) in E.
      rewrite EP, start_ascii in E. cbn [walk] in E. destruct (inv_root _ _ _ f I) as [ms [at_ [H0 D]]]. rewrite H0, D in E.
      destruct (walk_ok P a sk f (p :: qs') a j I (inv_Pa _ _ _ f I)) as [X Y]; [intros _; exact Nd|exact E|].
      split; [exact X|]. apply Y. discriminate.
    - intros o [X Y]. apply link_at_keeps; [|exact X|exact Y]. split; [apply no_slash_rel; apply ascii_slash; exact Hn|].
      split; [exact B1|]. intros; contradiction.
  Qed.

  Definition UX : str := L "UXML".
  Definition under (h : handle) : Prop := exists qs, sub (UX :: qs) h.
  Definition uok (d : uids) : Prop :=
    (forall k o, dget k (u_unique d) = Some o -> under o) /\
    (forall k t, In (k, t) (u_target d) -> under (fst t) /\ ~ In SLASH (snd t)).
  Lemma uok_unique u o d : under o -> uok d -> uok (ux_unique u o d).
  Proof.
    intros Ho [A B]. destruct u as [i|]; [|split; auto]. split; [|exact B]. cbn [u_unique ux_unique]. intros k x H.
    destruct (seqb k i) eqn:E.
    - apply seqb_eq in E. subst k. rewrite dget_dset_same in H. injection H; intros <-. exact Ho.
    - rewrite dget_dset_other in H; [eauto|]. apply seqb_neq in E. exact E.
  Qed.
  Lemma in_dset {V} k (v : V) d x y : In (x, y) (dset k v d) -> (x, y) = (k, v) \/ In (x, y) d.
  Proof.
    induction d as [|[k' v'] d IH]; cbn [dset]; [intros [H|[]]; auto|]. destruct (seqb k k') eqn:E; cbn [In].
    - apply seqb_eq in E. subst k'. intros [H|H]; auto.
    - intros [H|H]; auto. destruct (IH H); auto.
  Qed.
  Lemma under_part h ps : sub (UX :: ps) h -> under h.
  Proof. intros H. exists ps. exact H. Qed.
  Lemma plain_no n : plain_name n -> ~ In SLASH n.
  Proof. intros (_ & _ & H). exact H. Qed.

  Lemma ux_item_ok x : xvalid x = true -> forall g d, under g -> uok d -> hk (ux_item g x d) uok.
  Proof.
    induction x as [|n t u l y|n c u l b IH|n t] using xnode_ind2; intros V g d [qs Hg] U.
    - apply hk_raise.
    - cbn [xvalid] in V. apply andb_true_iff in V. destruct V as [V1 V2]. apply ncname_plain in V1. cbn [ux_item].
      eapply hk_bind; [apply hk_lift with (Q := fun _ => True); auto|]. intros v _.
      eapply hk_bind.
      { apply (makeDataset_keeps P a sk (UX :: qs)); [apply sub_known; exact Hg| |apply mem_class; auto].
        destruct Hg as (X & Y & _). split; [apply no_slash_rel, plain_no, V1|split; [exact X|congruence]]. }
      intros o Ho. apply hk_ret. apply uok_unique; [|exact U]. eapply under_part. exact Ho.
    - cbn [xvalid] in V. rewrite !andb_true_iff in V. destruct V as [[V1 V2] V3]. apply ncname_plain in V1.
      assert (K : hk (let* o := makeGroup g n c (ux_attrs l) in ux_items o b (ux_unique u o d)) uok).
      { eapply hk_bind.
        { apply (makeGroup_keeps P a sk (UX :: qs)); [apply sub_known; exact Hg| |apply mem_class; auto].
          left. destruct Hg as (X & Y & _). split; [apply no_slash_rel, plain_no, V1|split; [exact X|congruence]]. }
        intros o Ho. assert (Uo : under o) by (eapply under_part; exact Ho). clear Ho Hg.
        pose proof (uok_unique u o d Uo U) as U1. revert U1. generalize (ux_unique u o d). clear - IH V3 Uo.
        rewrite forallb_forall in V3. induction b as [|y b IB]; intros d U1; cbn [ux_items]; [apply hk_ret; exact U1|].
        inversion IH as [|? ? H1 H2]; subst. eapply hk_bind; [apply H1; [apply V3; left; reflexivity|exact Uo|exact U1]|].
        intros d2 U2. apply IB; [exact H2|intros z Hz; apply V3; right; exact Hz|exact U2]. }
      intros f I. rewrite ux_group_eq. apply K. exact I.
    - cbn [xvalid] in V. apply ncname_plain in V. cbn [ux_item]. apply hk_ret. destruct U as [A B]. split; [exact A|].
      cbn [u_target]. intros k y H. apply in_dset in H. destruct H as [H|H]; [|eauto]. injection H; intros -> ->. cbn [fst snd].
      split; [exists qs; exact Hg|apply plain_no, V].
  Qed.
  Lemma ux_items_ok b : forallb xvalid b = true -> forall g d, under g -> uok d -> hk (ux_items g b d) uok.
  Proof.
    rewrite forallb_forall. induction b as [|y b IB]; intros V g d G U; cbn [ux_items]; [apply hk_ret; exact U|].
    eapply hk_bind; [apply ux_item_ok; [apply V; left; reflexivity|exact G|exact U]|].
    intros d2 U2. apply IB; [intros z Hz; apply V; right; exact Hz|exact G|exact U2].
  Qed.
  Lemma ux_links_ok d : uok d -> hk (ux_links d) (fun _ => True).
  Proof.
    intros [A B]. unfold ux_links. apply hk_iter. intros [k [g n]] Hin. cbn [fst snd].
    destruct (dget k (u_unique d)) as [s|] eqn:E; [|apply hk_ret; exact I].
    destruct (A k s E) as [ps Hs]. destruct (B k (g, n) Hin) as [[qs Hq] Hn].
    apply (link_rel g s UX ps (UX :: qs) n); [exact Hs| | |exact Hq|exact Hn].
    - unfold UX, is_ascii. repeat constructor.
    - apply seqb_neq; reflexivity.
  Qed.
End Frame.
