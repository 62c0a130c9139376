(** The MCA group of an entry: three writers share it *)
From Coq Require Import String Lia.
From Verif Require Import Py PyFacts NumFacts Utils SpecUtils Keys Time Geom Handlers Reader SpecWriter NamesFacts
  H5 SpecH5 H5Facts FrameH5 H5Exact Writer DataWrite KeepFacts SaveFacts EntryData FrameK WriterFrame WriterFrameK GrowFacts ClaimFacts MetaWrite MetaWrite2 MetaWrite3 MetaWrite5 MetaWrite6.
Import ListNotations.
Local Open Scope list_scope.

(** dataset [n] of the group is object [j] and nothing else leads to it *)
Record MD (a : nat) (n : str) (nd : node) (g j : nat) (f : h5) : Prop := mk_md {
  md_g : member f a MCAn g;
  md_n : member f g n j;
  md_j : nth_error f j = Some nd;
  md_c : forall i m, a <= i -> link f i m j -> i = g /\ m = n }.
Definition is_ds (nd : node) : Prop := exists v l, nd = Dset v l.

Lemma md_gj a n nd g j f : is_ds nd -> MD a n nd g j f -> g <> j.
Proof. intros (v & l & ->) [_ (ms & at_ & A & _) B _] ->. congruence. Qed.

Lemma md_move a n nd g j f f' : (forall k m x, (k = g -> m = n) -> member f k m x -> member f' k m x) -> nth_error f' j = nth_error f j ->
  (forall i m, a <= i -> link f' i m j -> link f i m j) -> a <> g -> MD a n nd g j f -> MD a n nd g j f'.
Proof.
  intros H1 H2 H3 Na [A B C D]. constructor.
  - apply H1; [congruence|exact A].
  - apply H1; [auto|exact B].
  - congruence.
  - intros i m Hi Hl. apply D; [exact Hi|]. apply H3; auto.
Qed.

(** changed attributes *)
Lemma attr_member f x nd l : nth_error f x = Some nd -> forall k m y, member (put_nth x (with_attrs nd l) f) k m y <-> member f k m y.
Proof.
  intros H k m y. pose proof (put_nth_error x (with_attrs nd l) _ f H k) as E. split; intros (ms & at_ & A & B).
  - rewrite E in A. destruct (Nat.eqb_spec k x) as [->|N]; [|exists ms, at_; auto].
    destruct nd as [ms0 at0|v0 at0]; cbn [with_attrs] in A; [|discriminate]. injection A; intros _ <-. exists ms0, at0. auto.
  - destruct (Nat.eqb_spec k x) as [->|N].
    + rewrite H in A. injection A; intros ->. eexists; eexists. split; [rewrite E; reflexivity|exact B].
    + exists ms, at_. rewrite E. auto.
Qed.
Lemma attr_link f x nd l : nth_error f x = Some nd -> forall k m y, link (put_nth x (with_attrs nd l) f) k m y <-> link f k m y.
Proof.
  intros H k m y. pose proof (put_nth_error x (with_attrs nd l) _ f H k) as E. split; intros (ms & at_ & A & B).
  - rewrite E in A. destruct (Nat.eqb_spec k x) as [->|N]; [|exists ms, at_; auto].
    destruct nd as [ms0 at0|v0 at0]; cbn [with_attrs] in A; [|discriminate]. injection A; intros _ <-. exists ms0, at0. auto.
  - destruct (Nat.eqb_spec k x) as [->|N].
    + rewrite H in A. injection A; intros ->. eexists; eexists. split; [rewrite E; reflexivity|exact B].
    + exists ms, at_. rewrite E. auto.
Qed.
Lemma md_attr a n nd g j f x nx l : nth_error f x = Some nx -> x <> j -> a <> g -> MD a n nd g j f -> MD a n nd g j (put_nth x (with_attrs nx l) f).
Proof.
  intros H N Na. apply md_move; [| | |exact Na].
  - intros k m y _ M. apply attr_member; auto.
  - rewrite (put_nth_error _ _ _ _ H). destruct (Nat.eqb_spec j x); [congruence|reflexivity].
  - intros i m _ Lk. apply attr_link in Lk; auto.
Qed.

(** a new object *)
Lemma md_made a n nd g j f i n' ms ms' at_ nd' : is_ds nd -> bounded f -> nth_error f i = Some (Group ms at_) -> incl ms' ms ->
  (forall ms1 at1, nd' = Group ms1 at1 -> ms1 = []) ->
  (forall m x, (i = g -> m = n) -> dget m ms = Some x -> dget m ms' = Some x) -> a <> g ->
  MD a n nd g j f -> MD a n nd g j (made i n' ms' at_ nd' f).
Proof.
  intros (v0 & l0 & Ed) Bd H Hi Hn Hk Na MD0. pose proof MD0 as [_ _ C _]. pose proof (made_nth i n' ms' at_ nd' f _ H) as E.
  assert (Lj : j < List.length f) by (apply nth_error_Some; congruence).
  assert (Nj : j <> i) by (intros ->; congruence).
  revert MD0. apply md_move; [| | |exact Na].
  - intros k m x Hm (m0 & x0 & X1 & X2). destruct (Nat.eq_dec k i) as [->|Nk].
    + rewrite H in X1. injection X1; intros <- <-. eexists; eexists. split; [rewrite E, Nat.eqb_refl; reflexivity|]. rewrite dget_app, (Hk _ x); auto.
    + exists m0, x0. rewrite E. destruct (Nat.eqb_spec k i); [contradiction|]. assert (k < List.length f) by (apply nth_error_Some; congruence).
      destruct (Nat.eqb_spec k (List.length f)); [lia|]. auto.
  - rewrite E. destruct (Nat.eqb_spec j i); [contradiction|]. destruct (Nat.eqb_spec j (List.length f)); [lia|reflexivity].
  - intros k m _ (m0 & x0 & X1 & X2). rewrite E in X1. destruct (Nat.eqb_spec k i) as [->|Nk].
    + injection X1; intros <- <-. apply in_app_iff in X2. destruct X2 as [X2|[X2|[]]]; [|inversion X2; lia]. exists ms, at_. auto.
    + destruct (Nat.eqb_spec k (List.length f)); [|exists m0, x0; auto]. injection X1; intros ->. rewrite (Hn _ _ eq_refl) in X2. destruct X2.
Qed.
(** a new link to another object *)
Lemma md_add a n nd g j f i m0 x0 ms at_ : nth_error f i = Some (Group ms at_) -> x0 <> j -> a <> g -> i <> j ->
  MD a n nd g j f -> MD a n nd g j (put_nth i (Group (ms ++ [(m0, x0)]) at_) f).
Proof.
  intros H Nx Na Ni. pose proof (put_nth_error i (Group (ms ++ [(m0, x0)]) at_) _ f H) as E. apply md_move; [| | |exact Na].
  - intros k m x _ (m1 & y1 & X1 & X2). destruct (Nat.eq_dec k i) as [->|Nk].
    + rewrite H in X1. injection X1; intros <- <-. eexists; eexists. split; [rewrite E, Nat.eqb_refl; reflexivity|]. rewrite dget_app, X2. reflexivity.
    + exists m1, y1. rewrite E. destruct (Nat.eqb_spec k i); [contradiction|auto].
  - rewrite E. destruct (Nat.eqb_spec j i); [congruence|reflexivity].
  - intros k m _ (m1 & y1 & X1 & X2). rewrite E in X1. destruct (Nat.eqb_spec k i) as [->|Nk].
    + injection X1; intros <- <-. apply in_app_iff in X2. destruct X2 as [X2|[X2|[]]]; [|inversion X2; congruence]. exists ms, at_. auto.
    + exists m1, y1. auto.
Qed.

Section Mca.
  Context (a : nat) (sk : str) (Ha : 0 < a) (Hp : plain_name sk) (Has : is_ascii sk).
  Let e := mk_handle a (name_at [sk]).
  Lemma MCA_plain : plain_name MCAn. Proof. apply plainb_ok. reflexivity. Qed.
  Lemma mem_gt f n x : BInv a sk f -> member f a n x -> a < x.
  Proof.
    intros I M. destruct (FrameK.inv_link _ _ _ _ _ f I a n x) as [N1 N2]; [apply (FrameK.inv_Pa _ _ _ _ _ f I)|apply member_link; auto|].
    destruct (Nat.lt_ge_cases a x); [auto|]. assert (PI : PO a x) by (unfold PO; lia). destruct (N2 PI) as [[_ []]|(g & [] & _)].
  Qed.

  (** other writers *)
  Lemma md_writer n nd g j cmd h o w w' u : is_ds nd -> ~ In h [H_CALIB; H_CHANN; H_CTIME] -> BW a sk w -> MD a n nd g j (w_h5 w) ->
    writer_of cmd h e o w = (w', Ok u) -> MD a n nd g j (w_h5 w').
  Proof.
    intros Hd Nh W M H. pose proof W as [I [N1 N2]]. pose proof (md_gj _ _ _ _ _ _ Hd M) as Ngj. destruct M as [A B C D]. set (f := w_h5 w) in *.
    pose proof (mem_gt f _ _ I A) as Hg.
    assert (Lg : g < List.length f) by (destruct B as (ms & at_ & X & _); apply nth_error_Some; congruence).
    assert (Lj : j < List.length f) by (apply nth_error_Some; congruence).
    pose proof (FrameK.inv_wf _ _ _ _ _ f I) as Wf.
    assert (Pa : ~ PO a a) by (unfold PO; lia).
    assert (Hj : a < j).
    { destruct (FrameK.inv_link _ _ _ _ _ f I g n j) as [Q1 Q2]; [unfold PO; lia|apply member_link; auto|].
      destruct (Nat.lt_ge_cases a j); [auto|]. assert (PI : PO a j) by (unfold PO; lia). destruct (Q2 PI) as [[_ []]|(x & [] & _)]. }
    set (R := fun i : nat => i = g \/ i = j).
    set (K := fun p : list str => p = [MCAn] \/ (p = [INS; MCAn] /\ exists i x, member f a INS i /\ member f i MCAn x)).
    set (II := fun (i : nat) (q : str) => q = INS /\ member f a INS i).
    assert (Mf : forall k m x y, member f k m x -> member f k m y -> x = y).
    { intros k m x y (m1 & t1 & X1 & X2) (m2 & t2 & Y1 & Y2). congruence. }
    assert (IU : FrameK.Inv (fun i => i < a \/ R i) a sk K II f).
    { apply upgrade_set; auto.
      - intros x [->| ->]; lia.
      - intros i m x Hi Ni Lk [->| ->].
        + destruct (FrameK.inv_mca _ _ _ _ _ f I i m g) as [[-> ->]|[-> Mi]]; [unfold PO; lia|exact Lk|exact A|left; split; [auto|left; auto]|].
          right. exists INS. split; [split; auto|]. right. split; [auto|]. exists i, g. split; [auto|]. apply link_member; auto.
        + exfalso. destruct (D i m Hi Lk) as [-> _]. apply Ni. left. auto.
      - intros i q [-> Mi]. split; [left; reflexivity|]. split; [apply (mem_gt f INS i I Mi)|]. split; [|exact Mi]. intros [->| ->].
        + destruct (FrameK.inv_uq _ _ _ _ _ f I a MCAn g INS Pa) as [_ X]; [apply member_link; auto|left; reflexivity|exact Mi|discriminate X].
        + destruct (D a INS (le_n a)) as [X _]; [apply member_link; auto|]. lia. }
    assert (K0 : ~ K []) by (intros [X|[X _]]; discriminate).
    assert (K2' : forall q m, K [q; m] -> Uq q) by (intros q m [X|[X _]]; [discriminate|injection X; intros _ ->; left; reflexivity]).
    assert (OK : okw K h).
    { assert (KK : forall p, K p -> K2 MCAn p) by (intros p [X|[X _]]; [left|right]; exact X).
      assert (OO : okw (K2 MCAn) h).
      { revert Nh. clear. unfold okw, K2. intros Nh; destruct h; try (exfalso; apply Nh; simpl; tauto);
          repeat split; try exact I; try (intros ? [?|?]; discriminate); try (intros [?|?]; discriminate). }
      revert OO. clear - KK. unfold okw. destruct h; cbv zeta; intuition eauto. }
    assert (WK : WriterFrameK.wk (fun i => i < a \/ R i) a sk K II (writer_of cmd h e o) (fun _ => True)).
    { apply (WriterFrameK.writer_of_ok _ a sk K II); auto. unfold e. eapply entry_hat; eauto. }
    destruct (wk_step _ _ _ _ _ _ _ w w' (Ok u) WK (conj IU (conj N1 N2)) H) as [[IU' _] [F1 F2 F3 F4]]. set (f' := w_h5 w') in *.
    assert (Eg : nth_error f' g = nth_error f g) by (apply F2; right; left; auto).
    assert (Ej : nth_error f' j = nth_error f j) by (apply F2; right; right; auto).
    constructor.
    - apply F3; [left; reflexivity|exact A].
    - destruct B as (ms & at_ & X & Y). exists ms, at_. rewrite Eg. auto.
    - congruence.
    - intros i m Hi Lk. destruct (Nat.eq_dec i g) as [->|Ng].
      + destruct Lk as (ms & at_ & X & Y). rewrite Eg in X. apply D; [lia|]. exists ms, at_. auto.
      + exfalso. destruct (Nat.eq_dec i j) as [->|Nij].
        { destruct Lk as (ms & at_ & X & Y). rewrite Ej in X. destruct Hd as (v0 & l0 & ->). congruence. }
        pose proof (FrameK.inv_wf _ _ _ _ _ f' IU') as Wf'.
        assert (Mf' : forall k m x y, member f' k m x -> member f' k m y -> x = y).
        { intros k m1 x y (m2 & t1 & X1 & X2) (m3 & t2 & Y1 & Y2). congruence. }
        assert (NPi : ~ (i < a \/ R i)) by (unfold R; lia).
        destruct (FrameK.inv_link _ _ _ _ _ f' IU' i m j NPi Lk) as [_ Q]. assert (PR : j < a \/ R j) by (right; right; reflexivity).
        apply link_member in Lk; [|exact Wf'].
        destruct (Q PR) as [[-> [X|[X _]]]|(q & [-> Mi] & [X|[X (i1 & x1 & X1 & X2)]])]; try discriminate X.
        * injection X; intros ->. apply Ngj. apply (Mf' a MCAn); [|exact Lk]. apply F3; [left; reflexivity|exact A].
        * injection X; intros ->. assert (i1 = i) by (eapply Mf; eauto). subst i1.
          assert (x1 = j). { apply (Mf' i MCAn); [|exact Lk]. apply (F4 i INS); [split; auto| |exact X2]. right. split; [auto|]. exists i, x1. auto. }
          subst x1. destruct (D i MCAn Hi) as [Y _]; [apply member_link; exact X2|]. contradiction.
  Qed.

  Notation hatM := (FrameK.hat (PO a) a sk noI [L "MCA"]).
  Lemma base_wk {A} (m : WM A) Q w w' x : WriterFrameK.wk (PO a) a sk noK noI m Q -> BW a sk w -> m w = (w', Ok x) -> BW a sk w' /\ Q x.
  Proof. intros Hm W E. destruct (Hm w W) as (X & _ & Y). rewrite E in X, Y. split; [exact X|apply Y; reflexivity]. Qed.
  Lemma e_hat w : BW a sk w -> FrameK.hat (PO a) a sk noI [] e.
  Proof. intros [I _]. eapply entry_hat; eauto. Qed.

  Lemma opened_mca w w1 g : BW a sk w -> mca_group e w = (w1, Ok g) ->
    BW a sk w1 /\ w_scan w1 = w_scan w /\ w_hdr w1 = w_hdr w /\ hatM g /\ member (w_h5 w1) a MCAn (h_id g) /\
    forall n nd g0 j, is_ds nd -> MD a n nd g0 j (w_h5 w) -> g0 = h_id g /\ MD a n nd g0 j (w_h5 w1).
  Proof.
    intros W H. destruct (base_wk (mca_group e) (FrameK.hat (PO a) a sk noI [L "MCA"]) w w1 g) as [W1 Hg]; auto.
    { apply (WriterFrameK.mca_group_ok (PO a) a sk noK noI); auto. apply (e_hat w W). }
    unfold mca_group in H. apply hdf_ok in H. destruct H as (H & S1 & S2). do 4 (split; [auto|]).
    pose proof W as [I _]. set (f := w_h5 w) in *. set (f1 := w_h5 w1) in *.
    unfold openGroup in H. cbn [e h_id h_name] in H. change (L "MCA") with MCAn in H.
    assert (La : a < List.length f) by apply (FrameK.inv_alt _ _ _ _ _ f I).
    destruct (nth_error f a) as [[ms at_|v0 l0]|] eqn:Na; [| |apply nth_error_None in Na; lia].
    - rewrite (resolve_plain a MCAn ms at_ f MCA_plain Na) in H. destruct (dget MCAn ms) as [i|] eqn:Di.
      + assert (Mi : member f a MCAn i) by (exists ms, at_; auto).
        cbv zeta in H. apply bind_ok in H. destruct H as (u1 & f2 & H1 & H2). unfold sret in H2. assert (f2 = f1) by congruence. subst f2.
        assert (Eg : g = mk_handle i (sub_name (name_at [sk]) MCAn)) by congruence. rewrite Eg. cbn [h_id]. clear H2.
        assert (Li : i < List.length f) by (apply dget_In in Di; apply (FrameK.inv_bd _ _ _ _ _ f I a ms at_ MCAn i Na Di)).
        destruct (nth_error f i) as [ni|] eqn:Ni; [|apply nth_error_None in Ni; lia].
        rewrite (addAttributes_eq (mk_handle i (sub_name (name_at [sk]) MCAn)) [desc "MCA metadata"] ni f Ni) in H1. cbn [h_id] in H1.
        assert (E1 : f1 = put_nth i (with_attrs ni [desc "MCA metadata"]) f) by congruence. clear H1.
        split; [rewrite E1; apply attr_member; auto|]. intros n nd g0 j Hd M. pose proof (md_gj _ _ _ _ _ _ Hd M) as Ngj.
        assert (g0 = i) by (pose proof (md_g _ _ _ _ _ _ M) as (m2 & t2 & X1 & X2); congruence). subst g0. split; [reflexivity|].
        rewrite E1. apply md_attr; auto. pose proof (mem_gt f _ _ I Mi). lia.
      + destruct (group_of_make e MCAn NOTE [desc "MCA metadata"] f f1 g MCA_plain La H) as (ms' & at' & Na' & Hh & Ef & Eg). cbn [e h_id h_name] in *.
        rewrite Na in Na'. injection Na'; intros <- <-. rewrite Eg. cbn [h_id]. split.
        * eexists; eexists. split; [rewrite Ef, (made_nth _ _ _ _ _ _ _ Na), Nat.eqb_refl; reflexivity|]. apply dget_none_app. exact Hh.
        * intros n nd g0 j Hd M. exfalso. destruct (md_g _ _ _ _ _ _ M) as (m2 & t2 & X1 & X2). congruence.
    - exfalso. unfold resolve in H. rewrite (start_rel _ _ (plain_rel MCAn MCA_plain)), (parts_plain MCAn MCA_plain) in H. cbn [walk MCAn L] in H.
      unfold MCAn in H at 1. cbn [L] in H. rewrite Na in H.
      destruct (group_of_make e MCAn NOTE [desc "MCA metadata"] f f1 g MCA_plain La H) as (ms' & at' & Na' & _). cbn [e h_id] in Na'. congruence.
  Qed.

  (** writing a dataset of the group *)
  Lemma wds_mca w w1 g n v l u : BW a sk w -> hatM g -> member (w_h5 w) a MCAn (h_id g) -> plain_name n -> wds g n (DNum v) l w = (w1, Ok u) ->
    BW a sk w1 /\ w_scan w1 = w_scan w /\ w_hdr w1 = w_hdr w /\ member (w_h5 w1) a MCAn (h_id g) /\
    (exists j, MD a n (with_attrs (Dset (HArr [1] [v]) []) l) (h_id g) j (w_h5 w1)) /\
    forall n' nd j, is_ds nd -> n' <> n -> MD a n' nd (h_id g) j (w_h5 w) -> MD a n' nd (h_id g) j (w_h5 w1).
  Proof.
    intros W Hg M Hn H. destruct (base_wk (wds g n (DNum v) l) (fun _ => True) w w1 u) as [W1 _]; auto.
    { eapply (WriterFrameK.wds_in (PO a) a sk noK noI); [auto|exact Hg| |apply plain_rel; exact Hn].
      apply (WriterFrameK.deep_mca noK); auto; intros ? ? []. }
    pose proof W as [I _]. set (f := w_h5 w) in *.
    assert (Ga : a < h_id g) by (eapply mem_gt; eauto).
    assert (Lg : h_id g < List.length f) by (destruct M as (m0 & t0 & X & Y); apply dget_In in Y; apply (FrameK.inv_bd _ _ _ _ _ f I a m0 t0 _ _ X Y)).
    assert (GG : exists ms at_, nth_error f (h_id g) = Some (Group ms at_)).
    { unfold wds in H. apply hdf_ok in H. destruct H as (H & _). unfold unit_of in H. apply bind_ok in H. destruct H as (o & f1 & H1 & _).
      destruct (write_dataset_group g n (DNum v) l f f1 o Hn Lg H1) as (ms & at_ & v1 & X & _). eauto. }
    destruct GG as (ms & at_ & Ng). pose proof (FrameK.inv_wf _ _ _ _ _ f I _ _ _ Ng) as ND.
    destruct (wds_eq g n (DNum v) l (HArr [1] [v]) ms at_ w w1 u Hn eq_refl ND Ng H) as (E1 & S1 & S2). fold f in E1.
    pose proof (made_nth (h_id g) n (ddel n ms) at_ (with_attrs (Dset (HArr [1] [v]) []) l) f _ Ng) as NN. rewrite <- E1 in NN.
    assert (Ma : member (w_h5 w1) a MCAn (h_id g)).
    { destruct M as (m0 & t0 & X & Y). exists m0, t0. rewrite NN. destruct (Nat.eqb_spec a (h_id g)); [lia|]. destruct (Nat.eqb_spec a (List.length f)); [lia|]. auto. }
    do 4 (split; [auto|]). split.
    - exists (List.length f). constructor.
      + exact Ma.
      + eexists; eexists. split; [rewrite NN, Nat.eqb_refl; reflexivity|]. apply dget_none_app. apply ddel_gone. exact ND.
      + rewrite NN. destruct (Nat.eqb_spec (List.length f) (h_id g)); [lia|]. rewrite Nat.eqb_refl. reflexivity.
      + intros i m Hi (m1 & t1 & X & Y). rewrite NN in X. destruct (Nat.eqb_spec i (h_id g)) as [->|Ni].
        * injection X; intros <- <-. apply in_app_iff in Y. destruct Y as [Y|[Y|[]]]; [|inversion Y; auto].
          apply In_ddel in Y. pose proof (FrameK.inv_bd _ _ _ _ _ f I _ _ _ _ _ Ng Y). lia.
        * destruct (Nat.eqb_spec i (List.length f)); [cbn [with_attrs] in X; discriminate|]. pose proof (FrameK.inv_bd _ _ _ _ _ f I _ _ _ _ _ X Y). lia.
    - intros n' nd j Hd Nn M0. rewrite E1. eapply md_made; [exact Hd|apply (FrameK.inv_bd _ _ _ _ _ f I)|exact Ng| | | |lia|exact M0].
      + intros kv Hk. destruct kv. eapply In_ddel; eauto.
      + cbn [with_attrs]. intros; discriminate.
      + intros m x Hm Hx. rewrite dget_ddel_other; [exact Hx|]. rewrite (Hm eq_refl). exact Nn.
  Qed.

  (** the link in the instrument *)
  Lemma linked_mca w w1 g ins n nd j : BW a sk w -> hatM g -> is_ds nd -> MD a n nd (h_id g) j (w_h5 w) -> link_mca e g w = (w1, Ok ins) ->
    BW a sk w1 /\ FrameK.hat (PO a) a sk noI [INS] ins /\ member (w_h5 w1) a INS (h_id ins) /\ MD a n nd (h_id g) j (w_h5 w1).
  Proof.
    intros W Hg Hd M H. destruct (base_wk (link_mca e g) (FrameK.hat (PO a) a sk noI [INS]) w w1 ins) as [W1 Hi]; auto.
    { apply (WriterFrameK.link_mca_ok (PO a) a sk noK noI); auto. apply (e_hat w W). }
    split; [auto|]. unfold link_mca in H. apply bind_ok in H. destruct H as (ins0 & w2 & H1 & H).
    destruct (base_wk (hdf (openGroup e (L "instrument") (L "NXinstrument") [])) (FrameK.hat (PO a) a sk noI [INS]) w w2 ins0) as [W2 Hi2]; auto.
    { apply (WriterFrameK.open_ins (PO a) a sk noK noI); auto. apply (e_hat w W). }
    apply hdf_ok in H1. destruct H1 as (H1 & _). change (L "instrument") with INS in H1. pose proof W as [I _].
    assert (La : a < List.length (w_h5 w)) by apply (FrameK.inv_alt _ _ _ _ _ _ I).
    pose proof (mem_gt _ _ _ I (md_g _ _ _ _ _ _ M)) as Hag.
    destruct (md_g _ _ _ _ _ _ M) as (ms & at_ & Na & Dg).
    assert (M2 : member (w_h5 w2) a INS (h_id ins0) /\ MD a n nd (h_id g) j (w_h5 w2)).
    { unfold openGroup in H1. cbn [e h_id h_name] in H1. rewrite (resolve_plain a INS ms at_ _ INS_plain Na) in H1. destruct (dget INS ms) as [i|] eqn:Di.
      - cbv zeta in H1. unfold addAttributes in H1. cbn [siter] in H1. apply bind_ok in H1. destruct H1 as (u1 & f2 & X1 & X2). unfold sret in X1, X2.
        assert (w_h5 w2 = w_h5 w) by congruence. assert (ins0 = mk_handle i (sub_name (name_at [sk]) INS)) by congruence. subst ins0. cbn [h_id].
        rewrite H0. split; [|exact M]. exists ms, at_. auto.
      - destruct (group_of_make e INS (L "NXinstrument") [] (w_h5 w) (w_h5 w2) ins0 INS_plain La H1) as (ms' & at' & Na' & Hh & Ef & Eo). cbn [e h_id h_name] in *.
        rewrite Na in Na'. injection Na'; intros <- <-. rewrite Eo. cbn [h_id]. split.
        + eexists; eexists. split; [rewrite Ef, (made_nth _ _ _ _ _ _ _ Na), Nat.eqb_refl; reflexivity|]. apply dget_none_app. exact Hh.
        + rewrite Ef. eapply md_made; [exact Hd|apply (FrameK.inv_bd _ _ _ _ _ _ I)|exact Na|intros x Hx; exact Hx| | |lia|exact M].
          * cbn [with_attrs fold_left]. intros ms1 at1 X. congruence.
          * auto. }
    destruct M2 as [Mi M2]. apply bind_ok in H. destruct H as (b & w3 & H2 & H). apply hdf_ok in H2. destruct H2 as (H2 & T1 & T2).
    unfold hin in H2. assert (E3 : w3 = w2) by (destruct w3, w2; cbn in *; congruence). subst w3. clear H2 T1 T2.
    apply bind_ok in H. destruct H as (u3 & w4 & H2 & H). unfold sret in H. assert (w4 = w1) by congruence. assert (ins0 = ins) by congruence. subst w4 ins0. clear H.
    destruct b; [unfold sret in H2; assert (w1 = w2) by congruence; subst w1; auto|].
    apply hdf_ok in H2. destruct H2 as (Em & _). split; [exact Hi|]. pose proof W2 as [I2 _].
    destruct Hg as (_ & _ & Hgn & _). destruct Hi as (_ & _ & Hin & _). clear H1 Na Dg ms at_.
    assert (As1 : Forall is_ascii [sk; MCAn]) by (constructor; [auto|constructor; [repeat constructor|constructor]]).
    assert (Pl1 : Forall plain_name [sk; MCAn]) by (constructor; [auto|constructor; [apply MCA_plain|constructor]]).
    assert (As2 : Forall is_ascii [sk; INS; MCAn]) by (constructor; [auto|constructor; [repeat constructor|constructor; [repeat constructor|constructor]]]).
    assert (Pl2 : Forall plain_name [sk; INS; MCAn]) by (constructor; [auto|constructor; [apply INS_plain|constructor; [apply MCA_plain|constructor]]]).
    change (L "/MCA") with ([SLASH] ++ MCAn) in Em. change (L "MCA") with MCAn in Hgn. rewrite Hin, name_at_snoc in Em.
    unfold makeLink in Em. apply bind_ok in Em. destruct Em as (u5 & f5 & X5 & Em).
    assert (M5 : member f5 a INS (h_id ins) /\ MD a n nd (h_id g) j f5 /\ member f5 0 sk a).
    { pose proof (FrameK.inv_root _ _ _ _ _ _ I2) as R0. cbv beta in X5. destruct (has (L "target") (attrs_at (h_id g) (w_h5 w2))); [assert (f5 = w_h5 w2) by congruence; subst f5; auto|].
      destruct (md_n _ _ _ _ _ _ M2) as (mg & ag & Ng & _). unfold set_attr in X5. rewrite Ng in X5.
      assert (E5 : f5 = put_nth (h_id g) (with_attrs (Group mg ag) [(L "target", AText (h_name g))]) (w_h5 w2)) by (cbn [with_attrs fold_left fst snd]; congruence).
      rewrite E5. split; [apply attr_member; auto|]. split; [|apply attr_member; auto]. apply md_attr; auto; [apply (md_gj _ _ _ _ _ _ Hd M2)|lia]. }
    destruct M5 as (Mi5 & M5 & R5). pose proof (md_g _ _ _ _ _ _ M5) as G5.
    apply bind_ok in Em. destruct Em as (o & f6 & X6 & Em). unfold hget in X6. rewrite Hgn in X6. rewrite (ascii_id (name_at [sk; MCAn])) in X6 by (apply is_ascii_name_at; auto).
    unfold resolve in X6. unfold name_at in X6 at 1. cbn [app] in X6. rewrite start_name, parts_name_at in X6 by auto.
    rewrite (walk_member _ _ _ _ _ R5), (walk_member _ _ _ _ _ G5) in X6. cbn [walk h_id] in X6.
    assert (f6 = f5) by congruence. assert (Eo : h_id o = h_id g) by (assert (X : o = mk_handle (h_id g) (sub_name (h_name e) (name_at [sk; MCAn]))) by congruence; rewrite X; reflexivity). subst f6. clear X6.
    rewrite (ascii_id (name_at [sk; INS; MCAn])) in Em by (apply is_ascii_name_at; auto).
    unfold H5.link_at in Em. rewrite parts_name_at in Em by auto. cbn [rev app] in Em. rewrite start_name, sbind_eq in Em.
    rewrite (dig_member _ _ _ _ _ R5), (dig_member _ _ _ _ _ Mi5) in Em. cbn [dig] in Em. rewrite Eo in Em.
    unfold add_member in Em. destruct (nth_error f5 (h_id ins)) as [[mi ai|]|] eqn:Ni; try discriminate. destruct (has MCAn mi) eqn:Hni; [discriminate|].
    destruct (Nat.leb (List.length f5) (h_id g)); [discriminate|]. assert (E4 : w_h5 w1 = put_nth (h_id ins) (Group (mi ++ [(MCAn, h_id g)]) ai) f5) by congruence. clear Em.
    rewrite E4. assert (Nia : a < h_id ins) by (eapply mem_gt; [exact I2|exact Mi]). split.
    - destruct Mi5 as (m8 & t8 & Y1 & Y2). exists m8, t8. rewrite (put_nth_error _ _ _ _ Ni). destruct (Nat.eqb_spec a (h_id ins)); [lia|auto].
    - apply md_add; [exact Ni|apply (md_gj _ _ _ _ _ _ Hd M5)|lia| |exact M5]. intros X. destruct Hd as (v8 & l8 & ->). pose proof (md_j _ _ _ _ _ _ M5). congruence.
  Qed.

  Definition numbers (g : handle) (pre : str -> str) (val : str -> option num) (l : attrs_t) (ks : list str) : WM unit :=
    siter (fun k => match val k with Some v => wds g (pre k) (DNum v) l | None => sret tt end) ks.
  Lemma is_ds_n v l : is_ds (with_attrs (Dset v []) l).
  Proof. cbn [with_attrs]. unfold is_ds. eauto. Qed.
  Lemma numbers_mca g pre val l : forall ks w w' u, NoDup (map pre ks) -> Forall (fun k => plain_name (pre k)) ks -> BW a sk w -> hatM g -> member (w_h5 w) a MCAn (h_id g) ->
    numbers g pre val l ks w = (w', Ok u) ->
    BW a sk w' /\ w_scan w' = w_scan w /\ w_hdr w' = w_hdr w /\ member (w_h5 w') a MCAn (h_id g) /\
    (forall k v, In k ks -> val k = Some v -> exists j, MD a (pre k) (with_attrs (Dset (HArr [1] [v]) []) l) (h_id g) j (w_h5 w')) /\
    forall n nd j, is_ds nd -> ~ In n (map pre ks) -> MD a n nd (h_id g) j (w_h5 w) -> MD a n nd (h_id g) j (w_h5 w').
  Proof.
    induction ks as [|k ks IH]; intros w w' u ND PL W Hg M H; cbn [numbers siter] in H.
    - unfold sret in H. assert (w' = w) by congruence. subst w'. do 4 (split; [auto|]). split; [intros ? ? []|auto].
    - apply bind_ok in H. destruct H as (u1 & w1 & H1 & H). inversion ND as [|? ? N1 N2]; subst. inversion PL as [|? ? P1 P2]; subst. destruct (val k) as [v|] eqn:Ev.
      + destruct (wds_mca w w1 g (pre k) v l u1 W Hg M P1 H1) as (W1 & S1 & S2 & M1 & (j & D1) & K1).
        destruct (IH w1 w' u N2 P2 W1 Hg M1 H) as (W' & T1 & T2 & M' & D' & K'). do 2 (split; [auto; congruence|]). split; [congruence|]. split; [auto|]. split.
        * intros k0 v0 [<-|Hin] E0; [|apply D'; auto]. assert (v0 = v) by congruence. subst v0. exists j. apply K'; [apply is_ds_n|exact N1|exact D1].
        * intros n nd j0 Hd Nn M0. apply K'; [exact Hd|intros X; apply Nn; right; exact X|]. apply K1; [exact Hd| |exact M0]. intros ->. apply Nn. left. reflexivity.
      + unfold sret in H1. assert (w1 = w) by congruence. subst w1. destruct (IH w w' u N2 P2 W Hg M H) as (W' & T1 & T2 & M' & D' & K'). do 4 (split; [auto|]). split.
        * intros k0 v0 [<-|Hin] E0; [congruence|apply D'; auto].
        * intros n nd j0 Hd Nn M0. apply K'; [exact Hd|intros X; apply Nn; right; exact X|exact M0].
  Qed.
End Mca.

(** what the three writers write *)
Definition calib_keys : list str := map L ["a"; "b"; "c"]%string.
Definition chann_keys : list str := map L ["number_saved"; "first_saved"; "last_saved"; "reduction_coef"]%string.
Definition ctime_keys : list str := map L ["preset_time"; "elapsed_live_time"; "elapsed_real_time"]%string.
Definition calib_name (k : str) : str := L "calib_" ++ k.
Definition num_of (m : dict mcaval) (k : str) : option num := match dget k m with Some (MNum v) => Some v | _ => None end.
Inductive mca_item (m : dict mcaval) : hid -> str -> num -> attrs_t -> Prop :=
| it_calib k d v : dget (L "CALIB") m = Some (MCalib d) -> In k calib_keys -> dget k d = Some v -> mca_item m H_CALIB (calib_name k) v []
| it_chann k v : In k chann_keys -> num_of m k = Some v -> mca_item m H_CHANN k v []
| it_ctime k v : In k ctime_keys -> num_of m k = Some v -> mca_item m H_CTIME k v [(L "units", t_ "s")].
Definition mca_names (h : hid) : list str :=
  match h with H_CALIB => map calib_name calib_keys | H_CHANN => chann_keys | H_CTIME => ctime_keys | _ => [] end.
Lemma item_name m h n v l : mca_item m h n v l -> In n (mca_names h) /\ In h [H_CALIB; H_CHANN; H_CTIME].
Proof. intros [k d v0 A B C|k v0 A B|k v0 A B]; (split; [|simpl; tauto]); [apply in_map; exact B|exact A|exact A]. Qed.
Lemma names_disjoint h h' n : h <> h' -> In n (mca_names h) -> ~ In n (mca_names h').
Proof.
  intros N A B. revert A. apply (in_split n) in B. intros A.
  assert (X : forall l1 l2 : list str, forallb (fun x => negb (existsb (seqb x) l2)) l1 = true -> In n l1 -> ~ In n l2).
  { intros l1 l2 F I1 I2. rewrite forallb_forall in F. specialize (F n I1). apply negb_true_iff in F.
    assert (existsb (seqb n) l2 = true) by (apply existsb_exists; exists n; split; [exact I2|apply seqb_refl]). congruence. }
  destruct B as (l1 & l2 & B). assert (B' : In n (mca_names h')) by (rewrite B; apply in_app_iff; right; left; reflexivity).
  revert A B'. destruct h, h'; try congruence; cbn [mca_names]; try (intros []; fail); try (intros _ []; fail); apply X; reflexivity.
Qed.

Section Writers.
  Context (a : nat) (sk : str) (Ha : 0 < a) (Hp : plain_name sk) (Has : is_ascii sk).
  Let e := mk_handle a (name_at [sk]).


  Lemma siter_ext {S A} (f g : A -> St S unit) l w : (forall x w, f x w = g x w) -> siter f l w = siter g l w.
  Proof. intros H. revert w. induction l as [|x l IH]; intros w; cbn [siter]; [reflexivity|]. rewrite !sbind_eq, H. destruct (g x w) as [w1 [u|er]]; auto. Qed.
  Lemma w_mca_nums_eq g m l ks w : w_mca_nums g m l ks w = numbers g (fun k => k) (num_of m) l (map L ks) w.
  Proof. unfold w_mca_nums, numbers. apply siter_ext. intros x w0. unfold num_of. destruct (dget x m) as [[v|d|r]|]; reflexivity. Qed.
  Lemma id_names ks : map (fun k : str => k) ks = ks. Proof. apply map_id. Qed.

  Lemma resolve_none i n f : plain_name n -> (forall ms at_, nth_error f i <> Some (Group ms at_)) -> resolve i n f = None.
  Proof.
    intros Hn H. unfold resolve. destruct n as [|c n]; [destruct Hn; congruence|].
    rewrite (parts_plain _ Hn), start_rel by (apply plain_rel; auto). cbn [walk]. destruct (nth_error f i) as [[ms at_|v l]|]; [destruct (H ms at_ eq_refl)|reflexivity|reflexivity].
  Qed.
  (** what a writer of the group does to the datasets *)
  Lemma mca_writer cmd h o w w' u : In h [H_CALIB; H_CHANN; H_CTIME] -> BW a sk w -> writer_of cmd h e o w = (w', Ok u) ->
    (forall m n v l, obj_of o w A_MCA = Some m -> mca_item m h n v l -> exists g j, MD a n (with_attrs (Dset (HArr [1] [v]) []) l) g j (w_h5 w')) /\
    forall n nd g j, is_ds nd -> ~ In n (mca_names h) -> MD a n nd g j (w_h5 w) -> MD a n nd g j (w_h5 w').
  Proof.
    intros Hh W H.
    assert (PC : Forall (fun k => plain_name (calib_name k)) calib_keys) by (repeat (apply Forall_cons; [apply plainb_ok; reflexivity|]); apply Forall_nil).
    assert (PN : Forall (fun k : str => plain_name k) chann_keys) by (repeat (apply Forall_cons; [apply plainb_ok; reflexivity|]); apply Forall_nil).
    assert (PT : Forall (fun k : str => plain_name k) ctime_keys) by (repeat (apply Forall_cons; [apply plainb_ok; reflexivity|]); apply Forall_nil).
    destruct Hh as [<-|[<-|[<-|[]]]]; cbn [writer_of mca_names] in *.
    - unfold w_CALIB in H. apply bind_ok in H. destruct H as (b & w0 & H0 & H). apply has_ok in H0. destruct H0 as [-> B0]. destruct b.
      2:{ unfold sret in H. assert (w' = w) by congruence. subst w'. split; [|auto]. intros m n v l Em _. exfalso. rewrite Em in B0. destruct B0 as [_ B0]. discriminate B0. discriminate. }
      apply bind_ok in H. destruct H as (m & w0 & H0 & H). apply rd_ok in H0. destruct H0 as [-> Em].
      assert (Q : (exists d, dget (L "CALIB") m = Some (MCalib d)) \/ (forall d, dget (L "CALIB") m <> Some (MCalib d))) by (destruct (dget (L "CALIB") m) as [[x|d|x]|]; [right|left; eauto|right|right]; intros; discriminate).
      destruct Q as [(d & Dc)|Nc].
      + rewrite Dc in H. apply bind_ok in H. destruct H as (g & w1 & H1 & H).
        destruct (opened_mca a sk Ha Hp w w1 g W H1) as (W1 & S1 & S2 & Hg & Mg & Kp).
        destruct (numbers_mca a sk Ha g calib_name (fun k => dget k d) [] calib_keys w1 w' u ltac:(repeat constructor; simpl; intuition discriminate) PC W1 Hg Mg H)
          as (W' & T1 & T2 & M' & D' & K').
        split.
        * intros m0 n v l E0 It. assert (m0 = m) by congruence. subst m0. inversion It as [k d0 v0 A B C| |]; subst. assert (d0 = d) by congruence. subst d0.
          destruct (D' k v B C) as (j & X). eauto.
        * intros n nd g0 j Hd Nn M0. destruct (Kp n nd g0 j Hd M0) as [-> M1]. apply K'; auto.
      + assert (Ew : w' = w). { destruct (dget (L "CALIB") m) as [[x|d|x]|]; [|destruct (Nc d eq_refl)| |]; unfold sret in H; congruence. } subst w'.
        split; [|auto]. intros m0 n v l E0 It. assert (m0 = m) by congruence. subst m0. inversion It as [k d0 v0 A B C| |]; subst. destruct (Nc _ A).
    - unfold w_CHANN in H. apply bind_ok in H. destruct H as (b & w0 & H0 & H). apply has_ok in H0. destruct H0 as [-> B0]. destruct b.
      2:{ unfold sret in H. assert (w' = w) by congruence. subst w'. split; [|auto]. intros m n v l Em _. exfalso. rewrite Em in B0. destruct B0 as [_ B0]. discriminate B0. discriminate. }
      apply bind_ok in H. destruct H as (g & w1 & H1 & H).
      destruct (opened_mca a sk Ha Hp w w1 g W H1) as (W1 & S1 & S2 & Hg & Mg & Kp).
      apply bind_ok in H. destruct H as (m & w0 & H0 & H). apply rd_ok in H0. destruct H0 as [-> Em1].
      assert (Em : obj_of o w A_MCA = Some m) by (rewrite <- Em1; unfold obj_of; destruct o; congruence).
      apply bind_ok in H. destruct H as (u2 & w2 & H2 & H). rewrite w_mca_nums_eq in H2.
      destruct (numbers_mca a sk Ha g (fun k => k) (num_of m) [] chann_keys w1 w2 u2 ltac:(repeat constructor; simpl; intuition discriminate) PN W1 Hg Mg H2)
        as (W2 & T1 & T2 & M2 & D2 & K2').
      apply bind_ok in H. destruct H as (ins & w3 & H3 & H). apply bind_ok in H. destruct H as (t & w4 & H4 & H).
      apply hdf_ok in H4. destruct H4 as (H4 & X1 & X2). apply hdf_ok in H. destruct H as (H5 & Y1 & Y2).
      assert (Fin : forall n nd j, is_ds nd -> MD a n nd (h_id g) j (w_h5 w2) -> MD a n nd (h_id g) j (w_h5 w')).
      { intros n nd j Hd M. destruct (linked_mca a sk Ha Hp Has w2 w3 g ins n nd j W2 Hg Hd M H3) as (W3 & Hi & Mi & M3).
        pose proof W3 as [I3 _]. pose proof (mem_gt a sk Ha _ _ _ I3 (md_g _ _ _ _ _ _ M3)) as Hag. pose proof (mem_gt a sk Ha _ _ _ I3 Mi) as Hai.
        unfold hget in H4. change (L "MCA") with MCAn in H4.
        destruct (nth_error (w_h5 w3) (h_id ins)) as [[mi ai|vi ai]|] eqn:Ni.
        - rewrite (resolve_plain _ MCAn mi ai _ (MCA_plain) Ni) in H4. destruct (dget MCAn mi) as [x|] eqn:Dx; [|congruence].
          assert (E4 : w_h5 w4 = w_h5 w3) by congruence. assert (Et : h_id t = x) by (assert (Z : t = mk_handle x (sub_name (h_name ins) MCAn)) by congruence; rewrite Z; reflexivity).
          rewrite Et in H5. assert (Nx : x <> j).
          { intros ->. destruct (md_c _ _ _ _ _ _ M3 (h_id ins) MCAn) as [Z _]; [lia|exists mi, ai; split; [exact Ni|apply dget_In; exact Dx]|].
            destruct (FrameK.inv_uq _ _ _ _ _ _ I3 a MCAn (h_id ins) INS) as [_ Q]; [unfold PO; lia| |left; reflexivity|exact Mi|discriminate Q].
            apply member_link. rewrite Z. apply (md_g _ _ _ _ _ _ M3). }
          unfold set_attr in H5. rewrite E4 in H5. destruct (nth_error (w_h5 w3) x) as [nx|] eqn:Nx2; [|congruence].
          assert (E5 : w_h5 w' = put_nth x (with_attrs nx [(L "target", AText (h_name t))]) (w_h5 w3)) by (destruct nx; cbn [with_attrs fold_left fst snd]; congruence).
          rewrite E5. apply md_attr; auto. lia.
        - exfalso. rewrite resolve_none in H4; [congruence|apply MCA_plain|intros; congruence].
        - exfalso. rewrite resolve_none in H4; [congruence|apply MCA_plain|intros; congruence]. }
      split.
      + intros m0 n v l E0 It. assert (m0 = m) by congruence. subst m0. inversion It as [|k v0 A B|]; subst. destruct (D2 n v A B) as (j & X). exists (h_id g), j. apply Fin; [apply is_ds_n|exact X].
      + intros n nd g0 j Hd Nn M0. destruct (Kp n nd g0 j Hd M0) as [-> M1]. apply Fin; [exact Hd|]. apply K2'; [exact Hd|rewrite id_names; exact Nn|exact M1].
    - unfold w_CTIME in H. apply bind_ok in H. destruct H as (b & w0 & H0 & H). apply has_ok in H0. destruct H0 as [-> B0]. destruct b.
      2:{ unfold sret in H. assert (w' = w) by congruence. subst w'. split; [|auto]. intros m n v l Em _. exfalso. rewrite Em in B0. destruct B0 as [_ B0]. discriminate B0. discriminate. }
      apply bind_ok in H. destruct H as (g & w1 & H1 & H).
      destruct (opened_mca a sk Ha Hp w w1 g W H1) as (W1 & S1 & S2 & Hg & Mg & Kp).
      apply bind_ok in H. destruct H as (m & w0 & H0 & H). apply rd_ok in H0. destruct H0 as [-> Em1].
      assert (Em : obj_of o w A_MCA = Some m) by (rewrite <- Em1; unfold obj_of; destruct o; congruence).
      apply bind_ok in H. destruct H as (u2 & w2 & H2 & H). rewrite w_mca_nums_eq in H2.
      destruct (numbers_mca a sk Ha g (fun k => k) (num_of m) [(L "units", t_ "s")] ctime_keys w1 w2 u2 ltac:(repeat constructor; simpl; intuition discriminate) PT W1 Hg Mg H2)
        as (W2 & T1 & T2 & M2 & D2 & K2').
      unfold unit_of in H. apply bind_ok in H. destruct H as (ins & w3 & H3 & H). unfold sret in H. assert (w3 = w') by congruence. subst w3.
      split.
      + intros m0 n v l E0 It. assert (m0 = m) by congruence. subst m0. inversion It as [| |k v0 A B]; subst. destruct (D2 n v A B) as (j & X). exists (h_id g), j.
        apply (linked_mca a sk Ha Hp Has w2 w' g ins _ _ j W2 Hg ltac:(apply is_ds_n) X H3).
      + intros n nd g0 j Hd Nn M0. destruct (Kp n nd g0 j Hd M0) as [-> M1].
        apply (linked_mca a sk Ha Hp Has w2 w' g ins _ _ j W2 Hg Hd); [|exact H3]. apply K2'; [exact Hd|rewrite id_names; exact Nn|exact M1].
  Qed.
End Writers.
