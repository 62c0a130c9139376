(** The group that the writer of #UXML puts into an entry *)
From Coq Require Import String Lia.
From Verif Require Import Py PyFacts NumFacts Utils SpecUtils Keys Time Geom Handlers Reader SpecWriter NamesFacts SpecEntry SpecUxml
  H5 SpecH5 H5Facts FrameH5 H5Exact Writer DataWrite KeepFacts SaveFacts EntryData FrameK UxmlFacts WriterFrame WriterFrameK GrowFacts ClaimFacts
  MetaWrite MetaWrite2 MetaWrite3.
From Verif Require MetaWrite5.
Import ListNotations.
Local Open Scope list_scope.

(** ** paths whose objects are not the root *)
Section From.
Context (c : nat).
(** the objects from [c] on grew at most *)
Definition gro (f f' : h5) : Prop := forall i nd, c <= i -> nth_error f i = Some nd -> exists nd', nth_error f' i = Some nd' /\ ext nd nd'.
Lemma grow_gro f f' : 1 <= c -> grow f f' -> gro f f'.
Proof. intros Hc [_ G] i nd Hi. apply G. lia. Qed.
Lemma gro_member f f' i n j : gro f f' -> c <= i -> member f i n j -> member f' i n j.
Proof.
  intros G Hi (ms & at_ & H & D). destruct (G i _ Hi H) as ([ms' at'|v at'] & H' & X); simpl in X; [|destruct X].
  exists ms', at'. split; [auto|]. apply X; auto.
Qed.
Lemma gro_dataset f f' i v : gro f f' -> c <= i -> dataset f i v -> dataset f' i v.
Proof.
  intros G Hi (at_ & H). destruct (G i _ Hi H) as ([ms' at'|v' at'] & H' & X); simpl in X; [destruct X|].
  destruct X as [-> _]. exists at'. auto.
Qed.
Lemma gro_attribute f f' i k v : gro f f' -> c <= i -> k <> TGT -> attribute f i k v -> attribute f' i k v.
Proof.
  intros G Hi N (nd & H & D). destruct (G i _ Hi H) as (nd' & H' & X). exists nd'. split; [auto|].
  destruct nd, nd'; simpl in *; try tauto; destruct X as [_ X]; rewrite X; auto.
Qed.
Lemma gro_group f f' i : gro f f' -> c <= i -> is_group f i -> is_group f' i.
Proof.
  intros G Hi (ms & at_ & H). destruct (G i _ Hi H) as ([ms' at'|v at'] & H' & X); simpl in X; [|destruct X]. eexists; eexists; eauto.
Qed.
Inductive lead1 (f : h5) : nat -> list str -> nat -> Prop :=
| l1_here i : c <= i -> lead1 f i [] i
| l1_on i n j ps k : c <= i -> member f i n j -> lead1 f j ps k -> lead1 f i (n :: ps) k.
Lemma lead1_leads f i ps j : lead1 f i ps j -> leads f i ps j.
Proof. induction 1; econstructor; eauto. Qed.
Lemma lead1_grow f f' i ps j : gro f f' -> lead1 f i ps j -> lead1 f' i ps j.
Proof. intros G. induction 1; econstructor; eauto. eapply gro_member; eauto. Qed.
Lemma lead1_app f i ps j qs k : lead1 f i ps j -> lead1 f j qs k -> lead1 f i (ps ++ qs) k.
Proof. induction 1; intros; cbn [app]; auto. econstructor; eauto. Qed.
Lemma lead1_one f i n j : c <= i -> c <= j -> member f i n j -> lead1 f i [n] j.
Proof. intros. econstructor; eauto. constructor; auto. Qed.

(** ** what the nodes leave in a group *)
Definition ok_names (l : list (str * str)) : Prop := ~ In TGT (map fst l) /\ ~ In NXC (map fst l).
Fixpoint node_in (f : h5) (i : nat) (x : xnode) {struct x} : Prop :=
  match x with
  | XComment => False
  | XData n typ _ l text => exists j v, c <= j /\ member f i n j /\ dataset f j v /\ uxml_value typ text v /\ ok_names l /\ has_attrs f j l
  | XGroup n cls _ l b => exists j, c <= j /\ member f i n j /\ is_group f j /\ attribute f j NXC (AText cls) /\ ok_names l /\ has_attrs f j l /\ NoDup (sibling_names b) /\
      (fix all (b : list xnode) : Prop := match b with [] => True | y :: b => node_in f j y /\ all b end) b
  | XLink _ _ => True
  end.
Lemma all_Forall f j b : (fix all (b : list xnode) : Prop := match b with [] => True | y :: b => node_in f j y /\ all b end) b <-> Forall (node_in f j) b.
Proof.
  induction b as [|y b IH]; [split; auto|]. rewrite IH. split; [intros [A B]; constructor; auto|]. intros H. inversion H; auto.
Qed.
Lemma has_attrs_grow f f' j l : gro f f' -> c <= j -> ok_names l -> has_attrs f j l -> has_attrs f' j l.
Proof.
  intros G Hj [N _] H k v Hl. eapply gro_attribute; [exact G|exact Hj| |apply H; exact Hl]. intros ->. apply N.
  destruct Hl as (l1 & l2 & -> & _). rewrite map_app. apply in_or_app. right. left. reflexivity.
Qed.
Lemma node_in_grow f f' x : gro f f' -> forall i, c <= i -> node_in f i x -> node_in f' i x.
Proof.
  intros G. induction x as [|n t u l y|n cl u l b IH|n t] using xnode_ind2; intros i Hi H; cbn [node_in] in *; auto.
  - destruct H as (j & v & A & B & C & D & F & K). exists j, v. split; [auto|]. split; [eapply gro_member; eauto|].
    split; [eapply gro_dataset; eauto|]. do 2 (split; [auto|]). eapply has_attrs_grow; eauto.
  - destruct H as (j & A & B & C & D & F & K & ND & M). exists j. split; [auto|]. split; [eapply gro_member; eauto|].
    split; [eapply gro_group; eauto|]. split; [eapply gro_attribute; eauto; apply seqb_neq; reflexivity|]. split; [auto|].
    split; [eapply has_attrs_grow; eauto|]. split; [exact ND|]. apply all_Forall. apply all_Forall in M. rewrite Forall_forall in *. intros z Hz. apply IH; auto.
Qed.
Lemma nodes_grow f f' i b : gro f f' -> c <= i -> Forall (node_in f i) b -> Forall (node_in f' i) b.
Proof. intros G Hi H. rewrite Forall_forall in *. intros x Hx. eapply node_in_grow; eauto. Qed.
End From.

(** attributes that are set one after the other *)
Lemma last_attr (l : list (str * str)) k v : last_of k l v -> forall at_, dget k (fold_left (fun a kv => dset (fst kv) (snd kv) a) (ux_attrs l) at_) = Some (AText v).
Proof.
  intros (l1 & l2 & -> & N) at_. unfold ux_attrs. rewrite map_app, fold_left_app. cbn [map fold_left fst snd].
  generalize (fold_left (fun a kv => dset (fst kv) (snd kv) a) (map (fun kv : str * str => (fst kv, AText (snd kv))) l1) at_). intros at1.
  assert (X : forall at2, dget k at2 = Some (AText v) -> dget k (fold_left (fun a kv => dset (fst kv) (snd kv) a) (map (fun kv : str * str => (fst kv, AText (snd kv))) l2) at2) = Some (AText v)).
  { clear - N. induction l2 as [|[k' x'] l2 IH]; intros at2 H; cbn [map fold_left fst snd]; auto. apply IH; [intros Z; apply N; right; auto|].
    rewrite dget_dset_other; auto. intros ->. apply N. left; auto. }
  apply X. apply dget_dset_same.
Qed.
Lemma ux_value_ok typ text d v : ux_value typ text = Ok d -> to_hval d = Ok v -> uxml_value typ text v.
Proof.
  unfold ux_value. intros H V.
  destruct (seqb match typ with Some t => t | None => L "str" end (L "int")) eqn:E1.
  { apply seqb_eq in E1. destruct typ as [t|]; [subst t|discriminate E1]. destruct text as [x|]; [|discriminate H]. cbn in H.
    destruct (py_int x) as [z|] eqn:Ez; [|discriminate H]. injection H; intros <-. cbn in V. injection V; intros <-. constructor. exact Ez. }
  destruct (seqb match typ with Some t => t | None => L "str" end (L "float")) eqn:E2.
  { apply seqb_eq in E2. destruct typ as [t|]; [subst t|discriminate E2]. destruct text as [x|]; [|discriminate H]. cbn [of_opt bind] in H.
    destruct (py_float x) as [z|] eqn:Ez; [|discriminate H]. cbn [bind] in H. injection H; intros <-. cbn in V. injection V; intros <-. constructor. exact Ez. }
  destruct (seqb match typ with Some t => t | None => L "str" end (L "str")) eqn:E3; [|discriminate H]. clear E1 E2.
  apply seqb_eq in E3. assert (T : typ = None \/ typ = Some (L "str")) by (destruct typ as [t|]; [right; congruence|left; reflexivity]).
  injection H; intros <-. cbn in V. injection V; intros <-. destruct text as [x|].
  - apply uv_str; [exact T|]. clear. induction x as [|c s IH]; [constructor|]. unfold ascii. cbn [List.filter]. fold (ascii s). destruct (N.ltb_spec c 128); [apply asc_keep|apply asc_drop]; auto.
  - change (ascii (L "None")) with (L "None"). apply uv_none. exact T.
Qed.
Lemma ok_of l : forallb (fun kv : str * str => mem (fst kv) data_attrs) l = true \/ forallb (fun kv : str * str => mem (fst kv) group_attrs) l = true -> ok_names l.
Proof.
  intros H. split; intros X; apply in_map_iff in X; destruct X as ([k v] & E & Hin); cbn [fst] in E; subst k;
    destruct H as [H|H]; rewrite forallb_forall in H; specialize (H _ Hin); vm_compute in H; discriminate H.
Qed.

(** ** the unique and target ids *)
Definition dsets {V} (l : list (str * V)) (d : dict V) : dict V := fold_left (fun a kv => dset (fst kv) (snd kv) a) l d.
Lemma dsets_app {V} (l m : list (str * V)) d : dsets (l ++ m) d = dsets m (dsets l d).
Proof. apply fold_left_app. Qed.
Lemma dsets_last {V} k (l : list (str * V)) v d : last_of k l v -> dget k (dsets l d) = Some v.
Proof.
  intros (l1 & l2 & -> & N). rewrite dsets_app. cbn [dsets fold_left fst snd]. fold (@dsets V).
  assert (X : forall at2, dget k at2 = Some v -> dget k (dsets l2 at2) = Some v).
  { clear - N. induction l2 as [|[k' x'] l2 IH]; intros at2 H; cbn [map dsets fold_left fst snd]; auto. apply IH; [intros Z; apply N; right; auto|].
    rewrite dget_dset_other; auto. intros ->. apply N. left; auto. }
  apply X. apply dget_dset_same.
Qed.
Lemma dsets_In {V} k (v : V) l d : In (k, v) (dsets l d) -> In (k, v) l \/ In (k, v) d.
Proof.
  revert d. induction l as [|[k' v'] l IH]; intros d H; cbn [dsets fold_left fst snd] in H; [auto|]. fold (@dsets V) in H.
  destruct (IH _ H) as [X|X]; [left; right; auto|]. apply in_dset in X. destruct X as [X|X]; [left; left; congruence|auto].
Qed.

Section Items.
  Context (c : nat) (Hc : 1 <= c).
  Notation lead1 := (lead1 c). Notation node_in := (node_in c).
  Lemma gg f f' : grow f f' -> gro c f f'. Proof. apply grow_gro. exact Hc. Qed.
  Definition below (f f' : h5) : Prop := forall i, i < c -> nth_error f' i = nth_error f i.
  Lemma below_trans f g h : below f g -> below g h -> below f h.
  Proof. intros A B i Hi. rewrite B, A; auto. Qed.
  Definition inr (f : h5) (i : nat) : Prop := c <= i < List.length f.
  Lemma inr_grow f f' i : grow f f' -> inr f i -> inr f' i.
  Proof. intros [A _] [B C]. split; lia. Qed.
  Definition id_rel (f : h5) (g : handle) (p : str * list str) (q : str * handle) : Prop :=
    fst q = fst p /\ lead1 f (h_id g) (snd p) (h_id (snd q)) /\ inr f (h_id (snd q)) /\ h_name (snd q) = fold_left sub_name (snd p) (h_name g) /\ Forall plain_name (snd p).
  Definition tg_rel (f : h5) (g : handle) (p : str * list str) (q : str * (handle * str)) : Prop :=
    fst q = fst p /\ exists ps, snd p = ps ++ [snd (snd q)] /\ lead1 f (h_id g) ps (h_id (fst (snd q))) /\ inr f (h_id (fst (snd q))) /\ plain_name (snd (snd q)).
  Lemma id_grow f f' g p q : grow f f' -> id_rel f g p q -> id_rel f' g p q.
  Proof. intros G (A & B & C & D & F). split; [auto|]. split; [eapply lead1_grow; [apply gg; eassumption|eassumption]|]. split; [eapply inr_grow; eauto|auto]. Qed.
  Lemma tg_grow f f' g p q : grow f f' -> tg_rel f g p q -> tg_rel f' g p q.
  Proof. intros G (A & ps & B & C & D & F). split; [auto|]. exists ps. split; [auto|]. split; [eapply lead1_grow; [apply gg; eassumption|eassumption]|]. split; [eapply inr_grow; eauto|auto]. Qed.
  Lemma F2_impl {A B} (R S : A -> B -> Prop) l m : (forall x y, R x y -> S x y) -> Forall2 R l m -> Forall2 S l m.
  Proof. intros H. induction 1; constructor; auto. Qed.

  Lemma made_grow i n ms at_ nd f : nth_error f i = Some (Group ms at_) -> has n ms = false -> c <= i ->
    grow f (made i n ms at_ nd f) /\ below f (made i n ms at_ nd f) /\ member (made i n ms at_ nd f) i n (List.length f) /\
    nth_error (made i n ms at_ nd f) (List.length f) = Some nd.
  Proof.
    intros H Hh Hi. pose proof (made_nth i n ms at_ nd f _ H) as N. assert (Li : i < List.length f) by (apply nth_error_Some; congruence).
    split; [|split; [|split]].
    - split; [rewrite made_length; lia|]. intros j x Hj Hx. rewrite N. destruct (Nat.eqb_spec j i) as [->|Ne].
      + eexists. split; [reflexivity|]. rewrite H in Hx. injection Hx; intros <-. cbn. split; [|auto]. intros m k Hm. rewrite dget_app, Hm. reflexivity.
      + assert (j < List.length f) by (apply nth_error_Some; congruence). destruct (Nat.eqb_spec j (List.length f)); [lia|].
        exists x. split; [auto|apply ext_refl].
    - intros j Hj. rewrite N. destruct (Nat.eqb_spec j i); [lia|]. destruct (Nat.eqb_spec j (List.length f)); [lia|auto].
    - eexists. eexists. split; [rewrite N, Nat.eqb_refl; reflexivity|]. apply dget_none_app. exact Hh.
    - rewrite N. destruct (Nat.eqb_spec (List.length f) i); [lia|]. rewrite Nat.eqb_refl. reflexivity.
  Qed.
  Lemma dataset_of_make e n d l f f' o : plain_name n -> h_id e < List.length f -> makeDataset e n d l f = (f', Ok o) ->
    exists ms at_ v, nth_error f (h_id e) = Some (Group ms at_) /\ has n ms = false /\ to_hval d = Ok v /\
      f' = made (h_id e) n ms at_ (with_attrs (Dset v []) l) f /\ o = mk_handle (List.length f) (sub_name (h_name e) n).
  Proof.
    intros Hp Hl H. destruct (to_hval d) as [v|x] eqn:Ev.
    2:{ unfold makeDataset in H. rewrite sbind_eq in H. unfold slift in H. rewrite Ev in H. discriminate. }
    destruct (nth_error f (h_id e)) as [[ms at_|x at_]|] eqn:En.
    - rewrite (makeDataset_eq e n d l v ms at_ f Hp Ev En) in H. destruct (has n ms) eqn:Hh; [discriminate|]. exists ms, at_, v.
      do 3 (split; [auto|]). split; congruence.
    - exfalso. unfold makeDataset in H. rewrite sbind_eq in H. unfold slift in H. rewrite Ev in H. rewrite sbind_eq in H. unfold create_at in H. rewrite (parts_plain n Hp) in H. cbn [rev app] in H. rewrite sbind_eq in H.
      rewrite (start_rel _ _ (plain_rel _ Hp)) in H. cbn [dig] in H. rewrite sbind_eq in H. unfold free in H. rewrite En in H. discriminate.
    - apply nth_error_None in En. lia.
  Qed.

  (** what the nodes do *)
  Definition did (g : handle) (b : list xnode) (d : uids) (f f' : h5) (d' : uids) : Prop :=
    grow f f' /\ below f f' /\ (Forall (node_in f' (h_id g)) b /\ NoDup (sibling_names b) /\ forall n j, In n (sibling_names b) -> ~ member f (h_id g) n j) /\
    exists U T, u_unique d' = dsets U (u_unique d) /\ u_target d' = dsets T (u_target d) /\
      Forall2 (id_rel f' g) (ids_of b) U /\ Forall2 (tg_rel f' g) (links_of b) T.
  Lemma did_nil g d f : did g [] d f f d.
  Proof. split; [apply grow_refl|]. split; [intros i _; auto|]. split; [split; [constructor|split; [constructor|intros n j []]]|]. exists [], []. repeat split; constructor. Qed.
  Lemma did_cons g x b d f f1 d1 f2 d2 : inr f (h_id g) -> did g [x] d f f1 d1 -> did g b d1 f1 f2 d2 -> did g (x :: b) d f f2 d2.
  Proof.
    intros R (A1 & A2 & (A3 & AN & AF) & U1 & T1 & A4 & A5 & A6 & A7) (B1 & B2 & (B3 & BN & BF) & U2 & T2 & B4 & B5 & B6 & B7).
    split; [eapply grow_trans; eauto|]. split; [eapply below_trans; eauto|]. split.
    - split; [constructor; auto; inversion A3; subst; eapply node_in_grow; [apply gg; eassumption|destruct R; lia|eassumption]|].
      unfold sibling_names in *. cbn [flat_map] in *. rewrite app_nil_r in AN, AF.
      assert (XN : forall n, In n (own_name x) -> exists j, member f1 (h_id g) n j).
      { intros n Hn. inversion A3; subst. destruct x; cbn [own_name] in Hn; try destruct Hn as [<-|[]]; try destruct Hn; cbn [UxmlWrite.node_in] in *.
        - match goal with H : exists j v, _ |- _ => destruct H as (j & v & _ & M & _); exists j; exact M end.
        - match goal with H : exists j, _ |- _ => destruct H as (j & _ & M & _); exists j; exact M end. }
      split.
      + assert (HD : forall n, In n (own_name x) -> ~ In n (flat_map own_name b)).
        { intros n H1 H2. destruct (XN n H1) as (j & M). exact (BF n j H2 M). }
        clear - AN BN HD. destruct x; cbn [own_name app] in *; auto; constructor; auto; apply HD; left; reflexivity.
      + intros n j Hn M. apply in_app_iff in Hn. destruct Hn as [Hn|Hn]; [eapply AF; eauto|]. eapply (BF n j Hn). eapply grow_member; [exact A1|destruct R; lia|exact M].
    - exists (U1 ++ U2), (T1 ++ T2). split; [rewrite dsets_app, <- A4; auto|]. split; [rewrite dsets_app, <- A5; auto|].
      unfold ids_of, links_of in *. cbn [flat_map] in *. rewrite app_nil_r in A6, A7. split; apply Forall2_app; auto.
      + eapply F2_impl; [|exact A6]. intros p q. apply id_grow. auto.
      + eapply F2_impl; [|exact A7]. intros p q. apply tg_grow. auto.
  Qed.

  Lemma ux_item_did x : xvalid x = true -> forall g d f f' d', inr f (h_id g) -> ux_item g x d f = (f', Ok d') -> did g [x] d f f' d'.
  Proof.
    induction x as [|n t u l y|n cl u l b IH|n t] using xnode_ind2; intros V g d f f' d' R H.
    - discriminate H.
    - cbn [xvalid] in V. apply andb_true_iff in V. destruct V as [V1 V2]. apply ncname_plain in V1. cbn [ux_item] in H.
      apply bind_ok in H. destruct H as (v & f1 & H1 & H). apply lift_ok in H1. destruct H1 as [-> H1].
      apply bind_ok in H. destruct H as (o & f1 & H2 & H). unfold sret in H. assert (f' = f1 /\ d' = ux_unique u o d) as [-> ->] by (split; congruence). clear H.
      destruct (dataset_of_make g n v (ux_attrs l) f f1 o V1 (proj2 R) H2) as (ms & at_ & hv & N1 & N2 & N3 & N4 & N5).
      destruct (made_grow (h_id g) n ms at_ (with_attrs (Dset hv []) (ux_attrs l)) f N1 N2 (proj1 R)) as (M1 & M2 & M3 & M4). rewrite <- N4 in *.
      assert (Lf : 1 <= List.length f) by (destruct R; lia).
      assert (I1 : inr f1 (List.length f)). { split; [destruct R; lia|]. apply nth_error_Some. congruence. }
      split; [exact M1|]. split; [exact M2|]. split.
      + split; [|split; [repeat constructor; intros []|intros m j [<-|[]] (ms' & at' & X1 & X2); rewrite N1 in X1; injection X1; intros <- <-; unfold has in N2; rewrite X2 in N2; discriminate N2]].
        constructor; [|constructor]. cbn [node_in]. exists (List.length f), hv. split; [exact (proj1 I1)|]. split; [exact M3|]. split; [eexists; exact M4|].
        split; [eapply ux_value_ok; eauto|]. split; [apply ok_of; auto|]. intros k x Hk. eexists. split; [exact M4|]. cbn. apply last_attr. exact Hk.
      + unfold ids_of, links_of. cbn [flat_map ids1 links1 app]. destruct u as [i|].
        * exists [(i, o)], []. do 2 (split; [reflexivity|]). split; [|constructor]. constructor; [|constructor]. subst o. cbn [fst snd h_id h_name fold_left].
          split; [auto|]. split; [apply lead1_one; [exact (proj1 R)|exact (proj1 I1)|first [exact M3|exact MG]]|]. split; [exact I1|]. split; [reflexivity|]. constructor; [auto|constructor].
        * exists [], []. do 2 (split; [reflexivity|]). split; constructor.
    - cbn [xvalid] in V. rewrite !andb_true_iff in V. destruct V as [[V1 V2] V3]. apply ncname_plain in V1.
      rewrite ux_group_eq in H. apply bind_ok in H. destruct H as (o & f1 & H2 & H).
      destruct (group_of_make g n cl (ux_attrs l) f f1 o V1 (proj2 R) H2) as (ms & at_ & N1 & N2 & N4 & N5).
      destruct (made_grow (h_id g) n ms at_ (with_attrs (Group [] [(NXC, AText cl)]) (ux_attrs l)) f N1 N2 (proj1 R)) as (M1 & M2 & M3 & M4). rewrite <- N4 in *.
      assert (Lf : 1 <= List.length f) by (destruct R; lia).
      assert (I1 : inr f1 (List.length f)). { split; [destruct R; lia|]. apply nth_error_Some. congruence. }
      assert (Eo : h_id o = List.length f) by (subst o; reflexivity).
      assert (D : did o b (ux_unique u o d) f1 f' d').
      { assert (R1 : inr f1 (h_id o)) by (rewrite Eo; exact I1). clear - Hc IH V3 H R1. revert H R1. generalize (ux_unique u o d). revert f1. rewrite forallb_forall in V3.
        induction b as [|z b IB]; intros f1 d1 H R1; cbn [ux_items] in H.
        - unfold sret in H. assert (f' = f1 /\ d' = d1) as [-> ->] by (split; congruence). apply did_nil.
        - apply bind_ok in H. destruct H as (d2 & f2 & H1 & H). inversion IH as [|? ? I1 I2]; subst.
          assert (Dz : did o [z] d1 f1 f2 d2) by (apply I1; auto; apply V3; left; reflexivity).
          eapply did_cons; [exact R1|exact Dz|]. apply IB; auto; [intros q Hq; apply V3; right; exact Hq|].
          eapply inr_grow; [apply Dz|exact R1]. }
      destruct D as (D1 & D2 & (D3 & DN & _) & U & T & D4 & D5 & D6 & D7). pose proof (grow_trans _ _ _ M1 D1) as G.
      assert (MG : member f' (h_id g) n (List.length f)) by (eapply grow_member; [exact D1|destruct R; lia|exact M3]).
      split; [exact G|]. split; [eapply below_trans; eauto|]. split.
      + split; [|split; [repeat constructor; intros []|intros m j [<-|[]] (ms' & at' & X1 & X2); rewrite N1 in X1; injection X1; intros <- <-; unfold has in N2; rewrite X2 in N2; discriminate N2]].
        constructor; [|constructor]. cbn [node_in]. exists (List.length f). split; [exact (proj1 I1)|]. split; [exact MG|].
        split; [eapply grow_group; [exact D1|exact Lf|]; eexists; eexists; exact M4|].
        split. { eapply grow_attribute; [exact D1|exact Lf|apply seqb_neq; reflexivity|]. eexists. split; [exact M4|].
          apply (with_attrs_class cl (ux_attrs l)). unfold ux_attrs, keys. rewrite map_map. cbn [fst]. apply (ok_of l). auto. }
        split; [apply ok_of; auto|]. split.
        { eapply has_attrs_grow; [apply gg; exact D1|exact (proj1 I1)|apply ok_of; auto|]. intros k x Hk. eexists. split; [exact M4|]. cbn. apply last_attr. exact Hk. }
        split; [exact DN|]. apply all_Forall. rewrite <- Eo. exact D3.
      + assert (X : Forall2 (id_rel f' g) (map (fun p : str * list str => (fst p, n :: snd p)) (ids_of b)) U).
        { clear - D6 MG Eo N5 V1 R Hc. induction D6 as [|[k ps] [k' h] l m (A & B & C & D & E) F IHF]; cbn [map]; constructor; auto. cbn [fst snd] in *.
          split; [auto|]. cbn [fst snd]. split; [econstructor; [destruct R; lia|exact MG|rewrite <- Eo; exact B]|]. split; [auto|]. split; [|constructor; auto].
          rewrite D, N5. reflexivity. }
        assert (Y : Forall2 (tg_rel f' g) (map (fun p : str * list str => (fst p, n :: snd p)) (links_of b)) T).
        { clear - D7 MG Eo R Hc. induction D7 as [|[k ps] [k' [h m0]] l m (A & qs & B & C & D & E) F IHF]; cbn [map]; constructor; auto. cbn [fst snd] in *.
          split; [auto|]. exists (n :: qs). cbn [fst snd]. split; [rewrite B; reflexivity|]. split; [econstructor; [destruct R; lia|exact MG|rewrite <- Eo; exact C]|auto]. }
        unfold ids_of, links_of. cbn [flat_map ids1 links1]. rewrite !app_nil_r. destruct u as [i|].
        * exists ((i, o) :: U), T. split; [exact D4|]. split; [exact D5|]. split; [|exact Y]. cbn [app]. constructor; [|exact X].
          subst o. cbn [fst snd h_id h_name fold_left].
          split; [auto|]. cbn [fst snd h_id h_name fold_left]. split; [apply lead1_one; [exact (proj1 R)|exact (proj1 I1)|first [exact M3|exact MG]]|]. split; [exact (inr_grow f1 f' _ D1 I1)|]. split; [reflexivity|]. constructor; [auto|constructor].
        * exists U, T. split; [exact D4|]. split; [exact D5|]. split; [exact X|exact Y].
    - cbn [xvalid] in V. apply ncname_plain in V. cbn [ux_item] in H. unfold sret in H.
      assert (f' = f /\ d' = mk_uids (u_unique d) (dset t (g, n) (u_target d))) as [-> ->] by (split; congruence).
      split; [apply grow_refl|]. split; [intros i _; auto|]. split; [split; [repeat constructor|split; [constructor|intros m j []]]|]. exists [], [(t, (g, n))].
      do 2 (split; [reflexivity|]). split; [constructor|]. constructor; [|constructor]. split; [reflexivity|]. exists []. cbn [fst snd app].
      split; [reflexivity|]. split; [constructor; destruct R; lia|auto].
  Qed.
  Lemma ux_items_did b : forallb xvalid b = true -> forall g d f f' d', inr f (h_id g) -> ux_items g b d f = (f', Ok d') -> did g b d f f' d'.
  Proof.
    rewrite forallb_forall. induction b as [|z b IB]; intros V g d1 f1 f' d' R1 H; cbn [ux_items] in H.
    - unfold sret in H. assert (f' = f1 /\ d' = d1) as [-> ->] by (split; congruence). apply did_nil.
    - apply bind_ok in H. destruct H as (d2 & f2 & H1 & H).
      assert (Dz : did g [z] d1 f1 f2 d2) by (apply ux_item_did; auto; apply V; left; reflexivity).
      eapply did_cons; [exact R1|exact Dz|]. apply IB; auto; [intros q Hq; apply V; right; exact Hq|].
      eapply inr_grow; [apply Dz|exact R1].
  Qed.

  (** ** links *)
  Lemma put_grow i x y f : nth_error f i = Some x -> ext x y -> c <= i -> grow f (put_nth i y f) /\ below f (put_nth i y f).
  Proof.
    intros H X Hi. assert (Li : i < List.length f) by (apply nth_error_Some; congruence). split; [split; [rewrite put_length; lia|]|].
    - intros j z Hj Hz. rewrite (put_nth_error _ _ _ _ H). destruct (Nat.eqb_spec j i) as [->|N]; [|exists z; split; [auto|apply ext_refl]].
      exists y. split; [auto|]. congruence.
    - intros j Hj. rewrite (put_nth_error _ _ _ _ H). destruct (Nat.eqb_spec j i); [lia|auto].
  Qed.
  Lemma set_target_grow s v f f' u : inr f (h_id s) ->
    (if has (L "target") (attrs_at (h_id s) f) then (f, Ok tt) else set_attr (h_id s) (L "target") v f) = (f', Ok u) -> grow f f' /\ below f f'.
  Proof.
    intros [Hs1 Hs2] H. destruct (has (L "target") (attrs_at (h_id s) f)).
    { assert (f' = f) by congruence. subst f'. split; [apply grow_refl|intros i _; auto]. }
    unfold set_attr in H. destruct (nth_error f (h_id s)) as [[ms at_|x at_]|] eqn:En; [| |discriminate].
    - assert (f' = put_nth (h_id s) (Group ms (dset (L "target") v at_)) f) by congruence. subst f'. eapply put_grow; [exact En| |exact Hs1].
      cbn. split; [auto|]. intros k Nk. apply dget_dset_other. exact Nk.
    - assert (f' = put_nth (h_id s) (Dset x (dset (L "target") v at_)) f) by congruence. subst f'. eapply put_grow; [exact En| |exact Hs1].
      cbn. split; [auto|]. intros k Nk. apply dget_dset_other. exact Nk.
  Qed.
  Lemma link_grow i n j f f' u : c <= i -> ~ In SLASH n -> H5.link_at i n j f = (f', Ok u) ->
    grow f f' /\ below f f' /\ (plain_name n -> member f' i n j).
  Proof.
    intros Hi Hn H. unfold H5.link_at in H.
    assert (P : parts n = [] \/ parts n = [n]).
    { unfold parts. rewrite split_c_none by exact Hn. cbn [List.filter]. destruct (negb (seqb n [] || seqb n (L "."))); auto. }
    destruct P as [P|P]; rewrite P in H; cbn [rev app] in H; [discriminate|]. rewrite sbind_eq in H. cbn [dig] in H.
    rewrite (start_rel i n (no_slash_rel n Hn)) in H. unfold add_member in H.
    destruct (nth_error f i) as [[ms at_|x at_]|] eqn:En; [|discriminate|discriminate].
    destruct (has n ms) eqn:Hh; [discriminate|]. destruct (Nat.leb (List.length f) j); [discriminate|].
    assert (f' = put_nth i (Group (ms ++ [(n, j)]) at_) f) by (symmetry; exact (f_equal fst H)). subst f'.
    destruct (put_grow i _ (Group (ms ++ [(n, j)]) at_) f En) as [A B]; [cbn; split; [intros m k Hm; rewrite dget_app, Hm; reflexivity|auto]|exact Hi|].
    split; [exact A|]. split; [exact B|]. intros _. eexists. eexists. split; [rewrite (put_nth_error _ _ _ _ En), Nat.eqb_refl; reflexivity|]. apply dget_none_app. exact Hh.
  Qed.
  Lemma makeLink_did g s n f f' u : inr f (h_id s) -> inr f (h_id g) -> ~ In SLASH n -> makeLink g s n f = (f', Ok u) ->
    exists f1 j, grow f f1 /\ below f f1 /\ grow f1 f' /\ below f1 f' /\ resolve (h_id g) (ascii (h_name s)) f1 = Some j /\
      (plain_name (ascii n) -> member f' (h_id g) (ascii n) j).
  Proof.
    intros Rs Rg Hn H. unfold makeLink in H. apply bind_ok in H. destruct H as (u1 & f1 & H1 & H).
    destruct (set_target_grow s _ f f1 u1 Rs H1) as [G1 B1].
    apply bind_ok in H. destruct H as (o & f2 & H2 & H). unfold hget in H2.
    destruct (resolve (h_id g) (ascii (h_name s)) f1) as [j|] eqn:Er; [|discriminate].
    assert (f2 = f1 /\ o = mk_handle j (sub_name (h_name g) (ascii (h_name s)))) as [-> ->] by (split; congruence). cbn [h_id] in H.
    destruct (link_grow _ _ _ _ _ _ (proj1 Rg) (ascii_slash n Hn) H) as (G2 & B2 & M2). exists f1, j. split; [exact G1|]. split; [exact B1|]. split; [exact G2|]. split; [exact B2|]. split; [exact Er|exact M2].
  Qed.

  Lemma name_fold ps : Forall plain_name ps -> forall qs, Forall plain_name qs -> fold_left sub_name ps (name_at qs) = name_at (qs ++ ps).
  Proof.
    induction 1 as [|p ps Hp _ IH]; intros qs Hq; cbn [fold_left]; [rewrite app_nil_r; reflexivity|].
    rewrite MetaWrite5.sub_name_at by auto. rewrite IH; [rewrite <- app_assoc; reflexivity|]. apply Forall_app. split; auto.
  Qed.
  Section Links.
    Context (a : nat) (sk : str) (Hp : plain_name sk) (Has : is_ascii sk) (Hac : a < c) (g : handle) (Hg : h_id g = c) (Hgn : h_name g = name_at [sk; UX]).
    Definition placed (f : h5) : Prop := member f 0 sk a /\ member f a UX c.
    Lemma placed_below f f' : below f f' -> placed f -> placed f'.
    Proof. intros B [(ms & at_ & A1 & A2) (ms' & at' & A3 & A4)]. split; eexists; eexists; (split; [rewrite B by lia; eassumption|eassumption]). Qed.
    Lemma two_plain ps : Forall plain_name ps -> Forall plain_name (sk :: UX :: ps).
    Proof. intros H. constructor; [exact Hp|]. constructor; [apply plainb_ok; reflexivity|exact H]. Qed.
    Lemma source_found f k ps s i : placed f -> id_rel f g (k, ps) (k, s) -> ascii_path ps -> resolve i (ascii (h_name s)) f = Some (h_id s).
    Proof.
      intros [M0 Ma] (_ & B & _ & D & P) Ha. cbn [fst snd] in *. rewrite Hgn, (name_fold ps P [sk; UX]) in D by (apply two_plain; constructor).
      cbn [app] in D. rewrite D.
      assert (EA : ascii (name_at (sk :: UX :: ps)) = name_at (sk :: UX :: ps)).
      { apply H5Facts.ascii_id. apply is_ascii_name_at. constructor; [exact Has|]. constructor; [unfold UX, is_ascii; repeat constructor|]. exact Ha. }
      rewrite EA. change (walk (parts (name_at (sk :: UX :: ps))) 0 f = Some (h_id s)).
      rewrite parts_name_at by (apply two_plain; exact P). apply walk_leads.
      econstructor; [exact M0|]. econstructor; [exact Ma|]. rewrite <- Hg. apply (lead1_leads c). exact B.
    Qed.
    Lemma ux_links_did uq T : forall f f' u, placed f ->
      (forall k s, dget k uq = Some s -> inr f (h_id s)) -> (forall k t, In (k, t) T -> inr f (h_id (fst t)) /\ ~ In SLASH (snd t)) ->
      siter (fun kt => match dget (fst kt) uq with Some source => makeLink (fst (snd kt)) source (snd (snd kt)) | None => sret tt end) T f = (f', Ok u) ->
      grow f f' /\ below f f' /\ forall k h n s ps, In (k, (h, n)) T -> dget k uq = Some s -> id_rel f g (k, ps) (k, s) -> ascii_path ps -> is_ascii n -> plain_name n ->
        member f' (h_id h) n (h_id s).
    Proof.
      induction T as [|[k0 [h0 n0]] T IH]; intros f f' u Pl U1 T1 H; cbn [siter fst snd] in H.
      - unfold sret in H. assert (f' = f) by congruence. subst f'. split; [apply grow_refl|]. split; [intros i _; auto|]. intros k h n s ps [].
      - apply bind_ok in H. destruct H as (u1 & f1 & H1 & H).
        assert (S1 : grow f f1 /\ below f f1 /\ forall s ps, dget k0 uq = Some s -> id_rel f g (k0, ps) (k0, s) -> ascii_path ps -> is_ascii n0 -> plain_name n0 -> member f1 (h_id h0) n0 (h_id s)).
        { destruct (dget k0 uq) as [s0|] eqn:E0.
          - destruct (T1 k0 (h0, n0) (or_introl eq_refl)) as [R1 N1]. cbn [fst snd] in R1, N1.
            destruct (makeLink_did h0 s0 n0 f f1 u1 (U1 _ _ E0) R1 N1 H1) as (f2 & j & G1 & B1 & G2 & B2 & Er & M).
            split; [eapply grow_trans; eauto|]. split; [eapply below_trans; eauto|]. intros s ps Es Hr Ha Hn Hpn. injection Es; intros <-.
            rewrite (H5Facts.ascii_id n0 Hn) in M. rewrite (source_found f2 k0 ps s0 (h_id h0)) in Er; [|eapply placed_below; eauto|eapply id_grow; eauto|exact Ha].
            injection Er; intros ->. apply M. exact Hpn.
          - unfold sret in H1. assert (f1 = f) by congruence. subst f1. split; [apply grow_refl|]. split; [intros i _; auto|]. intros; discriminate. }
        destruct S1 as (G1 & B1 & M1).
        destruct (IH f1 f' u) as (G2 & B2 & M2); [eapply placed_below; eauto| | |exact H|].
        { intros k s Hs. eapply inr_grow; eauto. }
        { intros k t Ht. destruct (T1 k t (or_intror Ht)). split; [eapply inr_grow; eauto|auto]. }
        split; [eapply grow_trans; eauto|]. split; [eapply below_trans; eauto|]. intros k h n s ps [Hin|Hin] Hs Hr Ha Hn Hpn.
        + injection Hin; intros <- <- <-. eapply grow_member; [exact G2| |eapply M1; eauto]. destruct (T1 k0 (h0, n0) (or_introl eq_refl)) as [[R _] _]. cbn [fst] in R. lia.
        + eapply M2; eauto. eapply id_grow; eauto.
    Qed.
  End Links.
End Items.

(** ** the claim of the writer *)
Definition linked (f : h5) (i : nat) (root : list xnode) : Prop :=
  forall t q p, last_of t (links_of root) q -> last_of t (ids_of root) p -> ascii_path p -> ascii_path q -> exists j, lead1 i f i p j /\ lead1 i f i q j.
Definition in_UXML (f : h5) (g : nat) (root : list xnode) : Prop :=
  nx_group f g "NXnote" /\ attribute f g (L "desc") (AText (L "UXML metadata")) /\ (Forall (node_in g f g) root /\ NoDup (sibling_names root)) /\ linked f g root.
Lemma in_UXML_gro f f' g root : gro g f f' -> in_UXML f g root -> in_UXML f' g root.
Proof.
  intros G ([C1 C2] & D & [E EN] & F). split; [split; [eapply gro_group; eauto|eapply gro_attribute; eauto; apply seqb_neq; reflexivity]|].
  split; [eapply gro_attribute; eauto; apply seqb_neq; reflexivity|]. split; [split; [eapply nodes_grow; eauto|exact EN]|].
  intros t q p L1 L2 A1 A2. destruct (F t q p L1 L2 A1 A2) as (j & J1 & J2). exists j. split; eapply lead1_grow; eauto.
Qed.
Definition Psi_UXML (o : obj) (f : h5) (a : nat) : Prop := forall root, o A_UXML_root = Some root -> exists g, 1 <= g /\ member f a UX g /\ in_UXML f g root.
Lemma Psi_UXML_grow o f f' a : 1 <= a -> grow f f' -> Psi_UXML o f a -> Psi_UXML o f' a.
Proof.
  intros Ha G H root Hr. destruct (H root Hr) as (g & A & B & C). exists g. split; [auto|]. split; [eapply grow_member; eauto|].
  eapply in_UXML_gro; [apply grow_gro; eauto|exact C].
Qed.
Lemma F2_last {A B} (R : str * A -> str * B -> Prop) l m k x : (forall p q, R p q -> fst q = fst p) -> Forall2 R l m -> last_of k l x -> exists y, last_of k m y /\ R (k, x) (k, y).
Proof.
  intros HR F (l1 & l2 & -> & N). apply Forall2_app_inv_l in F. destruct F as (m1 & m2 & F1 & F2 & ->). inversion F2 as [|? [k' y] ? m3 Hy F3]; subst.
  pose proof (HR _ _ Hy) as Ek. cbn [fst] in Ek. subst k'. exists y. split; [|exact Hy]. exists m1, m3. split; [reflexivity|].
  intros X. apply N. clear - HR F3 X. induction F3 as [|p q l2 m3 H F IH]; [destruct X|]. destruct X as [X|X]; [left; rewrite <- X; symmetry; apply HR; auto|right; auto].
Qed.
Lemma dget_In {V} k (v : V) d : dget k d = Some v -> In (k, v) d.
Proof.
  induction d as [|[k' v'] d IH]; cbn [dget]; [discriminate|]. destruct (seqb k k') eqn:E; [|intros H; right; auto].
  apply seqb_eq in E. subst k'. intros H. left. congruence.
Qed.
Lemma F2_in {A B} (R : A -> B -> Prop) l m y : Forall2 R l m -> In y m -> exists x, In x l /\ R x y.
Proof. induction 1 as [|a b l m H F IH]; intros X; [destruct X|]. destruct X as [<-|X]; [exists a; simpl; auto|]. destruct (IH X) as (x & X1 & X2). exists x. simpl; auto. Qed.
Lemma last_snoc_ascii ps (n : str) : ascii_path (ps ++ [n]) -> is_ascii n.
Proof. intros H. apply Forall_app in H. destruct H as [_ H]. inversion H; auto. Qed.

Lemma est_UXML : est H_UXML Psi_UXML.
Proof.
  intros cmd a sk w w' u Ha Hp Has W H. pose proof (base_writer _ _ _ _ _ _ _ Hp Has W H) as WE. cbn [writer_of] in H. unfold w_UXML in H.
  apply bind_ok in H. destruct H as (root & w1 & H1 & H). apply rd_ok in H1. destruct H1 as [-> H1]. cbn [obj_of] in H1.
  destruct (forallb xvalid root) eqn:V; [|discriminate H]. pose proof W as [I _]. destruct WE as [I' _]. set (f := w_h5 w) in *.
  assert (Hac : a < List.length f) by apply (FrameK.inv_alt _ _ _ _ _ f I).
  unfold hdf in H. match type of H with (let (_, _) := ?m in _) = _ => destruct m as [f3 [u3|x3]] eqn:E3; [|discriminate H] end.
  assert (Hf3 : w_h5 w' = f3) by (injection H; intros _ <-; reflexivity). rewrite Hf3 in I'. clear H. fold f in E3. rewrite Hf3. clear Hf3 w'.
  apply bind_ok in E3. destruct E3 as (g & f1 & Em & E3).
  destruct (group_of_make (mk_handle a (name_at [sk])) UX (L "NXnote") [(L "desc", t_ "UXML metadata")] f f1 g ltac:(apply plainb_ok; reflexivity) Hac Em) as (ms & at_ & Na & Hh & Ef & Eg).
  cbn [h_id h_name] in Na, Ef, Eg. set (c := List.length f) in *. assert (Hc : 1 <= c) by lia.
  set (nd := with_attrs (Group [] [(NXC, AText (L "NXnote"))]) [(L "desc", t_ "UXML metadata")]) in *.
  assert (Hg : h_id g = c) by (rewrite Eg; reflexivity).
  assert (Hgn : h_name g = name_at [sk; UX]).
  { rewrite Eg. cbn [h_name]. rewrite MetaWrite5.sub_name_at; [reflexivity|constructor; [exact Hp|constructor]|apply plainb_ok; reflexivity]. }
  assert (N1 : forall j, nth_error f1 j = if Nat.eqb j a then Some (Group (ms ++ [(UX, c)]) at_) else if Nat.eqb j c then Some nd else nth_error f j).
  { intros j. rewrite Ef. apply (made_nth _ _ _ _ _ _ _ Na). }
  assert (L1 : List.length f1 = S c) by (rewrite Ef; apply made_length).
  assert (Nc : nth_error f1 c = Some nd). { rewrite N1. destruct (Nat.eqb_spec c a); [lia|]. rewrite Nat.eqb_refl. reflexivity. }
  assert (Pl : placed c a sk f1).
  { split.
    - destruct (FrameK.inv_root _ _ _ _ _ f I) as (ms0 & at0 & R1 & R2). exists ms0, at0. split; [|exact R2]. rewrite N1.
      destruct (Nat.eqb_spec 0 a); [lia|]. destruct (Nat.eqb_spec 0 c); [lia|exact R1].
    - eexists. eexists. split; [rewrite N1, Nat.eqb_refl; reflexivity|]. apply dget_none_app. exact Hh. }
  apply bind_ok in E3. destruct E3 as (d & f2 & E2 & E3).
  assert (Rg : inr c f1 (h_id g)) by (rewrite Hg; split; [lia|rewrite L1; lia]).
  destruct (ux_items_did c Hc root V g _ f1 f2 d Rg E2) as (G2 & B2 & (NI & NN & _) & U & T & D1 & D2 & D3 & D4). cbn [u_unique u_target] in D1, D2.
  assert (IU : forall k s, dget k (u_unique d) = Some s -> exists ps, id_rel c f2 g (k, ps) (k, s)).
  { intros k s Hs. apply dget_In in Hs. rewrite D1 in Hs. apply dsets_In in Hs. destruct Hs as [Hs|[]].
    destruct (F2_in _ _ _ _ D3 Hs) as ([k' ps] & _ & Hr). pose proof (proj1 Hr) as Ek. cbn [fst] in Ek. subst k'. exists ps. exact Hr. }
  unfold ux_links in E3.
  destruct (ux_links_did c Hc a sk Hp Has Hac g Hg Hgn (u_unique d) (u_target d) f2 f3 u3) as (G3 & B3 & ML); [eapply placed_below; eauto| | |exact E3|].
  { intros k s Hs. destruct (IU k s Hs) as (ps & _ & _ & R & _). exact R. }
  { intros k t Ht. rewrite D2 in Ht. apply dsets_In in Ht. destruct Ht as [Ht|[]]. destruct (F2_in _ _ _ _ D4 Ht) as ([k' ps] & _ & _ & qs & _ & _ & R & P).
    cbn [fst snd] in R, P. split; [exact R|]. apply plain_no. exact P. }
  pose proof (grow_trans _ _ _ G2 G3) as G. pose proof (below_trans c _ _ _ B2 B3) as B.
  assert (Psi3 : in_UXML f3 c root).
  { split; [|split; [|split]].
    - eapply grow_nx; [exact G|exact Hc|]. split; [eexists; eexists; exact Nc|]. eexists. split; [exact Nc|]. reflexivity.
    - eapply grow_attribute; [exact G|exact Hc|apply seqb_neq; reflexivity|]. eexists. split; [exact Nc|]. reflexivity.
    - rewrite Hg in NI. split; [|exact NN]. eapply nodes_grow; [apply grow_gro; [exact Hc|exact G3]|apply le_n|]. exact NI.
    - intros t q p Lq Lp Ap Aq.
      destruct (F2_last (tg_rel c f2 g) _ _ _ _ (fun _ _ X => proj1 X) D4 Lq) as ([h n] & Q1 & (_ & qs & Q2 & Q3 & Q4 & Q5)). cbn [fst snd] in Q2, Q3, Q4, Q5.
      destruct (F2_last (id_rel c f2 g) _ _ _ _ (fun _ _ X => proj1 X) D3 Lp) as (s & S1 & S2).
      pose proof (dsets_last t T (h, n) [] Q1) as X1. pose proof (dsets_last t U s [] S1) as X2. rewrite <- D1 in X2. rewrite <- D2 in X1.
      exists (h_id s). split.
      + eapply lead1_grow; [apply grow_gro; [exact Hc|exact G3]|]. destruct S2 as (_ & S2 & _). cbn [snd] in S2. rewrite Hg in S2. exact S2.
      + rewrite Q2 in *. eapply lead1_app; [eapply lead1_grow; [apply grow_gro; [exact Hc|exact G3]|]; rewrite Hg in Q3; exact Q3|].
        apply lead1_one; [apply Q4|destruct S2 as (_ & _ & S2 & _); apply S2|]. eapply ML; [apply dget_In; exact X1|exact X2|exact S2|exact Ap|eapply last_snoc_ascii; exact Aq|exact Q5]. }
  assert (Fi : filled a UX ms at_ f f3).
  { constructor; auto; [fold c; destruct G as [G _]; lia|]. fold c. intros i Hi. rewrite B by exact Hi. rewrite N1. destruct (Nat.eqb_spec i c); [lia|reflexivity]. }
  destruct (filled_up a sk UX ms at_ _ _ Ha I I' Fi) as (IUp & Mb & Hab).
  eexists. exists (K1 UX), noI. split; [apply K1_0|]. split; [apply K1_2|]. split; [okk|]. split; [exact IUp|].
  intros f4 _ G4 root' Hr. rewrite H1 in Hr. injection Hr; intros <-. destruct G4 as [F1 F2 F3 F4]. exists c. split; [exact Hc|].
  split; [apply F3; [reflexivity|exact Mb]|]. eapply in_UXML_gro; [|exact Psi3]. intros i x Hi Hx. exists x. split; [|apply ext_refl].
  rewrite <- Hx. apply F2. right. split; [exact Hi|]. apply nth_error_Some. congruence.
Qed.
