(** The links that are made at the end of an entry *)
From Coq Require Import String Lia.
From Verif Require Import Py PyFacts Utils SpecUtils Keys Geom Handlers Reader StateFacts SpecHistory SpecInterp SpecWriter NamesFacts
  H5 SpecH5 H5Facts FrameH5 H5Exact Writer DataWrite KeepFacts WriterFrame SaveFacts EntryData FrameK WriterFrameK GrowFacts ClaimFacts MetaWrite MetaWrite2.
Import ListNotations.
Local Open Scope list_scope.

(** the names that the links and the default plot add to groups *)
Definition NEWS : list str := [L "diffractometer"; L "monitor"; L "preset"; L "temperature"; L "target_value"; L "value"; L "data"; L "no_x_data"; L "no_y_data"].
(** a path below the root *)
Inductive down (f : h5) : nat -> list str -> nat -> Prop :=
| down_here i : down f i [] i
| down_on i n j ps k : 1 <= i -> member f i n j -> down f j ps k -> down f i (n :: ps) k.
Lemma down_leads f i ps j : down f i ps j -> leads f i ps j.
Proof. induction 1; econstructor; eauto. Qed.
Lemma member_fun f i n j j' : member f i n j -> member f i n j' -> j = j'.
Proof. intros (m & x & A & B) (m' & x' & A' & B'). congruence. Qed.
Lemma down_app f i ps j qs k : down f i ps j -> down f j qs k -> down f i (ps ++ qs) k.
Proof. induction 1; intros H2; [exact H2|]. cbn [app]. econstructor; eauto. Qed.
Lemma grow_down f f' i ps j : grow f f' -> down f i ps j -> down f' i ps j.
Proof. intros G. induction 1; [constructor|]. econstructor; eauto. eapply grow_member; eauto. Qed.

Lemma walk_leads_member f i n j : plain_name n -> resolve i n f = Some j -> member f i n j.
Proof.
  intros Hn H. unfold resolve in H. rewrite (parts_plain n Hn), (start_rel _ _ (plain_rel n Hn)) in H. destruct n as [|c n]; [discriminate|]. cbn [walk] in H.
  destruct (nth_error f i) as [[ms at_|]|] eqn:E; [|discriminate|discriminate]. exists ms, at_. split; [auto|]. destruct (dget (c :: n) ms); [|discriminate]. congruence.
Qed.
Section Links.
  Context (a : nat) (sk : str).
  (** the attribute target of object [j] is a path of [j] *)
  Definition tok (f : h5) (j : nat) : Prop := 1 <= j /\
    exists qs, Forall plain_name qs /\ attribute f j TGT (AText (name_at (sk :: qs))) /\ down f a qs j.
  (** what the steps keep *)
  Record R (f f' : h5) : Prop := mk_R {
    R_grow : grow f f';
    R_keep : forall i n j, 1 <= i < List.length f -> ~ In n NEWS -> member f' i n j -> member f i n j;
    R_tok : forall j, tok f j -> tok f' j }.
  Lemma R_refl f : R f f.
  Proof. constructor; [apply grow_refl|auto|auto]. Qed.
  Lemma R_trans f g h : R f g -> R g h -> R f h.
  Proof.
    intros [A B C] [D E F]. constructor; [eapply grow_trans; eauto| |auto]. intros i n j Hi Nn M. apply B; auto. apply E; auto.
    destruct A as [A _]. lia.
  Qed.
  Lemma tok_grow f f' j : grow f f' -> (forall v, attribute f j TGT v -> attribute f' j TGT v) -> tok f j -> tok f' j.
  Proof. intros G H (A & qs & B & C & D). split; [auto|]. exists qs. split; [auto|]. split; [auto|]. eapply grow_down; eauto. Qed.
  Lemma R_same f f' : List.length f <= List.length f' -> (forall i, 1 <= i < List.length f -> nth_error f' i = nth_error f i) -> R f f'.
  Proof.
    intros A B. assert (G : grow f f') by (apply grow_same; auto). constructor; [exact G| |].
    - intros i n j Hi _ (ms & at_ & H & D). rewrite B in H by auto. exists ms, at_. auto.
    - intros j T. pose proof (proj1 T) as Hj. eapply tok_grow; [exact G| |exact T]. intros v (nd & H & D). exists nd. split; [|auto].
      rewrite B; [auto|]. split; [auto|]. apply nth_error_Some. congruence.
  Qed.
  Lemma R_snoc f nd : R f (f ++ [nd]).
  Proof. apply R_same; [rewrite app_length; lia|]. intros i Hi. apply nth_error_app1. lia. Qed.
  Lemma R_put f i n j ms at_ : nth_error f i = Some (Group ms at_) -> has n ms = false -> In n NEWS -> R f (put_nth i (Group (ms ++ [(n, j)]) at_) f).
  Proof.
    intros H Hn HN. assert (G : grow f (put_nth i (Group (ms ++ [(n, j)]) at_) f)).
    { eapply grow_put; [apply grow_refl|exact H|]. intros _ _. split; [|auto]. intros m x D. rewrite dget_app, D. reflexivity. }
    constructor; [exact G| |].
    - intros i' m j' Hi Nm (ms' & at' & X & D). rewrite (put_nth_error _ _ _ _ H) in X. destruct (Nat.eqb_spec i' i) as [->|Ne]; [|exists ms', at'; auto].
      injection X; intros <- <-. exists ms, at_. split; [auto|]. rewrite dget_app in D. destruct (dget m ms); [auto|]. cbn [dget] in D.
      match type of D with context [seqb ?x ?y] => destruct (seqb x y) eqn:Y; [|discriminate]; apply seqb_eq in Y; subst; contradiction end.
    - intros j' T. eapply tok_grow; [exact G| |exact T]. intros v (nd & X & D). destruct (Nat.eqb_spec j' i) as [->|Ne].
      + rewrite H in X. injection X; intros <-. exists (Group (ms ++ [(n, j)]) at_). rewrite (put_nth_error _ _ _ _ H), Nat.eqb_refl. auto.
      + exists nd. rewrite (put_nth_error _ _ _ _ H). destruct (Nat.eqb_spec j' i); [contradiction|]. auto.
  Qed.
  Lemma R_made f i n ms at_ nd : nth_error f i = Some (Group ms at_) -> has n ms = false -> In n NEWS -> R f (made i n ms at_ nd f).
  Proof. intros H Hn HN. unfold made. eapply R_trans; [eapply R_put; eauto|]. apply R_snoc. Qed.
  Lemma set_attr_members i k v f f' u j n t : set_attr i k v f = (f', Ok u) -> member f' j n t <-> member f j n t.
  Proof.
    unfold set_attr. destruct (nth_error f i) as [[ms at_|x at_]|] eqn:H; [| |discriminate]; intros X; assert (E : f' = fst (f', Ok u)) by reflexivity;
      rewrite <- X in E; cbn [fst] in E; subst f'; clear X; split; intros (m & y & B & D).
    - rewrite (put_nth_error _ _ _ _ H) in B. destruct (Nat.eqb_spec j i) as [->|Ne]; [injection B; intros <- <-; exists ms, at_; auto|exists m, y; auto].
    - destruct (Nat.eqb_spec j i) as [->|Ne].
      + rewrite H in B. injection B; intros <- <-. exists ms, (dset k v at_). rewrite (put_nth_error _ _ _ _ H), Nat.eqb_refl. auto.
      + exists m, y. rewrite (put_nth_error _ _ _ _ H). destruct (Nat.eqb_spec j i); [contradiction|]. auto.
    - rewrite (put_nth_error _ _ _ _ H) in B. destruct (Nat.eqb_spec j i) as [->|Ne]; [discriminate|exists m, y; auto].
    - destruct (Nat.eqb_spec j i) as [->|Ne]; [congruence|]. exists m, y. rewrite (put_nth_error _ _ _ _ H). destruct (Nat.eqb_spec j i); [contradiction|]. auto.
  Qed.
  (** the attribute target is set to a path of the object *)
  Lemma R_target t qs f f' u : Forall plain_name qs -> 1 <= t -> down f a qs t -> set_attr t (L "target") (AText (name_at (sk :: qs))) f = (f', Ok u) -> R f f' /\ tok f' t.
  Proof.
    intros Hq Ht Hd H. assert (G : grow f f') by (eapply gk_grow; [apply (set_attr_gk f t (L "target")); right; left; reflexivity|exact H]).
    assert (At : attribute f' t TGT (AText (name_at (sk :: qs)))).
    { unfold set_attr in H. destruct (nth_error f t) as [[ms at_|x at_]|] eqn:E; [| |discriminate]; assert (E' : f' = fst (f', Ok u)) by reflexivity;
      rewrite <- H in E'; cbn [fst] in E'; subst f'; (eexists; split; [rewrite (put_nth_error _ _ _ _ E), Nat.eqb_refl; reflexivity|]); cbn; apply dget_dset_same. }
    assert (Tt : tok f' t) by (split; [auto|]; exists qs; split; [auto|]; split; [auto|]; eapply grow_down; eauto).
    split; [|exact Tt]. constructor; [exact G| |].
    - intros i n j _ _ M. apply (set_attr_members _ _ _ _ _ _ i n j H). exact M.
    - intros j T. destruct (Nat.eqb_spec j t) as [->|Ne]; [exact Tt|]. eapply tok_grow; [exact G| |exact T]. intros v (nd & X & D). exists nd. split; [|auto].
      unfold set_attr in H. destruct (nth_error f t) as [[ms at_|x at_]|] eqn:E; [| |discriminate]; assert (E' : f' = fst (f', Ok u)) by reflexivity;
      rewrite <- H in E'; cbn [fst] in E'; subst f'; rewrite (put_nth_error _ _ _ _ E); (destruct (Nat.eqb_spec j t); [contradiction|]); auto.
  Qed.

  (** a link in the group at the path [qs] *)
  Definition hat (f : h5) (qs : list str) (h : handle) : Prop := Forall plain_name qs /\ 1 <= h_id h /\ h_name h = name_at (sk :: qs) /\ down f a qs (h_id h).
  Lemma add_ok g n j f f' u : add_member g n j f = (f', Ok u) -> exists ms at_, nth_error f g = Some (Group ms at_) /\ has n ms = false /\ j < List.length f /\
    f' = put_nth g (Group (ms ++ [(n, j)]) at_) f.
  Proof.
    unfold add_member. destruct (nth_error f g) as [[ms at_|]|]; [|discriminate|discriminate]. destruct (has n ms) eqn:Hh; [discriminate|].
    destruct (Nat.leb_spec (List.length f) j); [discriminate|]. intros X. exists ms, at_. do 3 (split; [auto|]). assert (E : f' = fst (f', Ok u)) by reflexivity. rewrite <- X in E. exact E.
  Qed.
  Lemma put_member g n j ms at_ f : nth_error f g = Some (Group ms at_) -> has n ms = false -> member (put_nth g (Group (ms ++ [(n, j)]) at_) f) g n j.
  Proof.
    intros H Hn. exists (ms ++ [(n, j)]), at_. rewrite (put_nth_error _ _ _ _ H), Nat.eqb_refl. split; [auto|]. apply dget_none_app; auto.
  Qed.
  Lemma resolve_member f i n j : plain_name n -> member f i n j -> resolve i n f = Some j.
  Proof. intros Hn (ms & at_ & H & D). rewrite (resolve_plain i n ms at_ f Hn H). exact D. Qed.
  Lemma link_at_plain g n j f : plain_name n -> H5.link_at g n j f = add_member g n j f.
  Proof. intros Hn. unfold H5.link_at. rewrite (parts_plain n Hn). cbn [rev app]. rewrite sbind_eq. rewrite (start_rel _ _ (plain_rel n Hn)). reflexivity. Qed.
  Context (Hsk : plain_name sk).
  Lemma link_in_R f f' u g qs n t : plain_name n -> In n NEWS -> hat f qs g -> 1 <= h_id t -> link_in g n t f = (f', Ok u) ->
    R f f' /\ member f' (h_id g) n (h_id t) /\ tok f' (h_id t).
  Proof.
    intros Hn HN (Hq & H1 & H2 & H3) Ht H. unfold link_in in H. apply bind_ok in H. destruct H as (u1 & f1 & E1 & H). rewrite (link_at_plain _ _ _ _ Hn) in E1.
    destruct (add_ok _ _ _ _ _ _ E1) as (ms & at_ & G1 & G2 & G3 & ->). clear E1. set (f1 := put_nth (h_id g) (Group (ms ++ [(n, h_id t)]) at_) f) in *.
    assert (R1 : R f f1) by (apply R_put; auto). assert (M1 : member f1 (h_id g) n (h_id t)) by (apply put_member; auto).
    apply bind_ok in H. destruct H as (p & f2 & E2 & H). unfold hget in E2. rewrite (resolve_member _ _ _ _ Hn M1) in E2.
    assert (f2 = f1 /\ p = mk_handle (h_id t) (sub_name (h_name g) n)) as [-> ->] by (split; congruence). clear E2. cbn [h_name] in H.
    rewrite H2, (sub_name_at (sk :: qs) n) in H; [|constructor; auto|apply plain_rel; auto]. rewrite (parts_plain n Hn) in H. cbn [app] in H.
    destruct (R_target (h_id t) (qs ++ [n]) f1 f' u) as [R2 T2]; [apply Forall_app; auto|auto| |exact H|].
    - eapply down_app; [eapply grow_down; [apply R1|exact H3]|]. econstructor; [exact H1|exact M1|constructor].
    - split; [eapply R_trans; eauto|]. split; [|exact T2]. apply (set_attr_members _ _ _ _ _ _ (h_id g) n (h_id t) H). exact M1.
  Qed.
  Lemma makeGroup_R f f' o g qs n c : plain_name n -> In n NEWS -> hat f qs o -> makeGroup o n (L c) [] f = (f', Ok g) ->
    R f f' /\ member f' (h_id o) n (h_id g) /\ nx_group f' (h_id g) c /\ hat f' (qs ++ [n]) g.
  Proof.
    intros Hn HN (Hq & H1 & H2 & H3) H. destruct (nth_error f (h_id o)) as [[ms at_|x at_]|] eqn:En.
    - rewrite (makeGroup_eq o n (L c) [] ms at_ f Hn En) in H. destruct (has n ms) eqn:Hh; [discriminate|].
      assert (f' = made (h_id o) n ms at_ (with_attrs (Group [] [(NXC, AText (L c))]) []) f /\ g = mk_handle (List.length f) (sub_name (h_name o) n)) as [-> ->] by (split; congruence).
      clear H. cbn [h_id]. rewrite with_attrs_nil. assert (R1 : R f (made (h_id o) n ms at_ (Group [] [(NXC, AText (L c))]) f)) by (apply R_made; auto).
      assert (Ho : h_id o < List.length f) by (apply nth_error_Some; congruence).
      assert (NN := made_nth (h_id o) n ms at_ (Group [] [(NXC, AText (L c))]) f _ En).
      assert (M1 : member (made (h_id o) n ms at_ (Group [] [(NXC, AText (L c))]) f) (h_id o) n (List.length f)).
      { exists (ms ++ [(n, List.length f)]), at_. rewrite NN, Nat.eqb_refl. split; [auto|]. apply dget_none_app; auto. }
      assert (N1 : nth_error (made (h_id o) n ms at_ (Group [] [(NXC, AText (L c))]) f) (List.length f) = Some (Group [] [(NXC, AText (L c))])).
      { rewrite NN. destruct (Nat.eqb_spec (List.length f) (h_id o)); [lia|]. rewrite Nat.eqb_refl. reflexivity. }
      split; [exact R1|]. split; [exact M1|]. split; [split; [eexists; eexists; exact N1|eexists; split; [exact N1|reflexivity]]|].
      split; [apply Forall_app; auto|]. cbn [h_id h_name]. split; [lia|]. split.
      + rewrite H2, (sub_name_at (sk :: qs) n); [|constructor; auto|apply plain_rel; auto]. rewrite (parts_plain n Hn). reflexivity.
      + eapply down_app; [eapply grow_down; [apply R1|exact H3]|]. econstructor; [exact H1|exact M1|constructor].
    - exfalso. unfold makeGroup, create_at in H. rewrite (parts_plain n Hn) in H. cbn [rev app] in H. rewrite (start_rel _ _ (plain_rel n Hn)) in H. cbn [dig] in H.
      rewrite !sbind_eq in H. unfold free in H. rewrite En in H. discriminate.
    - exfalso. unfold makeGroup, create_at in H. rewrite (parts_plain n Hn) in H. cbn [rev app] in H. rewrite (start_rel _ _ (plain_rel n Hn)) in H. cbn [dig] in H.
      rewrite !sbind_eq in H. unfold free in H. rewrite En in H. discriminate.
  Qed.

  Lemma hget_ok g n f f' h : plain_name n -> hget g n f = (f', Ok h) -> f' = f /\ h_name h = sub_name (h_name g) n /\ member f (h_id g) n (h_id h).
  Proof.
    intros Hn H. unfold hget in H. destruct (resolve (h_id g) n f) as [j|] eqn:Er; [|discriminate].
    assert (f' = f /\ h = mk_handle j (sub_name (h_name g) n)) as [-> ->] by (split; congruence). do 2 (split; [reflexivity|]). cbn [h_id].
    apply walk_leads_member; auto.
  Qed.
End Links.

Definition GEO : str := L "geometry_parameters". Definition DIF : str := L "diffractometer". Definition MONI : str := L "monitor".
Ltac pln := apply plainb_ok; reflexivity.
Ltac notnew := let H := fresh in intros H; simpl in H; repeat (destruct H as [H|H]; [discriminate H|]); destruct H.
Section Final.
  Context (a : nat) (sk : str) (Ha : 1 <= a) (Hsk : plain_name sk) (f0 : h5) (I0 : BInv a sk f0).
  Notation R := (R a sk). Notation tok := (tok a sk). Notation hat := (hat a sk).
  Definition e_ : handle := mk_handle a (name_at [sk]).
  Lemma e_hat f : hat f [] e_.
  Proof. split; [constructor|]. cbn [e_ h_id h_name]. split; [auto|]. split; [reflexivity|constructor]. Qed.
  Lemma above f i n j : R f0 f -> a <= i < List.length f0 -> ~ In n NEWS -> member f i n j -> member f0 i n j /\ a <= j < List.length f0.
  Proof.
    intros Rf Hi Hn M. apply (R_keep a sk _ _ Rf) in M; [|lia|exact Hn]. split; [exact M|].
    pose proof (FrameK.member_link _ _ _ _ M) as Lk. destruct I0 as [W B Rt P0 Pa Lt Al Lkk Uu _]. split.
    - assert (NP : ~ PO a i) by (unfold PO; lia). destruct (Lkk i n j NP Lk) as [_ X]. destruct (Nat.le_gt_cases a j) as [Y|Y]; [exact Y|].
      destruct (X Y) as [[_ []]|(g & [] & _)].
    - destruct Lk as (ms & at_ & A & D). eapply B; eauto.
  Qed.
  Lemma a_in : a < List.length f0.
  Proof. apply (FrameK.inv_alt _ _ _ _ _ f0 I0). Qed.
  Lemma sub_hat f qs g n h : plain_name n -> hat f qs g -> 1 <= h_id h -> h_name h = sub_name (h_name g) n -> member f (h_id g) n (h_id h) -> hat f (qs ++ [n]) h.
  Proof.
    intros Hn (A & B & C & D) H1 H2 M. split; [apply Forall_app; auto|]. split; [exact H1|]. split.
    - rewrite H2, C, (sub_name_at (sk :: qs) n); [|constructor; auto|apply plain_rel; auto]. rewrite (parts_plain n Hn). reflexivity.
    - eapply down_app; [exact D|]. econstructor; [exact B|exact M|constructor].
  Qed.
  Lemma hin_plain e n f : plain_name n -> exists b, hin e n f = (f, Ok b) /\ (b = true <-> exists j, member f (h_id e) n j).
  Proof.
    intros Hn. unfold hin. eexists. split; [reflexivity|]. destruct (resolve (h_id e) n f) as [j|] eqn:E; split; auto; try discriminate.
    - intros _. exists j. apply walk_leads_member; auto.
    - intros (j & M). rewrite (resolve_member f (h_id e) n j Hn M) in E. discriminate.
  Qed.
  Lemma hin_two e n m f : plain_name n -> plain_name m -> exists b, hin e (n ++ H5.SLASH :: m) f = (f, Ok b) /\ (b = true <-> exists i j, member f (h_id e) n i /\ member f i m j).
  Proof.
    intros Hn Hm. unfold hin. eexists. split; [reflexivity|]. unfold resolve, start.
    assert (N0 : exists c t, n ++ H5.SLASH :: m = c :: t /\ prefixb [H5.SLASH] (n ++ H5.SLASH :: m) = false).
    { destruct n as [|c n]; [destruct Hn; congruence|]. exists c, (n ++ H5.SLASH :: m). split; [reflexivity|].
      pose proof (plain_rel (c :: n) Hn) as P. cbn [prefixb app] in *. exact P. }
    destruct N0 as (c & t & N0 & N1). rewrite N1, (parts_slash n m Hn), (parts_plain m Hm). rewrite N0.
    destruct (walk [n; m] (h_id e) f) as [j|] eqn:E; split; auto; try discriminate.
    - intros _. apply walk_leads in E. inversion E as [|? ? i1 ? ? A1 E1]; subst. inversion E1 as [|? ? i2 ? ? A2 E2]; subst. exists i1, i2. auto.
    - intros (i & j & A & B). assert (X : leads f (h_id e) [n; m] j) by (econstructor; [exact A|]; econstructor; [exact B|]; constructor).
      apply walk_leads in X. congruence.
  Qed.
  Lemma diffr_R f f' u : R f0 f -> link_diffractometer e_ f = (f', Ok u) -> R f f' /\
    forall i j, member f' a INS i -> member f' i GEO j -> member f' i DIF j /\ tok f' j.
  Proof.
    intros Rf H. unfold link_diffractometer in H. apply bind_ok in H. destruct H as (b & f1 & E1 & H).
    destruct (hin_two e_ INS GEO f ltac:(pln) ltac:(pln)) as (b' & E1' & Hb). change (L "instrument/geometry_parameters") with (INS ++ H5.SLASH :: GEO) in E1.
    rewrite E1' in E1. assert (f1 = f /\ b' = b) as [-> ->] by (split; congruence). clear E1 E1'.
    destruct b; cycle 1.
    { unfold sret in H. assert (f' = f) by congruence. subst f'. split; [apply R_refl|]. intros i j A B. assert (X : false = true) by (apply Hb; eauto). discriminate. }
    apply bind_ok in H. destruct H as (ins & f1 & E1 & H). apply hget_ok in E1; [|pln]. destruct E1 as (-> & N1 & M1). cbn [e_ h_id h_name] in N1, M1.
    destruct (above f a INS (h_id ins) Rf ltac:(pose proof a_in; lia) ltac:(notnew) M1) as [_ Li].
    assert (Hi : hat f [INS] ins) by (apply (sub_hat f [] e_ INS); [pln|apply e_hat|lia|exact N1|exact M1]).
    apply bind_ok in H. destruct H as (g & f1 & E1 & H). apply hget_ok in E1; [|pln]. destruct E1 as (-> & N2 & M2).
    destruct (above f (h_id ins) GEO (h_id g) Rf ltac:(lia) ltac:(notnew) M2) as [_ Lg].
    apply bind_ok in H. destruct H as (u1 & f1 & E1 & H). rewrite link_at_plain in E1 by pln.
    destruct (add_ok _ _ _ _ _ _ E1) as (ms & at_ & G1 & G2 & G3 & ->). clear E1. fold DIF in *. set (f1 := put_nth (h_id ins) (Group (ms ++ [(DIF, h_id g)]) at_) f) in *.
    assert (R1 : R f f1) by (apply R_put; [exact G1|exact G2|simpl; tauto]). assert (M3 : member f1 (h_id ins) DIF (h_id g)) by (apply put_member; auto).
    apply bind_ok in H. destruct H as (t & f2 & E2 & H). apply hget_ok in E2; [|pln]. destruct E2 as (-> & N3 & M4).
    assert (Et : h_id t = h_id g) by (eapply member_fun; eauto).
    assert (Ht : hat f1 [INS; DIF] t).
    { apply (sub_hat f1 [INS] ins DIF); [pln| |lia|exact N3|exact M4]. destruct Hi as (A & B & C & D). split; [auto|]. split; [auto|]. split; [auto|]. eapply grow_down; [apply R1|exact D]. }
    destruct Ht as (T1 & T2 & T3 & T4). rewrite T3 in H. destruct (R_target a sk (h_id t) [INS; DIF] f1 f' u T1 T2 T4 H) as [R2 Tk].
    split; [eapply R_trans; eauto|]. intros i j A B. rewrite (set_attr_members _ _ _ _ _ _ a INS i H) in A. rewrite (set_attr_members _ _ _ _ _ _ i GEO j H) in B. rewrite (set_attr_members _ _ _ _ _ _ i DIF j H).
    assert (R03 : R f0 f1) by (eapply R_trans; eauto).
    destruct (above f1 a INS i R03 ltac:(pose proof a_in; lia) ltac:(notnew) A) as [A0 LA]. destruct (above f1 i GEO j R03 ltac:(lia) ltac:(notnew) B) as [B0 LB].
    assert (i = h_id ins) as ->. { eapply member_fun; [exact A|]. eapply grow_member; [apply R1|lia|exact M1]. }
    assert (j = h_id g) as ->. { eapply member_fun; [exact B|]. eapply grow_member; [apply R1|lia|exact M2]. }
    split; [exact M3|]. rewrite <- Et. exact Tk.
  Qed.
  Lemma pos_R f f' u : R f0 f -> link_positioners e_ f = (f', Ok u) -> R f f'.
  Proof.
    intros Rf H. unfold link_positioners in H. apply bind_ok in H. destruct H as (b1 & f1 & E1 & H). unfold hin in E1. assert (f1 = f) by congruence. subst f1. clear E1.
    apply bind_ok in H. destruct H as (b2 & f1 & E1 & H). unfold hin in E1. assert (f1 = f) by congruence. subst f1. clear E1.
    destruct (b1 && b2); [|unfold sret in H; assert (f' = f) by congruence; subst f'; apply R_refl].
    apply bind_ok in H. destruct H as (t & f1 & E1 & H). unfold hget in E1. destruct (resolve (h_id e_) (L "instrument/positioners") f) as [j|] eqn:Er; [|discriminate].
    assert (f1 = f /\ t = mk_handle j (sub_name (h_name e_) (L "instrument/positioners"))) as [-> ->] by (split; congruence). clear E1.
    unfold resolve in Er. change (parts (L "instrument/positioners")) with [INS; L "positioners"] in Er. change (start (h_id e_) (L "instrument/positioners")) with a in Er.
    assert (Er' : walk [INS; L "positioners"] a f = Some j) by exact Er. clear Er. apply walk_leads in Er'.
    inversion Er' as [|? ? i1 ? ? A1 E1]; subst. inversion E1 as [|? ? i2 ? ? A2 E2]; subst. inversion E2; subst.
    destruct (above f a INS i1 Rf ltac:(pose proof a_in; lia) ltac:(notnew) A1) as [_ L1].
    destruct (above f i1 (L "positioners") j Rf ltac:(lia) ltac:(notnew) A2) as [_ L2]. cbn [h_id h_name e_] in H.
    rewrite (sub_name_at [sk]) in H; [|constructor; auto|reflexivity]. change (parts (L "instrument/positioners")) with [INS; L "positioners"] in H.
    destruct (R_target a sk j [INS; L "positioners"] f f' u) as [X _]; [constructor; [pln|constructor; [pln|constructor]]|lia| |exact H|exact X].
    econstructor; [lia|exact A1|]. econstructor; [lia|exact A2|]. constructor.
  Qed.
  (** the link [n] in the group [g] (of class [c]) to the object [j] *)
  Definition linked f g c n j : Prop := 1 <= g /\ nx_group f g c /\ member f g n j /\ tok f j.
  Lemma linked_R f f' g c n j : R f f' -> linked f g c n j -> linked f' g c n j.
  Proof. intros [G K T] (A & B & C & D). split; [auto|]. split; [eapply grow_nx; eauto|]. split; [eapply grow_member; eauto|auto]. Qed.
  Lemma entry_get f f' n h : R f0 f -> plain_name n -> ~ In n NEWS -> hget e_ n f = (f', Ok h) -> f' = f /\ hat f [n] h /\ a <= h_id h < List.length f0.
  Proof.
    intros Rf Hn Nn H. apply hget_ok in H; [|auto]. destruct H as (-> & N1 & M1). cbn [e_ h_id h_name] in N1, M1.
    destruct (above f a n (h_id h) Rf ltac:(pose proof a_in; lia) Nn M1) as [_ Li]. split; [reflexivity|]. split; [|exact Li].
    apply (sub_hat f [] e_ n); [exact Hn|apply e_hat|lia|exact N1|exact M1].
  Qed.
  Lemma hat_top f n h : hat f [n] h -> member f a n (h_id h).
  Proof. intros (_ & _ & _ & D). inversion D as [|? ? j ? ? A B C]; subst. inversion C; subst. exact B. Qed.
  Definition mon_ok f : Prop := (forall j, member f a (L "M") j -> exists g, member f a MONI g /\ linked f g "NXmonitor"%string (L "preset") j) /\
    (forall j, (forall j', ~ member f a (L "M") j') -> member f a (L "T") j -> exists g, member f a MONI g /\ linked f g "NXmonitor"%string (L "preset") j).
  Lemma keep_down f f' i n j : R f f' -> 1 <= i < List.length f -> ~ In n NEWS -> member f' i n j -> member f i n j.
  Proof. intros X. apply (R_keep a sk _ _ X). Qed.
  Lemma len_R f f' : R f f' -> List.length f <= List.length f'.
  Proof. intros [[A _] _ _]. exact A. Qed.
  Lemma mon_R f f' u : R f0 f -> link_monitor e_ f = (f', Ok u) -> R f f' /\ mon_ok f'.
  Proof.
    intros Rf H. pose proof a_in as LA. pose proof (len_R _ _ Rf) as LL. unfold link_monitor in H.
    destruct (hin_plain e_ (L "M") f ltac:(pln)) as (m & Em & Hm). destruct (hin_plain e_ (L "T") f ltac:(pln)) as (t & Et & Ht). cbn [e_ h_id] in Hm, Ht. fold e_ in Em, Et.
    rewrite sbind_eq, Em in H. rewrite sbind_eq, Et in H.
    assert (HH : forall f1 n h g f2, hget e_ n f = (f1, Ok h) -> plain_name n -> ~ In n NEWS -> makeGroup e_ MONI (L "NXmonitor") [] f1 = (f2, Ok g) ->
      link_in g (L "preset") h f2 = (f', Ok u) -> R f f' /\ member f a n (h_id h) /\ exists g, member f' a MONI g /\ linked f' g "NXmonitor"%string (L "preset") (h_id h)).
    { intros f1 n h g f2 G1 Hn Nn G2 G3. destruct (entry_get _ _ _ _ Rf Hn Nn G1) as (-> & A1 & A2).
      destruct (makeGroup_R a sk Hsk f f2 e_ g [] MONI "NXmonitor"%string ltac:(pln) ltac:(simpl; tauto) (e_hat f) G2) as (B1 & B2 & B3 & B4).
      destruct (link_in_R a sk Hsk f2 f' u g [MONI] (L "preset") h ltac:(pln) ltac:(simpl; tauto) B4 ltac:(lia) G3) as (C1 & C2 & C3).
      split; [eapply R_trans; eauto|]. split; [apply hat_top; exact A1|]. exists (h_id g). split; [eapply grow_member; [apply C1|exact Ha|exact B2]|].
      split; [apply B4|]. split; [eapply grow_nx; [apply C1|apply B4|exact B3]|]. auto. }
    destruct m; cbn [orb] in H.
    - apply bind_ok in H. destruct H as (h & f1 & G1 & H). apply bind_ok in H. destruct H as (g & f2 & G2 & G3).
      destruct (HH _ _ _ _ _ G1 ltac:(pln) ltac:(notnew) G2 G3) as (X & Y & Z). split; [exact X|]. split.
      + intros j Mj. apply (keep_down _ _ _ _ _ X) in Mj; [|lia|notnew]. rewrite (member_fun _ _ _ _ _ Mj Y). exact Z.
      + intros j Nj _. destruct (Nj (h_id h)). eapply grow_member; [apply X|exact Ha|exact Y].
    - destruct t.
      + apply bind_ok in H. destruct H as (h & f1 & G1 & H). apply bind_ok in H. destruct H as (g & f2 & G2 & G3).
        destruct (HH _ _ _ _ _ G1 ltac:(pln) ltac:(notnew) G2 G3) as (X & Y & Z). split; [exact X|]. split.
        * intros j Mj. apply (keep_down _ _ _ _ _ X) in Mj; [|lia|notnew]. assert (false = true) by (apply Hm; eauto). discriminate.
        * intros j _ Mj. apply (keep_down _ _ _ _ _ X) in Mj; [|lia|notnew]. rewrite (member_fun _ _ _ _ _ Mj Y). exact Z.
      + unfold sret in H. assert (f' = f) by congruence. subst f'. split; [apply R_refl|]. split.
        * intros j Mj. assert (false = true) by (apply Hm; eauto). discriminate.
        * intros j _ Mj. assert (false = true) by (apply Ht; eauto). discriminate.
  Qed.
  Definition temp_ok f : Prop := forall n m j, (n, m) = (L "TEMP_SP", L "target_value") \/ (n, m) = (L "DEGC_SP", L "value") -> member f a n j ->
    exists s g, 1 <= s /\ member f a SAM s /\ member f s (L "temperature") g /\ linked f g "NXlog"%string m j.
  Lemma temp_R f f' u : R f0 f -> link_temperature e_ f = (f', Ok u) -> R f f' /\ temp_ok f'.
  Proof.
    intros Rf H. pose proof a_in as LA. pose proof (len_R _ _ Rf) as LL. unfold link_temperature in H.
    destruct (hin_plain e_ (L "TEMP_SP") f ltac:(pln)) as (t & Et & Ht). destruct (hin_plain e_ (L "DEGC_SP") f ltac:(pln)) as (d & Ed & Hd). cbn [e_ h_id] in Ht, Hd. fold e_ in Et, Ed.
    rewrite sbind_eq, Et in H. rewrite sbind_eq, Ed in H. destruct (t || d) eqn:Eo.
    2:{ apply Bool.orb_false_iff in Eo. destruct Eo as [-> ->]. unfold sret in H. assert (f' = f) by congruence. subst f'. split; [apply R_refl|].
        intros n m j [X|X] Mj; injection X; intros -> ->; exfalso; assert (false = true) by (first [apply Ht; exists j; exact Mj|apply Hd; exists j; exact Mj]); discriminate. }
    apply bind_ok in H. destruct H as (s & f1 & G1 & H). destruct (entry_get _ _ SAM _ Rf ltac:(pln) ltac:(notnew) G1) as (-> & S1 & S2). clear G1.
    apply bind_ok in H. destruct H as (g & f2 & G2 & H).
    destruct (makeGroup_R a sk Hsk f f2 s g [SAM] (L "temperature") "NXlog"%string ltac:(pln) ltac:(simpl; tauto) S1 G2) as (B1 & B2 & B3 & B4). clear G2.
    apply bind_ok in H. destruct H as (u1 & f3 & H1 & H2). pose proof (hat_top _ _ _ S1) as MS.
    assert (HH : forall (b : bool) n m fa fb u, R f2 fa -> plain_name n -> ~ In n NEWS -> plain_name m -> In m NEWS ->
      (if b then let* x := hget e_ n in link_in g m x else sret tt) fa = (fb, Ok u) -> R fa fb /\
      (b = true -> exists j, member fb a n j /\ linked fb (h_id g) "NXlog"%string m j)).
    { intros b n m fa fb u0 Ra Hn Nn Hm Nm G. destruct b; [|unfold sret in G; assert (fb = fa) by congruence; subst fb; split; [apply R_refl|discriminate]].
      assert (R0a : R f0 fa) by (eapply R_trans; [exact Rf|eapply R_trans; eauto]).
      apply bind_ok in G. destruct G as (h & f4 & G1 & G). destruct (entry_get _ _ _ _ R0a Hn Nn G1) as (-> & A1 & A2).
      assert (Hg : hat fa [SAM; L "temperature"] g) by (destruct B4 as (X1 & X2 & X3 & X4); split; [auto|]; split; [auto|]; split; [auto|]; eapply grow_down; [apply Ra|exact X4]).
      destruct (link_in_R a sk Hsk fa fb u0 g [SAM; L "temperature"] m h Hm Nm Hg ltac:(lia) G) as (C1 & C2 & C3). split; [exact C1|]. intros _.
      exists (h_id h). split; [eapply grow_member; [apply C1|exact Ha|apply hat_top; exact A1]|]. split; [apply B4|].
      split; [eapply grow_nx; [eapply R_grow; eapply R_trans; [exact Ra|exact C1]|apply B4|exact B3]|]. auto. }
    destruct (HH t (L "TEMP_SP") (L "target_value") _ _ _ (R_refl _ _ f2) ltac:(pln) ltac:(notnew) ltac:(pln) ltac:(simpl; tauto) H1) as [R3 X3].
    destruct (HH d (L "DEGC_SP") (L "value") _ _ _ R3 ltac:(pln) ltac:(notnew) ltac:(pln) ltac:(simpl; tauto) H2) as [R4 X4].
    assert (RA : R f f') by (eapply R_trans; [exact B1|]; eapply R_trans; eauto).
    assert (R24 : R f2 f') by (eapply R_trans; eauto).
    split; [exact RA|].
    assert (Fin : forall n m (b : bool), (b = true <-> exists j, member f a n j) -> ~ In n NEWS -> (b = true -> exists j, member f' a n j /\ linked f' (h_id g) "NXlog"%string m j) ->
      forall j, member f' a n j -> exists s g, 1 <= s /\ member f' a SAM s /\ member f' s (L "temperature") g /\ linked f' g "NXlog"%string m j).
    { intros n m b Hb Nn Hx j Mj. pose proof (keep_down f f' a n j RA ltac:(lia) Nn Mj) as Mf. destruct (Hx (proj2 Hb (ex_intro _ j Mf))) as (j' & J1 & J2).
      rewrite (member_fun _ _ _ _ _ Mj J1). exists (h_id s), (h_id g). split; [lia|]. split; [eapply grow_member; [apply RA|exact Ha|exact MS]|].
      split; [|exact J2]. eapply grow_member; [apply R24|lia|exact B2]. }
    intros n m j [X|X] Mj; injection X; intros -> ->.
    - apply (Fin (L "TEMP_SP") (L "target_value") t Ht ltac:(notnew)); [|exact Mj]. intros Hb. destruct (X3 Hb) as (j' & J1 & J2).
      exists j'. split; [eapply grow_member; [apply R4|exact Ha|exact J1]|]. eapply linked_R; [exact R4|exact J2].
    - apply (Fin (L "DEGC_SP") (L "value") d Hd ltac:(notnew)); [exact X4|exact Mj].
  Qed.
  Definition geo_ok f : Prop := forall i j, member f a INS i -> member f i GEO j -> member f i DIF j /\ tok f j.
  Definition links_ok f : Prop := geo_ok f /\ mon_ok f /\ temp_ok f.
  (** steps that keep all of that *)
  Lemma ok_R f f' : List.length f0 <= List.length f -> R f0 f -> R f f' -> links_ok f -> links_ok f'.
  Proof.
    intros LL R0 X (A & (B1 & B2) & C). pose proof a_in as LA. split; [|split; [split|]].
    - intros i j Mi Mj. apply (keep_down _ _ _ _ _ X) in Mi; [|lia|notnew]. destruct (above f a INS i R0 ltac:(lia) ltac:(notnew) Mi) as [_ Li].
      apply (keep_down _ _ _ _ _ X) in Mj; [|lia|notnew]. destruct (A i j Mi Mj) as [Y Z]. split; [eapply grow_member; [apply X|lia|exact Y]|apply X; exact Z].
    - intros j Mj. apply (keep_down _ _ _ _ _ X) in Mj; [|lia|notnew]. destruct (B1 j Mj) as (g & G1 & G2). exists g. split; [eapply grow_member; [apply X|exact Ha|exact G1]|eapply linked_R; [exact X|first [exact G2|exact G3]]].
    - intros j Nj Mj. apply (keep_down _ _ _ _ _ X) in Mj; [|lia|notnew]. destruct (B2 j) as (g & G1 & G2); [|exact Mj|].
      + intros j' Mj'. apply (Nj j'). eapply grow_member; [apply X|exact Ha|exact Mj'].
      + exists g. split; [eapply grow_member; [apply X|exact Ha|exact G1]|eapply linked_R; [exact X|first [exact G2|exact G3]]].
    - intros n m j Hn Mj. apply (keep_down _ _ _ _ _ X) in Mj; [|lia|destruct Hn as [Y|Y]; injection Y; intros -> ->; notnew].
      destruct (C n m j Hn Mj) as (s & g & G0 & G1 & G2 & G3). exists s, g. split; [exact G0|]. split; [eapply grow_member; [apply X|exact Ha|exact G1]|]. split; [eapply grow_member; [apply X|exact G0|exact G2]|eapply linked_R; [exact X|first [exact G2|exact G3]]].
  Qed.
  Lemma final_ok f' u : final_links e_ f0 = (f', Ok u) -> R f0 f' /\ links_ok f'.
  Proof.
    intros H. unfold final_links in H. apply bind_ok in H. destruct H as (u1 & f1 & H1 & H). destruct (diffr_R _ _ _ (R_refl a sk f0) H1) as [R1 A1].
    apply bind_ok in H. destruct H as (u2 & f2 & H2 & H). pose proof (pos_R _ _ _ R1 H2) as R2. assert (R02 : R f0 f2) by (eapply R_trans; eauto).
    apply bind_ok in H. destruct H as (u3 & f3 & H3 & H). destruct (mon_R _ _ _ R02 H3) as [R3 A3]. assert (R03 : R f0 f3) by (eapply R_trans; eauto).
    destruct (temp_R _ _ _ R03 H) as [R4 A4]. assert (R04 : R f0 f') by (eapply R_trans; eauto). split; [exact R04|].
    pose proof a_in as LA. assert (R14 : R f1 f') by (eapply R_trans; [exact R2|]; eapply R_trans; eauto).
    split; [|split; [|exact A4]].
    - intros i j Mi Mj. pose proof (len_R _ _ R1). apply (keep_down _ _ _ _ _ R14) in Mi; [|lia|notnew]. destruct (above f1 a INS i R1 ltac:(lia) ltac:(notnew) Mi) as [_ Li].
      apply (keep_down _ _ _ _ _ R14) in Mj; [|lia|notnew]. destruct (A1 i j Mi Mj) as [Y Z]. split; [eapply grow_member; [apply R14|lia|exact Y]|apply R14; exact Z].
    - pose proof (len_R _ _ R03). destruct A3 as [B1 B2]. split.
      + intros j Mj. apply (keep_down _ _ _ _ _ R4) in Mj; [|lia|notnew]. destruct (B1 j Mj) as (g & G1 & G2). exists g. split; [eapply grow_member; [apply R4|exact Ha|exact G1]|eapply linked_R; [exact R4|exact G2]].
      + intros j Nj Mj. apply (keep_down _ _ _ _ _ R4) in Mj; [|lia|notnew]. destruct (B2 j) as (g & G1 & G2); [|exact Mj|].
        * intros j' Mj'. apply (Nj j'). eapply grow_member; [apply R4|exact Ha|exact Mj'].
        * exists g. split; [eapply grow_member; [apply R4|exact Ha|exact G1]|eapply linked_R; [exact R4|exact G2]].
  Qed.
End Final.
