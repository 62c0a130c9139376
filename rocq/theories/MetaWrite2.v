(** The datasets that the writers of a scan put into its entry *)
From Coq Require Import String Lia.
From Verif Require Import Py PyFacts Utils SpecUtils Keys Time Geom Handlers Reader SpecWriter NamesFacts
  H5 SpecH5 H5Facts FrameH5 H5Exact Writer DataWrite KeepFacts SaveFacts EntryData FrameK WriterFrameK GrowFacts ClaimFacts MetaWrite.
Import ListNotations.
Local Open Scope list_scope.

(** dataset [n] of group [a] with value [v] and attributes [l] *)
Definition holds (f : h5) (a : nat) (n : str) (v : hval) (l : attrs_t) : Prop :=
  exists j, a < j /\ member f a n j /\ dataset f j v /\ Forall (fun kv => attribute f j (fst kv) (snd kv)) l.
Lemma holds_grow f f' a n v l : 1 <= a -> ~ In TGT (keys l) -> grow f f' -> holds f a n v l -> holds f' a n v l.
Proof.
  intros Ha Nt G (j & A & B & C & D). exists j. split; [auto|]. split; [eapply grow_member; eauto|]. split; [eapply grow_dataset; eauto; lia|].
  rewrite Forall_forall in *. intros kv H. eapply grow_attribute; [exact G|lia| |apply D; auto]. intros X. apply Nt. rewrite <- X. apply (in_map fst). auto.
Qed.
Lemma attrs_get l : NoDup (keys l) -> forall v at_ kv, In kv l -> dget (fst kv) (node_attrs (with_attrs (Dset v at_) l)) = Some (snd kv).
Proof.
  intros ND v at_ kv Hin. cbn [with_attrs node_attrs]. revert at_. induction l as [|[k x] l IH]; intros at_; [destruct Hin|].
  inversion ND as [|? ? N1 N2]; subst. cbn [fold_left fst snd]. destruct Hin as [<-|Hin].
  - cbn [fst snd]. assert (X : forall at_, dget k at_ = Some x -> dget k (fold_left (fun a0 kv0 => dset (fst kv0) (snd kv0) a0) l at_) = Some x).
    { clear - N1. induction l as [|[k' x'] l IH]; intros at_ H; cbn [fold_left fst snd]; auto. apply IH; [intros X; apply N1; right; auto|].
      rewrite dget_dset_other; auto. intros ->. apply N1. left; auto. }
    apply X. apply dget_dset_same.
  - apply IH; auto.
Qed.
Lemma node_holds f a n v l j : a < j -> member f a n j -> NoDup (keys l) -> nth_error f j = Some (with_attrs (Dset v []) l) -> holds f a n v l.
Proof.
  intros A B ND H. exists j. split; [auto|split; [auto|]]. split.
  - eexists. exact H.
  - apply Forall_forall. intros kv Hin. exists (with_attrs (Dset v []) l). split; [auto|]. apply (attrs_get l ND v [] kv Hin).
Qed.

Lemma write_dataset_group e n d l f f' o : plain_name n -> h_id e < List.length f -> write_dataset e n d l f = (f', Ok o) ->
  exists ms at_ v, nth_error f (h_id e) = Some (Group ms at_) /\ to_hval d = Ok v.
Proof.
  intros Hp Hl H. assert (D : exists v, to_hval d = Ok v).
  { destruct (to_hval d) as [v|x] eqn:Ev; [eauto|exfalso]. unfold write_dataset in H. rewrite sbind_eq in H. unfold hin in H. rewrite sbind_eq in H.
    destruct (resolve (h_id e) n f); [destruct (hdel e n f) as [g1 [u1|x1]]|unfold sret at 1 in H];
      try discriminate; cbv iota beta in H; unfold makeDataset in H; rewrite sbind_eq in H; unfold slift in H; rewrite Ev in H; discriminate. }
  destruct D as [v Hv]. destruct (nth_error f (h_id e)) as [[ms at_|x at_]|] eqn:En; [exists ms, at_, v; auto| |].
  - exfalso. unfold write_dataset in H. rewrite sbind_eq in H. unfold hin, resolve in H.
    rewrite (start_rel _ _ (plain_rel n Hp)), (parts_plain n Hp) in H. destruct n as [|c n]; [destruct Hp; congruence|]. cbn [walk] in H. rewrite En in H.
    rewrite sbind_eq in H. unfold sret at 1 in H. cbv iota beta in H. unfold makeDataset in H. rewrite sbind_eq in H. unfold slift in H. rewrite Hv in H.
    rewrite sbind_eq in H. unfold create_at in H. rewrite (parts_plain _ Hp) in H. cbn [rev app] in H. rewrite sbind_eq in H.
    rewrite (start_rel _ _ (plain_rel _ Hp)) in H. cbn [dig] in H. rewrite sbind_eq in H. unfold free in H. rewrite En in H. discriminate.
  - apply nth_error_None in En. lia.
Qed.

Definition K1 (n : str) (p : list str) : Prop := p = [n].
Lemma K1_0 n : ~ K1 n []. Proof. discriminate. Qed.
Lemma K1_2 n g m : K1 n [g; m] -> Uq g. Proof. discriminate. Qed.
Lemma base_keeps {A} a sk (m : HM A) Q f f' r : FrameK.hk (PO a) a sk noK noI m Q -> BInv a sk f -> m f = (f', r) -> BInv a sk f'.
Proof. intros H I E. destruct (H f I) as [X _]. rewrite E in X. exact X. Qed.

Lemma write_up a sk n d l f f' o : 0 < a -> plain_name sk -> plain_name n -> ~ Uq n -> NoDup (keys l) -> BInv a sk f ->
  write_dataset (mk_handle a (name_at [sk])) n d l f = (f', Ok o) ->
  exists v, to_hval d = Ok v /\ BInv a sk f' /\ FrameK.Inv (PP a (List.length f) (S (List.length f))) a sk (K1 n) noI f' /\
    (forall g, FrameK.Fr (PP a (List.length f) (S (List.length f))) a (K1 n) noI f' g -> holds g a n v l).
Proof.
  intros Ha Hp Hn U ND I H. set (e := mk_handle a (name_at [sk])) in *. set (b := List.length f).
  assert (Hab : a < b) by apply (FrameK.inv_alt _ _ _ _ _ f I).
  destruct (write_dataset_group e n d l f f' o Hn Hab H) as (ms & at_ & v & Na & Hv).
  assert (NDm : NoDup (keys ms)) by (apply (FrameK.inv_wf _ _ _ _ _ f I a ms at_ Na)).
  assert (I' : BInv a sk f').
  { eapply base_keeps; [apply (FrameK.write_dataset_keeps (PO a) a sk noK noI ltac:(auto) []); [apply (entry_hat _ a sk noK noI f Hp I)|]|exact I|exact H].
    split; [apply plain_rel; auto|]. rewrite parts_plain by auto. split; [split; auto|]. intros g Hg X. inversion X; subst; auto. }
  rewrite (write_dataset_eq e n d l v ms at_ f Hn Hv NDm Na) in H. cbn [e h_id] in H.
  assert (Ef : f' = made a n (ddel n ms) at_ (with_attrs (Dset v []) l) f) by congruence. clear H.
  cbn [e h_id] in Na.
  assert (NN : forall j, nth_error f' j = if Nat.eqb j a then Some (Group (ddel n ms ++ [(n, b)]) at_) else if Nat.eqb j b then Some (with_attrs (Dset v []) l) else nth_error f j).
  { intros j. rewrite Ef. apply (made_nth _ _ _ _ _ _ _ Na). }
  assert (L' : List.length f' = S b) by (rewrite Ef; apply made_length).
  assert (M' : member f' a n b).
  { exists (ddel n ms ++ [(n, b)]), at_. rewrite NN, Nat.eqb_refl. split; [auto|]. apply dget_none_app. apply ddel_gone; auto. }
  assert (B' : nth_error f' b = Some (with_attrs (Dset v []) l)).
  { rewrite NN. destruct (Nat.eqb_spec b a); [lia|]. rewrite Nat.eqb_refl. reflexivity. }
  exists v. split; [auto|]. split; [auto|]. split.
  - apply upgrade; auto; [lia| |intros j g []].
    intros i m j Hi Nr (ms1 & at1 & A1 & A2) Hj. left. assert (j = b) by lia. subst j. rewrite NN in A1.
    destruct (Nat.eqb_spec i a) as [->|Ne].
    + split; [auto|]. inversion A1; subst. apply in_app_iff in A2. destruct A2 as [A2|[A2|[]]]; [|inversion A2; reflexivity].
      apply In_ddel in A2. pose proof (FrameK.inv_bd _ _ _ _ _ f I a ms at1 m b Na A2). lia.
    + destruct (Nat.eqb_spec i b); [lia|]. pose proof (FrameK.inv_bd _ _ _ _ _ f I i ms1 at1 m b A1 A2). lia.
  - intros g [G1 G2 G3 G4]. eapply node_holds; [exact Hab|apply G3; [reflexivity|exact M']|auto|]. rewrite G2; [auto|]. right. lia.
Qed.
Lemma wds_up a sk n d l w w' u : 0 < a -> plain_name sk -> plainb n = true -> ~ Uq n -> BW a sk w ->
  wds (mk_handle a (name_at [sk])) n d l w = (w', Ok u) -> NoDup (keys l) ->
  w_scan w' = w_scan w /\ w_hdr w' = w_hdr w /\
  exists v P, to_hval d = Ok v /\ BW a sk w' /\ FrameK.Inv P a sk (K1 n) noI (w_h5 w') /\
    (forall g, FrameK.Fr P a (K1 n) noI (w_h5 w') g -> holds g a n v l).
Proof.
  intros Ha Hp Hn U (I & N1 & N2) H ND. unfold wds, hdf, unit_of in H. rewrite sbind_eq in H.
  destruct (write_dataset _ n d l (w_h5 w)) as [f1 [o|x]] eqn:Ew; [|discriminate]. unfold sret in H.
  assert (w' = mk_ws (w_scan w) (w_hdr w) f1) by congruence. subst w'. cbn [w_scan w_hdr w_h5]. do 2 (split; [auto|]).
  apply plainb_ok in Hn. destruct (write_up a sk n d l _ _ _ Ha Hp Hn U ND I Ew) as (v & V1 & V2 & V3 & V4).
  exists v. eexists. split; [auto|]. split; [split; [exact V2|auto]|]. split; [exact V3|exact V4].
Qed.

Ltac nuq := let H := fresh in unfold Uq; intros H; simpl in H; repeat (destruct H as [H|H]; [discriminate H|]); destruct H.
(** only writer [h] has the name *)
Ltac okk := let h' := fresh in let N := fresh in intros h' N; unfold okw, K1; destruct h'; try congruence; repeat split; try discriminate; try (intros; discriminate); try exact I.
Ltac nodup := repeat constructor; simpl; intuition discriminate.
Lemma rd_ok o x w w' v : rd o x w = (w', Ok v) -> w' = w /\ obj_of o w x = Some v.
Proof. unfold rd. destruct (obj_of o w x); [|discriminate]. intros H. injection H; intros <- <-. auto. Qed.
Lemma lift_ok {S A} (r : res A) (w w' : S) v : slift r w = (w', Ok v) -> w' = w /\ r = Ok v.
Proof. unfold slift. intros H. injection H; intros <- <-. auto. Qed.
Lemma bind_ok {S A B} (m : St S A) (k : A -> St S B) w w' r : sbind m k w = (w', Ok r) -> exists x w1, m w = (w1, Ok x) /\ k x w1 = (w', Ok r).
Proof. rewrite sbind_eq. destruct (m w) as [w1 [x|e]]; [eauto|discriminate]. Qed.

Definition Psi_D (o : obj) (f : h5) (a : nat) : Prop := forall d t, o A_date = Some d -> iso8601 d = Ok t -> holds f a (L "date") (HTexts [ascii t]) [].
Lemma est_D : est H_D Psi_D.
Proof.
  intros cmd a sk w w' u Ha Hp Has W H. cbn [writer_of] in H. unfold w_D in H.
  apply bind_ok in H. destruct H as (d & w1 & H1 & H). apply rd_ok in H1. destruct H1 as [-> H1].
  apply bind_ok in H. destruct H as (t & w1 & H2 & H). apply lift_ok in H2. destruct H2 as [-> H2].
  destruct (wds_up a sk (L "date") _ _ w w' u Ha Hp eq_refl ltac:(nuq) W H ltac:(nodup)) as (_ & _ & v & P & V1 & V2 & V3 & V4).
  exists P, (K1 (L "date")), noI. split; [apply K1_0|]. split; [apply K1_2|]. split; [okk|]. split; [exact V3|].
  intros g _ G d' t' Hd Ht. cbn [obj_of] in H1. rewrite H1 in Hd. injection Hd; intros <-. rewrite H2 in Ht. injection Ht; intros <-.
  cbn [to_hval] in V1. injection V1; intros ->. auto.
Qed.
Definition Psi_C (o : obj) (f : h5) (a : nat) : Prop := forall c, o A_comments = Some c -> holds f a (L "comments") (HTexts [ascii (join [LF] c)]) [].
Lemma est_C : est H_C Psi_C.
Proof.
  intros cmd a sk w w' u Ha Hp Has W H. cbn [writer_of] in H. unfold w_C in H.
  apply bind_ok in H. destruct H as (d & w1 & H1 & H). apply rd_ok in H1. destruct H1 as [-> H1].
  destruct (wds_up a sk (L "comments") _ _ w w' u Ha Hp eq_refl ltac:(nuq) W H ltac:(nodup)) as (_ & _ & v & P & V1 & V2 & V3 & V4).
  exists P, (K1 (L "comments")), noI. split; [apply K1_0|]. split; [apply K1_2|]. split; [okk|]. split; [exact V3|].
  intros g _ G c Hc. cbn [obj_of] in H1. rewrite H1 in Hc. injection Hc; intros <-. cbn [to_hval] in V1. injection V1; intros ->. auto.
Qed.
Definition MON : string := "SPEC scan with constant monitor count". Definition TIM : string := "SPEC scan with constant counting time".
Definition Psi_M (o : obj) (f : h5) (a : nat) : Prop := forall m x, o A_M = Some m -> py_float m = Ok x ->
  holds f a (L "M") (HArr [1] [NF x]) [(L "units", t_ "counts"); desc MON].
Lemma est_M : est H_M Psi_M.
Proof.
  intros cmd a sk w w' u Ha Hp Has W H. cbn [writer_of] in H. unfold w_M in H. cbv zeta in H.
  apply bind_ok in H. destruct H as (u1 & w1 & H0 & H).
  destruct (wds_up a sk (L "counting_basis") _ _ w w1 u1 Ha Hp eq_refl ltac:(nuq) W H0 ltac:(nodup)) as (E1 & E2 & _ & _ & _ & W1 & _). clear H0.
  apply bind_ok in H. destruct H as (d & w2 & H1 & H). apply rd_ok in H1. destruct H1 as [-> H1].
  apply bind_ok in H. destruct H as (t & w2 & H2 & H). apply lift_ok in H2. destruct H2 as [-> H2].
  destruct (wds_up a sk (L "M") _ _ w1 w' u Ha Hp eq_refl ltac:(nuq) W1 H ltac:(nodup)) as (_ & _ & v & P & V1 & V2 & V3 & V4).
  exists P, (K1 (L "M")), noI. split; [apply K1_0|]. split; [apply K1_2|]. split; [okk|]. split; [exact V3|].
  intros g _ G m x Hm Hx. cbn [obj_of] in H1. rewrite E1, Hm in H1. injection H1; intros ->. rewrite H2 in Hx. injection Hx; intros <-.
  cbn [to_hval] in V1. injection V1; intros ->. auto.
Qed.
Definition Psi_T (o : obj) (f : h5) (a : nat) : Prop := forall m x, o A_T = Some m -> py_float m = Ok x ->
  holds f a (L "T") (HArr [1] [NF x]) [(L "units", t_ "s"); desc TIM].
Lemma est_T : est H_T Psi_T.
Proof.
  intros cmd a sk w w' u Ha Hp Has W H. cbn [writer_of] in H. unfold w_T in H. cbv zeta in H.
  apply bind_ok in H. destruct H as (u1 & w1 & H0 & H).
  destruct (wds_up a sk (L "counting_basis") _ _ w w1 u1 Ha Hp eq_refl ltac:(nuq) W H0 ltac:(nodup)) as (E1 & E2 & _ & _ & _ & W1 & _). clear H0.
  apply bind_ok in H. destruct H as (d & w2 & H1 & H). apply rd_ok in H1. destruct H1 as [-> H1].
  apply bind_ok in H. destruct H as (t & w2 & H2 & H). apply lift_ok in H2. destruct H2 as [-> H2].
  destruct (wds_up a sk (L "T") _ _ w1 w' u Ha Hp eq_refl ltac:(nuq) W1 H ltac:(nodup)) as (_ & _ & v & P & V1 & V2 & V3 & V4).
  exists P, (K1 (L "T")), noI. split; [apply K1_0|]. split; [apply K1_2|]. split; [okk|]. split; [exact V3|].
  intros g _ G m x Hm Hx. cbn [obj_of] in H1. rewrite E1, Hm in H1. injection H1; intros ->. rewrite H2 in Hx. injection Hx; intros <-.
  cbn [to_hval] in V1. injection V1; intros ->. auto.
Qed.
Definition Psi_Q (o : obj) (f : h5) (a : nat) : Prop := forall q, o A_Q = Some (Some q) ->
  holds f a (L "Q") (HArr [List.length q] (nums q)) [desc "hkl at start of scan"].
Lemma est_Q : est H_Q Psi_Q.
Proof.
  intros cmd a sk w w' u Ha Hp Has W H. cbn [writer_of] in H. unfold w_Q in H.
  apply bind_ok in H. destruct H as (d & w1 & H1 & H). apply rd_ok in H1. destruct H1 as [-> H1].
  destruct (wds_up a sk (L "Q") _ _ w w' u Ha Hp eq_refl ltac:(nuq) W H ltac:(nodup)) as (_ & _ & v & P & V1 & V2 & V3 & V4).
  exists P, (K1 (L "Q")), noI. split; [apply K1_0|]. split; [apply K1_2|]. split; [okk|]. split; [exact V3|].
  intros g _ G q Hq. cbn [obj_of] in H1. rewrite H1 in Hq. injection Hq; intros ->. cbn [to_hval] in V1. injection V1; intros <-.
  rewrite <- (nums_length q). auto.
Qed.
