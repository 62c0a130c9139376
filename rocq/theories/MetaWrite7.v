(** Datasets in the special groups of the entry: lines of the user, sample and instrument *)
From Coq Require Import String Lia.
From Verif Require Import Py PyFacts NumFacts Utils SpecUtils Keys Time Geom Handlers Reader SpecWriter NamesFacts
  H5 SpecH5 H5Facts FrameH5 H5Exact Writer DataWrite KeepFacts SaveFacts EntryData FrameK WriterFrame WriterFrameK GrowFacts ClaimFacts MetaWrite MetaWrite2 MetaWrite3 MetaWrite5 MetaWrite6.
Import ListNotations.
Local Open Scope list_scope.

Definition K3 (g n : str) (p : list str) : Prop := p = [g; n].
Definition I3 (i : nat) (g : str) (j : nat) (h : str) : Prop := j = i /\ h = g.
Lemma K3_0 g n : ~ K3 g n []. Proof. discriminate. Qed.
Lemma K3_2 g n (U : Uq g) h m : K3 g n [h; m] -> Uq h. Proof. intros X. injection X; intros _ ->. exact U. Qed.
Lemma K3_1 g n h : ~ K3 g n [h]. Proof. discriminate. Qed.

(** dataset [n] in group [g] of the entry *)
Definition sub_holds (f : h5) (a : nat) (g n : str) (v : hval) (l : attrs_t) : Prop := exists i, a < i /\ member f a g i /\ holds f i n v l.
Lemma sub_holds_grow f f' a g n v l : 1 <= a -> ~ In TGT (keys l) -> grow f f' -> sub_holds f a g n v l -> sub_holds f' a g n v l.
Proof.
  intros Ha Nt G (i & A & B & C). exists i. split; [auto|]. split; [eapply grow_member; eauto|]. eapply holds_grow; eauto. lia.
Qed.

Lemma opened a sk g c l f f' o : plain_name sk -> plain_name g -> BInv a sk f ->
  openGroup (mk_handle a (name_at [sk])) g c l f = (f', Ok o) ->
  BInv a sk f' /\ member f' a g (h_id o) /\ FrameK.hat (PO a) a sk noI [g] o.
Proof.
  intros Hp Hg I H.
  destruct (FrameK.openGroup_keeps (PO a) a sk noK noI ltac:(auto) [] (mk_handle a (name_at [sk])) g c l (entry_hat _ a sk noK noI f Hp I)) with (f := f) as (X & _ & Y); auto.
  1: apply plain_rel; auto. 1: rewrite parts_plain by auto; discriminate. 1: rewrite parts_plain by auto; split; auto.
  rewrite H in X, Y. cbn [fst snd] in X, Y. specialize (Y o eq_refl). rewrite parts_plain in Y by auto. cbn [app] in Y.
  split; [exact X|]. split; [|exact Y].
  pose proof (FrameK.inv_alt _ _ _ _ _ f I) as Hl. unfold openGroup in H. cbn [h_id h_name] in H.
  destruct (resolve a g f) as [i|] eqn:R.
  - cbv zeta in H. rewrite sbind_eq in H.
    assert (M : member f a g i).
    { destruct (nth_error f a) as [[ms at_|v at_]|] eqn:Na.
      - rewrite (resolve_plain a g ms at_ f Hg Na) in R. exists ms, at_. auto.
      - exfalso. unfold resolve in R. rewrite (start_rel _ _ (plain_rel g Hg)), (parts_plain g Hg) in R. cbn [walk] in R. rewrite Na in R. destruct g; discriminate R.
      - apply nth_error_None in Na. lia. }
    assert (Li : i < List.length f). { destruct M as (ms & at_ & M1 & M2). apply dget_In in M2. apply (FrameK.inv_bd _ _ _ _ _ f I a ms at_ g i M1 M2). }
    destruct (nth_error f i) as [nd|] eqn:Ni; [|apply nth_error_None in Ni; lia].
    rewrite (addAttributes_eq _ l nd f) in H by exact Ni. unfold sret in H.
    assert (E1 : f' = put_nth i (with_attrs nd l) f) by (cbn [h_id] in H; congruence). assert (E2 : o = mk_handle i (sub_name (name_at [sk]) g)) by congruence.
    subst f' o. cbn [h_id] in *.
    assert (Ne : a <> i). { destruct (FrameK.inv_link _ _ _ _ _ f I a g i) as [N1 _]; [apply (FrameK.inv_Pa _ _ _ _ _ f I)|apply member_link; auto|auto]. }
    destruct M as (ms & at_ & M1 & M2). exists ms, at_. split; [|auto]. rewrite (put_nth_error _ _ _ _ Ni). destruct (Nat.eqb_spec a i); [contradiction|exact M1].
  - destruct (group_of_make (mk_handle a (name_at [sk])) g c l f f' o Hg Hl H) as (ms & at_ & Na & Hh & Ef & Eo).
    cbn [h_id] in *. rewrite Eo, Ef. cbn [h_id]. exists (ms ++ [(g, List.length f)]), at_.
    split; [rewrite (made_nth _ _ _ _ _ _ _ Na), Nat.eqb_refl; reflexivity|]. apply dget_none_app. auto.
Qed.

Lemma sub_written a sk g s n d l f f' o : 0 < a -> plain_name sk -> Uq g -> plain_name n -> NoDup (keys l) ->
  BInv a sk f -> member f a g (h_id s) -> FrameK.hat (PO a) a sk noI [g] s -> write_dataset s n d l f = (f', Ok o) ->
  exists v, to_hval d = Ok v /\ BInv a sk f' /\ FrameK.Inv (PP a (List.length f) (S (List.length f))) a sk (K3 g n) (I3 (h_id s) g) f' /\
    a < h_id s /\ h_id s < List.length f /\ member f' a g (h_id s) /\
    (forall h, FrameK.Inv (PP a (List.length f) (S (List.length f))) a sk (K3 g n) (I3 (h_id s) g) h ->
       FrameK.Fr (PP a (List.length f) (S (List.length f))) a (K3 g n) (I3 (h_id s) g) f' h -> sub_holds h a g n v l).
Proof.
  intros Ha Hp U Hn ND I M Hs H. set (b := List.length f). set (i := h_id s).
  assert (Li : i < b). { destruct M as (ms & at_ & M1 & M2). apply dget_In in M2. apply (FrameK.inv_bd _ _ _ _ _ f I a ms at_ g i M1 M2). }
  destruct Hs as ((P1 & P2 & _) & Hs2 & Hs3 & Hs4).
  assert (Hai : a < i). { assert (i <> a) by (intros X; specialize (P2 X); discriminate). unfold PO in P1. fold i in P1. lia. }
  destruct (write_dataset_group s n d l f f' o Hn Li H) as (ms & at_ & v & Na & Hv). fold i in Na.
  assert (NDm : NoDup (keys ms)) by (apply (FrameK.inv_wf _ _ _ _ _ f I i ms at_ Na)).
  assert (I' : BInv a sk f').
  { eapply base_keeps; [apply (FrameK.write_dataset_keeps (PO a) a sk noK noI ltac:(auto) [g]); [split; [split; [exact P1|split; [exact P2|intros ? []]]|auto]|]|exact I|exact H].
    split; [apply plain_rel; auto|]. rewrite parts_plain by auto. split; [split; auto|]. intros; discriminate. }
  rewrite (write_dataset_eq s n d l v ms at_ f Hn Hv NDm Na) in H. fold i in H.
  assert (Ef : f' = made i n (ddel n ms) at_ (with_attrs (Dset v []) l) f) by congruence. clear H.
  assert (NN : forall j, nth_error f' j = if Nat.eqb j i then Some (Group (ddel n ms ++ [(n, b)]) at_) else if Nat.eqb j b then Some (with_attrs (Dset v []) l) else nth_error f j).
  { intros j. rewrite Ef. apply (made_nth _ _ _ _ _ _ _ Na). }
  assert (L' : List.length f' = S b) by (rewrite Ef; apply made_length).
  assert (M' : member f' i n b).
  { exists (ddel n ms ++ [(n, b)]), at_. rewrite NN, Nat.eqb_refl. split; [auto|]. apply dget_none_app. apply ddel_gone; auto. }
  assert (Mg : member f' a g i).
  { destruct M as (m1 & x1 & X1 & X2). exists m1, x1. rewrite NN. destruct (Nat.eqb_spec a i); [lia|]. destruct (Nat.eqb_spec a b); [lia|]. auto. }
  assert (B' : nth_error f' b = Some (with_attrs (Dset v []) l)).
  { rewrite NN. destruct (Nat.eqb_spec b i); [lia|]. rewrite Nat.eqb_refl. reflexivity. }
  exists v. split; [auto|]. split; [auto|]. split; [|split; [auto|split; [auto|split; [auto|]]]].
  - apply upgrade; auto; [lia|lia| |].
    + intros k m j Hk Nr (ms1 & at1 & A1 & A2) Hj. right. assert (j = b) by lia. subst j. rewrite NN in A1.
      destruct (Nat.eqb_spec k i) as [->|Ne].
      * exists g. split; [split; reflexivity|]. injection A1; intros <- <-. apply in_app_iff in A2. destruct A2 as [A2|[A2|[]]]; [|injection A2; intros <-; reflexivity].
        apply In_ddel in A2. pose proof (FrameK.inv_bd _ _ _ _ _ f I i ms at_ m b Na A2). lia.
      * destruct (Nat.eqb_spec k b); [lia|]. pose proof (FrameK.inv_bd _ _ _ _ _ f I k ms1 at1 m b A1 A2). lia.
    + intros j h [-> ->]. split; [exact U|]. split; [exact Hai|]. split; [lia|exact Mg].
  - intros h Inv' [G1 G2 G3 G4]. exists i. split; [auto|]. split; [apply (FrameK.inv_I _ _ _ _ _ h Inv' i g); split; reflexivity|].
    eapply node_holds; [exact Li|apply (G4 i g); [split; reflexivity|reflexivity|exact M']|auto|]. rewrite G2; [auto|]. right. lia.
Qed.

(** handles of before *)
Lemma hat_up a sk b i g ps h : FrameK.hat (PO a) a sk noI ps h -> (h_id h < b \/ ps = []) -> a < b -> (h_id h = i -> ps = [g]) ->
  FrameK.hat (PP a b (S b)) a sk (I3 i g) ps h.
Proof.
  intros ((P1 & P2 & _) & A & B & C) Hb Hab Hi. split; [|auto]. split; [|split; [exact P2|intros q [E ->]; apply Hi; exact E]].
  intros [X|X]; [apply P1; exact X|]. destruct Hb as [Hb| ->]; [lia|]. rewrite (A eq_refl) in X. lia.
Qed.

Definition sub_up a sk g s n d l w w' u : 0 < a -> plain_name sk -> Uq g -> plain_name n -> NoDup (keys l) ->
  BW a sk w -> member (w_h5 w) a g (h_id s) -> FrameK.hat (PO a) a sk noI [g] s -> wds s n d l w = (w', Ok u) ->
  w_scan w' = w_scan w /\ w_hdr w' = w_hdr w /\
  exists v P, P = PP a (List.length (w_h5 w)) (S (List.length (w_h5 w))) /\ to_hval d = Ok v /\ BW a sk w' /\ WriterFrameK.WInv P a sk (K3 g n) (I3 (h_id s) g) w' /\
    a < h_id s /\ h_id s < List.length (w_h5 w) /\ member (w_h5 w') a g (h_id s) /\ FrameK.hat P a sk (I3 (h_id s) g) [g] s /\
    (forall h, FrameK.Inv P a sk (K3 g n) (I3 (h_id s) g) h -> FrameK.Fr P a (K3 g n) (I3 (h_id s) g) (w_h5 w') h -> sub_holds h a g n v l).
Proof.
  intros Ha Hp U Hn ND (I & N1 & N2) M Hs H. unfold wds, hdf, unit_of in H. rewrite sbind_eq in H.
  destruct (write_dataset s n d l (w_h5 w)) as [f1 [o|x]] eqn:Ew; [|discriminate]. unfold sret in H.
  assert (w' = mk_ws (w_scan w) (w_hdr w) f1) by congruence. subst w'. cbn [w_scan w_hdr w_h5]. do 2 (split; [auto|]).
  destruct (sub_written a sk g s n d l _ _ _ Ha Hp U Hn ND I M Hs Ew) as (v & V1 & V2 & V3 & V4 & V5 & V6 & V7).
  exists v. eexists. split; [reflexivity|]. split; [auto|]. split; [split; [exact V2|auto]|]. split; [split; [exact V3|auto]|]. do 3 (split; [auto|]).
  split; [|exact V7]. apply hat_up; auto. pose proof (FrameK.inv_alt _ _ _ _ _ _ I). auto.
Qed.

Lemma open_up a sk g c l w w' s : plain_name sk -> plain_name g -> BW a sk w -> hdf (openGroup (mk_handle a (name_at [sk])) g c l) w = (w', Ok s) ->
  BW a sk w' /\ w_scan w' = w_scan w /\ w_hdr w' = w_hdr w /\ member (w_h5 w') a g (h_id s) /\ FrameK.hat (PO a) a sk noI [g] s.
Proof.
  intros Hp Hg (I & N1 & N2) H. unfold hdf in H. destruct (openGroup _ g c l (w_h5 w)) as [f1 [o|x]] eqn:Eo; [|discriminate].
  assert (w' = mk_ws (w_scan w) (w_hdr w) f1) by congruence. assert (s = o) by congruence. subst w' s. cbn [w_scan w_hdr w_h5].
  destruct (opened a sk g c l _ _ _ Hp Hg I Eo) as (A & B & C). split; [split; [exact A|auto]|auto].
Qed.

(** ** Lines of the user *)
Definition u_item (i : nat) : str := L "item" ++ L "_" ++ str_of_nat (i + 1).
Lemma u_item_plain i : plain_name (u_item i).
Proof.
  split; [discriminate|split; [discriminate|]]. unfold u_item. intros Hin. apply in_app_iff in Hin.
  destruct Hin as [Hin|[Hin|Hin]]; [|discriminate Hin|eapply digits_slash; exact Hin].
  revert Hin. apply (plainb_ok (L "item")); reflexivity.
Qed.
Definition u_desc (line : string) (i : nat) : attrs_t := [(L "description", AText (L line ++ str_of_nat (i + 1)))].
Lemma u_desc_nd line i : NoDup (keys (u_desc line i)). Proof. constructor; [intros []|constructor]. Qed.
Definition u_put (line : string) (s : handle) (it : nat * str) : WM unit := wds s (u_item (fst it)) (DText (snd it)) (u_desc line (fst it)).

Lemma u_steps a sk g line s l : 0 < a -> plain_name sk -> Uq g -> FrameK.hat (PO a) a sk noI [g] s -> forall w w' u, BW a sk w ->
  member (w_h5 w) a g (h_id s) -> siter (u_put line s) l w = (w', Ok u) -> BW a sk w' /\ w_scan w' = w_scan w /\ member (w_h5 w') a g (h_id s).
Proof.
  intros Ha Hp U Hs. induction l as [|it l IH]; intros w w' u W M H; cbn [siter] in H.
  - unfold sret in H. assert (w' = w) by congruence. subst. auto.
  - apply bind_ok in H. destruct H as (u1 & w1 & H1 & H).
    destruct (sub_up a sk g s _ _ _ w w1 u1 Ha Hp U (u_item_plain _) (u_desc_nd _ _) W M Hs H1) as (E1 & _ & v & P & _ & _ & W1 & _ & _ & _ & M1 & _).
    destruct (IH w1 w' u W1 M1 H) as (A & B & C). split; [auto|]. split; [congruence|auto].
Qed.
Lemma user_up a sk name ds line l k t w w' u : 0 < a -> plain_name sk -> Uq (L name) -> plainb (L name) = true -> BW a sk w -> nth_error l k = Some t ->
  w_user (mk_handle a (name_at [sk])) Scn name ds line l w = (w', Ok u) ->
  exists P i, FrameK.Inv P a sk (K3 (L name) (u_item k)) (I3 i (L name)) (w_h5 w') /\
    forall f, FrameK.Inv P a sk (K3 (L name) (u_item k)) (I3 i (L name)) f -> FrameK.Fr P a (K3 (L name) (u_item k)) (I3 i (L name)) (w_h5 w') f ->
      sub_holds f a (L name) (u_item k) (HTexts [ascii t]) (u_desc line k).
Proof.
  intros Ha Hp U Hn W Hk H. unfold w_user in H. apply bind_ok in H. destruct H as (s & w1 & H1 & H). cbv zeta in H.
  destruct (open_up a sk (L name) _ _ w w1 s Hp ltac:(apply plainb_ok; exact Hn) W H1) as (W1 & E1 & _ & M1 & Hs).
  change (siter (u_put line s) (enum l) w1 = (w', Ok u)) in H.
  destruct (nth_error_split _ _ Hk) as (l1 & l2 & El & Ek). rewrite (enum_split l l1 t l2 El), siter_app in H.
  apply bind_ok in H. destruct H as (u1 & w2 & H2 & H).
  destruct (u_steps a sk (L name) line s _ Ha Hp U Hs w1 w2 u1 W1 M1 H2) as (W2 & E2 & M2).
  cbn [siter] in H. apply bind_ok in H. destruct H as (u3 & w3 & H3 & H). unfold u_put in H3. cbn [fst snd] in H3. rewrite Ek in H3, H.
  destruct (sub_up a sk (L name) s _ _ _ w2 w3 u3 Ha Hp U (u_item_plain _) (u_desc_nd _ _) W2 M2 Hs H3) as (_ & _ & v & P & _ & V & _ & W3 & _ & _ & _ & Hs3 & Ps).
  exists P, (h_id s).
  assert (R : WriterFrameK.wk P a sk (K3 (L name) (u_item k)) (I3 (h_id s) (L name)) (siter (u_put line s) (combine (seq (S k) (List.length l2)) l2)) (fun _ => True)).
  { apply WriterFrameK.wk_iter. intros [j x] Hin. apply in_combine_l in Hin. apply in_seq in Hin. unfold u_put. cbn [fst snd].
    eapply WriterFrameK.wds_u; [apply K3_0|exact Hs3|apply K3_1| |apply u_item_plain].
    intros X. unfold K3 in X. assert (Y : u_item j = u_item k) by congruence. unfold u_item in Y. apply app_inv_head in Y. apply app_inv_head in Y. apply str_of_nat_inj in Y. lia. }
  destruct (wk_step _ _ _ _ _ _ _ _ _ _ R W3 H) as [[I4 _] F4]. split; [exact I4|].
  intros f If Ff. cbn [to_hval] in V. injection V; intros ->. apply Ps; [exact If|]. eapply FrameK.Fr_trans; [exact sk|exact F4|exact Ff].
Qed.
Ltac okk3 := let h' := fresh in let N := fresh in intros h' N; unfold okw, K3; destruct h'; try congruence;
  repeat split; try exact I; try discriminate; try (intros; discriminate).
Definition Psi_R (k : nat) (o : obj) (f : h5) (a : nat) : Prop := forall l t, o A_R = Some l -> nth_error l k = Some t ->
  sub_holds f a URES (u_item k) (HTexts [ascii t]) (u_desc "#R line " k).
Definition Psi_U (k : nat) (o : obj) (f : h5) (a : nat) : Prop := forall l t, o A_U = Some l -> nth_error l k = Some t ->
  sub_holds f a URSV (u_item k) (HTexts [ascii t]) (u_desc "#U line " k).
Lemma Uq_R : Uq URES. Proof. right; right; left; reflexivity. Qed.
Lemma Uq_U : Uq URSV. Proof. right; right; right; left; reflexivity. Qed.
Lemma est_R k : est H_R (Psi_R k).
Proof.
  intros cmd a sk w w' u Ha Hp Has W H. pose proof (base_writer _ _ _ _ _ _ _ Hp Has W H) as WE. cbn [writer_of] in H. unfold w_R in H.
  apply bind_ok in H. destruct H as (l & w1 & H1 & H). apply rd_ok in H1. destruct H1 as [-> H1]. cbn [obj_of] in H1.
  destruct (nth_error l k) as [t|] eqn:Nk.
  2:{ apply (est_none H_R _ a sk w w' Ha WE). intros f l' t' X Y. exfalso. rewrite H1 in X. injection X; intros <-. rewrite Nk in Y. discriminate Y. }
  destruct (user_up a sk _ _ _ l k t w w' u Ha Hp Uq_R eq_refl W Nk H) as (P & i & V1 & V2).
  exists P, (K3 URES (u_item k)), (I3 i URES). split; [apply K3_0|]. split; [apply K3_2; apply Uq_R|]. split; [okk3|]. split; [exact V1|].
  intros f If Ff l' t' X Y. rewrite H1 in X. injection X; intros <-. assert (t' = t) by congruence. subst t'. apply V2; auto.
Qed.
Lemma est_U k : est H_U (Psi_U k).
Proof.
  intros cmd a sk w w' u Ha Hp Has W H. pose proof (base_writer _ _ _ _ _ _ _ Hp Has W H) as WE. cbn [writer_of] in H. unfold w_U in H.
  apply bind_ok in H. destruct H as (l & w1 & H1 & H). apply rd_ok in H1. destruct H1 as [-> H1]. cbn [obj_of] in H1.
  destruct (nth_error l k) as [t|] eqn:Nk.
  2:{ apply (est_none H_U _ a sk w w' Ha WE). intros f l' t' X Y. exfalso. rewrite H1 in X. injection X; intros <-. rewrite Nk in Y. discriminate Y. }
  destruct (user_up a sk _ _ _ l k t w w' u Ha Hp Uq_U eq_refl W Nk H) as (P & i & V1 & V2).
  exists P, (K3 URSV (u_item k)), (I3 i URSV). split; [apply K3_0|]. split; [apply K3_2; apply Uq_U|]. split; [okk3|]. split; [exact V1|].
  intros f If Ff l' t' X Y. rewrite H1 in X. injection X; intros <-. assert (t' = t) by congruence. subst t'. apply V2; auto.
Qed.
