(** Set points, and the groups that the writers of a scan put into its entry *)
From Coq Require Import String Lia.
From Verif Require Import Py PyFacts NumFacts Utils SpecUtils Keys Time Geom Handlers Reader SpecWriter NamesFacts
  H5 SpecH5 H5Facts FrameH5 H5Exact Writer DataWrite KeepFacts SaveFacts EntryData FrameK WriterFrame WriterFrameK GrowFacts ClaimFacts MetaWrite MetaWrite2.
Import ListNotations.
Local Open Scope list_scope.

Definition Psi_TEMP (o : obj) (f : h5) (a : nat) : Prop := forall x, o A_TEMP_SP = Some x -> holds f a (L "TEMP_SP") (HArr [1] [NF x]) [desc "temperature set point"].
Definition Psi_DEGC (o : obj) (f : h5) (a : nat) : Prop := forall x, o A_DEGC_SP = Some x ->
  holds f a (L "DEGC_SP") (HArr [1] [NF x]) [(L "units", t_ "C"); desc "temperature set point (C)"].
Lemma has_ok o x w w' b : hasW o x w = (w', Ok b) -> w' = w /\ (b = true <-> obj_of o w x <> None).
Proof. unfold hasW. intros H. injection H; intros <- <-. split; [auto|]. destruct (obj_of o w x); split; congruence. Qed.

Lemma est_none h (Psi : obj -> h5 -> nat -> Prop) a sk w w' : 0 < a -> BW a sk w' -> (forall f, Psi (w_scan w) f a) ->
  exists P K II, ~ K [] /\ (forall g n, K [g; n] -> Uq g) /\ (forall h', h' <> h -> okw K h') /\
      FrameK.Inv P a sk K II (w_h5 w') /\ forall f, FrameK.Inv P a sk K II f -> FrameK.Fr P a K II (w_h5 w') f -> Psi (w_scan w) f a.
Proof. intros Ha [I _] H. exists (PO a), noK, noI. split; [auto|]. split; [intros g n []|]. split; [intros; apply okw_none|]. split; auto. Qed.

Lemma base_writer cmd h a sk w w' r : plain_name sk -> is_ascii sk -> BW a sk w -> writer_of cmd h (mk_handle a (name_at [sk])) Scn w = (w', r) -> BW a sk w'.
Proof.
  intros Hp Has W H. pose proof W as [I _].
  refine (proj1 (wk_step (PO a) a sk noK noI _ (fun _ => True) w w' r _ W H)).
  apply (WriterFrameK.writer_of_ok (PO a) a sk noK noI); auto; [intros g n []| |apply okw_none].
  apply (entry_hat _ a sk noK noI _ Hp I).
Qed.

Lemma est_TEMP : est H_X Psi_TEMP.
Proof.
  intros cmd a sk w w' u Ha Hp Has W H. pose proof (base_writer _ _ _ _ _ _ _ Hp Has W H) as WE. cbn [writer_of] in H. unfold w_X in H.
  apply bind_ok in H. destruct H as (b1 & w1 & H1 & H). apply has_ok in H1. destruct H1 as [-> B1]. cbn [obj_of] in B1.
  apply bind_ok in H. destruct H as (u2 & w2 & H2 & H). destruct b1.
  2:{ apply (est_none H_X _ a sk w w' Ha WE). intros f x X. exfalso. rewrite X in B1. destruct B1 as [_ B1]. discriminate B1. discriminate. }
  apply bind_ok in H2. destruct H2 as (x & w3 & H3 & H2). apply rd_ok in H3. destruct H3 as [-> H3]. cbn [obj_of] in H3.
  destruct (wds_up a sk (L "TEMP_SP") _ _ w w2 u2 Ha Hp eq_refl ltac:(nuq) W H2 ltac:(nodup)) as (Es & Eh & v & P & V1 & V2 & V3 & V4).
  assert (W2 : WriterFrameK.WInv P a sk (K1 (L "TEMP_SP")) noI w2) by (split; [exact V3|apply V2]).
  assert (KK : WriterFrameK.wk P a sk (K1 (L "TEMP_SP")) noI (let* b := hasW Scn A_DEGC_SP in
         if b then let* v := rd Scn A_DEGC_SP in wds (mk_handle a (name_at [sk])) (L "DEGC_SP") (DNum (NF v)) [(L "units", t_ "C"); desc "temperature set point (C)"] else sret tt) (fun _ => True)).
  { eapply WriterFrameK.wk_bind; [apply WriterFrameK.has_any|]. intros [] _; [|apply WriterFrameK.wk_ret; auto].
    eapply WriterFrameK.wk_bind; [apply WriterFrameK.rd_any|]. intros y _.
    apply (WriterFrameK.wds_e P a sk (K1 (L "TEMP_SP")) noI); [apply K1_0|eapply entry_hat; eauto|apply plainb_ok; reflexivity|nuq|unfold K1; discriminate]. }
  destruct (wk_step _ _ _ _ _ _ _ _ _ _ KK W2 H) as [[I4 _] F4].
  exists P, (K1 (L "TEMP_SP")), noI. split; [apply K1_0|]. split; [apply K1_2|]. split; [okk|]. split; [exact I4|].
  intros g _ G y Hy. rewrite Hy in H3. injection H3; intros ->. cbn [to_hval] in V1. injection V1; intros ->. apply V4. eapply FrameK.Fr_trans; eauto.
Qed.
Lemma est_DEGC : est H_X Psi_DEGC.
Proof.
  intros cmd a sk w w' u Ha Hp Has W H. pose proof (base_writer _ _ _ _ _ _ _ Hp Has W H) as WE. cbn [writer_of] in H. unfold w_X in H.
  apply bind_ok in H. destruct H as (b1 & w1 & H1 & H). apply has_ok in H1. destruct H1 as [-> _].
  apply bind_ok in H. destruct H as (u2 & w2 & H2 & H).
  assert (W2 : BW a sk w2 /\ w_scan w2 = w_scan w).
  { destruct b1; [|unfold sret in H2; assert (w2 = w) by congruence; subst; auto].
    apply bind_ok in H2. destruct H2 as (x & w3 & H3 & H2). apply rd_ok in H3. destruct H3 as [-> H3].
    destruct (wds_up a sk (L "TEMP_SP") _ _ w w2 u2 Ha Hp eq_refl ltac:(nuq) W H2 ltac:(nodup)) as (Es & Eh & v & P & V1 & V2 & V3 & V4). auto. }
  destruct W2 as [W2 Es]. apply bind_ok in H. destruct H as (b & w3 & H3 & H). apply has_ok in H3. destruct H3 as [-> B]. cbn [obj_of] in B.
  rewrite Es in B. destruct b.
  2:{ apply (est_none H_X _ a sk w w' Ha WE). intros f x X. exfalso. rewrite X in B. destruct B as [_ B]. discriminate B. discriminate. }
  apply bind_ok in H. destruct H as (x & w3 & H3 & H). apply rd_ok in H3. destruct H3 as [-> H3]. cbn [obj_of] in H3. rewrite Es in H3.
  destruct (wds_up a sk (L "DEGC_SP") _ _ w2 w' u Ha Hp eq_refl ltac:(nuq) W2 H ltac:(nodup)) as (_ & _ & v & P & V1 & V2 & V3 & V4).
  exists P, (K1 (L "DEGC_SP")), noI. split; [apply K1_0|]. split; [apply K1_2|]. split; [okk|]. split; [exact V3|].
  intros g _ G y Hy. rewrite Hy in H3. injection H3; intros ->. cbn [to_hval] in V1. injection V1; intros ->. auto.
Qed.

(* ------------------------------------------------------------------ *)
(** ** a new group with datasets *)
(** group [n] of entry [a] holds the dictionary [d]; of keys with the same cleaned name the last one *)
Definition dict_in (f : h5) (a : nat) (n : str) (cls : string) (l : attrs_t) (d : list (str * pydata)) : Prop :=
  exists g, a < g /\ member f a n g /\ nx_group f g cls /\ Forall (fun kv => attribute f g (fst kv) (snd kv)) l /\
    forall l1 k x l2 m v, d = l1 ++ (k, x) :: l2 -> clean_name k = Ok m -> (forall k', In k' (map fst l2) -> clean_name k' <> Ok m) ->
      to_hval x = Ok v -> holds f g m v [(L "spec_name", AText k)].
Lemma dict_in_grow f f' a n cls l d : 1 <= a -> ~ In TGT (keys l) -> grow f f' -> dict_in f a n cls l d -> dict_in f' a n cls l d.
Proof.
  intros Ha Nt G (g & A & B & C & D & F). exists g. split; [auto|]. split; [eapply grow_member; eauto|]. split; [eapply grow_nx; eauto; lia|]. split.
  - rewrite Forall_forall in *. intros kv H. eapply grow_attribute; [exact G|lia| |apply D; auto]. intros X. apply Nt. rewrite <- X. apply (in_map fst). auto.
  - intros l1 k x l2 m v E1 E2 E3 E4. eapply holds_grow; [lia| |exact G|eauto]. simpl. intros [X|[]]. revert X. apply seqb_neq. reflexivity.
Qed.

Lemma save_dict_Wr g d : forall w w' u, GD (h_id g) (w_h5 w) -> save_dict g d w = (w', Ok u) ->
  exists items, Wr (h_id g) items w w' /\
    Forall2 (fun kx it => exists c v, clean_name (fst kx) = Ok c /\ to_hval (snd kx) = Ok v /\ it = (c, named (fst kx) [] v)) d items.
Proof.
  induction d as [|[k x] d IH]; intros w w' u G H; cbn [save_dict siter] in H.
  - exists []. split; [|constructor]. unfold sret in H. assert (w' = w) by congruence. subst. apply Wr_nil.
  - apply bind_ok in H. destruct H as (u1 & w1 & H1 & H). cbn [fst snd] in H1.
    destruct (write_ds_Wr _ _ _ _ _ _ _ H1 G) as (c & v & C1 & C2 & C3).
    destruct (IH w1 w' u (Wr_GD _ _ _ _ C3 G) H) as (items & I1 & I2). exists ([(c, named k [] v)] ++ items). split; [eapply Wr_app; eauto|].
    constructor; auto. exists c, v. auto.
Qed.
(** what an item says *)
Lemma named_holds f a n k v j : a < j -> member f a n j -> nth_error f j = Some (named k [] v) -> holds f a n v [(L "spec_name", AText k)].
Proof. intros A B C. eapply node_holds; eauto. repeat constructor; auto. Qed.

Lemma with_attrs_class c l : ~ In NXC (keys l) -> dget NXC (node_attrs (with_attrs (Group [] [(NXC, AText c)]) l)) = Some (AText c).
Proof.
  intros H. apply with_attrs_get; [reflexivity|]. apply Forall_forall. intros kv Hin X. apply H. rewrite <- X. apply (in_map fst). auto.
Qed.
Lemma group_attrs_get l : NoDup (keys l) -> forall ms at_ kv, In kv l -> dget (fst kv) (node_attrs (with_attrs (Group ms at_) l)) = Some (snd kv).
Proof. intros ND ms at_ kv Hin. apply (attrs_get l ND (HArr [] []) at_ kv Hin). Qed.
Lemma group_of_make e n c l f f' o : plain_name n -> h_id e < List.length f -> makeGroup e n c l f = (f', Ok o) ->
  exists ms at_, nth_error f (h_id e) = Some (Group ms at_) /\ has n ms = false /\
    f' = made (h_id e) n ms at_ (with_attrs (Group [] [(NXC, AText c)]) l) f /\ o = mk_handle (List.length f) (sub_name (h_name e) n).
Proof.
  intros Hp Hl H. destruct (nth_error f (h_id e)) as [[ms at_|x at_]|] eqn:En.
  - rewrite (makeGroup_eq e n c l ms at_ f Hp En) in H. destruct (has n ms) eqn:Hh; [discriminate|]. exists ms, at_.
    do 2 (split; [auto|]). split; congruence.
  - exfalso. unfold makeGroup in H. rewrite sbind_eq in H. unfold create_at in H. rewrite (parts_plain n Hp) in H. cbn [rev app] in H. rewrite sbind_eq in H.
    rewrite (start_rel _ _ (plain_rel _ Hp)) in H. cbn [dig] in H. rewrite sbind_eq in H. unfold free in H. rewrite En in H. discriminate.
  - apply nth_error_None in En. lia.
Qed.

(** a new group [b] of the entry, filled; [f2] has the same objects below [b] *)
Record filled (a : nat) (n : str) (ms : dict nat) (at_ : dict aval) (f f2 : h5) : Prop := mk_filled {
  fi_len : List.length f < List.length f2;
  fi_a : nth_error f a = Some (Group ms at_);
  fi_free : has n ms = false;
  fi_below : forall i, i < List.length f -> nth_error f2 i = if Nat.eqb i a then Some (Group (ms ++ [(n, List.length f)]) at_) else nth_error f i }.
Lemma filled_up a sk n ms at_ f f2 : 0 < a -> BInv a sk f -> BInv a sk f2 -> filled a n ms at_ f f2 ->
  FrameK.Inv (PP a (List.length f) (List.length f2)) a sk (K1 n) noI f2 /\ member f2 a n (List.length f) /\ a < List.length f.
Proof.
  intros Ha I I2 [A1 A2 A3 A4]. set (b := List.length f) in *. assert (Hab : a < b) by apply (FrameK.inv_alt _ _ _ _ _ f I).
  split; [|split; [|auto]].
  - apply upgrade; auto; [lia| |intros j g []]. intros i m j Hi Nr (ms1 & at1 & B1 & B2) Hj. left.
    assert (Li : i < b). { assert (i < List.length f2) by (apply nth_error_Some; congruence). lia. }
    rewrite A4 in B1 by auto. destruct (Nat.eqb_spec i a) as [->|Ne].
    + split; [auto|]. inversion B1; subst. apply in_app_iff in B2. destruct B2 as [B2|[B2|[]]]; [|inversion B2; reflexivity].
      pose proof (FrameK.inv_bd _ _ _ _ _ f I a ms at1 m j A2 B2). fold b in H. lia.
    + pose proof (FrameK.inv_bd _ _ _ _ _ f I i ms1 at1 m j B1 B2). fold b in H. lia.
  - exists (ms ++ [(n, b)]), at_. split; [rewrite A4, Nat.eqb_refl by auto; reflexivity|apply dget_none_app; auto].
Qed.

(** the objects from [b] to [c] are the same, but for the target of a link *)
Definition near (f f2 : h5) (b c : nat) : Prop := (forall i, b < i < c -> nth_error f2 i = nth_error f i) /\
  exists ms x y, nth_error f b = Some (Group ms x) /\ nth_error f2 b = Some (Group ms y) /\ forall k, k <> TGT -> dget k y = dget k x.
Lemma near_same f f2 b c ms x : b < c -> (forall i, b <= i < c -> nth_error f2 i = nth_error f i) -> nth_error f b = Some (Group ms x) -> near f f2 b c.
Proof. intros Hb H Hn. split; [intros i Hi; apply H; lia|]. exists ms, x, x. split; [auto|]. split; [rewrite H; auto; lia|auto]. Qed.

Lemma dict_made a sk n c l d e w w' g w1 u : 0 < a -> e = mk_handle a (name_at [sk]) -> plain_name n -> BW a sk w ->
  NoDup (keys l) -> ~ In NXC (keys l) -> ~ In TGT (keys l) ->
  hdf (makeGroup e n (L c) l) w = (w1, Ok g) -> save_dict g d w1 = (w', Ok u) ->
  exists ms at_, filled a n ms at_ (w_h5 w) (w_h5 w') /\ h_id g = List.length (w_h5 w) /\ w_scan w' = w_scan w /\ w_hdr w' = w_hdr w /\
    (exists ms' , nth_error (w_h5 w') (h_id g) = Some (Group ms' (node_attrs (with_attrs (Group [] [(NXC, AText (L c))]) l)))) /\
    h_name g = sub_name (h_name e) n /\
    forall f2, near (w_h5 w') f2 (h_id g) (List.length (w_h5 w')) -> member f2 a n (h_id g) -> dict_in f2 a n c l d.
Proof.
  intros Ha He Hn W ND NN NT H1 H2. pose proof W as [I _]. set (f := w_h5 w) in *. set (b := List.length f).
  assert (Hab : a < b) by apply (FrameK.inv_alt _ _ _ _ _ f I).
  unfold hdf in H1. destruct (makeGroup e n (L c) l (w_h5 w)) as [f1 [o|x]] eqn:Em; [|discriminate]. fold f in Em.
  assert (w1 = mk_ws (w_scan w) (w_hdr w) f1 /\ o = g) as [-> ->] by (split; congruence). clear H1.
  assert (Hea : h_id e = a) by (rewrite He; reflexivity).
  destruct (group_of_make e n (L c) l f f1 g Hn ltac:(rewrite Hea; exact Hab) Em) as (ms & at_ & Na & Hh & Ef & Eg).
  rewrite Hea in Na, Ef. assert (Eid : h_id g = b) by (rewrite Eg; reflexivity).
  set (nd := with_attrs (Group [] [(NXC, AText (L c))]) l) in *.
  assert (NN1 : forall j, nth_error f1 j = if Nat.eqb j a then Some (Group (ms ++ [(n, b)]) at_) else if Nat.eqb j b then Some nd else nth_error f j).
  { intros j. rewrite Ef. apply (made_nth _ _ _ _ _ _ _ Na). }
  assert (L1 : List.length f1 = S b) by (rewrite Ef; apply made_length).
  assert (Nb : nth_error f1 b = Some (Group [] (node_attrs nd))).
  { rewrite NN1. destruct (Nat.eqb_spec b a); [lia|]. rewrite Nat.eqb_refl. reflexivity. }
  assert (G1 : GD (h_id g) f1) by (rewrite Eid; exists [], (node_attrs nd); split; [exact Nb|constructor]).
  destruct (save_dict_Wr g d (mk_ws (w_scan w) (w_hdr w) f1) w' u G1 H2) as (items & (S1 & S2 & St) & F2). cbn [w_scan w_hdr w_h5] in *.
  rewrite Eid in *. pose proof (steps_len _ _ _ _ St) as L2. exists ms, at_.
  destruct (steps_attrs _ _ _ _ St _ _ Nb) as (ms' & Nb').
  split; [|split; [reflexivity|split; [auto|split; [auto|split; [exists ms'; exact Nb'|split; [rewrite Eg; reflexivity|]]]]]].
  - constructor; auto; [fold b; lia|]. fold b. intros i Hi. rewrite (steps_other _ _ _ _ St) by lia. rewrite NN1.
    destruct (Nat.eqb_spec i b); [lia|reflexivity].
  - intros f2 [Hs (ms2 & x2 & y2 & Hx & Hy & Hxy)] M2. rewrite Nb' in Hx. injection Hx; intros <- <-.
    assert (Nb2 : nth_error f2 b = Some (Group ms' y2)) by exact Hy.
    exists b. split; [auto|]. split; [auto|]. split; [|split].
    + split; [eexists; eexists; exact Nb2|]. eexists. split; [exact Nb2|]. cbn. rewrite Hxy by (apply seqb_neq; reflexivity). apply (with_attrs_class (L c) l NN).
    + apply Forall_forall. intros kv Hin. eexists. split; [exact Nb2|]. cbn. rewrite Hxy by (intros X; apply NT; rewrite <- X; apply (in_map fst); auto). apply (group_attrs_get l ND [] [(NXC, AText (L c))] kv Hin).
    + intros l1 k x l2 m v Ed Hc Nl Hv. rewrite Ed in F2. apply Forall2_app_inv_l in F2. destruct F2 as (i1 & i2 & F1 & F2 & Ei).
      inversion F2 as [|? it ? i3 Hit F3]; subst. destruct Hit as (c' & v' & C1 & C2 & C3). cbn [fst snd] in *.
      assert (c' = m) by congruence. assert (v' = v) by congruence. subst c' v' it.
      destruct (steps_last _ _ _ _ St i1 m (named k [] v) i3 eq_refl) as (j & J1 & J2 & J3).
      { intros X. apply in_map_iff in X. destruct X as ([m2 nd2] & X1 & X2). cbn [fst] in X1. subst m2.
        clear - F3 X2 Nl. induction F3 as [|kx it d' is' (c2 & v2 & D1 & D2 & D3) F IH]; [destruct X2|]. destruct X2 as [X2|X2].
        - apply (Nl (fst kx)); [left; auto|]. rewrite D1. congruence.
        - apply IH; auto. intros k' Hk'. apply Nl. right; auto. }
      { lia. }
      assert (Lj : j < List.length (w_h5 w')) by (apply nth_error_Some; congruence).
      eapply (named_holds f2 b m k v j); [lia| |rewrite Hs by lia; exact J3].
      destruct J2 as (m1 & x1 & M3 & M4). rewrite Nb' in M3. assert (m1 = ms') by congruence. subst m1. exists ms', y2. split; [exact Nb2|exact M4].
Qed.

(** *** bluesky_metadata *)
Definition MDdesc : attrs_t := [desc "Bluesky metadata (as written by apstools.SpecWriterCallback)"].
Definition Psi_MD (o : obj) (f : h5) (a : nat) : Prop := forall d, o A_MD = Some d -> d <> [] ->
  dict_in f a (L "bluesky_metadata") "NXcollection" MDdesc (map (fun kv => (fst kv, DText (snd kv))) d).
Lemma est_MD : est H_MD Psi_MD.
Proof.
  intros cmd a sk w w' u Ha Hp Has W H. pose proof (base_writer _ _ _ _ _ _ _ Hp Has W H) as WE. cbn [writer_of] in H. unfold w_MD in H.
  apply bind_ok in H. destruct H as (b1 & w1 & H1 & H). apply has_ok in H1. destruct H1 as [-> B1]. cbn [obj_of] in B1. destruct b1.
  2:{ apply (est_none H_MD _ a sk w w' Ha WE). intros f x X. exfalso. rewrite X in B1. destruct B1 as [_ B1]. discriminate B1. discriminate. }
  apply bind_ok in H. destruct H as (d & w1 & H1 & H). apply rd_ok in H1. destruct H1 as [-> H1]. cbn [obj_of] in H1.
  destruct d as [|kv d].
  { apply (est_none H_MD _ a sk w w' Ha WE). intros f x X Nx. exfalso. apply Nx. congruence. }
  apply bind_ok in H. destruct H as (g & w1 & H2 & H).
  destruct (dict_made a sk (L "bluesky_metadata") "NXcollection" MDdesc _ _ w w' g w1 u Ha eq_refl ltac:(apply plainb_ok; reflexivity) W ltac:(nodup) ltac:(simpl; intuition discriminate) ltac:(simpl; intuition discriminate) H2 H)
    as (ms & at_ & Fi & Eg & _ & _ & (mg & Ng) & _ & Dc).
  destruct W as [I _]. destruct WE as [I' _]. destruct (filled_up a sk _ ms at_ _ _ Ha I I' Fi) as (IU & Mb & Hab).
  eexists. exists (K1 (L "bluesky_metadata")), noI. split; [apply K1_0|]. split; [apply K1_2|]. split; [okk|]. split; [exact IU|].
  intros f _ G d' Hd _. rewrite H1 in Hd. injection Hd; intros <-. destruct G as [G1 G2 G3 G4]. apply Dc.
  - eapply near_same; [rewrite Eg; apply (fi_len _ _ _ _ _ _ Fi)| |exact Ng]. intros i Hi. apply G2. right. rewrite Eg in Hi. exact Hi.
  - rewrite Eg. apply G3; [reflexivity|exact Mb].
Qed.

(** *** lines that are not recognized *)
Definition UNdesc : attrs_t := [desc "SPEC data file control lines not otherwise recognized"].
Definition Psi_unrec (o : obj) (f : h5) (a : nat) : Prop := forall us, o A_unrec = Some us ->
  exists i : nat, dict_in f a (L "unrecognized_" ++ str_of_nat i) "NXnote" UNdesc (map (fun it => (L "u" ++ str_of_nat (fst it), DText (snd it))) (enum us)).
Lemma est_unrec : est H_unrec Psi_unrec.
Proof.
  intros cmd a sk w w' u Ha Hp Has W H. pose proof (base_writer _ _ _ _ _ _ _ Hp Has W H) as WE. cbn [writer_of] in H. unfold w_unrec in H.
  apply bind_ok in H. destruct H as (nm & w1 & H1 & H). unfold hdf, free_unrec in H1. cbv zeta in H1.
  destruct (List.find _ _) as [i|] eqn:Ef; [|discriminate]. injection H1; intros <- <-. clear H1 Ef.
  apply bind_ok in H. destruct H as (g & w2 & H2 & H). apply bind_ok in H. destruct H as (us & w3 & H3 & H). apply rd_ok in H3. destruct H3 as [-> H3].
  assert (Hw : mk_ws (w_scan w) (w_hdr w) (w_h5 w) = w) by (destruct w; reflexivity). rewrite Hw in H2.
  set (nm := L "unrecognized_" ++ str_of_nat i) in *.
  assert (Hn : plain_name nm).
  { split; [discriminate|split; [discriminate|]]. intros X. unfold nm in X. apply in_app_iff in X. destruct X as [X|X].
    - revert X. apply (plainb_ok (L "unrecognized_")). reflexivity. - eapply digits_slash; exact X. }
  destruct (dict_made a sk nm "NXnote" UNdesc _ _ w w' g w2 u Ha eq_refl Hn W ltac:(nodup) ltac:(simpl; intuition discriminate) ltac:(simpl; intuition discriminate) H2 H)
    as (ms & at_ & Fi & Eg & _ & _ & (mg & Ng) & _ & Dc).
  assert (Hs : w_scan w2 = w_scan w).
  { unfold hdf in H2. destruct (makeGroup _ _ _ _ (w_h5 w)) as [f1 r1]. injection H2; intros _ <-. reflexivity. }
  cbn [obj_of] in H3. rewrite Hs in H3.
  destruct W as [I _]. destruct WE as [I' _]. destruct (filled_up a sk _ ms at_ _ _ Ha I I' Fi) as (IU & Mb & Hab).
  eexists. exists (K1 nm), noI. split; [apply K1_0|]. split; [apply K1_2|]. split; [okk|]. split; [exact IU|].
  intros f _ G us' Hu. rewrite H3 in Hu. injection Hu; intros <-. destruct G as [G1 G2 G3 G4]. exists i. apply Dc.
  - eapply near_same; [rewrite Eg; apply (fi_len _ _ _ _ _ _ Fi)| |exact Ng]. intros j Hj. apply G2. right. rewrite Eg in Hj. exact Hj.
  - rewrite Eg. apply G3; [reflexivity|exact Mb].
Qed.
