(** The groups of the cross references of a header *)
From Coq Require Import String Lia.
From Verif Require Import Py PyFacts NumFacts Utils SpecUtils Keys Time Geom Handlers Reader SpecWriter NamesFacts
  H5 SpecH5 H5Facts FrameH5 H5Exact Writer DataWrite KeepFacts SaveFacts EntryData TableFacts FrameK WriterFrame WriterFrameK AgainFacts GrowFacts ClaimFacts MetaWrite MetaWrite2 MetaWrite3 MetaWrite6.
Import ListNotations.
Local Open Scope list_scope.

(** writer [h] of object [o] makes [Psi] true and nothing that follows makes it false again *)
Definition est_of (o : who) (h : hid) (Psi : obj -> h5 -> nat -> Prop) : Prop :=
  forall cmd a sk w w' u, 0 < a -> plain_name sk -> is_ascii sk -> BW a sk w ->
    writer_of cmd h (mk_handle a (name_at [sk])) o w = (w', Ok u) ->
    exists P K II, FrameK.Inv P a sk K II (w_h5 w') /\
      (forall cmd' h' o' w1 w2 u', WriterFrameK.WInv P a sk K II w1 -> FrameK.Fr P a K II (w_h5 w') (w_h5 w1) ->
         writer_of cmd' h' (mk_handle a (name_at [sk])) o' w1 = (w2, Ok u') ->
         FrameK.Inv P a sk K II (w_h5 w2) /\ FrameK.Fr P a K II (w_h5 w1) (w_h5 w2)) /\
      forall f, FrameK.Inv P a sk K II f -> FrameK.Fr P a K II (w_h5 w') f -> Psi (obj_of o w) f a.

Lemma base_writer_of cmd h o a sk w w' r : plain_name sk -> is_ascii sk -> BW a sk w -> writer_of cmd h (mk_handle a (name_at [sk])) o w = (w', r) -> BW a sk w'.
Proof.
  intros Hp Has W H. pose proof W as [I _].
  refine (proj1 (wk_step (PO a) a sk noK noI _ (fun _ => True) w w' r _ W H)).
  apply (WriterFrameK.writer_of_ok (PO a) a sk noK noI); auto; [intros g n []| |apply okw_none].
  apply (entry_hat _ a sk noK noI _ Hp I).
Qed.
Lemma est_of_none o (Psi : obj -> h5 -> nat -> Prop) a sk w w' : 0 < a -> plain_name sk -> is_ascii sk -> BW a sk w' -> (forall f, Psi (obj_of o w) f a) ->
  exists P K II, FrameK.Inv P a sk K II (w_h5 w') /\
      (forall cmd' h' o' w1 w2 u', WriterFrameK.WInv P a sk K II w1 -> FrameK.Fr P a K II (w_h5 w') (w_h5 w1) ->
         writer_of cmd' h' (mk_handle a (name_at [sk])) o' w1 = (w2, Ok u') ->
         FrameK.Inv P a sk K II (w_h5 w2) /\ FrameK.Fr P a K II (w_h5 w1) (w_h5 w2)) /\
      forall f, FrameK.Inv P a sk K II f -> FrameK.Fr P a K II (w_h5 w') f -> Psi (obj_of o w) f a.
Proof.
  intros Ha Hp Has [I _] H. exists (PO a), noK, noI. split; [auto|]. split; [|auto].
  intros cmd' h' o' w1 w2 u' W1 _ E1. pose proof W1 as [I1 _].
  assert (K : WriterFrameK.wk (PO a) a sk noK noI (writer_of cmd' h' (mk_handle a (name_at [sk])) o') (fun _ => True)).
  { apply (WriterFrameK.writer_of_ok (PO a) a sk noK noI); auto; [intros g n []| |apply okw_none]. apply (entry_hat _ a sk noK noI _ Hp I1). }
  destruct (wk_step _ _ _ _ _ _ _ _ _ _ K W1 E1) as [[J1 _] F1]. auto.
Qed.

Lemma sorted_NoDup {V} (x : dict V) : NoDup (keys x) -> NoDup (keys (sorted_items x)).
Proof.
  intros H. unfold keys, sorted_items. eapply Permutation.Permutation_NoDup; [|exact H]. apply Permutation.Permutation_map. apply Permutation.Permutation_sym. apply isort_perm.
Qed.

(** ** datasets with the names of a table *)
Definition put_all (at_of : str -> str -> res attrs_t) (g : handle) (l : list (str * str)) : WM unit :=
  siter (fun kv => let* at_ := slift (at_of (fst kv) (snd kv)) in wds g (fst kv) (DText (snd kv)) at_) l.
Lemma put_all_Wr at_of g l : Forall (fun kv => plain_name (fst kv)) l -> forall w w' u, GD (h_id g) (w_h5 w) -> put_all at_of g l w = (w', Ok u) ->
  exists items, Wr (h_id g) items w w' /\
    Forall2 (fun kx it => exists at_, at_of (fst kx) (snd kx) = Ok at_ /\ it = (fst kx, with_attrs (Dset (HTexts [ascii (snd kx)]) []) at_)) l items.
Proof.
  induction 1 as [|[k x] l Hk _ IH]; intros w w' u G H; cbn [put_all siter] in H.
  - exists []. split; [|constructor]. unfold sret in H. assert (w' = w) by congruence. subst. apply Wr_nil.
  - apply bind_ok in H. destruct H as (u1 & w1 & H1 & H). cbn [fst snd] in H1, Hk. apply bind_ok in H1. destruct H1 as (at_ & w2 & H2 & H1).
    apply lift_ok in H2. destruct H2 as [-> H2]. pose proof G as (ms & atg & G1 & ND).
    destruct (wds_eq g k (DText x) at_ (HTexts [ascii x]) ms atg w w1 u1 Hk eq_refl ND G1 H1) as (E1 & S1 & D1).
    assert (W1 : Wr (h_id g) [(k, with_attrs (Dset (HTexts [ascii x]) []) at_)] w w1).
    { split; [auto|split; [auto|]]. rewrite E1. econstructor; eauto. constructor. }
    destruct (IH w1 w' u (Wr_GD _ _ _ _ W1 G) H) as (items & I1 & I2). exists ([(k, with_attrs (Dset (HTexts [ascii x]) []) at_)] ++ items).
    split; [eapply Wr_app; eauto|]. constructor; auto. exists at_. auto.
Qed.

(** group [n] of entry [a] holds the table [x] *)
Definition table_in (f : h5) (a : nat) (n : str) (l : attrs_t) (at_of : str -> str -> res attrs_t) (x : dict str) : Prop :=
  exists g, a < g /\ member f a n g /\ nx_group f g "NXnote" /\ Forall (fun kv => attribute f g (fst kv) (snd kv)) l /\
    forall m v, dget m x = Some v -> exists at_, at_of m v = Ok at_ /\ holds f g m (HTexts [ascii v]) at_.
Definition tame (at_of : str -> str -> res attrs_t) : Prop := forall m v at_, at_of m v = Ok at_ -> NoDup (keys at_) /\ ~ In TGT (keys at_).
Lemma table_in_grow f f' a n l at_of x : 1 <= a -> ~ In TGT (keys l) -> tame at_of -> grow f f' -> table_in f a n l at_of x -> table_in f' a n l at_of x.
Proof.
  intros Ha Nt T G (g & A & B & C & D & F). exists g. split; [auto|]. split; [eapply grow_member; eauto|]. split; [eapply grow_nx; eauto; lia|]. split.
  - rewrite Forall_forall in *. intros kv H. eapply grow_attribute; [exact G|lia| |apply D; auto]. intros X. apply Nt. rewrite <- X. apply (in_map fst). auto.
  - intros m v Hm. destruct (F m v Hm) as (at_ & F1 & F2). exists at_. split; [auto|]. eapply holds_grow; [lia|apply (T _ _ _ F1)|exact G|auto].
Qed.

Lemma table_made a sk n l at_of x e w w' g w1 u : 0 < a -> e = mk_handle a (name_at [sk]) -> plain_name n -> BInv a sk (w_h5 w) ->
  NoDup (keys l) -> ~ In NXC (keys l) -> ~ In TGT (keys l) -> tame at_of -> NoDup (keys x) -> Forall plain_name (keys x) ->
  hdf (makeGroup e n (L "NXnote") l) w = (w1, Ok g) -> put_all at_of g (sorted_items x) w1 = (w', Ok u) ->
  exists ms at_, filled a n ms at_ (w_h5 w) (w_h5 w') /\ h_id g = List.length (w_h5 w) /\ w_scan w' = w_scan w /\ w_hdr w' = w_hdr w /\
    (exists ms' , nth_error (w_h5 w') (h_id g) = Some (Group ms' (node_attrs (with_attrs (Group [] [(NXC, AText (L "NXnote"))]) l)))) /\
    forall f2, near (w_h5 w') f2 (h_id g) (List.length (w_h5 w')) -> member f2 a n (h_id g) -> table_in f2 a n l at_of x.
Proof.
  intros Ha He Hn I ND NN NT T NDx Hx H1 H2. set (f := w_h5 w) in *. set (b := List.length f).
  assert (Hab : a < b) by apply (FrameK.inv_alt _ _ _ _ _ f I).
  unfold hdf in H1. destruct (makeGroup e n (L "NXnote") l (w_h5 w)) as [f1 [o|y]] eqn:Em; [|discriminate]. fold f in Em.
  assert (w1 = mk_ws (w_scan w) (w_hdr w) f1 /\ o = g) as [-> ->] by (split; congruence). clear H1.
  assert (Hea : h_id e = a) by (rewrite He; reflexivity).
  destruct (group_of_make e n (L "NXnote") l f f1 g Hn ltac:(rewrite Hea; exact Hab) Em) as (ms & at_ & Na & Hh & Ef & Eg).
  rewrite Hea in Na, Ef. assert (Eid : h_id g = b) by (rewrite Eg; reflexivity).
  set (nd := with_attrs (Group [] [(NXC, AText (L "NXnote"))]) l) in *.
  assert (NN1 : forall j, nth_error f1 j = if Nat.eqb j a then Some (Group (ms ++ [(n, b)]) at_) else if Nat.eqb j b then Some nd else nth_error f j).
  { intros j. rewrite Ef. apply (made_nth _ _ _ _ _ _ _ Na). }
  assert (L1 : List.length f1 = S b) by (rewrite Ef; apply made_length).
  assert (Nb : nth_error f1 b = Some (Group [] (node_attrs nd))).
  { rewrite NN1. destruct (Nat.eqb_spec b a); [lia|]. rewrite Nat.eqb_refl. reflexivity. }
  assert (G1 : GD (h_id g) f1) by (rewrite Eid; exists [], (node_attrs nd); split; [exact Nb|constructor]).
  assert (Hpl : Forall (fun kv => plain_name (fst kv)) (sorted_items x)).
  { apply Forall_forall. intros kv Hin. apply (proj1 (in_sorted x kv)) in Hin. rewrite Forall_forall in Hx. apply Hx. apply (in_map fst). exact Hin. }
  destruct (put_all_Wr at_of g (sorted_items x) Hpl (mk_ws (w_scan w) (w_hdr w) f1) w' u G1 H2) as (items & (S1 & S2 & St) & F2). cbn [w_scan w_hdr w_h5] in *.
  rewrite Eid in *. pose proof (steps_len _ _ _ _ St) as L2. exists ms, at_.
  destruct (steps_attrs _ _ _ _ St _ _ Nb) as (ms' & Nb').
  split; [|split; [reflexivity|split; [auto|split; [auto|split; [exists ms'; exact Nb'|]]]]].
  - constructor; auto; [fold b; lia|]. fold b. intros i Hi. rewrite (steps_other _ _ _ _ St) by lia. rewrite NN1.
    destruct (Nat.eqb_spec i b); [lia|reflexivity].
  - intros f2 [Hs (ms2 & x2 & y2 & Hx2 & Hy & Hxy)] M2. rewrite Nb' in Hx2. injection Hx2; intros <- <-.
    assert (Nb2 : nth_error f2 b = Some (Group ms' y2)) by exact Hy.
    exists b. split; [auto|]. split; [auto|]. split; [|split].
    + split; [eexists; eexists; exact Nb2|]. eexists. split; [exact Nb2|]. cbn. rewrite Hxy by (apply seqb_neq; reflexivity). apply (with_attrs_class (L "NXnote") l NN).
    + apply Forall_forall. intros kv Hin. eexists. split; [exact Nb2|]. cbn. rewrite Hxy by (intros X; apply NT; rewrite <- X; apply (in_map fst); auto). apply (group_attrs_get l ND [] [(NXC, AText (L "NXnote"))] kv Hin).
    + intros m v Hm. assert (Hin : In (m, v) (sorted_items x)) by (apply (proj2 (in_sorted x _)); apply (PyFacts.dget_In m v x); exact Hm).
      destruct (in_split _ _ Hin) as (l1 & l2 & El). assert (NDs : NoDup (keys (sorted_items x))) by (apply sorted_NoDup; exact NDx).
      rewrite El in F2, NDs. apply Forall2_app_inv_l in F2. destruct F2 as (i1 & i2 & F1 & F2 & Ei).
      inversion F2 as [|? it ? i3 Hit F3]; subst. destruct Hit as (at1 & C1 & C3). cbn [fst snd] in *. subst it.
      exists at1. split; [auto|].
      destruct (steps_last _ _ _ _ St i1 m (with_attrs (Dset (HTexts [ascii v]) []) at1) i3 eq_refl) as (j & J1 & J2 & J3).
      { intros X. apply in_map_iff in X. destruct X as ([m2 nd2] & X1 & X2). cbn [fst] in X1. subst m2.
        unfold keys in NDs. rewrite map_app in NDs. cbn [map fst] in NDs. apply NoDup_remove_2 in NDs. apply NDs. apply in_app_iff. right.
        clear - F3 X2. induction F3 as [|kx it d' is' (at2 & D1 & D2) F IH]; [destruct X2|]. destruct X2 as [X2|X2].
        - left. rewrite X2 in D2. congruence.
        - right. apply IH. exact X2. }
      { lia. }
      assert (Lj : j < List.length (w_h5 w')) by (apply nth_error_Some; congruence).
      eapply (node_holds f2 b m _ _ j); [lia| |apply (T _ _ _ C1)|rewrite Hs by lia; exact J3].
      destruct J2 as (m1 & x1 & M3 & M4). rewrite Nb' in M3. assert (m1 = ms') by congruence. subst m1. exists ms', y2. split; [exact Nb2|exact M4].
Qed.

Lemma group_twice e n c l w w1 g b : plain_name n -> h_id e < List.length (w_h5 w) -> member (w_h5 w) (h_id e) n b -> hdf (makeGroup e n c l) w = (w1, Ok g) -> False.
Proof.
  intros Hn Hl (ms & at_ & M1 & M2) H. apply hdf_ok in H. destruct H as (H & _ & _).
  destruct (group_of_make e n c l _ _ g Hn Hl H) as (ms' & at' & Na & Hh & _). rewrite M1 in Na. injection Na; intros <- <-.
  unfold has in Hh. rewrite M2 in Hh. discriminate.
Qed.

Definition CX : str := L "counter_cross_reference". Definition PX : str := L "positioner_cross_reference".
Definition xref_positioners : attrs_t := xref_attrs "cross-reference SPEC positioner mnemonics and names"
  "keys are SPEC positioner mnemonics, values are SPEC positioner names".
Definition cx_attrs (m v : str) : res attrs_t := Ok [].
Definition px_attrs (m v : str) : res attrs_t := match clean_name v with Ok c => Ok [(L "mne", AText m); (L "field_name", AText c)] | Raise e => Raise e end.
Lemma cx_tame : tame cx_attrs.
Proof. intros m v at_ H. unfold cx_attrs in H. assert (at_ = []) by congruence. subst. split; [constructor|auto]. Qed.
Lemma px_tame : tame px_attrs.
Proof.
  intros m v at_ H. unfold px_attrs in H. destruct (clean_name v) as [c|e]; [|discriminate].
  assert (at_ = [(L "mne", AText m); (L "field_name", AText c)]) by congruence. subst. split; [nodup|].
  cbn [keys map fst In]. intros [X|[X|[]]]; revert X; apply seqb_neq; reflexivity.
Qed.
Lemma siter_ext {A} (p q : A -> WM unit) l : (forall x w, p x w = q x w) -> forall w, siter p l w = siter q l w.
Proof. intros H. induction l as [|y l IH]; intros w; cbn [siter]; [auto|]. rewrite !sbind_eq, H. destruct (q y w) as [w1 [u|x]]; auto. Qed.
Lemma cx_loop g l w : siter (fun kv => wds g (fst kv) (DText (snd kv)) []) l w = put_all cx_attrs g l w.
Proof. apply siter_ext. reflexivity. Qed.
Lemma px_loop g l w : siter (fun kv => let* c := slift (clean_name (snd kv)) in
                       wds g (fst kv) (DText (snd kv)) [(L "mne", AText (fst kv)); (L "field_name", AText c)]) l w = put_all px_attrs g l w.
Proof. apply siter_ext. intros [k x] w0. cbn [fst snd]. rewrite !sbind_eq. unfold slift, px_attrs. destruct (clean_name x); reflexivity. Qed.

(** the three writers, with the part after the table is there *)
Definition tab_writer (n : str) (l : attrs_t) (at_of : str -> str -> res attrs_t) (e : handle) (x : dict str) : WM unit :=
  let* g := hdf (makeGroup e n NOTE l) in put_all at_of g (sorted_items x).
Definition tab_case (n : str) (l : attrs_t) (at_of : str -> str -> res attrs_t) (e : handle) (o' : option (dict str)) (w w' : wst) (u : unit) : Prop :=
  exists w0 x, w_h5 w0 = w_h5 w /\ (o' = Some x \/ (o' = None /\ x = [])) /\
    ((x = [] /\ w_h5 w' = w_h5 w) \/ tab_writer n l at_of e x w0 = (w', Ok u)).
Lemma put_on_h5 o x v w : w_h5 (put_on o x v w) = w_h5 w. Proof. destruct o; reflexivity. Qed.
Lemma case_J cmd h e o w w' u : h = H_J \/ h = H_j -> writer_of cmd h e o w = (w', Ok u) -> tab_case CX xref_counters cx_attrs e (obj_of o w A_counter_xref) w w' u.
Proof.
  assert (X : forall x w1, w_counters e x w1 = tab_writer CX xref_counters cx_attrs e x w1).
  { intros x w1. unfold w_counters, tab_writer. rewrite !sbind_eq. destruct (hdf _ w1) as [w2 [g|]]; [|reflexivity]. apply cx_loop. }
  intros [->| ->] H; cbn [writer_of] in H; unfold w_J, w_j in H; rewrite ens_eq in H; destruct (obj_of o w A_counter_xref) as [x|] eqn:Ex.
  - exists w, x. split; [reflexivity|split; [left; reflexivity|]]. destruct x as [|p x]; [left; unfold sret in H; split; [reflexivity|congruence]|right; rewrite <- X; exact H].
  - exists w, []. split; [reflexivity|split; [right; split; reflexivity|]]. left. split; [reflexivity|]. unfold sret in H. assert (E : w' = put_on o A_counter_xref [] w) by congruence. rewrite E. apply put_on_h5.
  - exists w, x. split; [reflexivity|split; [left; reflexivity|]]. right. rewrite <- X. exact H.
  - exists (put_on o A_counter_xref [] w), []. split; [apply put_on_h5|split; [right; split; reflexivity|]]. right. rewrite <- X. exact H.
Qed.
Lemma case_o cmd e o w w' u : writer_of cmd H_o e o w = (w', Ok u) -> tab_case PX xref_positioners px_attrs e (obj_of o w A_positioner_xref) w w' u.
Proof.
  intros H; cbn [writer_of] in H; unfold w_o in H. rewrite ens_eq in H; destruct (obj_of o w A_positioner_xref) as [x|] eqn:Ex.
  - exists w, x. split; [reflexivity|split; [left; reflexivity|]]. destruct x as [|p x]; [left; unfold sret in H; split; [reflexivity|congruence]|right].
    rewrite <- H. unfold tab_writer. rewrite !sbind_eq. destruct (hdf _ w) as [w2 [g|]]; [|reflexivity]. symmetry. apply px_loop.
  - exists w, []. split; [reflexivity|split; [right; split; reflexivity|]]. left. split; [reflexivity|]. unfold sret in H. assert (E : w' = put_on o A_positioner_xref [] w) by congruence. rewrite E. apply put_on_h5.
Qed.

Definition Psi_tab (n : str) (l : attrs_t) (at_of : str -> str -> res attrs_t) (v : option (dict str)) (f : h5) (a : nat) : Prop :=
  forall x, v = Some x -> x <> [] -> NoDup (keys x) -> Forall plain_name (keys x) -> table_in f a n l at_of x.

Section Tab.
  Context (n : str) (l : attrs_t) (at_of : str -> str -> res attrs_t) (hs : hid -> Prop) (get : obj -> option (dict str)).
  Context (Hn : plain_name n) (ND : NoDup (keys l)) (NN : ~ In NXC (keys l)) (NT : ~ In TGT (keys l)) (T : tame at_of).
  Context (Cs : forall cmd h e o w w' u, hs h -> writer_of cmd h e o w = (w', Ok u) -> tab_case n l at_of e (get (obj_of o w)) w w' u).
  Context (Ok_ : forall h, ~ hs h -> okw (K1 n) h) (dec : forall h, hs h \/ ~ hs h).
  Lemma est_tab o h : hs h -> est_of o h (fun ob => Psi_tab n l at_of (get ob)).
  Proof.
    intros Hh cmd a sk w w' u Ha Hp Has W H. pose proof (base_writer_of _ _ _ _ _ _ _ _ Hp Has W H) as WE.
    assert (NOR : (forall f, Psi_tab n l at_of (get (obj_of o w)) f a) -> exists P K II, FrameK.Inv P a sk K II (w_h5 w') /\
      (forall cmd' h' o' w1 w2 u', WriterFrameK.WInv P a sk K II w1 -> FrameK.Fr P a K II (w_h5 w') (w_h5 w1) ->
         writer_of cmd' h' (mk_handle a (name_at [sk])) o' w1 = (w2, Ok u') ->
         FrameK.Inv P a sk K II (w_h5 w2) /\ FrameK.Fr P a K II (w_h5 w1) (w_h5 w2)) /\
      forall f, FrameK.Inv P a sk K II f -> FrameK.Fr P a K II (w_h5 w') f -> Psi_tab n l at_of (get (obj_of o w)) f a).
    { intros X. apply (est_of_none o (fun ob => Psi_tab n l at_of (get ob)) a sk w w' Ha Hp Has WE X). }
    destruct (Cs _ _ _ _ _ _ _ Hh H) as (w0 & x & E0 & Eo & C).
    destruct x as [|p x].
    { apply NOR. intros f y Hy Ny. exfalso. apply Ny. destruct Eo as [Eo|[Eo _]]; rewrite Eo in Hy; congruence. }
    destruct Eo as [Eo|[_ Eo]]; [|discriminate Eo]. destruct C as [[C _]|C]; [discriminate C|].
    assert (DX : (NoDup (keys (p :: x)) /\ Forall plain_name (keys (p :: x))) \/ ~ (NoDup (keys (p :: x)) /\ Forall plain_name (keys (p :: x)))).
    { assert (D1 : forall q, plain_name q \/ ~ plain_name q).
      { intros q. unfold plain_name. destruct (list_eq_dec N.eq_dec q []) as [E1|E1]; [right; intros (X & _); auto|].
        destruct (list_eq_dec N.eq_dec q [46%N]) as [E2|E2]; [right; intros (_ & X & _); auto|].
        destruct (in_dec N.eq_dec 47%N q) as [E3|E3]; [right; intros (_ & _ & X); auto|left; auto]. }
      assert (D2 : forall l0 : list str, Forall plain_name l0 \/ ~ Forall plain_name l0).
      { induction l0 as [|q l0 [IH|IH]]; [left; constructor| |right; intros X; inversion X; auto].
        destruct (D1 q); [left; constructor; auto|right; intros X; inversion X; auto]. }
      destruct (ListDec.NoDup_dec (list_eq_dec N.eq_dec) (keys (p :: x))) as [X|X]; [|right; intros [Y _]; auto].
      destruct (D2 (keys (p :: x))) as [Y|Y]; [left; auto|right; intros [_ Z]; auto]. }
    destruct DX as [[Nx Px]|DX].
    2:{ apply NOR. intros f y Hy _ N1 N2. exfalso. apply DX. rewrite Eo in Hy. injection Hy; intros <-. auto. }
    unfold tab_writer in C. apply bind_ok in C. destruct C as (g & w1 & C1 & C2).
    assert (I0 : BInv a sk (w_h5 w0)) by (rewrite E0; apply W).
    destruct (table_made a sk n l at_of (p :: x) _ w0 w' g w1 u Ha eq_refl Hn I0 ND NN NT T Nx Px C1 C2) as (ms & at_ & Fi & Eg & _ & _ & (mg & Ng) & Dc).
    destruct WE as [I' _]. destruct (filled_up a sk n ms at_ _ _ Ha I0 I' Fi) as (IU & Mb & Hab).
    eexists. exists (K1 n), noI. split; [exact IU|]. split.
    - intros cmd' h' o' w2 w3 u' W2 F2 H2. pose proof W2 as [I2 _]. destruct (dec h') as [Hh'|Hh'].
      + destruct (Cs _ _ _ _ _ _ _ Hh' H2) as (w4 & x4 & E4 & _ & [[_ C4]|C4]).
        * rewrite C4. split; [exact I2|apply FrameK.Fr_refl].
        * exfalso. unfold tab_writer in C4. apply bind_ok in C4. destruct C4 as (g4 & w5 & C4 & _).
          apply (group_twice _ _ _ _ _ _ _ (List.length (w_h5 w0)) Hn) in C4; [exact C4| |]; rewrite E4; cbn [h_id].
          -- apply (FrameK.inv_alt _ _ _ _ _ _ I2).
          -- apply (FrameK.fr_top _ _ _ _ _ _ F2); [reflexivity|exact Mb].
      + eassert (K : WriterFrameK.wk _ a sk (K1 n) noI (writer_of cmd' h' (mk_handle a (name_at [sk])) o') (fun _ => True)).
        { apply (WriterFrameK.writer_of_ok _ a sk (K1 n) noI); auto; [apply K1_0|apply K1_2|apply (entry_hat _ a sk (K1 n) noI _ Hp I2)]. }
        destruct (wk_step _ _ _ _ _ _ _ _ _ _ K W2 H2) as [[J1 _] F1]. auto.
    - intros f _ G y Hy _ _ _. rewrite Eo in Hy. injection Hy; intros <-. destruct G as [G1 G2 G3 G4]. apply Dc.
      + eapply near_same; [rewrite Eg; apply (fi_len _ _ _ _ _ _ Fi)| |exact Ng]. intros i Hi. apply G2. right. rewrite Eg in Hi. exact Hi.
      + rewrite Eg. apply G3; [reflexivity|exact Mb].
  Qed.
End Tab.
