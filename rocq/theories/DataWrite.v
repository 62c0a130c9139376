(** What Writer.save_data makes in the data group of an entry *)
From Coq Require Import String Lia.
From Verif Require Import Py PyFacts Utils SpecUtils Keys Handlers Reader H5 SpecH5 H5Facts FrameH5 H5Exact Writer.
Import ListNotations.
Local Open Scope list_scope.

(* ------------------------------------------------------------------ *)
(** ** datasets made one after the other in group [d]; each replaces one of the same name *)
Inductive steps (d : nat) : list (str * node) -> h5 -> h5 -> Prop :=
| st_nil f : steps d [] f f
| st_cons n nd items f ms at_ f' : nth_error f d = Some (Group ms at_) -> NoDup (keys ms) ->
    steps d items (made d n (ddel n ms) at_ nd f) f' -> steps d ((n, nd) :: items) f f'.

Definition GD (d : nat) (f : h5) : Prop := exists ms at_, nth_error f d = Some (Group ms at_) /\ NoDup (keys ms).

Lemma ddel_gone {V} n (ms : dict V) : NoDup (keys ms) -> has n (ddel n ms) = false.
Proof.
  intros ND. apply has_not_In. intros K. apply in_map_iff in K. destruct K as [[k x] [K1 K2]]. cbn [fst] in K1. subst k.
  revert K2. induction ms as [|[k y] ms IH]; simpl; [auto|]. inversion ND; subst.
  destruct (seqb n k) eqn:Ek; simpl.
  - intros K2. apply seqb_eq in Ek. subst. apply H1. apply (in_map fst) in K2. exact K2.
  - intros [K2|K2]; [inversion K2; subst; rewrite seqb_refl in Ek; discriminate|]. apply IH; auto.
Qed.
Lemma made_GD d n ms at_ nd f : nth_error f d = Some (Group ms at_) -> NoDup (keys ms) ->
  nth_error (made d n (ddel n ms) at_ nd f) d = Some (Group (ddel n ms ++ [(n, List.length f)]) at_) /\
  NoDup (keys (ddel n ms ++ [(n, List.length f)])).
Proof.
  intros H ND. split; [rewrite (made_nth _ _ _ _ _ _ _ H), Nat.eqb_refl; reflexivity|].
  apply NoDup_snoc_key; [apply NoDup_ddel; auto|apply ddel_gone; auto].
Qed.
Lemma steps_GD d items f f' : steps d items f f' -> GD d f -> GD d f'.
Proof.
  induction 1 as [|n nd items f ms at_ f' H ND S IH]; auto. intros _. apply IH.
  destruct (made_GD d n ms at_ nd f H ND) as [A B]. eexists; eexists; eauto.
Qed.
Lemma steps_app d l1 l2 f f1 f2 : steps d l1 f f1 -> steps d l2 f1 f2 -> steps d (l1 ++ l2) f f2.
Proof. induction 1; intros H2; cbn [app]; [auto|econstructor; eauto]. Qed.
Lemma steps_len d items f f' : steps d items f f' -> List.length f' = List.length f + List.length items.
Proof.
  induction 1 as [|n nd items f ms at_ f' H ND S IH]; cbn [List.length]; [lia|].
  rewrite IH, made_length. lia.
Qed.
Lemma steps_other d items f f' : steps d items f f' -> forall i, i <> d -> i < List.length f -> nth_error f' i = nth_error f i.
Proof.
  induction 1 as [|n nd items f ms at_ f' H ND S IH]; intros i Ni Li; auto.
  rewrite IH; auto; [|rewrite made_length; lia]. rewrite (made_nth _ _ _ _ _ _ _ H).
  destruct (Nat.eqb_spec i d); [lia|]. destruct (Nat.eqb_spec i (List.length f)); [lia|auto].
Qed.
Lemma steps_attrs d items f f' : steps d items f f' -> forall ms at_, nth_error f d = Some (Group ms at_) ->
  exists ms', nth_error f' d = Some (Group ms' at_).
Proof.
  induction 1 as [|n nd items f ms at_ f' H ND S IH]; intros ms1 at1 H1; [eauto|].
  rewrite H in H1. inversion H1; subst ms1 at1. eapply IH. apply (made_GD d n ms at_ nd f H ND).
Qed.
Lemma steps_keep d items f f' : steps d items f f' -> forall n j, ~ In n (map fst items) -> member f d n j -> member f' d n j.
Proof.
  induction 1 as [|n nd items f ms at_ f' H ND S IH]; intros m j Nm M; auto.
  cbn [map fst In] in Nm. apply IH; [tauto|]. destruct M as (ms1 & at1 & H1 & D1). rewrite H in H1. inversion H1; subst ms1 at1.
  eexists; eexists. split; [apply (made_GD d n ms at_ nd f H ND)|]. rewrite dget_app, dget_ddel_other, D1 by (intros Ex; apply Nm; left; congruence). reflexivity.
Qed.
(** the last dataset of a name is found under it *)
Lemma steps_last d items f f' : steps d items f f' -> forall l1 n nd l2, items = l1 ++ (n, nd) :: l2 -> ~ In n (map fst l2) ->
  d < List.length f -> exists j, List.length f <= j /\ member f' d n j /\ nth_error f' j = Some nd.
Proof.
  induction 1 as [|m x items f ms at_ f' H ND S IH]; intros l1 n nd l2 El Nn Ld.
  - destruct l1; discriminate.
  - destruct l1 as [|y l1]; cbn [app] in El; inversion El; subst.
    + exists (List.length f). split; [lia|].
      assert (M1 : member (made d n (ddel n ms) at_ nd f) d n (List.length f)).
      { eexists; eexists. split; [apply (made_GD d n ms at_ nd f H ND)|]. rewrite dget_app.
        rewrite (has_false_dget _ _ (ddel_gone n ms ND)). cbn [dget]. rewrite seqb_refl. reflexivity. }
      split; [eapply steps_keep; eauto|].
      rewrite (steps_other _ _ _ _ S) by (try lia; rewrite made_length; lia).
      rewrite (made_nth _ _ _ _ _ _ _ H). destruct (Nat.eqb_spec (List.length f) d); [lia|]. rewrite Nat.eqb_refl. reflexivity.
    + destruct (IH l1 n nd l2 eq_refl Nn) as (j & A & B & C); [rewrite made_length; lia|].
      exists j. rewrite made_length in A. split; [lia|auto].
Qed.
Lemma steps_only d items f f' : steps d items f f' -> forall n j, member f' d n j -> member f d n j \/ In n (map fst items).
Proof.
  induction 1 as [|m x items f ms at_ f' H ND S IH]; intros n j M; auto.
  destruct (IH n j M) as [M1|Hin]; [|right; right; auto].
  destruct M1 as (ms1 & at1 & H1 & D1). destruct (made_GD d m ms at_ x f H ND) as [A B]. rewrite A in H1. inversion H1; subst ms1 at1.
  rewrite dget_app in D1. destruct (dget n (ddel m ms)) as [j'|] eqn:Dd.
  - left. exists ms, at_. split; auto. apply (dget_ddel_sub n m ms); auto. congruence.
  - cbn [dget] in D1. destruct (seqb n m) eqn:En; [|discriminate]. apply seqb_eq in En. right; left. auto.
Qed.

(* ------------------------------------------------------------------ *)
(** ** write_ds *)
Definition Wr (d : nat) (items : list (str * node)) (w w' : wst) : Prop :=
  w_scan w' = w_scan w /\ w_hdr w' = w_hdr w /\ steps d items (w_h5 w) (w_h5 w').
Lemma Wr_app d l1 l2 w w1 w2 : Wr d l1 w w1 -> Wr d l2 w1 w2 -> Wr d (l1 ++ l2) w w2.
Proof. intros (A & B & C) (A' & B' & C'). split; [congruence|split; [congruence|eapply steps_app; eauto]]. Qed.
Lemma Wr_nil d w : Wr d [] w w.
Proof. split; [auto|split; [auto|constructor]]. Qed.
Lemma Wr_GD d l w w' : Wr d l w w' -> GD d (w_h5 w) -> GD d (w_h5 w').
Proof. intros (_ & _ & C). apply steps_GD with (1 := C). Qed.

Definition named (label : str) (l : attrs_t) (v : hval) : node := with_attrs (Dset v []) ((L "spec_name", AText label) :: l).
Lemma write_ds_Wr g label data l w w' u : write_ds g label data l w = (w', Ok u) -> GD (h_id g) (w_h5 w) ->
  exists c v, clean_name label = Ok c /\ to_hval data = Ok v /\ Wr (h_id g) [(c, named label l v)] w w'.
Proof.
  intros H (ms & at_ & G & ND). unfold write_ds in H. rewrite sbind_eq in H. unfold slift in H.
  destruct (clean_name label) as [c|x] eqn:Ec; [|discriminate]. exists c.
  unfold wds, hdf, unit_of in H. rewrite sbind_eq in H.
  destruct (to_hval data) as [v|x] eqn:Ev.
  - exists v. split; [auto|split; [auto|]]. rewrite (write_dataset_eq g c data _ v ms at_) in H; auto; [|eapply clean_plain; eauto].
    unfold sret in H. inversion H; subst. split; [reflexivity|split; [reflexivity|]]. cbn [w_h5].
    econstructor; eauto. constructor.
  - exfalso. unfold write_dataset in H. rewrite sbind_eq in H. unfold hin in H. rewrite sbind_eq in H.
    destruct (resolve (h_id g) c (w_h5 w)); [destruct (hdel g c (w_h5 w)) as [g1 [u1|x1]]|unfold sret at 1 in H];
      try discriminate; cbv iota beta in H; unfold makeDataset in H; rewrite sbind_eq in H; unfold slift in H; rewrite Ev in H; discriminate.
Qed.

(* ------------------------------------------------------------------ *)
(** ** one-dimensional data *)
Definition column_item (dd : dict col) (c : str) (it : str * node) : Prop :=
  exists n vs, clean_name c = Ok n /\ dget c dd = Some (Col vs) /\
               it = (n, named c [] (HArr [List.length vs] (nums vs))).
Definition rd_eq o a w v : obj_of o w a = Some v -> rd o a w = (w, Ok v).
Proof. unfold rd. intros ->. reflexivity. Defined.

Lemma nums_length l : List.length (nums l) = List.length l.
Proof. apply map_length. Qed.

Lemma columns_Wr g dd ls : forall w w' u, w_scan w A_data = Some dd -> GD (h_id g) (w_h5 w) ->
  siter (fun c => let* d := rd Scn A_data in
                  let* v := slift (of_opt KeyError (dget c d)) in
                  write_ds g c (col_data v) []) ls w = (w', Ok u) ->
  exists items, Forall2 (column_item dd) ls items /\ Wr (h_id g) items w w'.
Proof.
  induction ls as [|c ls IH]; intros w w' u Hd G H; cbn [siter] in H.
  - inversion H; subst. exists []. split; [constructor|apply Wr_nil].
  - rewrite sbind_eq in H. rewrite sbind_eq in H. rewrite (rd_eq Scn A_data w dd Hd) in H.
    rewrite sbind_eq in H. unfold slift in H.
    destruct (dget c dd) as [v|] eqn:Dc; cbn [of_opt] in H; [|discriminate].
    destruct (write_ds g c (col_data v) [] w) as [w1 [u1|x]] eqn:E1; [|discriminate].
    destruct (write_ds_Wr _ _ _ _ _ _ _ E1 G) as (n & hv & Cn & Hv & W1).
    destruct v as [vs|m]; [|discriminate Hv]. cbn [col_data to_hval] in Hv. injection Hv; intros <-.
    destruct (IH w1 w' u) as (items & F & W2); auto.
    + destruct W1 as (A & _). rewrite A. exact Hd.
    + eapply Wr_GD; eauto.
    + exists ((n, named c [] (HArr [List.length vs] (nums vs))) :: items). split.
      * constructor; auto. exists n, vs. auto.
      * eapply (Wr_app _ [_]); [|exact W2]. rewrite nums_length in W1. exact W1.
Qed.

(** the three datasets of a detector *)
Definition spectra_items (axis : str) (cal : num * num * num) (ks : str * list (list num)) (its : list (str * node)) : Prop :=
  let '(a, b, c) := cal in
  let ds := L "_" ++ fst ks ++ L "_" in
  exists n1 n2 n3 v row rows, snd ks = row :: rows /\
    clean_name ds = Ok n1 /\ clean_name (ds ++ L "channel_") = Ok n2 /\ clean_name (ds ++ L "channel_scaled_x") = Ok n3 /\
    to_hval (DRows (snd ks)) = Ok v /\
    its = [(n1, named ds [(L "axes", AText (axis ++ L ":" ++ ds ++ L "channel_")); (L "units", t_ "counts")] v);
           (n2, named (ds ++ L "channel_") [(L "units", t_ "channel")]
                  (HArr [List.length row] (map (fun i => NI (Z.of_nat i)) (seq 1 (List.length row)))));
           (n3, named (ds ++ L "channel_scaled_x") [(L "units", t_ "")]
                  (HArr [List.length row] (map (fun i => scaled a b c (Z.of_nat i)) (seq 1 (List.length row)))))].

Lemma mca_oneD_Wr g axis cal ks w w' u : GD (h_id g) (w_h5 w) -> mca_oneD g axis cal ks w = (w', Ok u) ->
  exists its, spectra_items axis cal ks its /\ Wr (h_id g) its w w'.
Proof.
  intros G H. unfold mca_oneD in H. destruct cal as [[a b] c]. cbv zeta in H. rewrite sbind_eq in H.
  destruct (write_ds g _ _ _ w) as [w1 [u1|x]] eqn:E1; [|discriminate].
  destruct (write_ds_Wr _ _ _ _ _ _ _ E1 G) as (n1 & v1 & C1 & V1 & W1). pose proof (Wr_GD _ _ _ _ W1 G) as G1.
  rewrite sbind_eq in H. unfold slift in H. destruct (snd ks) as [|row rows] eqn:Er; [discriminate|].
  change (index 0 (row :: rows)) with (@Ok (list num) row) in H. cbv iota beta in H.
  rewrite sbind_eq in H. destruct (write_ds g _ _ _ w1) as [w2 [u2|x]] eqn:E2; [|discriminate].
  destruct (write_ds_Wr _ _ _ _ _ _ _ E2 G1) as (n2 & v2 & C2 & V2 & W2). pose proof (Wr_GD _ _ _ _ W2 G1) as G2.
  destruct (write_ds_Wr _ _ _ _ _ _ _ H G2) as (n3 & v3 & C3 & V3 & W3).
  cbn [to_hval] in V2, V3. rewrite !map_length, ?seq_length in V2, V3. rewrite map_map in V2, V3.
  injection V2; intros <-. injection V3; intros <-.
  eexists. split.
  - cbv beta iota zeta delta [spectra_items]. exists n1, n2, n3, v1, row, rows.
    split; [exact Er|]. split; [exact C1|]. split; [exact C2|]. split; [exact C3|]. split; [rewrite Er; exact V1|]. reflexivity.
  - eapply (Wr_app _ [_]); [exact W1|]. eapply (Wr_app _ [_]); [exact W2|exact W3].
Qed.

Definition all_spectra (axis : str) (cal : num * num * num) (dd : dict col) (its : list (str * node)) : Prop :=
  match dget (L "_mca_") dd with
  | None => its = []
  | Some (Mca m) => exists l, Forall2 (spectra_items axis cal) (sorted_items m) l /\ its = List.concat l
  | Some (Col _) => False
  end.
Lemma spectra_Wr g axis cal l : forall w w' u, GD (h_id g) (w_h5 w) ->
  siter (mca_oneD g axis cal) l w = (w', Ok u) ->
  exists itss, Forall2 (spectra_items axis cal) l itss /\ Wr (h_id g) (List.concat itss) w w'.
Proof.
  induction l as [|ks l IH]; intros w w' u G H; cbn [siter] in H.
  - inversion H; subst. exists []. split; [constructor|apply Wr_nil].
  - rewrite sbind_eq in H. destruct (mca_oneD g axis cal ks w) as [w1 [u1|x]] eqn:E1; [|discriminate].
    destruct (mca_oneD_Wr _ _ _ _ _ _ _ G E1) as (its & S1 & W1).
    destruct (IH w1 w' u (Wr_GD _ _ _ _ W1 G) H) as (itss & S2 & W2).
    exists (its :: itss). split; [constructor; auto|]. eapply Wr_app; eauto.
Qed.

Lemma oneD_Wr g w w' sg ax ls dd : GD (h_id g) (w_h5 w) -> w_scan w A_L = Some ls -> w_scan w A_data = Some dd ->
  oneD g w = (w', Ok (sg, ax)) ->
  exists items its cl cf, Forall2 (column_item dd) ls items /\
    all_spectra ax (calibration (w_scan w A_MCA)) dd its /\ Wr (h_id g) (items ++ its) w w' /\
    w_scan w A_column_last = Some cl /\ clean_name cl = Ok sg /\ w_scan w A_column_first = Some cf /\ clean_name cf = Ok ax.
Proof.
  intros G Hl Hd H. unfold oneD in H. rewrite sbind_eq in H. rewrite (rd_eq Scn A_L w ls Hl) in H.
  rewrite sbind_eq in H. destruct (siter _ ls w) as [w1 [u1|x]] eqn:E1; [|discriminate].
  destruct (columns_Wr g dd ls w w1 u1 Hd G E1) as (items & F & W1).
  pose proof W1 as (S1 & _).
  rewrite sbind_eq in H. unfold rd at 1 in H. unfold obj_of in H. rewrite S1 in H.
  destruct (w_scan w A_column_last) as [cl|] eqn:Ecl; [|discriminate].
  rewrite sbind_eq in H. unfold slift at 1 in H. destruct (clean_name cl) as [sg'|x] eqn:Esg; [|discriminate].
  rewrite sbind_eq in H. unfold rd at 1 in H. unfold obj_of in H. rewrite S1 in H.
  destruct (w_scan w A_column_first) as [cf|] eqn:Ecf; [|discriminate].
  rewrite sbind_eq in H. unfold slift at 1 in H. destruct (clean_name cf) as [ax'|x] eqn:Eax; [|discriminate].
  rewrite sbind_eq in H. destruct (mca_spectra g ax' w1) as [w2 [u2|x]] eqn:E2; [|discriminate].
  unfold sret in H. inversion H; subst sg' ax' w2. clear H.
  unfold mca_spectra in E2. rewrite sbind_eq in E2.
  assert (Hd1 : w_scan w1 A_data = Some dd) by (rewrite S1; exact Hd).
  rewrite (rd_eq Scn A_data w1 dd Hd1) in E2.
  assert (X : exists its, all_spectra ax (calibration (w_scan w A_MCA)) dd its /\ Wr (h_id g) its w1 w').
  { unfold all_spectra. destruct (dget (L "_mca_") dd) as [[vs|m]|].
    - discriminate.
    - rewrite S1 in E2. destruct (spectra_Wr _ _ _ _ _ _ _ (Wr_GD _ _ _ _ W1 G) E2) as (itss & F2 & W2).
      exists (List.concat itss). split; eauto.
    - unfold sret in E2. inversion E2; subst. exists []. split; auto. apply Wr_nil. }
  destruct X as (its & SP & W2). exists items, its, cl, cf. split; [auto|split; [auto|split; [eapply Wr_app; eauto|auto]]].
Qed.

(* ------------------------------------------------------------------ *)
(** ** the attributes of the group *)
Definition one_dim_w (cmd : str) : Prop := forall w ws, words cmd = w :: ws -> w <> L "mesh" /\ w <> L "hklmesh".
Definition hkl_scan_w (cmd : str) : Prop := exists w ws, words cmd = w :: ws /\ In w (map L ["hscan"; "kscan"; "lscan"; "hklscan"]%string).

(** only the attributes of group [d] change *)
Definition attrs_only (d : nat) (f f' : h5) : Prop :=
  List.length f' = List.length f /\ (forall i, i <> d -> nth_error f' i = nth_error f i) /\
  forall ms at_, nth_error f d = Some (Group ms at_) -> exists at', nth_error f' d = Some (Group ms at').
Lemma attrs_only_refl d f : attrs_only d f f.
Proof. split; [auto|split; [auto|eauto]]. Qed.
Lemma attrs_only_trans d f g h : attrs_only d f g -> attrs_only d g h -> attrs_only d f h.
Proof.
  intros (A & B & C) (A' & B' & C'). split; [congruence|split; [intros; rewrite B', B; auto|]].
  intros ms at_ H. destruct (C ms at_ H) as [at1 H1]. apply (C' ms at1 H1).
Qed.
Lemma addAttributes_only g l nd f : nth_error f (h_id g) = Some nd ->
  exists f', addAttributes g l f = (f', Ok tt) /\ attrs_only (h_id g) f f' /\ nth_error f' (h_id g) = Some (with_attrs nd l).
Proof.
  intros H. rewrite (addAttributes_eq g l nd f H). eexists. split; [reflexivity|].
  pose proof (put_nth_error _ (with_attrs nd l) _ _ H) as PN. split; [|rewrite PN, Nat.eqb_refl; reflexivity].
  split; [apply put_length|split].
  - intros i Hi. rewrite PN. destruct (Nat.eqb_spec i (h_id g)); [congruence|auto].
  - intros ms at_ H1. rewrite PN, Nat.eqb_refl. rewrite H in H1. inversion H1; subst. cbn [with_attrs]. eauto.
Qed.
Lemma indices_only g l : forall w, (exists ms at_, nth_error (w_h5 w) (h_id g) = Some (Group ms at_)) ->
  exists f', siter (fun a => hdf (addAttributes g [(a ++ L "_indices", ANums [0%Z])])) l w = (mk_ws (w_scan w) (w_hdr w) f', Ok tt) /\
    attrs_only (h_id g) (w_h5 w) f' /\
    forall k v, attribute (w_h5 w) (h_id g) k v -> Forall (fun a => a ++ L "_indices" <> k) l -> attribute f' (h_id g) k v.
Proof.
  induction l as [|x l IH]; intros w (ms & at_ & H); cbn [siter].
  - exists (w_h5 w). split; [destruct w; reflexivity|split; [apply attrs_only_refl|auto]].
  - rewrite sbind_eq. unfold hdf at 1.
    destruct (addAttributes_only g [(x ++ L "_indices", ANums [0%Z])] _ _ H) as (f1 & E1 & A1 & N1). rewrite E1.
    destruct (IH (mk_ws (w_scan w) (w_hdr w) f1)) as (f' & E2 & A2 & K2).
    { cbn [w_h5]. eexists; eexists; exact N1. }
    cbn [w_scan w_hdr w_h5] in *. exists f'. split; [exact E2|split; [eapply attrs_only_trans; eauto|]].
    intros k v (nd & Y & Z) F. inversion F; subst. apply K2; auto. rewrite H in Y. injection Y; intros <-.
    eexists. split; [exact N1|]. cbn in *. rewrite dget_dset_other; auto.
Qed.

Lemma indices_ne a k : In k (map L ["signal"; "axes"; "NX_class"; "description"]%string) -> a ++ L "_indices" <> k.
Proof.
  intros Hk E. assert (R : rev (a ++ L "_indices") = rev k) by congruence. rewrite rev_app_distr in R.
  repeat (destruct Hk as [<-|Hk]; [discriminate R|]). destruct Hk.
Qed.

Definition axes_value (axes : str) : aval :=
  match find_c 58%N axes with Some _ => ATexts (map ascii (split_c 58%N axes)) | None => AText axes end.
Lemma save_data_tail g signal axes w w' u : (exists ms at_, nth_error (w_h5 w) (h_id g) = Some (Group ms at_)) ->
  (match find_c 58%N axes with
  | Some _ =>
      let axes := map ascii (split_c 58%N axes) in
      hdf (addAttributes g [(L "signal", AText signal); (L "axes", ATexts axes)]) >>>
      siter (fun a => hdf (addAttributes g [(a ++ L "_indices", ANums [0%Z])])) axes
  | None =>
      hdf (addAttributes g [(L "signal", AText signal); (L "axes", AText axes)]) >>>
      hdf (addAttributes g [(axes ++ L "_indices", ANums [0%Z])])
  end) w = (w', Ok u) ->
  w_scan w' = w_scan w /\ w_hdr w' = w_hdr w /\ attrs_only (h_id g) (w_h5 w) (w_h5 w') /\
  attribute (w_h5 w') (h_id g) (L "signal") (AText signal) /\
  attribute (w_h5 w') (h_id g) (L "axes") (axes_value axes).
Proof.
  intros (ms & at_ & H0) H. unfold axes_value.
  assert (X : exists axl, match find_c 58%N axes with Some _ => ATexts (map ascii (split_c 58%N axes)) | None => AText axes end = axl /\
     exists l, (hdf (addAttributes g [(L "signal", AText signal); (L "axes", axl)]) >>>
                siter (fun a => hdf (addAttributes g [(a ++ L "_indices", ANums [0%Z])])) l) w = (w', Ok u)).
  { destruct (find_c 58%N axes).
    - eexists. split; [reflexivity|]. eexists. exact H.
    - eexists. split; [reflexivity|]. exists [axes]. rewrite sbind_eq in H |- *.
      destruct (hdf _ w) as [w1 [u1|x1]]; [|discriminate]. cbn [siter]. rewrite sbind_eq.
      destruct (hdf (addAttributes g [(axes ++ L "_indices", ANums [0%Z])]) w1) as [w2 [u2|x2]]; [|discriminate].
      destruct u2. exact H. }
  destruct X as (axl & -> & l & X). clear H. rewrite sbind_eq in X. unfold hdf at 1 in X.
  destruct (addAttributes_only g [(L "signal", AText signal); (L "axes", axl)] _ _ H0) as (f1 & E1 & A1 & N1).
  rewrite E1 in X.
  destruct (indices_only g l (mk_ws (w_scan w) (w_hdr w) f1)) as (f' & E2 & A2 & K2).
  { cbn [w_h5]. eexists; eexists; exact N1. }
  cbn [w_scan w_hdr w_h5] in *. rewrite E2 in X. inversion X; subst. cbn [w_scan w_hdr w_h5].
  split; [auto|split; [auto|split; [eapply attrs_only_trans; eauto|]]].
  assert (AA : forall k v, attribute f1 (h_id g) k v -> In k (map L ["signal"; "axes"]%string) -> attribute f' (h_id g) k v).
  { intros k v Hv Hin. apply K2; auto. apply Forall_forall. intros x _. apply indices_ne.
    destruct Hin as [<-|[<-|[]]]; [left; auto|right; left; auto]. }
  split; apply AA; [|left; auto| |right; left; auto].
  - eexists. split; [exact N1|]. cbn [with_attrs fold_left fst snd]. rewrite dget_dset_other by (apply seqb_neq; reflexivity). apply dget_dset_same.
  - eexists. split; [exact N1|]. cbn [with_attrs fold_left fst snd]. apply dget_dset_same.
Qed.

Lemma save_data_1D g cmd w w' u ls dd : one_dim_w cmd -> GD (h_id g) (w_h5 w) -> w_scan w A_L = Some ls -> w_scan w A_data = Some dd ->
  save_data g cmd w = (w', Ok u) ->
  exists items its sg ax axes f1 cl cf, Forall2 (column_item dd) ls items /\
    all_spectra ax (calibration (w_scan w A_MCA)) dd its /\
    w_scan w' = w_scan w /\ w_hdr w' = w_hdr w /\ steps (h_id g) (items ++ its) (w_h5 w) f1 /\ attrs_only (h_id g) f1 (w_h5 w') /\
    w_scan w A_column_last = Some cl /\ clean_name cl = Ok sg /\ w_scan w A_column_first = Some cf /\ clean_name cf = Ok ax /\
    attribute (w_h5 w') (h_id g) (L "signal") (AText sg) /\
    attribute (w_h5 w') (h_id g) (L "axes") (axes_value axes) /\
    ((hkl_scan_w cmd /\ hkl_axes cmd = Ok axes) \/ (axes = ax /\ ~ hkl_scan_w cmd)).
Proof.
  intros HD G Hl Hd H. unfold save_data in H. rewrite sbind_eq in H. unfold slift at 1 in H.
  unfold one_dim_w in HD. unfold hkl_scan_w. destruct (words cmd) as [|st rest]; [discriminate|].
  change (index 0 (st :: rest)) with (@Ok str st) in H. cbv iota beta in H.
  destruct (HD st rest eq_refl) as [N1 N2].
  assert (M1 : mem st (map L ["mesh"; "hklmesh"]%string) = false).
  { apply not_true_iff_false. intros X. apply mem_In in X. destruct X as [X|[X|[]]]; congruence. }
  rewrite M1 in H. rewrite sbind_eq in H.
  assert (O : forall sa w1, oneD g w = (w1, Ok sa) -> exists items its cl cf, Forall2 (column_item dd) ls items /\
    all_spectra (snd sa) (calibration (w_scan w A_MCA)) dd its /\ Wr (h_id g) (items ++ its) w w1 /\
    w_scan w A_column_last = Some cl /\ clean_name cl = Ok (fst sa) /\ w_scan w A_column_first = Some cf /\ clean_name cf = Ok (snd sa)).
  { intros [sg ax] w1 E1. eapply oneD_Wr; eauto. }
  destruct (mem st (map L ["hscan"; "kscan"; "lscan"; "hklscan"]%string)) eqn:M2.
  - rewrite sbind_eq in H. destruct (oneD g w) as [w1 [sa|x]] eqn:E1; [|discriminate].
    destruct (O sa w1 eq_refl) as (items & its & cl & cf & F & SP & W1 & K1 & K2 & K3 & K4).
    rewrite sbind_eq in H. unfold slift in H. destruct (hkl_axes cmd) as [axes|x] eqn:Eh; [|discriminate].
    unfold sret at 1 in H.
    destruct (save_data_tail g (fst sa) axes w1 w' u) as (B1 & B2 & B3 & B4 & B5); auto.
    { destruct (Wr_GD _ _ _ _ W1 G) as (m1 & a1 & X & _). eauto. }
    pose proof W1 as (S1 & S2 & S3).
    exists items, its, (fst sa), (snd sa), axes, (w_h5 w1), cl, cf.
    repeat (split; [first [assumption|congruence]|]). left. split; [|auto]. exists st, rest. split; [reflexivity|apply mem_In; exact M2].
  - destruct (oneD g w) as [w1 [[sg ax]|x]] eqn:E1; [|discriminate].
    destruct (O (sg, ax) w1 eq_refl) as (items & its & cl & cf & F & SP & W1 & K1 & K2 & K3 & K4). cbn [fst snd] in *.
    destruct (save_data_tail g sg ax w1 w' u) as (B1 & B2 & B3 & B4 & B5); auto.
    { destruct (Wr_GD _ _ _ _ W1 G) as (m1 & a1 & X & _). eauto. }
    pose proof W1 as (S1 & S2 & S3).
    exists items, its, sg, ax, ax, (w_h5 w1), cl, cf.
    repeat (split; [first [assumption|congruence]|]). right. split; auto.
    intros (x & ws & X1 & X2). inversion X1; subst. apply mem_In in X2. congruence.
Qed.
