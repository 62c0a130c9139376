(** Writer.save: one NXentry per key *)
From Coq Require Import String Lia.
From Verif Require Import Py PyFacts Utils Keys Handlers Reader SpecHistory SpecInterp StateFacts FrameFacts SpecWriter NamesFacts
  H5 SpecH5 H5Facts FrameH5 H5Exact Writer WriterFrame.
Import ListNotations.
Local Open Scope list_scope.

(* ------------------------------------------------------------------ *)
(** ** the data file object *)
Section Objects.
  Context (E : env) (known : list hid).
  Definition GS (s : sdf) : Prop := plain_mnemonics s /\ names_state s.

  Lemma nth_set_nth {A} n (x : A) l m : nth_error (set_nth n x l) m = nth_error (put_nth n x l) m.
  Proof. revert n m; induction l as [|y l IH]; intros [|n] [|m]; simpl; auto. Qed.
  Lemma dset_raw name sc (d : dict scan) : dget name d = Some sc -> forall sc', s_raw sc' = s_raw sc ->
    Forall (fun kv => no_rooted_mnemonic (s_raw (snd kv))) d -> Forall (fun kv => no_rooted_mnemonic (s_raw (snd kv))) (dset name sc' d).
  Proof.
    intros Hg sc' Hr H. apply Forall_dset; auto. cbn [snd]. rewrite Hr. rewrite Forall_forall in H.
    apply (H (name, sc)). apply dget_In; auto.
  Qed.
  Lemma set_header_GS s i h o : GS s -> nth_error (headers s) i = Some h -> names_ok o ->
    GS (set_headers (set_nth i (mk_header (h_raw h) o) (headers s)) s).
  Proof.
    intros [[P1 P2] [N1 N2]] Hn Ho. split; split; cbn [set_headers headers scans]; auto.
    - apply Forall_set_nth; auto. cbn [h_raw]. rewrite Forall_forall in P1. apply P1. eapply nth_error_In; eauto.
    - apply Forall_set_nth; auto.
  Qed.
  Lemma set_scan_GS s name sc sc' : GS s -> dget name (scans s) = Some sc -> s_raw sc' = s_raw sc -> names_ok (s_obj sc') ->
    GS (set_scans (dset name sc' (scans s)) s).
  Proof.
    intros [[P1 P2] [N1 N2]] Hg Hr Ho. split; split; cbn [set_scans headers scans]; auto.
    - eapply dset_raw; eauto.
    - apply Forall_dset; auto.
  Qed.
  Lemma GS_scan s name sc : GS s -> dget name (scans s) = Some sc -> no_rooted_mnemonic (s_raw sc) /\ names_ok (s_obj sc).
  Proof.
    intros [[P1 P2] [N1 N2]] Hg. apply dget_In in Hg. rewrite Forall_forall in P2, N1.
    split; [apply (P2 _ Hg)|apply (N1 _ Hg)].
  Qed.
  Lemma GS_header s i h : GS s -> nth_error (headers s) i = Some h -> names_ok (h_obj h).
  Proof. intros [_ [_ N2]] Hn. rewrite Forall_forall in N2. apply N2. eapply nth_error_In; eauto. Qed.

  Lemma interpret_GS name s s' r : GS s -> interpret E known name s = (s', r) -> GS s'.
  Proof.
    intros Hs. unfold interpret. destruct (dget name (scans s)) as [sc|] eqn:Eg; [|intros H; inversion H; subst; auto].
    destruct (s_done sc) eqn:Ed; [intros H; inversion H; subst; auto|]. cbv zeta.
    destruct (GS_scan s name sc Hs Eg) as [Hraw Hobj]. unfold run_on_scan. cbn [with_flags s_raw s_obj s_hdr].
    set (w0 := mk_w true (s_obj sc) (option_map h_obj (nth_error (headers s) (s_hdr sc)))).
    destruct (interpret_scan E known (s_raw sc) w0) as [w r0] eqn:Ei.
    pose proof (interpret_scan_names E known (s_raw sc) Hraw w0 Hobj) as Nw. rewrite Ei in Nw. cbn [fst] in Nw.
    pose proof (frame_interpret E known (s_raw sc) w0) as Fw. rewrite Ei in Fw. cbn [fst] in Fw. destruct Fw as (_ & _ & Fp).
    set (s1 := set_headers _ _).
    assert (H1 : GS s1).
    { unfold s1. cbn [peer w0] in Fp. destruct (nth_error (headers s) (s_hdr sc)) as [h|] eqn:En; cbn [option_map] in Fp.
      - destruct (peer w) as [p|]; [|destruct Fp].
        apply (set_header_GS (set_scans (dset name _ (scans s)) s) (s_hdr sc) h p).
        + eapply set_scan_GS; eauto.
        + exact En.
        + eapply H3_names; [exact Fp|]. eapply GS_header; eauto.
      - assert (X : GS (set_scans (dset name (with_obj (me w) (with_flags false false sc)) (scans s)) s)) by (eapply set_scan_GS; eauto).
        destruct (peer w); exact X. }
    assert (G1 : dget name (scans s1) = Some (with_obj (me w) (with_flags false false sc))).
    { unfold s1. cbn [set_headers scans set_scans]. apply dget_dset_same. }
    clearbody s1. destruct r0; intros H; inversion H; subst; auto. eapply set_scan_GS; eauto.
  Qed.
End Objects.

(* ------------------------------------------------------------------ *)
(** ** a new group in the root *)
Lemma dget_none_app {V} k (v : V) d : has k d = false -> dget k (d ++ [(k, v)]) = Some v.
Proof.
  intros H. rewrite dget_app. unfold has in H. destruct (dget k d); [discriminate|]. cbn [dget]. rewrite seqb_refl. reflexivity.
Qed.

Definition ok5 (f : h5) : Prop := wf f /\ bounded f.
Lemma makeGroup_root sk c ms at_ t : plain_name sk ->
  makeGroup root sk c [] (Group ms at_ :: t) =
  if has sk ms then (Group ms at_ :: t, Raise ValueError)
  else (Group (ms ++ [(sk, S (List.length t))]) at_ :: t ++ [Group [] [(NXC, AText c)]],
        Ok (mk_handle (S (List.length t)) (name_at [sk]))).
Proof.
  intros Hp. unfold makeGroup. rewrite sbind_eq. unfold create_at. rewrite (parts_plain sk Hp). cbn [rev app].
  rewrite sbind_eq. cbn [h_id root]. unfold start. rewrite (plain_rel sk Hp). cbn [dig]. rewrite sbind_eq. unfold free.
  cbn [nth_error]. destruct (has sk ms) eqn:Hs; [reflexivity|].
  rewrite sbind_eq. unfold alloc. cbn [List.length]. rewrite sbind_eq. unfold add_member. cbn [app nth_error]. rewrite Hs.
  destruct (Nat.leb_spec (List.length (Group ms at_ :: t ++ [Group [] []])) (S (List.length t))) as [Lb|Lb];
    [cbn [List.length] in Lb; rewrite app_length in Lb; simpl in Lb; lia|].
  cbn [put_nth]. unfold sret at 1. rewrite sbind_eq. unfold set_attr. cbn [nth_error].
  rewrite nth_error_app2, Nat.sub_diag by lia. cbn [nth_error put_nth]. rewrite put_last.
  cbn [addAttributes]. rewrite sbind_eq. unfold sret. cbn [addAttributes siter]. unfold sub_name.
  rewrite (plain_rel sk Hp), (parts_plain sk Hp). reflexivity.
Qed.

(** [P]: the objects that were there before *)
Section Key.
  Context (a : nat) (sk : str) (Ha : 0 < a) (Hsk : plain_name sk) (Ask : is_ascii sk).
  Definition PO (i : nat) : Prop := i < a.
  Notation Inv := (Inv PO a sk). Notation Fr := (Fr PO a).

  Lemma PO_a : ~ PO a. Proof. unfold PO. lia. Qed.
  Lemma new_inv ms at_ t c : a = S (List.length t) -> has sk ms = false -> ok5 (Group ms at_ :: t) ->
    Inv (Group (ms ++ [(sk, a)]) at_ :: t ++ [Group [] [(NXC, AText c)]]).
  Proof.
    intros Ea Hs [W B]. constructor.
    - intros [|i] m x H; cbn [nth_error] in H.
      + inversion H; subst. apply NoDup_snoc_key; auto. apply (W 0 ms x). reflexivity.
      + rewrite nth_snoc in H. destruct (Nat.eqb i (List.length t)); [inversion H; subst; constructor|].
        apply (W (S i) m x). exact H.
    - intros i m x n j H Hin. cbn [List.length]. rewrite app_length. cbn [List.length].
      assert (Y : forall i m x n j, nth_error (Group ms at_ :: t) i = Some (Group m x) -> In (n, j) m -> j < S (List.length t)).
      { intros i0 m0 x0 n0 j0 H0 Hin0. apply (B i0 m0 x0 n0 j0 H0 Hin0). }
      destruct i as [|i]; cbn [nth_error] in H.
      + inversion H; subst. apply in_app_iff in Hin. destruct Hin as [Hin|[Hin|[]]]; [|inversion Hin; lia].
        specialize (Y 0 ms x n j eq_refl Hin). lia.
      + rewrite nth_snoc in H. destruct (Nat.eqb i (List.length t)); [inversion H; subst; destruct Hin|].
        specialize (Y (S i) m x n j H Hin). lia.
    - exists (ms ++ [(sk, a)]), at_. split; [reflexivity|apply dget_none_app; auto].
    - exact Ha.
    - apply PO_a.
    - intros j Hj. unfold PO in Hj. cbn [List.length]. rewrite app_length. simpl. lia.
    - cbn [List.length]. rewrite app_length. simpl. lia.
    - intros i m x n j Hi H Hin. exfalso. unfold PO in Hi. destruct i as [|i]; [lia|]. cbn [nth_error] in H.
      rewrite nth_snoc in H. destruct (Nat.eqb_spec i (List.length t)) as [->|Ne]; [inversion H; subst; destruct Hin|].
      assert (X : i < List.length t) by (apply nth_error_Some; congruence). lia.
  Qed.
  Lemma root_attr_inv f k v r f' : Inv f -> set_attr 0 k v f = (f', r) -> Inv f' /\
    (forall i, 0 < i -> nth_error f' i = nth_error f i) /\ List.length f' = List.length f /\
    (forall ms at_, nth_error f 0 = Some (Group ms at_) -> nth_error f' 0 = Some (Group ms (dset k v at_))).
  Proof.
    intros I H. unfold set_attr in H. destruct (inv_root _ _ _ f I) as (ms & at_ & E0 & D). rewrite E0 in H.
    assert (Ef : f' = put_nth 0 (Group ms (dset k v at_)) f) by congruence. clear H.
    pose proof (put_nth_error 0 (Group ms (dset k v at_)) _ f E0) as PN. rewrite <- Ef in PN.
    pose proof (put_length 0 (Group ms (dset k v at_)) f) as PL. rewrite <- Ef in PL. clear Ef.
    split; [|split; [|split]].
    - constructor.
      + intros i m x Hi. rewrite PN in Hi. destruct (Nat.eqb_spec i 0) as [->|Ne].
        * inversion Hi; subst. eapply (inv_wf _ _ _ f I); eauto.
        * eapply (inv_wf _ _ _ f I); eauto.
      + intros i m x n j Hi Hin. rewrite PL. rewrite PN in Hi. destruct (Nat.eqb_spec i 0) as [->|Ne].
        * inversion Hi; subst. eapply (inv_bd _ _ _ f I); eauto.
        * eapply (inv_bd _ _ _ f I); eauto.
      + exists ms, (dset k v at_). rewrite PN. auto.
      + exact Ha.
      + apply PO_a.
      + intros j Hj. rewrite PL. apply (inv_lt _ _ _ f I j Hj).
      + rewrite PL. apply (inv_alt _ _ _ f I).
      + intros i m x n j Hi Hn Hin. rewrite PN in Hn. destruct (Nat.eqb_spec i 0) as [->|Ne]; [destruct Hi; exact Ha|].
        eapply (inv_link _ _ _ f I); eauto.
    - intros i Hi. rewrite PN. destruct (Nat.eqb_spec i 0); [lia|auto].
    - exact PL.
    - intros m x Hm. rewrite E0 in Hm. inversion Hm; subst. rewrite PN. reflexivity.
  Qed.
End Key.

(* ------------------------------------------------------------------ *)
(** ** one key *)
Lemma good_key_plain k : good_key k -> plain_name (entry_name k) /\ is_ascii (entry_name k).
Proof.
  unfold good_key, entry_name. intros H. split.
  - split; [discriminate|split; [discriminate|]]. intros [X|X]; [discriminate X|]. cbn [app] in X. fold str in X.
    rewrite Forall_forall in H. destruct (H _ X); auto.
  - constructor; [reflexivity|]. eapply Forall_impl; [|exact H]. intros c Hc. apply Hc.
Qed.

(** what holds of the file after a key: [f] before, [f'] after *)
Record step_done (k : skey) (first : bool) (f f' : h5) (r : option exn) : Prop := mk_step {
  sd_old : forall i, 0 < i < List.length f -> nth_error f' i = nth_error f i;
  sd_len : List.length f <= List.length f';
  sd_wf : ok5 f';
  sd_root : forall ms at_, nth_error f 0 = Some (Group ms at_) ->
     (has (entry_name k) ms = true /\ f' = f /\ r = Some ValueError) \/
     (has (entry_name k) ms = false /\ nx_group f' (List.length f) "NXentry" /\
      (exists at', nth_error f' 0 = Some (Group (ms ++ [(entry_name k, List.length f)]) at') /\
         (at' = at_ \/ (first = true /\ at' = dset (L "default") (AText (entry_name k)) at_)) /\
         (r = None -> first = true -> at' = dset (L "default") (AText (entry_name k)) at_)) /\
      (r = None -> exists d, member f' (List.length f) DATA d /\ nx_group f' d "NXdata")) }.

Lemma nx_group_new t c : nx_group (t ++ [Group [] [(NXC, AText (L c))]]) (List.length t) c.
Proof.
  split.
  - exists [], [(NXC, AText (L c))]. rewrite nth_snoc, Nat.eqb_refl. reflexivity.
  - exists (Group [] [(NXC, AText (L c))]). rewrite nth_snoc, Nat.eqb_refl. split; reflexivity.
Qed.

Lemma ensure_data_total e f ms at_ : nth_error f (h_id e) = Some (Group ms at_) ->
  exists f', ensure_data e f = (f', Ok tt) /\ exists d, member f' (h_id e) DATA d.
Proof.
  intros H. assert (Hi : h_id e < List.length f) by (apply nth_error_Some; congruence).
  unfold ensure_data. rewrite sbind_eq. unfold hin.
  assert (PD : plain_name (L "data")) by (apply plainb_ok; reflexivity).
  rewrite (resolve_plain _ _ ms at_) by auto. destruct (dget (L "data") ms) as [d|] eqn:D.
  { exists f. split; [reflexivity|]. exists d, ms, at_. auto. }
  rewrite sbind_eq. set (l := [(L "signal", t_ "no_y_data"); (L "axes", t_ "no_x_data"); (L "no_x_data_indices", ANums [0%Z])]).
  rewrite (makeGroup_eq e (L "data") (L "NXdata") l ms at_) by auto. unfold has. rewrite D.
  cbv zeta. set (nd := with_attrs (Group [] [(NXC, AText (L "NXdata"))]) l).
  set (g1 := made (h_id e) (L "data") ms at_ nd f). set (o := mk_handle (List.length f) (sub_name (h_name e) (L "data"))).
  set (d := DNums [NI 0; NI 1]). set (la := [(L "units", t_ "none"); (L "long_name", t_ "no data points in this scan")]).
  assert (N1 : forall j, nth_error g1 j = if Nat.eqb j (h_id e) then Some (Group (ms ++ [(L "data", List.length f)]) at_)
           else if Nat.eqb j (List.length f) then Some nd else nth_error f j) by (apply (made_nth _ _ _ _ _ _ _ H)).
  assert (O1 : exists a1, nth_error g1 (h_id o) = Some (Group [] a1)).
  { cbn [o h_id]. rewrite N1. destruct (Nat.eqb_spec (List.length f) (h_id e)); [lia|]. rewrite Nat.eqb_refl. eexists; reflexivity. }
  destruct O1 as [a1 O1]. rewrite sbind_eq.
  rewrite (makeDataset_eq o (L "no_x_data") d la (HArr [2] [NI 0; NI 1]) [] a1) by (auto; apply plainb_ok; reflexivity).
  cbn [has dget]. set (g2 := made (h_id o) (L "no_x_data") [] a1 (with_attrs (Dset (HArr [2] [NI 0; NI 1]) []) la) g1).
  assert (N2 : forall j, nth_error g2 j = if Nat.eqb j (h_id o) then Some (Group [(L "no_x_data", List.length g1)] a1)
     else if Nat.eqb j (List.length g1) then Some (with_attrs (Dset (HArr [2] [NI 0; NI 1]) []) la) else nth_error g1 j)
     by (intros j; apply (made_nth (h_id o) (L "no_x_data") [] a1 _ g1 _ O1)).
  unfold unit_of. rewrite sbind_eq.
  rewrite (makeDataset_eq o (L "no_y_data") d la (HArr [2] [NI 0; NI 1]) [(L "no_x_data", List.length g1)] a1);
    [|apply plainb_ok; reflexivity|reflexivity|rewrite N2, Nat.eqb_refl; reflexivity].
  change (has (L "no_y_data") [(L "no_x_data", List.length g1)]) with false. cbv iota.
  eexists. split; [reflexivity|]. exists (List.length f).
  assert (O2 : nth_error g2 (h_id o) = Some (Group [(L "no_x_data", List.length g1)] a1)) by (rewrite N2, Nat.eqb_refl; reflexivity).
  exists (ms ++ [(L "data", List.length f)]), at_. split.
  - rewrite (made_nth _ _ _ _ _ _ _ O2). cbn [o h_id]. destruct (Nat.eqb_spec (h_id e) (List.length f)); [lia|].
    unfold g2 at 1. rewrite made_length. unfold g1 at 1. rewrite made_length.
    destruct (Nat.eqb_spec (h_id e) (S (S (List.length f)))); [lia|].
    rewrite N2. cbn [o h_id]. destruct (Nat.eqb_spec (h_id e) (List.length f)); [lia|].
    unfold g1 at 1. rewrite made_length. destruct (Nat.eqb_spec (h_id e) (S (List.length f))); [lia|].
    rewrite N1, Nat.eqb_refl. reflexivity.
  - apply dget_none_app. unfold has. change DATA with (L "data"). rewrite D. reflexivity.
Qed.

Section OneKey.
  Context (E : env) (known : list hid).

  Lemma save_scan_frame a sk e name s f s' f' r : 0 < a -> plain_name sk -> is_ascii sk -> ent a sk e -> GS s -> Inv (PO a) a sk f ->
    save_scan E known e name s f = (s', f', r) -> GS s' /\ Inv (PO a) a sk f' /\ Fr (PO a) a f f'.
  Proof.
    intros Ha Hp Ha2 He Hs Hi H. unfold save_scan in H.
    destruct (interpret E known name s) as [s1 [x|]] eqn:Ei; pose proof (interpret_GS E known _ _ _ _ Hs Ei) as H1.
    { inversion H; subst. split; [auto|split; [auto|apply Fr_refl]]. }
    destruct (dget name (scans s1)) as [sc|] eqn:Eg; [|inversion H; subst; split; [auto|split; [auto|apply Fr_refl]]].
    destruct (nth_error (headers s1) (s_hdr sc)) as [h|] eqn:En; [|inversion H; subst; split; [auto|split; [auto|apply Fr_refl]]].
    set (w0 := mk_ws (s_obj sc) (h_obj h) f) in H.
    assert (W0 : WInv (PO a) a sk w0).
    { split; [exact Hi|]. split; [apply (GS_scan s1 name sc H1 Eg)|apply (GS_header s1 _ h H1 En)]. }
    destruct (save_objs_ok (PO a) a sk (PO_a a Ha) Hp Ha2 e He sc w0 W0) as [[I1 [N1 N2]] [F1 _]].
    destruct (save_objs e sc w0) as [w r0]. cbn [fst] in *. inversion H; subst; clear H.
    split; [|split; auto].
    apply (set_header_GS (set_scans (dset name (with_obj (w_scan w) sc) (scans s1)) s1) (s_hdr sc) h (w_hdr w)); auto.
    eapply set_scan_GS; eauto.
  Qed.

  Lemma save_key_spec first k s f s' f' r ms0 at0 : good_key k -> GS s -> ok5 f -> nth_error f 0 = Some (Group ms0 at0) ->
    save_key E known first k s f = (s', f', r) -> GS s' /\ step_done k first f f' r.
  Proof.
    intros Hk Hs W E0 H. destruct (good_key_plain k Hk) as [Hp Has].
    destruct f as [|n0 t]; [discriminate E0|]. inversion E0; subst n0. clear E0.
    set (f := Group ms0 at0 :: t) in *. set (sk := entry_name k) in *. set (a := List.length f).
    assert (Hlen : a = S (List.length t)) by reflexivity. assert (Ha : 0 < a) by lia.
    unfold save_key in H. rewrite sbind_eq in H. fold (entry_name k) in H. fold sk in H. unfold f in H at 1.
    rewrite (makeGroup_root sk (L "NXentry") ms0 at0 t Hp) in H. rewrite <- Hlen in H.
    destruct (has sk ms0) eqn:Hh.
    { inversion H; subst s' f' r. split; auto. constructor; auto.
      intros ms at_ Hm. inversion Hm; subst. left. auto. }
    set (f1 := Group (ms0 ++ [(sk, a)]) at0 :: t ++ [Group [] [(NXC, AText (L "NXentry"))]]) in H.
    set (e := mk_handle a (name_at [sk])) in H.
    assert (I1 : Inv (PO a) a sk f1) by (apply new_inv; auto).
    assert (He : ent a sk e) by (split; reflexivity).
    assert (C1 : nx_group f1 a "NXentry").
    { destruct (nx_group_new t "NXentry") as [(m & x & X) (nd & Y & Z)]. rewrite Hlen. split; [exists m, x; exact X|exists nd; auto]. }
    assert (ND1 : forall d, ~ member f1 a DATA d).
    { intros d (m & x & X & Y). rewrite Hlen in X. unfold f1 in X. cbn [nth_error] in X. rewrite nth_snoc, Nat.eqb_refl in X.
      inversion X; subst m. discriminate Y. }
    assert (Old1 : forall i, 0 < i < a -> nth_error f1 i = nth_error f i).
    { intros [|i] Hi; [lia|]. unfold f1, f. cbn [nth_error]. apply nth_error_app1. lia. }
    assert (Root : forall g, Fr (PO a) a f1 g -> nth_error g 0 = Some (Group (ms0 ++ [(sk, a)]) at0)).
    { intros g Fg. rewrite (fr_P _ _ _ _ (proj1 Fg) 0) by exact Ha. reflexivity. }
    assert (Len1 : forall g, Fr (PO a) a f1 g -> a < List.length g).
    { intros g Fg. pose proof (fr_len _ _ _ _ (proj1 Fg)) as X. unfold f1 in X. cbn [List.length] in X. rewrite app_length in X. simpl in X. lia. }
    (* result of a step that ends with an exception in file [g] *)
    assert (Fail : forall g e0, Inv (PO a) a sk g -> Fr (PO a) a f1 g -> step_done k first f g (Some e0)).
    { intros g e0 Ig Fg. constructor.
      - fold a. intros i Hi. rewrite (fr_P _ _ _ _ (proj1 Fg) i) by (unfold PO; lia). apply Old1. exact Hi.
      - fold a. pose proof (Len1 g Fg). lia.
      - split; [apply (inv_wf _ _ _ g Ig)|apply (inv_bd _ _ _ g Ig)].
      - intros ms at_ Hm. inversion Hm; subst. right. fold sk. fold a. split; [auto|]. split; [|split; [|discriminate]].
        + eapply Fr0_class; [apply Fg|exact C1].
        + exists at_. split; [apply Root; auto|split; [auto|discriminate]]. }
    cbn [fst snd] in H. rewrite sbind_eq in H.
    assert (K1 : hk (PO a) a sk (makeDataset e (L "experiment_description") (DText (L "SPEC scan")) [desc "SPEC data file scan"]) (fun _ => True)).
    { eapply hk_weak; [|apply (makeDataset_keeps (PO a) a sk [])]; auto.
      - apply ent_known; auto. apply PO_a; auto.
      - apply (ent_usable (PO a) a sk (PO_a a Ha)); [exact He|apply plainb_ok; reflexivity|apply seqb_neq; reflexivity].
      - apply ncb_ok. reflexivity. }
    destruct (K1 f1 I1) as [I2 [F2 _]].
    destruct (makeDataset e (L "experiment_description") (DText (L "SPEC scan")) [desc "SPEC data file scan"] f1) as [f2 [x|x]];
      cbn [fst sret] in *; [|inversion H; subst; split; auto].
    unfold sret in H.
    destruct (getScan k s) as [[sc|]|x1]; [|inversion H; subst; split; auto|inversion H; subst; split; auto].
    destruct (save_scan E known e (s_num sc) s f2) as [[s3 f3] r3] eqn:Es.
    destruct (save_scan_frame a sk e _ _ _ _ _ _ Ha Hp Has He Hs I2 Es) as [G3 [I3 F3]].
    assert (F13 : Fr (PO a) a f1 f3) by (eapply Fr_trans; eauto).
    destruct r3 as [x3|]; [inversion H; subst; split; auto|].
    rewrite sbind_eq in H.
    (* the default attribute of the root *)
    set (f4 := if first then fst (set_attr 0 (L "default") (AText sk) f3) else f3).
    assert (X4 : (if first then addAttributes root [(L "default", AText sk)] else sret tt) f3 = (f4, Ok tt)).
    { unfold f4. destruct first; [|reflexivity]. unfold addAttributes. cbn [siter fst snd root h_id]. rewrite sbind_eq.
      unfold set_attr. rewrite (Root f3 F13). reflexivity. }
    change (L "S" ++ key_str k) with sk in H. unfold sret in X4. match type of H with context [let (_, _) := ?X in match _ with Ok _ => ensure_data _ _ | _ => _ end] => replace X with (f4, @Ok unit tt) in H by (symmetry; exact X4) end.
    assert (I4 : Inv (PO a) a sk f4 /\ (forall i, 0 < i -> nth_error f4 i = nth_error f3 i) /\ List.length f4 = List.length f3 /\
       nth_error f4 0 = Some (Group (ms0 ++ [(sk, a)]) (if first then dset (L "default") (AText sk) at0 else at0))).
    { unfold f4. destruct first.
      - destruct (set_attr 0 (L "default") (AText sk) f3) as [g rg] eqn:Eg. cbn [fst].
        destruct (root_attr_inv a sk Ha _ _ _ _ _ I3 Eg) as (A & B & C & D). split; [auto|split; [auto|split; [auto|]]].
        apply D. apply Root. auto.
      - split; [auto|split; [auto|split; [auto|apply Root; auto]]]. }
    destruct I4 as (I4 & O4 & L4 & R4).
    assert (CL4 : forall i c, nx_group f3 i c -> nx_group f4 i c).
    { intros i c [(m & x0 & X) (nd & Y & Z)]. destruct (Nat.eq_dec i 0) as [->|Hi].
      - rewrite (Root f3 F13) in Y. injection Y; intros <-. cbn in Z. split; [eexists; eexists; exact R4|].
        eexists. split; [exact R4|]. destruct first; [rewrite dget_dset_other by (apply seqb_neq; reflexivity)|]; exact Z.
      - split; [exists m, x0|exists nd]; rewrite O4; auto; lia. }
    assert (C4 : nx_group f4 a "NXentry").
    { apply CL4. eapply Fr0_class; [apply F13|exact C1]. }
    destruct (ensure_data_ok (PO a) a sk (PO_a a Ha) Hp e He f4 I4) as [I5 [F5 _]].
    destruct C4 as [(m4 & x4 & X5) C4'].
    destruct (ensure_data_total e f4 m4 x4 X5) as (f5 & E5 & d & Hd). rewrite E5 in H, I5, F5. cbn [fst] in I5, F5.
    inversion H; subst s3 f5 r. clear H. split; auto.
    assert (C4 : nx_group f4 a "NXentry") by (split; [exists m4, x4; auto|auto]).
    assert (R5 : forall i, i < a -> nth_error f' i = nth_error f4 i) by (intros i Hi; apply (fr_P _ _ _ _ (proj1 F5) i); exact Hi).
    pose proof (Len1 f3 F13) as L3. constructor.
    - fold a. intros i Hi. rewrite R5, O4 by lia. rewrite (fr_P _ _ _ _ (proj1 F13) i) by (unfold PO; lia). apply Old1. exact Hi.
    - fold a. pose proof (fr_len _ _ _ _ (proj1 F5)). lia.
    - split; [apply (inv_wf _ _ _ f' I5)|apply (inv_bd _ _ _ f' I5)].
    - intros ms at_ Hm. inversion Hm; subst ms at_. right. fold sk. fold a. split; [auto|]. split; [|split].
      + eapply Fr0_class; [apply F5|exact C4].
      + exists (if first then dset (L "default") (AText sk) at0 else at0). split; [rewrite R5 by lia; exact R4|].
        destruct first; split; auto; discriminate.
      + intros _. exists d. change (h_id e) with a in Hd. split; auto.
        destruct (proj2 F5 d Hd) as [D4|]; auto. eapply Fr0_class; [apply F5|].
        assert (D3 : member f3 a DATA d).
        { destruct D4 as (m & x0 & A & B). exists m, x0. rewrite <- O4; auto. }
        destruct (proj2 F13 d D3) as [D1|D1]; [destruct (ND1 d D1)|]. apply CL4; auto.
  Qed.
End OneKey.

(* ------------------------------------------------------------------ *)
(** ** the list of keys *)
Definition has_data (f : h5) (j : nat) : Prop := exists d, member f j DATA d /\ nx_group f d "NXdata".
(** the entries made, in order: key and object *)
Definition entry_of (f : h5) (n : nat) (kj : skey * nat) : Prop :=
  n <= snd kj < List.length f /\ nx_group f (snd kj) "NXentry".

Record keys_done (ks : list skey) (f f' : h5) (r : option exn) (done : list (skey * nat)) : Prop := mk_kd {
  kd_old : forall i, 0 < i < List.length f -> nth_error f' i = nth_error f i;
  kd_len : List.length f <= List.length f';
  kd_wf : ok5 f';
  kd_prefix : exists rest, ks = map fst done ++ rest;
  kd_entries : Forall (entry_of f' (List.length f)) done;
  kd_data : r = None -> map fst done = ks /\ Forall (fun kj => has_data f' (snd kj)) done;
  kd_root : forall ms at_, nth_error f 0 = Some (Group ms at_) ->
     exists at', nth_error f' 0 = Some (Group (ms ++ map (fun kj => (entry_name (fst kj), snd kj)) done) at') /\
       (forall k, k <> L "default" -> dget k at' = dget k at_) }.

Lemma nx_group_keep f f' i c : nth_error f' i = nth_error f i -> nx_group f i c -> nx_group f' i c.
Proof. intros H [(m & x & A) (nd & B & C)]. split; [exists m, x|exists nd]; rewrite H; auto. Qed.
Lemma member_keep f f' i n j : nth_error f' i = nth_error f i -> member f i n j -> member f' i n j.
Proof. intros H (m & x & A & B). exists m, x. rewrite H; auto. Qed.
Lemma nx_group_lt f i c : nx_group f i c -> i < List.length f.
Proof. intros [(m & x & A) _]. apply nth_error_Some. congruence. Qed.

Section Keys.
  Context (E : env) (known : list hid).
  Lemma save_keys_spec ks : forall first s f s' f' r, Forall good_key ks -> GS s -> ok5 f -> is_group f 0 ->
    save_keys E known first ks s f = (s', f', r) ->
    GS s' /\ (exists done, keys_done ks f f' r done) /\
    (r = None -> first = true -> forall k t, ks = k :: t -> attribute f' 0 (L "default") (AText (entry_name k))) /\
    (first = false -> forall v, attribute f 0 (L "default") v -> attribute f' 0 (L "default") v).
  Proof.
    induction ks as [|k ks IH]; intros first s f s' f' r Hk Hs W [ms [at_ R0]] H.
    - cbn [save_keys] in H. inversion H; subst. split; [auto|]. split; [|split; [discriminate|auto]].
      exists []. constructor; auto.
      + exists []. reflexivity.
      + intros ms' at' Hm. exists at'. cbn [map]. rewrite app_nil_r. auto.
    - cbn [save_keys] in H. inversion Hk as [|? ? Hk1 Hk2]; subst.
      destruct (save_key E known first k s f) as [[s1 f1] r1] eqn:E1.
      destruct (save_key_spec E known first k s f s1 f1 r1 ms at_ Hk1 Hs W R0 E1) as [G1 [SO SL SW SR]].
      destruct (SR ms at_ R0) as [(Hh & -> & ->)|(Hh & C1 & (at' & R1 & A1 & A1') & D1)].
      { inversion H; subst. split; [auto|]. split; [|split; [discriminate|auto]].
        exists []. constructor; auto.
        - exists (k :: ks). reflexivity.
        - discriminate.
        - intros ms' a' Hm. exists a'. cbn [map]. rewrite app_nil_r. auto. }
      assert (A2 : forall k', k' <> L "default" -> dget k' at' = dget k' at_).
      { intros k' Nk. destruct A1 as [->|[_ ->]]; auto. apply dget_dset_other; auto. }
      assert (AF : first = false -> forall v, attribute f 0 (L "default") v -> attribute f1 0 (L "default") v).
      { intros -> v (nd & X & Y). rewrite R0 in X. injection X; intros <-. destruct A1 as [->|[? _]]; [|discriminate].
        eexists. split; [exact R1|]. exact Y. }
      destruct r1 as [x1|].
      { inversion H; subst. split; [auto|]. split; [|split; [discriminate|auto]].
        exists [(k, List.length f)]. constructor; auto.
        - exists ks. reflexivity.
        - constructor; [|constructor]. split; cbn [snd]; auto. split; auto. apply (nx_group_lt _ _ _ C1).
        - discriminate.
        - intros ms' a' Hm. rewrite R0 in Hm. inversion Hm; subst. exists at'. cbn [map fst snd]. auto. }
      destruct (IH false s1 f1 s' f' r Hk2 G1 SW) as (G2 & (done & [KO KL KW KP KE KD KR]) & _ & DF); auto.
      { eexists; eexists; exact R1. }
      specialize (DF eq_refl).
      pose proof (nx_group_lt _ _ _ C1) as L1. assert (L0 : 0 < List.length f) by (apply nth_error_Some; congruence).
      split; [auto|]. split; [|split].
      + exists ((k, List.length f) :: done). constructor.
        * intros i Hi. rewrite KO by lia. apply SO; auto.
        * lia.
        * auto.
        * destruct KP as [rest ->]. exists rest. reflexivity.
        * constructor.
          -- split; cbn [snd]; [lia|]. eapply nx_group_keep; [|exact C1]. apply KO. lia.
          -- eapply Forall_impl; [|exact KE]. intros kj [B1 B2]. split; auto. lia.
        * intros ->. destruct (KD eq_refl) as [KD1 KD2]. split; [cbn [map fst]; rewrite KD1; reflexivity|]. constructor; auto.
          cbn [snd]. destruct (D1 eq_refl) as (d & D2 & D3).
          assert (X : nth_error f' (List.length f) = nth_error f1 (List.length f)) by (apply KO; lia).
          exists d. split; [eapply member_keep; eauto|].
          pose proof (nx_group_lt _ _ _ D3) as L2.
          destruct (Nat.eq_dec d 0) as [->|Nd]; [|eapply nx_group_keep; [apply KO; lia|auto]].
          destruct D3 as [_ (nd & Y1 & Y2)]. rewrite R1 in Y1. injection Y1; intros <-.
          destruct (KR _ _ R1) as (at2 & R2 & R3). split; [eexists; eexists; exact R2|].
          eexists. split; [exact R2|]. cbn in Y2 |- *. rewrite R3; [exact Y2|apply seqb_neq; reflexivity].
        * intros ms' a' Hm. rewrite R0 in Hm. inversion Hm; subst ms' a'.
          destruct (KR _ _ R1) as (at2 & R2 & R3). exists at2. cbn [map fst snd]. split.
          -- rewrite R2, <- app_assoc. reflexivity.
          -- intros k' Nk. rewrite R3, A2; auto.
      + intros -> -> k' t Eq. inversion Eq; subst k' t. apply DF. eexists. split; [exact R1|].
        cbn. rewrite A1'; auto. apply dget_dset_same.
      + intros Ef v Hv. apply DF. apply AF; auto.
  Qed.
End Keys.

(* ------------------------------------------------------------------ *)
(** ** the whole file *)
Section Save.
  Context (E : env) (known : list hid).
  Lemma save_start versions s l f r : root_attributes versions s = Ok l -> addAttributes root l new_file = (f, r) ->
    r = Ok tt /\ exists at_, f = [Group [] at_].
  Proof.
    intros _ H. rewrite (addAttributes_eq root l (Group [] [])) in H by reflexivity.
    injection H; intros <- <-. split; [reflexivity|]. eexists. reflexivity.
  Qed.
  Lemma ok5_start at0 : ok5 [Group [] at0].
  Proof.
    split.
    - intros [|[|i]] ms at_ Hi; try discriminate. inversion Hi; subst. constructor.
    - intros [|[|i]] ms at_ n j Hi; try discriminate. inversion Hi; subst. intros [].
  Qed.
  Lemma save_spec versions ks s s' f r : Forall good_key ks -> GS s -> save E known versions ks s = (s', f, r) ->
    GS s' /\ is_group f 0 /\ ok5 f /\
    (r = None -> exists done at_, map fst done = ks /\
       nth_error f 0 = Some (Group (map (fun kj => (entry_name (fst kj), snd kj)) done) at_) /\
       Forall (fun kj => nx_group f (snd kj) "NXentry" /\ has_data f (snd kj)) done /\
       (forall k t, ks = k :: t -> attribute f 0 (L "default") (AText (entry_name k)))).
  Proof.
    intros Hk Hs H. unfold save in H. destruct (root_attributes versions s) as [l|x] eqn:El.
    2:{ inversion H; subst. split; [auto|]. split; [exists [], []; reflexivity|]. split; [|discriminate].
        apply ok5_start. }
    destruct (addAttributes root l new_file) as [f0 r0] eqn:E0. destruct (save_start versions s l f0 r0 El E0) as [-> [at0 ->]].
    pose proof (ok5_start at0) as W0.
    destruct (save_keys_spec E known ks true s _ s' f r Hk Hs W0 ltac:(exists [], at0; reflexivity) H) as (G & (done & [KO KL KW KP KE KD KR]) & KF & _).
    destruct (KR [] at0 eq_refl) as (at' & R' & _). split; [auto|]. split; [eexists; eexists; exact R'|]. split; [auto|].
    intros ->. destruct (KD eq_refl) as [K1 K2]. exists done, at'. split; [auto|]. split; [exact R'|]. split.
    - rewrite Forall_forall in *. intros kj Hin. split; [apply KE; auto|apply K2; auto].
    - intros k t Eq. eapply KF; eauto.
  Qed.

  Lemma save_keys_app ks more : forall first s f, exists first', save_keys E known first (ks ++ more) s f =
    match save_keys E known first ks s f with
    | (s1, f1, None) => save_keys E known first' more s1 f1
    | r => r
    end.
  Proof.
    induction ks as [|k ks IH]; intros first s f; cbn [app save_keys].
    - exists first. reflexivity.
    - destruct (save_key E known first k s f) as [[s1 f1] [x|]]; [exists true; reflexivity|].
      apply IH.
  Qed.
  Lemma save_app versions ks more s s1 f1 : save E known versions ks s = (s1, f1, None) ->
    exists first', save E known versions (ks ++ more) s = save_keys E known first' more s1 f1.
  Proof.
    unfold save. destruct (root_attributes versions s) as [l|x]; [|discriminate].
    destruct (addAttributes root l new_file) as [f0 [u|x]]; [|discriminate].
    intros H. destruct (save_keys_app ks more true s f0) as [first' X]. exists first'. rewrite X, H. reflexivity.
  Qed.

  (** what was written stays *)
  Lemma leads_grow f f' : (forall i, 0 < i < List.length f -> nth_error f' i = nth_error f i) ->
    (forall n j, member f 0 n j -> member f' 0 n j) -> forall i ps j, leads f i ps j -> leads f' i ps j.
  Proof.
    intros H0 H1 i ps j H. induction H as [i|i n j ps k M H IH]; [constructor|].
    econstructor; [|exact IH]. destruct (Nat.eq_dec i 0) as [->|N]; [auto|].
    eapply member_keep; [|exact M]. destruct M as (m & x & A & B). apply H0. split; [lia|]. apply nth_error_Some. congruence.
  Qed.
  Lemma save_more versions ks more s s1 f1 s' f' r : Forall good_key ks -> Forall good_key more -> GS s ->
    save E known versions ks s = (s1, f1, None) -> save E known versions (ks ++ more) s = (s', f', r) ->
    (forall ps j, at_path f1 ps j -> at_path f' ps j) /\
    (forall j nd, nth_error f1 j = Some nd -> j <> 0 -> nth_error f' j = Some nd).
  Proof.
    intros Hk Hm Hs H1 H2. destruct (save_app versions ks more s s1 f1 H1) as [first' X]. rewrite X in H2.
    destruct (save_spec versions ks s s1 f1 None Hk Hs H1) as (G1 & I1 & W1 & _).
    destruct (save_keys_spec E known more first' s1 f1 s' f' r Hm G1 W1 I1 H2) as (_ & (done & [KO KL KW KP KE KD KR]) & _).
    destruct I1 as (ms & at_ & R1). destruct (KR ms at_ R1) as (at' & R' & _). split.
    - intros ps j Hp. unfold at_path in *. eapply leads_grow; eauto.
      intros n i (m & x & A & B). rewrite R1 in A. inversion A; subst m x. eexists; eexists. split; [exact R'|].
      rewrite dget_app, B. reflexivity.
    - intros j nd Hj N. rewrite KO; auto. split; [lia|]. apply nth_error_Some. congruence.
  Qed.
  Lemma save_again versions ks k s s1 f1 : Forall good_key ks -> In k ks -> GS s ->
    save E known versions ks s = (s1, f1, None) -> save E known versions (ks ++ [k]) s = (s1, f1, Some ValueError).
  Proof.
    intros Hk Hin Hs H1. destruct (save_app versions ks [k] s s1 f1 H1) as [first' X]. rewrite X. cbn [save_keys].
    destruct (save_spec versions ks s s1 f1 None Hk Hs H1) as (G1 & I1 & W1 & D).
    destruct (D eq_refl) as (done & at_ & D1 & D2 & _).
    assert (Hg : good_key k) by (rewrite Forall_forall in Hk; auto).
    destruct (save_key E known first' k s1 f1) as [[s2 f2] r2] eqn:E2.
    destruct (good_key_plain k Hg) as [Hp _].
    destruct f1 as [|n0 t]; [discriminate D2|]. inversion D2; subst n0.
    unfold save_key in E2. rewrite sbind_eq in E2. fold (entry_name k) in E2.
    rewrite (makeGroup_root _ _ _ _ _ Hp) in E2.
    assert (Hh : has (entry_name k) (map (fun kj => (entry_name (fst kj), snd kj)) done) = true).
    { apply has_In. unfold keys. rewrite map_map. cbn [fst]. rewrite <- D1 in Hin. apply in_map_iff in Hin.
      destruct Hin as [kj [<- Hin]]. apply (in_map (fun x => entry_name (fst x))). exact Hin. }
    rewrite Hh in E2. inversion E2; subst. reflexivity.
  Qed.
End Save.
