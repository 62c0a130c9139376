(** The data group of an entry in the file that is saved *)
From Coq Require Import String Lia.
From Verif Require Import Py PyFacts Utils SpecUtils Keys Geom Handlers Reader StateFacts SpecHistory SpecInterp SpecWriter NamesFacts
  H5 SpecH5 H5Facts FrameH5 H5Exact Writer DataWrite KeepFacts WriterFrame SaveFacts.
Import ListNotations.
Local Open Scope list_scope.

Lemma siter_app {S A} (g : A -> St S unit) l1 l2 s : siter g (l1 ++ l2) s = sbind (siter g l1) (fun _ => siter g l2) s.
Proof.
  revert s; induction l1 as [|x l1 IH]; intros s; cbn [app siter]; [reflexivity|].
  rewrite !sbind_eq. destruct (g x s) as [s1 [u|e]]; [|reflexivity]. rewrite IH, sbind_eq. reflexivity.
Qed.
Lemma siter_unit {S A} (g : A -> St S unit) l s s' u : siter g l s = (s', Ok u) -> siter g l s = (s', Ok tt).
Proof. destruct u. auto. Qed.

Lemma in_split_first {A} (x : A) l : (forall y z : A, {y = z} + {y <> z}) -> In x l -> exists l1 l2, l = l1 ++ x :: l2 /\ ~ In x l1.
Proof.
  intros dec. induction l as [|y l IH]; intros H; [destruct H|]. destruct (dec y x) as [->|N].
  - exists [], l. auto.
  - destruct H as [H|H]; [congruence|]. destruct (IH H) as (l1 & l2 & -> & N2). exists (y :: l1), l2. split; [reflexivity|].
    intros [X|X]; auto.
Qed.
Lemma kp_iter_in M {A} (g : A -> WM unit) l : (forall x, In x l -> kp M (g x)) -> kp M (siter g l).
Proof.
  induction l as [|x l IH]; intros H; cbn [siter]; [apply kp_ret|].
  apply kp_bind; [apply H; left; auto|]. intros _. apply IH. intros y Hy. apply H. right; auto.
Qed.

(** protected: what was there before the entry, and its data group *)
Definition PP (a b c i : nat) : Prop := i < a \/ b <= i < c.

Record Stored (f : h5) (b c : nat) (items : list (str * node)) (sg : str) (axv : aval) : Prop := mk_stored {
  so_lt : b < c <= List.length f;
  so_cls : nx_group f b "NXdata";
  so_items : forall l1 n nd l2, items = l1 ++ (n, nd) :: l2 -> ~ In n (map fst l2) ->
             exists j, b <= j < c /\ member f b n j /\ nth_error f j = Some nd;
  so_only : forall n j, member f b n j -> In n (map fst items);
  so_sig : attribute f b (L "signal") (AText sg);
  so_ax : attribute f b (L "axes") axv }.
Lemma Stored_keep f f' b c items sg axv : (forall i, b <= i < c -> nth_error f' i = nth_error f i) ->
  List.length f <= List.length f' -> Stored f b c items sg axv -> Stored f' b c items sg axv.
Proof.
  intros H HL [A B C D F G]. assert (Hb : nth_error f' b = nth_error f b) by (apply H; lia). constructor.
  - lia.
  - eapply nx_group_keep; eauto.
  - intros l1 n nd l2 El Nn. destruct (C l1 n nd l2 El Nn) as (j & J1 & J2 & J3). exists j.
    split; [auto|split; [eapply member_keep; eauto|rewrite H; auto]].
  - intros n j M. apply (D n j). eapply member_keep; [symmetry; exact Hb|exact M].
  - destruct F as (nd & X & Y). exists nd. rewrite Hb. auto.
  - destruct G as (nd & X & Y). exists nd. rewrite Hb. auto.
Qed.

Lemma protect a sk f ms at_ at1 items f2 f' : 0 < a -> Inv (PO a) a sk f -> Inv (PO a) a sk f' ->
  nth_error f a = Some (Group ms at_) -> has DATA ms = false ->
  steps (List.length f) items (made a DATA ms at_ (Group [] at1) f) f2 -> attrs_only (List.length f) f2 f' ->
  Inv (PP a (List.length f) (List.length f')) a sk f' /\ member f' a DATA (List.length f).
Proof.
  intros Ha I I' Hn Hh St (L2 & O2 & A2). set (b := List.length f) in *.
  assert (Hab : a < b) by apply (inv_alt _ _ _ f I).
  set (f1 := made a DATA ms at_ (Group [] at1) f) in *.
  assert (N1 : forall j, nth_error f1 j = if Nat.eqb j a then Some (Group (ms ++ [(DATA, b)]) at_)
       else if Nat.eqb j b then Some (Group [] at1) else nth_error f j) by (apply (made_nth _ _ _ _ _ _ _ Hn)).
  assert (L1 : List.length f1 = S b) by apply made_length.
  pose proof (steps_len _ _ _ _ St) as L3.
  assert (NN : forall i, i < b -> nth_error f' i = if Nat.eqb i a then Some (Group (ms ++ [(DATA, b)]) at_) else nth_error f i).
  { intros i Hi. rewrite O2 by lia. rewrite (steps_other _ _ _ _ St) by lia. rewrite N1.
    destruct (Nat.eqb_spec i b); [lia|reflexivity]. }
  assert (NL : b < List.length f') by lia.
  split.
  - constructor.
    + apply (inv_wf _ _ _ f' I').
    + apply (inv_bd _ _ _ f' I').
    + apply (inv_root _ _ _ f' I').
    + left; auto.
    + intros [X|X]; lia.
    + intros j [X|X]; lia.
    + lia.
    + intros i m x n j NP Hi Hin. assert (NPi : ~ PO a i) by (intros X; apply NP; left; exact X).
      destruct (inv_link _ _ _ f' I' i m x n j NPi Hi Hin) as [K1 K2]. split; [auto|].
      intros [X|X]; [apply K2; exact X|].
      assert (Hlt : i < List.length f') by (apply nth_error_Some; congruence).
      assert (Hib : i < b). { destruct (Nat.lt_ge_cases i b) as [|Ge]; auto. exfalso. apply NP. right; lia. }
      rewrite NN in Hi by auto. destruct (Nat.eqb_spec i a) as [->|Ne].
      * inversion Hi; subst m x. apply in_app_iff in Hin. destruct Hin as [Hin|[Hin|[]]].
        -- pose proof (inv_bd _ _ _ f I a ms at_ n j Hn Hin). fold b in H. lia.
        -- inversion Hin; auto.
      * pose proof (inv_bd _ _ _ f I i m x n j Hi Hin). fold b in H. lia.
  - exists (ms ++ [(DATA, b)]), at_. split; [rewrite NN, Nat.eqb_refl by auto; reflexivity|apply dget_none_app; auto].
Qed.

Lemma attrs_only_class d f f' i c : attrs_only d f f' -> i <> d -> nx_group f i c -> nx_group f' i c.
Proof. intros (A & B & C) N. apply nx_group_keep. auto. Qed.
Lemma attrs_only_member d f f' n j : attrs_only d f f' -> member f d n j -> member f' d n j.
Proof. intros (A & B & C) (m & x & H & D). destruct (C m x H) as [x' H']. exists m, x'. auto. Qed.
Lemma attrs_only_member' d f f' n j : attrs_only d f f' -> is_group f d -> member f' d n j -> member f d n j.
Proof. intros (A & B & C) (m & x & H) (m' & x' & H' & D). destruct (C m x H) as [x2 H2]. rewrite H2 in H'. inversion H'; subst. exists m', x. auto. Qed.

(* ------------------------------------------------------------------ *)
(** ** one scan; [T] says what its data group should hold *)
Section Table.
  Context (cmd : str) (T : obj -> list (str * node) -> str -> aval -> Prop).
  Context (HT : forall g w w' u, (exists at_, nth_error (w_h5 w) (h_id g) = Some (Group [] at_)) ->
    save_data g cmd w = (w', Ok u) ->
    exists items sg axv f1, T (w_scan w) items sg axv /\ steps (h_id g) items (w_h5 w) f1 /\ attrs_only (h_id g) f1 (w_h5 w') /\
      attribute (w_h5 w') (h_id g) (L "signal") (AText sg) /\ attribute (w_h5 w') (h_id g) (L "axes") axv).
  Context (TS : forall o o' items sg axv, same_but False o o' -> T o items sg axv -> T o' items sg axv).

  Lemma w_data_table a sk e w w' u : 0 < a -> plain_name sk -> is_ascii sk -> ent a sk e -> WInv (PO a) a sk w ->
    w_data e cmd w = (w', Ok u) -> exists b c items sg axv,
    T (w_scan w) items sg axv /\ a < b /\ Stored (w_h5 w') b c items sg axv /\ member (w_h5 w') a DATA b /\
    Inv (PP a b c) a sk (w_h5 w').
  Proof.
    intros Ha Hp Has He W H. pose proof W as [I [N1 N2]].
    destruct (w_data_ok (PO a) a sk (PO_a a Ha) Hp e He cmd w W) as [[I' _] [F' _]]. rewrite H in I', F'. cbn [fst] in I', F'.
    unfold w_data in H. rewrite sbind_eq in H. unfold hdf at 1 in H.
    assert (Pa : exists m x, nth_error (w_h5 w) a = Some (Group m x)).
    { destruct (nth_error (w_h5 w) a) as [[m x|v x]|] eqn:En; [eauto| |].
      - exfalso. destruct He as [E1 _]. unfold makeGroup in H. rewrite sbind_eq in H. unfold create_at in H.
        change (rev (parts (L "data"))) with [DATA] in H. cbv iota beta in H. rewrite sbind_eq in H.
        change (start (h_id e) (L "data")) with (h_id e) in H. cbn [rev dig] in H. rewrite sbind_eq in H. unfold free in H.
        rewrite E1, En in H. discriminate.
      - exfalso. apply nth_error_None in En. pose proof (inv_alt _ _ _ _ I). lia. }
    destruct Pa as (ms & at_ & Hn). pose proof He as [E1 E2].
    rewrite (makeGroup_eq e (L "data") (L "NXdata") [desc "SPEC scan data"] ms at_) in H;
      [|apply plainb_ok; reflexivity|rewrite E1; exact Hn].
    change (L "data") with DATA in H. destruct (has DATA ms) eqn:Hh; [discriminate|]. rewrite E1 in H.
    set (at1 := fold_left (fun a0 kv => dset (fst kv) (snd kv) a0) [desc "SPEC scan data"] [(NXC, AText (L "NXdata"))]) in *.
    change (with_attrs (Group [] [(NXC, AText (L "NXdata"))]) [desc "SPEC scan data"]) with (Group [] at1) in H.
    set (f := w_h5 w) in *. set (b := List.length f) in *. set (f1 := made a DATA ms at_ (Group [] at1) f) in *.
    set (g := mk_handle b (sub_name (h_name e) DATA)) in *.
    assert (Nab : a < b) by apply (inv_alt _ _ _ f I).
    assert (Gb : nth_error f1 b = Some (Group [] at1)).
    { unfold f1. rewrite (made_nth _ _ _ _ _ _ _ Hn). destruct (Nat.eqb_spec b a); [lia|].
      destruct (Nat.eqb_spec b (List.length f)); [auto|exfalso; auto]. }
    destruct (HT g (mk_ws (w_scan w) (w_hdr w) f1) w' u) as (items & sg & axv & f2 & HTT & St & Ao & S1 & S2);
      [exists at1; exact Gb|exact H|].
    cbn [w_scan w_h5 g h_id] in *.
    destruct (protect a sk f ms at_ at1 items f2 (w_h5 w') Ha I I' Hn Hh St Ao) as [J1 J2]. fold b in J1, J2.
    exists b, (List.length (w_h5 w')), items, sg, axv. split; [auto|]. split; [auto|]. split; [|split; auto].
    pose proof (steps_len _ _ _ _ St) as L3. assert (L1 : List.length f1 = S b) by apply made_length.
    pose proof Ao as (L2 & O2 & A2).
    assert (Gr2 : GD b f2) by (apply (steps_GD _ _ _ _ St); exists [], at1; split; [exact Gb|constructor]).
    constructor.
    - lia.
    - destruct (proj2 F' b J2) as [(m & x & X & Y)|]; auto.
      exfalso. fold f in X. rewrite Hn in X. inversion X; subst m x. unfold has in Hh. rewrite Y in Hh. discriminate.
    - intros l1 n nd l2 El Nn. destruct (steps_last _ _ _ _ St l1 n nd l2 El Nn) as (j & K1 & K2 & K3); [lia|].
      exists j. rewrite L1 in K1. assert (Lj : j < List.length f2) by (apply nth_error_Some; congruence).
      split; [lia|]. split; [eapply attrs_only_member; eauto|]. rewrite O2 by lia. exact K3.
    - intros n j M. assert (M2 : member f2 b n j).
      { eapply attrs_only_member'; eauto. destruct Gr2 as (m & x & X & _). exists m, x; auto. }
      destruct (steps_only _ _ _ _ St n j M2) as [(m & x & X & Y)|]; auto. rewrite Gb in X. inversion X; subst. discriminate Y.
    - exact S1.
    - exact S2.
  Qed.

  Lemma save_objs_table a sk e sc w w' sw : s_cmd sc = cmd -> 0 < a -> plain_name sk -> is_ascii sk -> ent a sk e -> WInv (PO a) a sk w ->
    w_scan w A_h5 = Some sw -> In H_data (values sw) ->
    save_objs e sc w = (w', Ok tt) -> exists b c items sg axv,
    T (w_scan w) items sg axv /\ a < b /\ Stored (w_h5 w') b c items sg axv /\ member (w_h5 w') a DATA b.
  Proof.
    intros Ec Ha Hp Has He W Hw Hin H. pose proof W as [I _]. unfold save_objs in H. rewrite Ec in H.
    assert (KS : forall A (m : WM A) (wa wb : wst) (r : res A), m wa = (wb, r) -> kp False m -> same_but False (w_scan wa) (w_scan wb)).
    { intros A m wa wb r Hm K. destruct (K wa) as [K1 _]. rewrite Hm in K1. exact K1. }
    (* a step of the writers before the data *)
    assert (WK : forall A (m : WM A) (wa wb : wst) (r : res A), m wa = (wb, r) -> WInv (PO a) a sk wa ->
       wk (PO a) a sk m (fun _ => True) -> WInv (PO a) a sk wb).
    { intros A m wa wb r Hm Wa K. destruct (K wa Wa) as [K1 _]. rewrite Hm in K1. exact K1. }
    rewrite sbind_eq in H. destruct (hdf (entry_fields e (s_S sc) (s_num sc) cmd) w) as [w1 [u1|x1]] eqn:E1; [|discriminate].
    pose proof (WK _ _ _ _ _ E1 W ltac:(apply wk_hdf; apply entry_fields_ok; auto; apply PO_a; auto)) as W1.
    pose proof (KS _ _ _ _ _ E1 (kp_hdf False _)) as S1.
    rewrite sbind_eq in H. destruct (rd Hdr A_h5 w1) as [w1' [hw|x]] eqn:Er; [|discriminate].
    assert (w1' = w1) by (unfold rd in Er; congruence). subst w1'. clear Er.
    rewrite sbind_eq in H. destruct (siter (fun h => writer_of cmd h e Hdr) (values hw) w1) as [w2 [u2|x2]] eqn:E2; [|discriminate].
    pose proof (WK _ _ _ _ _ E2 W1 ltac:(apply wk_iter; intros; apply writer_of_ok; auto; apply PO_a; auto)) as W2.
    assert (S2 : same_but False (w_scan w1) (w_scan w2)).
    { apply (KS _ _ _ _ _ E2). apply kp_iter. intros h. destruct h; try (apply kp_writer; discriminate). apply kp_raise. }
    rewrite sbind_eq in H. destruct (rd Scn A_h5 w2) as [w2' [sw2|x]] eqn:Er; [|discriminate].
    assert (sw2 = sw /\ w2' = w2).
    { unfold rd, obj_of in Er. rewrite (S2 A_h5), (S1 A_h5), Hw in Er by (intros [X|[X|[X _]]]; try discriminate; auto).
      injection Er; auto. }
    destruct H0 as [-> ->]. clear Er.
    destruct (in_split_first H_data (values sw) ltac:(decide equality) Hin) as (l1 & l2 & El & Nl1). rewrite El in H.
    rewrite sbind_eq, siter_app, sbind_eq in H.
    destruct (siter (fun h => writer_of cmd h e Scn) l1 w2) as [w3 [u3|x3]] eqn:E3; [|discriminate].
    pose proof (WK _ _ _ _ _ E3 W2 ltac:(apply wk_iter; intros; apply writer_of_ok; auto; apply PO_a; auto)) as W3.
    assert (S3 : same_but False (w_scan w2) (w_scan w3)).
    { destruct (kp_iter_in False (fun h => writer_of cmd h e Scn) l1) with (w := w2) as [K _]; [|rewrite E3 in K; exact K].
      intros h Hh. apply kp_writer. intros ->. contradiction. }
    cbn [siter] in H. rewrite sbind_eq in H. change (writer_of cmd H_data e Scn) with (w_data e cmd) in H.
    destruct (w_data e cmd w3) as [w4 [u4|x4]] eqn:E4; [|discriminate].
    destruct (w_data_table a sk e w3 w4 u4 Ha Hp Has He W3 E4) as (b & c & items & sg & axv & T3 & Lab & So & Mb & IP).
    pose proof (WK _ _ _ _ _ E4 W3 ltac:(apply (writer_of_ok (PO a) a sk (PO_a a Ha) Hp Has e He cmd H_data Scn))) as W4.
    assert (NPa : ~ PP a b c a) by (intros [X|X]; lia).
    assert (W4' : WInv (PP a b c) a sk w4) by (destruct W4 as [_ X]; split; auto).
    destruct (siter (fun h => writer_of cmd h e Scn) l2 w4) as [w5 [u5|x5]] eqn:E5; [|discriminate].
    assert (K5 : wk (PP a b c) a sk (siter (fun h => writer_of cmd h e Scn) l2) (fun _ => True))
      by (apply wk_iter; intros; apply writer_of_ok; auto).
    destruct (K5 w4 W4') as [W5 [F5 _]]. rewrite E5 in W5, F5. cbn [fst] in *.
    assert (K6 : wk (PP a b c) a sk (hdf (final_links e)) (fun _ => True)) by (apply wk_hdf; apply final_links_ok; auto).
    destruct (K6 w5 W5) as [W6 [F6 _]]. rewrite H in W6, F6. cbn [fst] in *.
    pose proof (Fr_trans _ _ _ _ _ F5 F6) as F. exists b, c, items, sg, axv. split; [|split; [auto|split]].
    - eapply TS; [|exact T3]. intros x Nx. rewrite <- (S1 x Nx), <- (S2 x Nx), <- (S3 x Nx). reflexivity.
    - eapply Stored_keep; [| |exact So]; [|apply (fr_len _ _ _ _ (proj1 F))].
      intros i Hi. apply (fr_P _ _ _ _ (proj1 F)). right; auto.
    - apply (fr_data _ _ _ _ (proj1 F)). auto.
  Qed.
End Table.

(* ------------------------------------------------------------------ *)
(** ** what saving leaves of the data file object *)
Definition later_scan (sc sc' : scan) : Prop :=
  s_raw sc' = s_raw sc /\ s_S sc' = s_S sc /\ s_num sc' = s_num sc /\ s_cmd sc' = s_cmd sc /\ s_hdr sc' = s_hdr sc /\
  (s_done sc = true -> s_done sc' = true /\ s_lazy sc' = s_lazy sc /\ same_but (mesh_cmd (s_cmd sc)) (s_obj sc) (s_obj sc')).
Lemma later_refl sc : later_scan sc sc.
Proof. repeat (split; [reflexivity|]). intros H. split; [auto|split; [auto|apply same_refl]]. Qed.
Lemma later_trans a b c : later_scan a b -> later_scan b c -> later_scan a c.
Proof.
  intros (A1 & A2 & A3 & A4 & A5 & A6) (B1 & B2 & B3 & B4 & B5 & B6).
  repeat (split; [congruence|]). intros H. destruct (A6 H) as (C1 & C2 & C3). destruct (B6 C1) as (D1 & D2 & D3).
  split; [auto|split; [congruence|]]. rewrite A4 in D3. eapply same_trans; eauto.
Qed.
(** the same scans under the same names *)
Definition later (s s' : sdf) : Prop := Forall2 (fun a b => fst a = fst b /\ later_scan (snd a) (snd b)) (scans s) (scans s').
Lemma later_st_refl s : later s s.
Proof. unfold later. induction (scans s); constructor; auto. split; [auto|apply later_refl]. Qed.
Lemma F2_trans {A} (R : A -> A -> Prop) : (forall x y z, R x y -> R y z -> R x z) -> forall l1 l2 l3, Forall2 R l1 l2 -> Forall2 R l2 l3 -> Forall2 R l1 l3.
Proof.
  intros HR l1. induction l1 as [|x l1 IH]; intros l2 l3 H1 H2; inversion H1; subst; inversion H2; subst; constructor; eauto.
Qed.
Lemma later_st_trans s1 s2 s3 : later s1 s2 -> later s2 s3 -> later s1 s3.
Proof.
  unfold later. apply F2_trans. intros x y z [A1 A2] [B1 B2]. split; [congruence|eapply later_trans; eauto].
Qed.
Lemma later_keys s s' : later s s' -> keys (scans s') = keys (scans s).
Proof. unfold later, keys. induction 1 as [|x y l l' [H _] F IH]; simpl; congruence. Qed.
Lemma later_dget s s' : later s s' -> forall n sc, dget n (scans s) = Some sc -> exists sc', dget n (scans s') = Some sc' /\ later_scan sc sc'.
Proof.
  unfold later. generalize (scans s) (scans s'). induction 1 as [|[k x] [k' y] l l' [H1 H2] F IH]; intros n sc D; [discriminate|].
  cbn [fst snd] in *. subst k'. cbn [dget] in *. destruct (seqb n k); [|eauto]. inversion D; subst. eauto.
Qed.
Lemma later_dget' s s' : later s s' -> forall n sc', dget n (scans s') = Some sc' -> exists sc, dget n (scans s) = Some sc /\ later_scan sc sc'.
Proof.
  unfold later. generalize (scans s) (scans s'). induction 1 as [|[k x] [k' y] l l' [H1 H2] F IH]; intros n sc D; [discriminate|].
  cbn [fst snd] in *. subst k'. cbn [dget] in *. destruct (seqb n k); [|eauto]. inversion D; subst. eauto.
Qed.
Lemma later_dset n sc sc' (d : dict scan) : dget n d = Some sc -> later_scan sc sc' ->
  Forall2 (fun a b => fst a = fst b /\ later_scan (snd a) (snd b)) d (dset n sc' d).
Proof.
  intros D H. induction d as [|[k x] d IH]; [discriminate|]. cbn [dget dset] in *. destruct (seqb n k) eqn:En.
  - inversion D; subst. apply seqb_eq in En. subst. constructor; [auto|].
    clear. induction d; constructor; auto. split; [auto|apply later_refl].
  - constructor; auto. split; [auto|apply later_refl].
Qed.

Section Later.
  Context (E : env) (known : list hid).
  Lemma interpret_later name s s' r : interpret E known name s = (s', r) -> later s s' /\
    (r = None -> forall sc', dget name (scans s') = Some sc' -> s_done sc' = true).
  Proof.
    unfold interpret. destruct (dget name (scans s)) as [sc|] eqn:Eg; [|intros H; inversion H; subst; split; [apply later_st_refl|discriminate]].
    destruct (s_done sc) eqn:Ed.
    { intros H; inversion H; subst. split; [apply later_st_refl|]. intros _ sc' D. congruence. }
    cbv zeta. unfold run_on_scan. destruct (interpret_scan E known _ _) as [w r0]. intros H.
    set (s1 := set_headers _ _) in H.
    assert (G1 : dget name (scans s1) = Some (with_obj (me w) (with_flags false false sc))).
    { unfold s1. cbn [set_headers scans set_scans]. apply dget_dset_same. }
    assert (L1 : later s s1).
    { unfold later, s1. cbn [set_headers scans set_scans]. eapply later_dset; eauto.
      repeat (split; [reflexivity|]). congruence. }
    clearbody s1. destruct r0; inversion H; subst.
    - split; [eapply later_st_trans; [exact L1|]|].
      + unfold later. cbn [set_scans scans]. eapply later_dset; eauto.
        repeat (split; [reflexivity|]). apply same_refl.
      + intros _ sc' D. cbn [set_scans scans] in D. rewrite dget_dset_same in D. inversion D; subst. reflexivity.
    - split; [auto|discriminate].
  Qed.

  Lemma save_scan_later e name s f s' f' r : save_scan E known e name s f = (s', f', r) -> later s s' /\
    (r = None -> exists s1 sc h w, interpret E known name s = (s1, None) /\ dget name (scans s1) = Some sc /\ s_done sc = true /\
       nth_error (headers s1) (s_hdr sc) = Some h /\
       save_objs e sc (mk_ws (s_obj sc) (h_obj h) f) = (w, Ok tt) /\ f' = w_h5 w /\
       dget name (scans s') = Some (with_obj (w_scan w) sc) /\ later s1 s').
  Proof.
    unfold save_scan. destruct (interpret E known name s) as [s1 [x|]] eqn:Ei; destruct (interpret_later _ _ _ _ Ei) as [L1 D1].
    { intros H; inversion H; subst. split; [auto|discriminate]. }
    destruct (dget name (scans s1)) as [sc|] eqn:Eg; [|intros H; inversion H; subst; split; [auto|discriminate]].
    destruct (nth_error (headers s1) (s_hdr sc)) as [h|] eqn:En; [|intros H; inversion H; subst; split; [auto|discriminate]].
    destruct (save_objs e sc (mk_ws (s_obj sc) (h_obj h) f)) as [w r0] eqn:Es.
    destruct (kp_save_objs (mesh_cmd (s_cmd sc)) e sc (fun x => x) (mk_ws (s_obj sc) (h_obj h) f)) as [K1 _]. rewrite Es in K1. cbn [fst w_scan] in K1.
    intros H; inversion H; subst; clear H.
    assert (L2 : later s1 (set_headers (set_nth (s_hdr sc) (mk_header (h_raw h) (w_hdr w)) (headers s1))
                    (set_scans (dset name (with_obj (w_scan w) sc) (scans s1)) s1))).
    { unfold later. cbn [set_headers scans set_scans]. eapply later_dset; eauto.
      repeat (split; [reflexivity|]). intros X. split; [auto|split; [auto|exact K1]]. }
    split; [eapply later_st_trans; eauto|].
    intros X. destruct r0 as [[]|]; [|discriminate]. exists s1, sc, h, w. do 6 (split; [auto|]). split; [|auto].
    cbn [set_headers scans set_scans]. apply dget_dset_same.
  Qed.

  Lemma getScan_later k s s' : later s s' ->
    match getScan k s, getScan k s' with
    | Ok (Some a), Ok (Some b) => s_num a = s_num b
    | Ok None, Ok None => True
    | Raise x, Raise y => x = y
    | _, _ => False
    end.
  Proof.
    intros L. unfold getScan. destruct (key_float k) as [fl|]; cbn [bind]; auto. destruct (int_of_fl fl); cbn [bind]; auto.
    assert (D : forall n, match dget n (scans s), dget n (scans s') with
                          | Some a, Some b => s_num a = s_num b | None, None => True | _, _ => False end).
    { intros n. destruct (dget n (scans s)) as [sc|] eqn:D1.
      - destruct (later_dget _ _ L n sc D1) as (sc' & -> & (_ & _ & X & _)). auto.
      - destruct (dget n (scans s')) as [sc'|] eqn:D2; auto. destruct (later_dget' _ _ L n sc' D2) as (sc & X & _). congruence. }
    assert (N : getScanNumbers s' = getScanNumbers s).
    { unfold getScanNumbers. rewrite (later_keys _ _ L). reflexivity. }
    destruct (_ <? 1)%Z.
    - rewrite N. destruct (getScanNumbers s) as [[|x l]|]; cbn [bind]; auto. destruct (key_int k); cbn [bind]; auto.
      destruct (index _ _); cbn [bind]; auto. specialize (D a1). destruct (dget a1 (scans s)), (dget a1 (scans s')); auto.
    - specialize (D (key_str k)). destruct (dget (key_str k) (scans s)), (dget (key_str k) (scans s')); auto.
  Qed.

  Lemma save_key_later first k s f s' f' r : save_key E known first k s f = (s', f', r) -> later s s'.
  Proof.
    unfold save_key. destruct (sbind _ _ f) as [f1 [e|x]]; [|intros H; inversion H; subst; apply later_st_refl].
    destruct (getScan k s) as [[sc|]|x]; try (intros H; inversion H; subst; apply later_st_refl).
    destruct (save_scan E known e (s_num sc) s f1) as [[s2 f2] r2] eqn:Es. destruct (save_scan_later _ _ _ _ _ _ _ Es) as [L _].
    destruct r2; [intros H; inversion H; subst; auto|]. destruct (sbind _ _ f2) as [f3 [u|x]]; intros H; inversion H; subst; auto.
  Qed.
  Lemma save_keys_later ks : forall first s f s' f' r, save_keys E known first ks s f = (s', f', r) -> later s s'.
  Proof.
    induction ks as [|k ks IH]; intros first s f s' f' r; cbn [save_keys]; [intros H; inversion H; subst; apply later_st_refl|].
    destruct (save_key E known first k s f) as [[s1 f1] r1] eqn:E1. pose proof (save_key_later _ _ _ _ _ _ _ E1) as L1.
    destruct r1; [intros H; inversion H; subst; auto|]. intros H. eapply later_st_trans; [exact L1|eapply IH; eauto].
  Qed.
  Lemma save_later versions ks s s' f r : save E known versions ks s = (s', f, r) -> later s s'.
  Proof.
    unfold save. destruct (root_attributes versions s) as [l|x]; [|intros H; inversion H; subst; apply later_st_refl].
    destruct (addAttributes root l new_file) as [f0 [u|x]]; [|intros H; inversion H; subst; apply later_st_refl].
    apply save_keys_later.
  Qed.
End Later.

(* ------------------------------------------------------------------ *)
(** ** the table of a scan in one dimension *)
Definition table_of (cmd : str) (o : obj) (items : list (str * node)) (sg : str) (axv : aval) : Prop :=
  exists ls dd cols its ax axes cl cf, o A_L = Some ls /\ o A_data = Some dd /\ items = cols ++ its /\
    Forall2 (column_item dd) ls cols /\ all_spectra ax (calibration (o A_MCA)) dd its /\
    o A_column_last = Some cl /\ clean_name cl = Ok sg /\ o A_column_first = Some cf /\ clean_name cf = Ok ax /\
    axv = axes_value axes /\ ((hkl_scan_w cmd /\ hkl_axes cmd = Ok axes) \/ (axes = ax /\ ~ hkl_scan_w cmd)).

Lemma oneD_reads g w w' r : oneD g w = (w', Ok r) -> exists ls dd, w_scan w A_L = Some ls /\ w_scan w A_data = Some dd.
Proof.
  unfold oneD. rewrite sbind_eq. unfold rd at 1. unfold obj_of. destruct (w_scan w A_L) as [ls|] eqn:El; [|discriminate]. intros H.
  exists ls. destruct (w_scan w A_data) as [dd|] eqn:Ed; [exists dd; auto|exfalso].
  destruct ls as [|c ls]; cbn [siter] in H.
  - rewrite !sbind_eq in H. unfold sret at 1 in H. cbv iota beta in H. rewrite sbind_eq in H.
    destruct (rd Scn A_column_last w) as [w1 [cl|]] eqn:E1; [|discriminate]. unfold rd in E1. assert (w1 = w) by congruence; subst w1; clear E1.
    rewrite sbind_eq in H. destruct (slift (clean_name cl) w) as [w1 [sg|]] eqn:E1; [|discriminate]. unfold slift in E1. assert (w1 = w) by congruence; subst w1; clear E1.
    rewrite sbind_eq in H. destruct (rd Scn A_column_first w) as [w1 [cf|]] eqn:E1; [|discriminate]. unfold rd in E1. assert (w1 = w) by congruence; subst w1; clear E1.
    rewrite sbind_eq in H. destruct (slift (clean_name cf) w) as [w1 [ax|]] eqn:E1; [|discriminate]. unfold slift in E1. assert (w1 = w) by congruence; subst w1; clear E1.
    rewrite sbind_eq in H. unfold mca_spectra in H. rewrite sbind_eq in H. unfold rd at 1 in H. unfold obj_of in H. rewrite Ed in H. discriminate.
  - rewrite !sbind_eq in H. unfold rd at 1 in H. unfold obj_of in H. rewrite Ed in H. discriminate.
Qed.

Lemma table_HT cmd : one_dim_w cmd -> forall g w w' u, (exists at_, nth_error (w_h5 w) (h_id g) = Some (Group [] at_)) ->
    save_data g cmd w = (w', Ok u) ->
    exists items sg axv f1, table_of cmd (w_scan w) items sg axv /\ steps (h_id g) items (w_h5 w) f1 /\ attrs_only (h_id g) f1 (w_h5 w') /\
      attribute (w_h5 w') (h_id g) (L "signal") (AText sg) /\ attribute (w_h5 w') (h_id g) (L "axes") axv.
Proof.
  intros HD g w w' u [at_ Hg] H.
  assert (G : GD (h_id g) (w_h5 w)) by (exists [], at_; split; [exact Hg|constructor]).
  assert (R : exists ls dd, w_scan w A_L = Some ls /\ w_scan w A_data = Some dd).
  { pose proof H as H'. unfold save_data in H'. rewrite sbind_eq in H'. unfold slift at 1 in H'.
    unfold one_dim_w in HD. destruct (words cmd) as [|st rest]; [discriminate|].
    change (index 0 (st :: rest)) with (@Ok str st) in H'. cbv iota beta in H'. destruct (HD st rest eq_refl) as [N1 N2].
    assert (M1 : mem st (map L ["mesh"; "hklmesh"]%string) = false).
    { apply not_true_iff_false. intros X. apply mem_In in X. destruct X as [X|[X|[]]]; congruence. }
    rewrite M1 in H'. rewrite sbind_eq in H'.
    destruct (mem st (map L ["hscan"; "kscan"; "lscan"; "hklscan"]%string)).
    - rewrite sbind_eq in H'. destruct (oneD g w) as [w1 [sa|x]] eqn:E1; [|discriminate]. eapply oneD_reads; eauto.
    - destruct (oneD g w) as [w1 [sa|x]] eqn:E1; [|discriminate]. eapply oneD_reads; eauto. }
  destruct R as (ls & dd & Hl & Hd).
  destruct (save_data_1D g cmd w w' u ls dd HD G Hl Hd H)
    as (items & its & sg & ax & axes & f1 & cl & cf & A1 & A2 & A3 & A4 & A5 & A6 & A7 & A8 & A9 & A10 & A11 & A12 & A13).
  exists (items ++ its), sg, (axes_value axes), f1. split; [|auto].
  exists ls, dd, items, its, ax, axes, cl, cf. do 10 (split; [auto|]). auto.
Qed.

Lemma table_TS cmd o o' items sg axv : same_but False o o' -> table_of cmd o items sg axv -> table_of cmd o' items sg axv.
Proof.
  intros S (ls & dd & cols & its & ax & axes & cl & cf & A1 & A2 & A3 & A4 & A5 & A6 & A7 & A8 & A9 & A10 & A11).
  assert (N : forall x, x <> A_counter_xref -> x <> A_positioner_xref -> o' x = o x).
  { intros x N1 N2. apply S. intros [X|[X|[X _]]]; auto. }
  exists ls, dd, cols, its, ax, axes, cl, cf. rewrite !N by discriminate. do 10 (split; [auto|]). auto.
Qed.

Section Entries.
  Context (E : env) (known : list hid).
  (** scans with a command that satisfies [Cd] have the table [T] *)
  Context (Cd : str -> Prop) (T : str -> obj -> list (str * node) -> str -> aval -> Prop).
  Context (HT : forall cmd, Cd cmd -> forall g w w' u, (exists at_, nth_error (w_h5 w) (h_id g) = Some (Group [] at_)) ->
    save_data g cmd w = (w', Ok u) ->
    exists items sg axv f1, T cmd (w_scan w) items sg axv /\ steps (h_id g) items (w_h5 w) f1 /\ attrs_only (h_id g) f1 (w_h5 w') /\
      attribute (w_h5 w') (h_id g) (L "signal") (AText sg) /\ attribute (w_h5 w') (h_id g) (L "axes") axv).
  Context (TS : forall cmd o o' items sg axv, same_but False o o' -> T cmd o items sg axv -> T cmd o' items sg axv).

  (** what entry [a] of file [f] holds for the scan of key [k], saved from state [s1] *)
  Definition entry_done (k : skey) (s1 : sdf) (sc : scan) (f : h5) (a : nat) : Prop :=
    forall sw, s_obj sc A_h5 = Some sw -> In H_data (values sw) -> Cd (s_cmd sc) ->
    exists b c items sg axv, T (s_cmd sc) (s_obj sc) items sg axv /\ a < b /\ Stored f b c items sg axv /\ member f a DATA b.

  Lemma save_key_table first k s f s' f' ms0 at0 : good_key k -> GS s -> ok5 f -> nth_error f 0 = Some (Group ms0 at0) ->
    save_key E known first k s f = (s', f', None) ->
    exists sc0 s1 sc, getScan k s = Ok (Some sc0) /\ interpret E known (s_num sc0) s = (s1, None) /\
      dget (s_num sc0) (scans s1) = Some sc /\ s_done sc = true /\ later s1 s' /\ entry_done k s1 sc f' (List.length f).
  Proof.
    intros Hk Hs W E0 H. destruct (good_key_plain k Hk) as [Hp Has].
    destruct f as [|n0 t]; [discriminate E0|]. inversion E0; subst n0. clear E0.
    set (f := Group ms0 at0 :: t) in *. set (sk := entry_name k) in *. set (a := List.length f).
    assert (Hlen : a = S (List.length t)) by reflexivity. assert (Ha : 0 < a) by lia.
    unfold save_key in H. rewrite sbind_eq in H. fold (entry_name k) in H. fold sk in H. unfold f in H at 1.
    rewrite (makeGroup_root sk (L "NXentry") ms0 at0 t Hp) in H. rewrite <- Hlen in H.
    destruct (has sk ms0) eqn:Hh; [discriminate H|].
    set (f1 := Group (ms0 ++ [(sk, a)]) at0 :: t ++ [Group [] [(NXC, AText (L "NXentry"))]]) in H.
    set (e := mk_handle a (name_at [sk])) in H.
    assert (I1 : Inv (PO a) a sk f1) by (apply new_inv; auto).
    assert (He : ent a sk e) by (split; reflexivity).
    cbn [fst snd] in H. rewrite sbind_eq in H.
    assert (K1 : hk (PO a) a sk (makeDataset e (L "experiment_description") (DText (L "SPEC scan")) [desc "SPEC data file scan"]) (fun _ => True)).
    { eapply hk_weak; [|apply (makeDataset_keeps (PO a) a sk [])]; auto.
      - apply ent_known; auto. apply PO_a; auto.
      - apply (ent_usable (PO a) a sk (PO_a a Ha)); [exact He|apply plainb_ok; reflexivity|apply seqb_neq; reflexivity].
      - apply ncb_ok. reflexivity. }
    destruct (K1 f1 I1) as [I2 [F2 _]].
    destruct (makeDataset e (L "experiment_description") (DText (L "SPEC scan")) [desc "SPEC data file scan"] f1) as [f2 [x|x]];
      cbn [fst sret] in *; [|discriminate H].
    unfold sret in H.
    destruct (getScan k s) as [[sc0|]|x1]; [|discriminate H|discriminate H].
    destruct (save_scan E known e (s_num sc0) s f2) as [[s3 f3] r3] eqn:Es.
    destruct (save_scan_frame E known a sk e _ _ _ _ _ _ Ha Hp Has He Hs I2 Es) as [G3 [I3 F3]].
    destruct r3 as [x3|]; [discriminate H|].
    destruct (save_scan_later E known _ _ _ _ _ _ _ Es) as [L3 SL].
    destruct (SL eq_refl) as (s1 & sc & h & w & Ei & Eg & Ed & En & Eo & Ef & Eg' & L13). clear SL.
    pose proof (interpret_GS E known _ _ _ _ Hs Ei) as G1.
    assert (Root3 : nth_error f3 0 = Some (Group (ms0 ++ [(sk, a)]) at0)).
    { rewrite (fr_P _ _ _ _ (proj1 (Fr_trans _ _ _ _ _ F2 F3)) 0) by exact Ha. reflexivity. }
    rewrite sbind_eq in H.
    set (f4 := if first then fst (set_attr 0 (L "default") (AText sk) f3) else f3).
    assert (X4 : (if first then addAttributes root [(L "default", AText sk)] else sret tt) f3 = (f4, Ok tt)).
    { unfold f4. destruct first; [|reflexivity]. unfold addAttributes. cbn [siter fst snd root h_id]. rewrite sbind_eq.
      unfold set_attr. rewrite Root3. reflexivity. }
    change (L "S" ++ key_str k) with sk in H. unfold sret in X4. match type of H with context [let (_, _) := ?X in match _ with Ok _ => ensure_data _ _ | _ => _ end] => replace X with (f4, @Ok unit tt) in H by (symmetry; exact X4) end.
    assert (I4 : (forall i, 0 < i -> nth_error f4 i = nth_error f3 i) /\ List.length f4 = List.length f3).
    { unfold f4. destruct first; [|auto].
      destruct (set_attr 0 (L "default") (AText sk) f3) as [g rg] eqn:Eg4. cbn [fst].
      destruct (root_attr_inv a sk Ha _ _ _ _ _ I3 Eg4) as (A & B & C & D). auto. }
    destruct I4 as (O4 & L4).
    exists sc0, s1, sc. do 4 (split; [auto|]).
    assert (L1' : later s1 s').
    { destruct (ensure_data e f4) as [f5 [u|x5]]; inversion H; subst; exact L13. }
    split; [exact L1'|].
    intros sw Hw Hin HD.
    assert (W0 : WInv (PO a) a sk (mk_ws (s_obj sc) (h_obj h) f2)).
    { split; [exact I2|]. split; [apply (GS_scan s1 _ sc G1 Eg)|apply (GS_header s1 _ h G1 En)]. }
    destruct (save_objs_table (s_cmd sc) (T (s_cmd sc)) (HT _ HD) (TS _) a sk e sc _ w sw eq_refl Ha Hp Has He W0 Hw Hin Eo)
      as (b & c & items & sg & axv & T1 & Lab & St & Mb). cbn [w_scan] in T1. rewrite <- Ef in St, Mb.
    assert (Mb4 : member f4 a DATA b) by (eapply member_keep; [|exact Mb]; apply O4; exact Ha).
    assert (X : ensure_data e f4 = (f4, Ok tt)).
    { unfold ensure_data. rewrite sbind_eq. unfold hin. destruct Mb4 as (m & xx & M1 & M2).
      rewrite (resolve_plain _ _ m xx); [|apply plainb_ok; reflexivity|exact M1]. change (L "data") with DATA. rewrite M2. reflexivity. }
    rewrite X in H. assert (f' = f4) by congruence. subst f'.
    exists b, c, items, sg, axv. split; [auto|split; [auto|split; [|auto]]].
    eapply Stored_keep; [| |exact St]; [|lia]. intros i Hi. apply O4. lia.
  Qed.

  Lemma entry_keep k s1 sc f f' a : (forall i, 0 < i < List.length f -> nth_error f' i = nth_error f i) ->
    List.length f <= List.length f' -> 0 < a -> entry_done k s1 sc f a -> entry_done k s1 sc f' a.
  Proof.
    intros O HL Ha H sw Hw Hin HD. destruct (H sw Hw Hin HD) as (b & c & items & sg & axv & T1 & Lab & St & Mb).
    exists b, c, items, sg, axv. split; [auto|split; [auto|]]. pose proof (so_lt _ _ _ _ _ _ St) as X. split.
    - eapply Stored_keep; [|exact HL|exact St]. intros i Hi. apply O. lia.
    - eapply member_keep; [|exact Mb]. apply O. lia.
  Qed.

  (** the first key of a list *)
  Lemma save_keys_first k0 ks first s f s' f' : good_key k0 -> Forall good_key ks -> GS s -> ok5 f -> is_group f 0 ->
    save_keys E known first (k0 :: ks) s f = (s', f', None) ->
    exists sc0 s1 sc a, getScan k0 s = Ok (Some sc0) /\ interpret E known (s_num sc0) s = (s1, None) /\ dget (s_num sc0) (scans s1) = Some sc /\ s_done sc = true /\ later s1 s' /\
      member f' 0 (entry_name k0) a /\ entry_done k0 s1 sc f' a.
  Proof.
    intros Hk1 Hk2 Hs W [ms [at_ R0]] H. cbn [save_keys] in H.
    destruct (save_key E known first k0 s f) as [[s2 f2] r2] eqn:E1.
    destruct (save_key_spec E known first k0 s f s2 f2 r2 ms at_ Hk1 Hs W R0 E1) as [G1 [SO SL SW SR]].
    destruct r2 as [x2|]; [discriminate H|].
    destruct (SR ms at_ R0) as [(Hh & _ & X)|(Hh & C1 & (at' & R1 & A1 & A1') & D1)]; [discriminate X|].
    assert (Gr2 : is_group f2 0) by (eexists; eexists; exact R1).
    destruct (save_keys_spec E known ks false s2 f2 s' f' None Hk2 G1 SW Gr2 H) as (G2 & (done & [KO KL KW KP KE KD KR]) & _ & DF).
    pose proof (nx_group_lt _ _ _ C1) as La. assert (L0 : 0 < List.length f) by (apply nth_error_Some; congruence).
    destruct (save_key_table first k0 s f s2 f2 ms at_ Hk1 Hs W R0 E1) as (sc0 & s1 & sc & B1 & B2 & B3 & B4 & B5 & B6).
    exists sc0, s1, sc, (List.length f). split; [auto|]. split; [auto|]. do 2 (split; [auto|]).
    split; [eapply later_st_trans; [exact B5|]; eapply save_keys_later; exact H|]. split.
    - destruct (KR _ _ R1) as (at2 & R2 & _). eexists; eexists. split; [exact R2|]. rewrite <- app_assoc. rewrite dget_app.
      unfold has in Hh. destruct (dget (entry_name k0) ms); [discriminate|]. cbn [app dget]. rewrite seqb_refl. reflexivity.
    - eapply entry_keep; [exact KO|lia|exact L0|exact B6].
  Qed.

  Lemma save_keys_table ks : forall first s f s' f' , Forall good_key ks -> GS s -> ok5 f -> is_group f 0 ->
    save_keys E known first ks s f = (s', f', None) -> forall k, In k ks ->
    exists sc0 s1 sc a, getScan k s = Ok (Some sc0) /\ later s s1 /\ dget (s_num sc0) (scans s1) = Some sc /\ s_done sc = true /\ later s1 s' /\
      member f' 0 (entry_name k) a /\ entry_done k s1 sc f' a.
  Proof.
    induction ks as [|k0 ks IH]; intros first s f s' f' Hk Hs W [ms [at_ R0]] H k Hin; [destruct Hin|].
    cbn [save_keys] in H. inversion Hk as [|? ? Hk1 Hk2]; subst.
    destruct (save_key E known first k0 s f) as [[s2 f2] r2] eqn:E1.
    destruct (save_key_spec E known first k0 s f s2 f2 r2 ms at_ Hk1 Hs W R0 E1) as [G1 [SO SL SW SR]].
    destruct r2 as [x2|]; [discriminate H|].
    destruct (SR ms at_ R0) as [(Hh & _ & X)|(Hh & C1 & (at' & R1 & A1 & A1') & D1)]; [discriminate X|].
    assert (Gr2 : is_group f2 0) by (eexists; eexists; exact R1).
    pose proof (save_key_later E known _ _ _ _ _ _ _ E1) as L02.
    destruct (save_keys_spec E known ks false s2 f2 s' f' None Hk2 G1 SW Gr2 H) as (G2 & (done & [KO KL KW KP KE KD KR]) & _ & DF).
    pose proof (nx_group_lt _ _ _ C1) as La. assert (L0 : 0 < List.length f) by (apply nth_error_Some; congruence).
    assert (Here : exists sc0 s1 sc a, getScan k0 s = Ok (Some sc0) /\ later s s1 /\ dget (s_num sc0) (scans s1) = Some sc /\ s_done sc = true /\ later s1 s' /\
      member f' 0 (entry_name k0) a /\ entry_done k0 s1 sc f' a).
    { destruct (save_key_table first k0 s f s2 f2 ms at_ Hk1 Hs W R0 E1) as (sc0 & s1 & sc & B1 & B2 & B3 & B4 & B5 & B6).
      exists sc0, s1, sc, (List.length f). split; [auto|]. split; [eapply interpret_later; eauto|]. do 2 (split; [auto|]).
      split; [eapply later_st_trans; [exact B5|]; eapply save_keys_later; exact H|]. split.
      - destruct (KR _ _ R1) as (at2 & R2 & _). eexists; eexists. split; [exact R2|]. rewrite <- app_assoc. rewrite dget_app.
        unfold has in Hh. destruct (dget (entry_name k0) ms); [discriminate|]. cbn [app dget]. rewrite seqb_refl. reflexivity.
      - eapply entry_keep; [exact KO|lia|exact L0|exact B6]. }
    destruct Hin as [<-|Hin]; [exact Here|].
    destruct (IH false s2 f2 s' f' Hk2 G1 SW Gr2 H k Hin) as (sc0 & s1 & sc & a & B1 & B2 & B3 & B4 & B5 & B6 & B7).
    pose proof (getScan_later k s s2 L02) as GL. rewrite B1 in GL.
    destruct (getScan k s) as [[sc00|]|x]; try contradiction.
    exists sc00, s1, sc, a. rewrite GL. split; [auto|]. split; [eapply later_st_trans; eauto|]. auto.
  Qed.

End Entries.

Section OneDim.
  Context (E : env) (known : list hid).
  Lemma save_table versions ks s s' f : Forall good_key ks -> GS s -> save E known versions ks s = (s', f, None) -> forall k, In k ks ->
    exists sc0 sc' a, getScan k s = Ok (Some sc0) /\ dget (s_num sc0) (scans s') = Some sc' /\ s_done sc' = true /\
      member f 0 (entry_name k) a /\
      forall sw, s_obj sc' A_h5 = Some sw -> In H_data (values sw) -> one_dim_w (s_cmd sc') ->
      exists b c items sg axv, table_of (s_cmd sc') (s_obj sc') items sg axv /\ a < b /\ Stored f b c items sg axv /\ member f a DATA b.
  Proof.
    intros Hk Hs H k Hin. unfold save in H. destruct (root_attributes versions s) as [l|x] eqn:El; [|discriminate H].
    destruct (addAttributes root l new_file) as [f0 r0] eqn:E0. destruct (save_start versions s l f0 r0 El E0) as [-> [at0 ->]].
    pose proof (ok5_start at0) as W0.
    destruct (save_keys_table E known one_dim_w table_of table_HT table_TS ks true s _ s' f Hk Hs W0 ltac:(exists [], at0; reflexivity) H k Hin) as (sc0 & s1 & sc & a & B1 & B2 & B3 & B4 & B5 & B6 & B7).
    destruct (later_dget _ _ B5 _ _ B3) as (sc' & D' & LS). exists sc0, sc', a. do 2 (split; [auto|]).
    destruct LS as (_ & _ & _ & C4 & _ & C6). destruct (C6 B4) as (C7 & _ & C8). split; [auto|]. split; [auto|].
    intros sw Hw Hd HD. rewrite C4 in HD.
    assert (NM : mesh_cmd (s_cmd sc) -> False).
    { unfold mesh_cmd, one_dim_w in *. intros (st & rest & X & Y). destruct (HD _ _ X) as [Z1 Z2]. destruct Y; contradiction. }
    assert (SM : same_but False (s_obj sc) (s_obj sc')).
    { intros x N. apply C8. intros [X|[X|[X Y]]]; apply N; [left|right; left|destruct (NM X)]; auto. }
    destruct (B7 sw) as (b & c & items & sg & axv & T1 & Z); auto.
    { rewrite <- (SM A_h5); auto. intros [X|[X|[X _]]]; try discriminate; auto. }
    exists b, c, items, sg, axv. rewrite C4. split; [eapply table_TS; eauto|auto].
  Qed.
End OneDim.
