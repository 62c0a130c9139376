(** Columns that share a name, and the spectra of a table *)
From Coq Require Import String Lia.
From Verif Require Import Py PyFacts Utils SpecUtils UtilsFacts Keys Handlers Reader SpecInterp SpecWriter H5 SpecH5 H5Facts Writer DataWrite EntryData TableFacts.
Import ListNotations.
Local Open Scope list_scope.

Lemma last_occ {V} n (l : list (str * V)) : In n (map fst l) -> exists a nd c, l = a ++ (n, nd) :: c /\ ~ In n (map fst c).
Proof.
  induction l as [|[m nd] l IH]; [intros []|]. cbn [map fst In]. intros H. destruct (in_dec str_eq_dec n (map fst l)) as [X|X].
  - destruct (IH X) as (a & nd' & c & -> & N). exists ((m, nd) :: a), nd', c. auto.
  - destruct H as [->|H]; [|contradiction]. exists [], nd, l. auto.
Qed.
Lemma member_fun f i n j j' : member f i n j -> member f i n j' -> j = j'.
Proof. intros (m & a & A & B) (m' & a' & A' & B'). congruence. Qed.
Lemma same_split {A} (y : A) l1 x l2 : forall la lc, l1 ++ x :: l2 = la ++ x :: lc -> ~ In x l2 -> In y l2 -> In y lc.
Proof.
  induction l1 as [|a l1 IH]; intros [|b la] lc H N Hy; cbn [app] in H; inversion H; subst.
  - auto.
  - exfalso. apply N. apply in_app_iff. right. left. auto.
  - apply in_app_iff. right. right. auto.
  - eapply IH; eauto.
Qed.
Lemma app_split_at {A} (cols its : list A) : forall a x c, cols ++ its = a ++ x :: c ->
  (exists c1, cols = a ++ x :: c1 /\ c = c1 ++ its) \/ (exists a1, a = cols ++ a1 /\ its = a1 ++ x :: c).
Proof.
  induction cols as [|y cols IH]; intros a x c H; cbn [app] in H; [right; exists a; auto|].
  destruct a as [|b a]; cbn [app] in H; inversion H as [[H1 H2]]; subst.
  - left. exists cols. auto.
  - destruct (IH a x c H2) as [(c1 & -> & ->)|(a1 & -> & ->)]; [left; exists c1; auto|right; exists a1; auto].
Qed.
Lemma F2_split_r {A B} (R : A -> B -> Prop) m1 y m2 l : Forall2 R l (m1 ++ y :: m2) ->
  exists l1 x l2, l = l1 ++ x :: l2 /\ Forall2 R l1 m1 /\ R x y /\ Forall2 R l2 m2.
Proof.
  intros H. apply Forall2_app_inv_r in H. destruct H as (l1 & l' & H1 & H2 & ->). inversion H2 as [|x ? l2]; subst. exists l1, x, l2. auto.
Qed.
(** the label of a dataset *)
Lemma spectra_label axis cal dd its : all_spectra axis cal dd its -> forall n nd x, In (n, nd) its ->
  dget (L "spec_name") (node_attrs nd) = Some (AText x) -> ds_name x n.
Proof.
  unfold all_spectra. destruct (dget (L "_mca_") dd) as [[vs|m]|]; [intros []| |intros -> n nd x []].
  intros (l & F & ->) n nd x Hn A. apply in_concat in Hn. destruct Hn as (its & Hi & Hn).
  assert (Y : exists ks, spectra_items axis cal ks its).
  { clear Hn A. revert F Hi. generalize (sorted_items m). intros sm F. induction F as [|a b ? ? H F IH]; intros Hi; [destruct Hi|].
    destruct Hi as [->|Hi]; eauto. }
  destruct Y as (ks & Hit). unfold spectra_items in Hit. destruct cal as [[ca cb] cc]. cbv zeta in Hit.
  destruct Hit as (n1 & n2 & n3 & v & row & rows & E1 & C1 & C2 & C3 & V & ->). apply ds_name_iff.
  destruct Hn as [X|[X|[X|[]]]]; injection X; intros E' <-; subst nd; cbn in A; injection A; intros <-; assumption.
Qed.

Lemma stored_lost f b c cmd o items sg axv table : table_of cmd o items sg axv -> Stored f b c items sg axv -> o A_data = Some table ->
  forall l1 x l2 n y, o A_L = Some (l1 ++ x :: l2) -> ds_name x n -> ~ mca_name table n -> ~ In x l2 -> In y l2 -> ds_name y n ->
  forall m j, member f b m j -> ~ attribute f j (L "spec_name") (AText x).
Proof.
  intros (ls & dd & cols & its & ax & axes & cl & cf & A1 & A2 & A3 & A4 & A5 & _) St Ht l1 x l2 n y Hl Hn Hm Nx Hy Ny m j Mj (nd & Hj & Ha).
  assert (ls = l1 ++ x :: l2) by congruence. assert (dd = table) by congruence. subst ls dd items.
  destruct (last_occ m (cols ++ its) (so_only _ _ _ _ _ _ St m j Mj)) as (a & nd' & c' & Es & Nc).
  destruct (so_items _ _ _ _ _ _ St a m nd' c' Es Nc) as (j' & _ & J2 & J3).
  assert (j' = j) by (eapply member_fun; eauto). subst j'. assert (nd' = nd) by congruence. subst nd'. clear J2 J3.
  destruct (app_split_at _ _ _ _ _ Es) as [(c1 & -> & ->)|(a1 & -> & ->)].
  - destruct (F2_split_r _ _ _ _ _ A4) as (la & z & lc & El & _ & (n' & vs & C1 & C2 & C3) & F2).
    injection C3; intros End Em. subst nd m. cbn in Ha. injection Ha; intros Ez. subst z.
    assert (n' = n) by (apply ds_name_iff in Hn; congruence). subst n'.
    apply Nc. rewrite map_app. apply in_app_iff. left. apply (column_names _ _ _ F2). exists y.
    split; [exact (same_split y l1 x l2 la lc El Nx Hy)|apply ds_name_iff; exact Ny].
  - assert (D : ds_name x m) by (eapply spectra_label; [exact A5|apply in_app_iff; right; left; reflexivity|exact Ha]).
    apply ds_name_iff in D. apply ds_name_iff in Hn. assert (m = n) by congruence. subst m.
    apply Hm. eapply spectra_names; [exact A5|]. rewrite map_app. apply in_app_iff. right. left. reflexivity.
Qed.

(** ** the spectra *)
Definition spectrum_node (axis : str) (cal : num * num * num) (k : str) (row : list num) (rows : list (list num)) (x : str) : node :=
  let '(a, b, c) := cal in
  let ds := L "_" ++ k ++ L "_" in
  if seqb x [] then named ds [(L "axes", AText (axis ++ L ":" ++ ds ++ L "channel_")); (L "units", t_ "counts")]
                      (HArr [List.length (row :: rows); List.length row] (List.concat (row :: rows)))
  else if seqb x (L "channel_") then named (ds ++ L "channel_") [(L "units", t_ "channel")]
                      (HArr [List.length row] (map (fun i => NI (Z.of_nat i)) (seq 1 (List.length row))))
  else named (ds ++ L "channel_scaled_x") [(L "units", t_ "")] (HArr [List.length row] (map (fun i => scaled a b c (Z.of_nat i)) (seq 1 (List.length row)))).
Definition three : list str := map L [""; "channel_"; "channel_scaled_x"]%string.
Lemma spectra_items_node axis cal ks its : spectra_items axis cal ks its ->
  exists row rows, snd ks = row :: rows /\ Forall (fun r => List.length r = List.length row) rows /\
    (forall n nd, In (n, nd) its <-> exists x, In x three /\ ds_name (L "_" ++ fst ks ++ L "_" ++ x) n /\ nd = spectrum_node axis cal (fst ks) row rows x).
Proof.
  unfold spectra_items, spectrum_node. destruct cal as [[a b] c]. cbv zeta. intros (n1 & n2 & n3 & v & row & rows & E1 & C1 & C2 & C3 & V & ->).
  exists row, rows. split; [auto|]. rewrite E1 in V. cbn [to_hval] in V.
  destruct (forallb _ rows) eqn:Ef; [|discriminate]. injection V; intros <-. clear V.
  split; [apply Forall_forall; intros r Hr; rewrite forallb_forall in Ef; apply Nat.eqb_eq; auto|].
  assert (D1 : ds_name (L "_" ++ fst ks ++ L "_" ++ L "") n1) by (apply ds_name_iff; rewrite <- C1; reflexivity).
  assert (D2 : ds_name (L "_" ++ fst ks ++ L "_" ++ L "channel_") n2) by (apply ds_name_iff; rewrite <- C2; f_equal; rewrite <- !app_assoc; reflexivity).
  assert (D3 : ds_name (L "_" ++ fst ks ++ L "_" ++ L "channel_scaled_x") n3) by (apply ds_name_iff; rewrite <- C3; f_equal; rewrite <- !app_assoc; reflexivity).
  assert (U : forall s t u, ds_name s t -> ds_name s u -> t = u) by (intros s t u X Y; apply ds_name_iff in X; apply ds_name_iff in Y; congruence).
  intros n nd. split.
  - intros [X|[X|[X|[]]]]; injection X; intros <- <-; [exists (L "")|exists (L "channel_")|exists (L "channel_scaled_x")];
      (split; [cbn; auto|split; [assumption|reflexivity]]).
  - intros (x & [<-|[<-|[<-|[]]]] & D & ->).
    + left. rewrite (U _ _ _ D D1). reflexivity.
    + right. left. rewrite (U _ _ _ D D2). reflexivity.
    + right. right. left. rewrite (U _ _ _ D D3). reflexivity.
Qed.
Lemma stored_spectra f b c cmd o items sg axv table : table_of cmd o items sg axv -> Stored f b c items sg axv -> o A_data = Some table ->
  forall m k rows0, dget (L "_mca_") table = Some (Mca m) -> In (k, rows0) m -> (forall r, In (k, r) m -> r = rows0) ->
  exists row rows axis, rows0 = row :: rows /\ Forall (fun r => List.length r = List.length row) rows /\
    (exists first, o A_column_first = Some first /\ ds_name first axis) /\
    forall x n, In x three -> ds_name (L "_" ++ k ++ L "_" ++ x) n ->
      (forall k' x', In k' (keys m) -> In x' three -> ds_name (L "_" ++ k' ++ L "_" ++ x') n -> k' = k /\ x' = x) ->
      exists j, member f b n j /\ nth_error f j = Some (spectrum_node axis (calibration (o A_MCA)) k row rows x).
Proof.
  intros (ls & dd & cols & its & ax & axes & cl & cf & A1 & A2 & A3 & A4 & A5 & A6 & A7 & A8 & A9 & _) St Ht m k rows0 Hm Hk Uk.
  assert (dd = table) by congruence. subst dd items. unfold all_spectra in A5. rewrite Hm in A5. destruct A5 as (l & F & ->).
  assert (Hin : forall ks, In ks m -> exists its0, In its0 l /\ spectra_items ax (calibration (o A_MCA)) ks its0).
  { intros ks X. apply in_sorted in X. clear - F X. induction F as [|a y ? ? H F IH]; [destruct X|].
    destruct X as [->|X]; [exists y; split; [left; auto|auto]|]. destruct (IH X) as (i & I1 & I2). exists i. split; [right|]; auto. }
  assert (Hout : forall its0, In its0 l -> exists ks, In ks m /\ spectra_items ax (calibration (o A_MCA)) ks its0).
  { intros its0 X. assert (Y : exists ks, In ks (sorted_items m) /\ spectra_items ax (calibration (o A_MCA)) ks its0).
    { clear - F X. induction F as [|a y ? ? H F IH]; [destruct X|].
      destruct X as [->|X]; [exists a; split; [left; auto|auto]|]. destruct (IH X) as (i & I1 & I2). exists i. split; [right|]; auto. }
    destruct Y as (ks & Y1 & Y2). exists ks. split; [apply in_sorted; auto|auto]. }
  destruct (Hin _ Hk) as (i0 & I1 & I2). destruct (spectra_items_node _ _ _ _ I2) as (row & rows & R1 & R2 & R3). cbn [fst snd] in R1, R3.
  exists row, rows, ax. split; [auto|]. split; [auto|]. split; [exists cf; split; [auto|apply ds_name_iff; auto]|].
  intros x n Hx Hn Ux.
  assert (In0 : In n (map fst (List.concat l))).
  { apply in_map_iff. eexists (n, _). split; [reflexivity|]. apply in_concat. exists i0. split; [auto|]. apply R3. exists x. split; [auto|split; [auto|reflexivity]]. }
  destruct (last_occ _ _ In0) as (a' & nd & c' & Es & Nc).
  destruct (so_items _ _ _ _ _ _ St (cols ++ a') n nd c') as (j & _ & J2 & J3); [rewrite Es, app_assoc; reflexivity|auto|].
  exists j. split; [auto|]. rewrite J3. f_equal.
  assert (X : In (n, nd) (List.concat l)) by (rewrite Es; apply in_app_iff; right; left; reflexivity).
  apply in_concat in X. destruct X as (i1 & X1 & X2). destruct (Hout _ X1) as (ks & K1 & K2).
  destruct (spectra_items_node _ _ _ _ K2) as (row' & rows' & R1' & R2' & R3'). apply R3' in X2. destruct X2 as (x' & Q1 & Q2 & ->).
  destruct (Ux (fst ks) x') as [E1 E2]; [unfold keys; apply in_map; auto|auto|auto|]. destruct ks as [k' r']. cbn [fst snd] in *. subst k' x'.
  pose proof (Uk _ K1) as E3. subst r'. assert (row' = row /\ rows' = rows) as [-> ->] by (split; congruence). reflexivity.
Qed.
