(** The grid of a saved mesh, in terms of what can be seen of the scan and of the file *)
From Coq Require Import String Lia.
From Verif Require Import Py PyFacts Utils SpecUtils UtilsFacts Keys Handlers Reader SpecHistory SpecText SpecReader SpecInterp InterpFacts SpecDecimal DecimalFacts SpecWriter
  H5 SpecH5 H5Facts FrameH5 H5Exact Writer DataWrite KeepFacts WriterFrame SaveFacts HistInv RegFacts MeshWrite EntryData TableFacts TableFacts2 WriterFacts.
Import ListNotations.
Local Open Scope list_scope.

Section MeshSave.
  Context (E : env) (known : list hid).
  Lemma saved_mesh s0 s versions ks1 k ks2 s1 f1 s' f : history E known s0 -> plain_mnemonics s0 -> saves E known s0 s ->
    Forall good_key (ks1 ++ k :: ks2) -> save E known versions ks1 s = (s1, f1, None) -> save E known versions (ks1 ++ k :: ks2) s = (s', f, None) ->
    forall sc0 s2 sc table, getScan k s1 = Ok (Some sc0) -> interpret E known (s_num sc0) s1 = (s2, None) -> dget (s_num sc0) (scans s2) = Some sc ->
    attr_is sc A_data table -> table <> [] -> mesh_cmd (s_cmd sc) ->
    exists b c items sg axv, at_path f [entry_name k; L "data"] b /\ mesh_of (s_cmd sc) (s_obj sc) items sg axv /\ Stored f b c items sg axv.
  Proof.
    intros Hh Hp Hs Hk H1 H sc0 s2 sc table Hg Hi Hd Ht Nt HM.
    apply Forall_app in Hk. destruct Hk as [Hk1 Hk2]. inversion Hk2 as [|? ? Hk Hk3]; subst.
    pose proof (start_GS E known s0 s Hh Hp Hs) as G.
    destruct (save_app E known versions ks1 (k :: ks2) s s1 f1 H1) as [first' X]. rewrite X in H.
    destruct (save_spec E known versions ks1 s s1 f1 None Hk1 G H1) as (G1 & I1 & W1 & _).
    destruct (save_keys_first E known mesh_cmd mesh_of mesh_HT mesh_TS k ks2 first' s1 f1 s' f Hk Hk3 G1 W1 I1 H)
      as (sc1 & s3 & sc3 & a & B1 & B2 & B3 & B4 & B5 & B6 & B7).
    assert (sc1 = sc0) by congruence. subst sc1. assert (s3 = s2) by congruence. subst s3. assert (sc3 = sc) by congruence. subst sc3.
    assert (T : TW s2).
    { eapply interpret_TW; [|exact Hi]. eapply save_TW; [|exact H1]. eapply saves_TW; [|exact Hs]. eapply history_table_writer; eauto. }
    unfold TW in T. rewrite Forall_forall in T. destruct (T _ (dget_In _ _ _ Hd)) as [_ R]. cbn [snd] in R.
    destruct (reg_In _ (R B4 table Ht Nt)) as (sw & W2 & W3).
    destruct (B7 sw W2 W3 HM) as (b & c & items & sg & axv & T1 & _ & St & Mb).
    exists b, c, items, sg, axv. split; [|auto]. econstructor; [exact B6|]. econstructor; [exact Mb|]. constructor.
  Qed.
End MeshSave.

(* ------------------------------------------------------------------ *)
Lemma remove1_in x l l' y : remove1 x l = Ok l' -> y <> x -> (In y l' <-> In y l).
Proof.
  revert l'. induction l as [|z l IH]; intros l' H N; [discriminate|]. cbn [remove1] in H. destruct (seqb x z) eqn:Ez.
  - apply seqb_eq in Ez. subst z. injection H; intros <-. cbn [In]. split; [auto|intros [X|X]; [congruence|auto]].
  - destruct (remove1 x l) as [r|e]; cbn [bind] in H; [|discriminate]. injection H; intros <-. cbn [In]. rewrite IH by auto. tauto.
Qed.
Lemma remove1_sub x l l' y : remove1 x l = Ok l' -> In y l' -> In y l.
Proof.
  revert l'. induction l as [|z l IH]; intros l' H; [discriminate|]. cbn [remove1] in H. destruct (seqb x z) eqn:Ez.
  - injection H; intros <-. right. auto.
  - destruct (remove1 x l) as [r|e]; cbn [bind] in H; [|discriminate]. injection H; intros <-. intros [->|X]; [left; auto|right; eauto].
Qed.
Lemma remove1_mem x l l' : remove1 x l = Ok l' -> In x l.
Proof.
  revert l'. induction l as [|z l IH]; intros l' H; [discriminate|]. cbn [remove1] in H. destruct (seqb x z) eqn:Ez.
  - apply seqb_eq in Ez. left. auto.
  - destruct (remove1 x l) as [r|e]; cbn [bind] in H; [|discriminate]. right. eapply IH. reflexivity.
Qed.

Lemma remove1_nodup x l l' : NoDup l -> remove1 x l = Ok l' -> ~ In x l' /\ NoDup l'.
Proof.
  revert l'. induction l as [|z l IH]; intros l' N H; [discriminate|]. inversion N as [|? ? Nz Nl]; subst. cbn [remove1] in H. destruct (seqb x z) eqn:Ez.
  - apply seqb_eq in Ez. subst z. injection H; intros <-. auto.
  - apply seqb_neq in Ez. destruct (remove1 x l) as [r|e] eqn:Er; cbn [bind] in H; [|discriminate]. injection H; intros <-.
    destruct (IH r Nl eq_refl) as [I1 I2]. split.
    + intros [X|X]; congruence.
    + constructor; [|auto]. intros X. apply Nz. eapply remove1_sub; eauto.
Qed.
Lemma every_nth {A} n (l : list A) : 0 < n -> forall k, List.length l = n * k -> List.length (every n l) = k /\ forall j, j < k -> nth_error (every n l) j = nth_error l (j * n).
Proof.
  intros Hn k. unfold every. set (P := fun ix : nat * A => Nat.eqb (Nat.modulo (fst ix) n) 0).
  (* blocks of length n starting at a multiple of n *)
  assert (B : forall a (l : list A), List.length l = n -> map snd (List.filter P (combine (seq (a * n) n) l)) = firstn 1 l).
  { intros a l0 Hl. destruct l0 as [|x l0]; [cbn in Hl; lia|]. destruct n as [|n']; [lia|]. cbn [seq combine List.filter].
    assert (Px : P (a * S n', x) = true) by (unfold P; cbn [fst]; rewrite Nat.mod_mul by lia; reflexivity). rewrite Px. cbn [map snd firstn]. f_equal.
    assert (F : List.filter P (combine (seq (S (a * S n')) n') l0) = []).
    { assert (Q : forall ix, In ix (combine (seq (S (a * S n')) n') l0) -> P ix = false).
      { intros [i y] Hin. apply in_combine_l in Hin. apply in_seq in Hin. unfold P. cbn [fst]. apply Nat.eqb_neq. intros Z0.
        pose proof (Nat.div_mod i (S n')) as D. rewrite Z0 in D. specialize (D ltac:(lia)). destruct (Nat.le_gt_cases (i / S n') a) as [Le|Gt]; nia. }
      clear - Q. induction (combine (seq (S (a * S n')) n') l0) as [|y t IH]; [reflexivity|]. cbn [List.filter]. rewrite Q by (left; auto). apply IH. intros; apply Q; right; auto. }
    rewrite F. reflexivity. }
  assert (G : forall k a (l : list A), List.length l = n * k ->
     let e := map snd (List.filter P (combine (seq (a * n) (List.length l)) l)) in List.length e = k /\ forall j, j < k -> nth_error e j = nth_error l (j * n)).
  { clear l k. induction k as [|k IH]; intros a l Hl; cbv zeta.
    - destruct l; [|cbn in Hl; lia]. cbn. split; [auto|lia].
    - assert (Hs : l = firstn n l ++ skipn n l) by (symmetry; apply firstn_skipn).
      assert (L1 : List.length (firstn n l) = n) by (rewrite firstn_length; nia).
      assert (L2 : List.length (skipn n l) = n * k) by (rewrite skipn_length; nia).
      assert (Ec : combine (seq (a * n) (List.length l)) l = combine (seq (a * n) n) (firstn n l) ++ combine (seq (S a * n) (n * k)) (skipn n l)).
      { rewrite Hl. replace (n * S k) with (n + n * k) by lia. rewrite seq_app. rewrite Hs at 1.
        replace (a * n + n) with (S a * n) by lia. clear - L1. revert L1. generalize (firstn n l) (skipn n l) (a * n). intros p q s.
        revert s. generalize (seq (S a * n) (n * k)). intros t. revert n. induction p as [|x p IHp]; intros n s Hp; cbn in Hp; subst n; [reflexivity|].
        cbn [seq combine app]. f_equal. apply IHp. reflexivity. }
      rewrite Ec. rewrite filter_app, map_app. rewrite (B a (firstn n l) L1).
      assert (F1 : exists x, firstn 1 (firstn n l) = [x] /\ nth_error l 0 = Some x).
      { destruct l as [|x l]; [cbn in Hl; lia|]. exists x. destruct n as [|n']; [lia|]. split; reflexivity. }
      destruct F1 as (x & -> & N0). cbn [app List.length].
      destruct (IH (S a) (skipn n l) L2) as [I1 I2]. cbv zeta in I1, I2. rewrite L2 in I1, I2. split; [rewrite I1; reflexivity|].
      intros [|j] Hj; [cbn; auto|]. cbn [nth_error]. rewrite I2 by lia. rewrite Hs at 2. rewrite nth_error_app2 by (rewrite L1; cbn; lia).
      rewrite L1. f_equal. cbn. lia. }
  intros Hl. specialize (G k 0 l Hl). cbv zeta in G. exact G.
Qed.

Lemma ds_fun s t u : ds_name s t -> ds_name s u -> t = u.
Proof. intros X Y. apply ds_name_iff in X. apply ds_name_iff in Y. congruence. Qed.

(** the columns *)
Lemma grid_from dd sh B ls its : grid_cols dd sh B ls its -> forall n nd, In (n, nd) its ->
  exists y vs v, In y ls /\ ds_name y n /\ dget y dd = Some (Col vs) /\ to_hval (DArr (reshape_data NAN (flat_array (nums vs)) sh)) = Ok v /\ nd = named y [] v.
Proof.
  induction 1 as [B|B x ls its Hs F IH|B x ls its n0 vs v C D V F IH]; intros n nd Hin.
  - destruct Hin.
  - destruct (IH n nd Hin) as (y & vs & v & A & R). exists y, vs, v. split; [right; auto|auto].
  - destruct Hin as [Hin|Hin].
    + injection Hin; intros <- <-. exists x, vs, v. split; [left; auto|]. split; [apply ds_name_iff; auto|auto].
    + destruct (IH n nd Hin) as (y & vs' & v' & A & R). exists y, vs', v'. split; [right; auto|auto].
Qed.
Lemma grid_has dd sh B ls its : grid_cols dd sh B ls its -> forall x, In x ls -> plain_name x -> ~ In x B -> (forall y, In y ls -> y <> x -> ~ ds_name y x) ->
  exists n, In n (map fst its) /\ ds_name x n.
Proof.
  induction 1 as [B|B x ls its Hs F IH|B x ls its n0 vs v C D V F IH]; intros z Hin Hp NB U.
  - destruct Hin.
  - destruct Hin as [->|Hin]; [exfalso; apply NB; auto|]. apply IH; auto. intros; apply U; auto. right; auto.
  - destruct (str_eq_dec x z) as [->|Nz].
    + exists n0. split; [left; auto|apply ds_name_iff; auto].
    + destruct Hin as [->|Hin]; [congruence|]. destruct (IH z) as (n & N1 & N2); auto.
      * intros X. apply in_app_iff in X. destruct X as [X|[X|[]]]; [auto|]. subst n0. apply (U x); [left; auto|auto|apply ds_name_iff; auto].
      * intros y Hy. apply U. right; auto.
      * exists n. split; [right; auto|auto].
Qed.
Lemma mesh_mca_names axes l : forall sh its, mesh_spectra axes sh l its -> forall n, In n (map fst its) ->
  exists k x, In k (map fst l) /\ In x (map L [""; "channel_"; "channel_scaled_x"]%string) /\ ds_name (L "_" ++ k ++ L "_" ++ x) n.
Proof.
  induction l as [|[key rows] l IH]; intros sh its H n Hn; cbn [mesh_spectra] in H.
  - subst its. destruct Hn.
  - destruct H as (row & rs & a & v & n1 & n2 & its' & _ & _ & C1 & C2 & V & -> & H). cbn [map fst In] in Hn.
    destruct Hn as [<-|[<-|Hn]].
    + exists key, (L ""). split; [left; auto|]. split; [left; auto|]. apply ds_name_iff. rewrite <- C1. reflexivity.
    + exists key, (L "channel_"). split; [left; auto|]. split; [right; left; auto|]. apply ds_name_iff. rewrite <- C2. f_equal. rewrite <- !app_assoc. reflexivity.
    + destruct (IH _ _ H n Hn) as (k & x & A & B & D). exists k, x. split; [right; auto|auto].
Qed.
Lemma label3_hkl a b : In (label3_of a b) (map L ["H"; "K"; "L"]%string) /\ label3_of a b <> a /\ label3_of a b <> b.
Proof.
  unfold label3_of. set (p := fun k => negb (seqb k a || seqb k b)).
  assert (X : exists k t, List.filter p (map L ["H"; "K"; "L"]%string) = k :: t).
  { destruct (List.filter p (map L ["H"; "K"; "L"]%string)) as [|k t] eqn:Ef; [|eauto]. exfalso.
    assert (N : forall k, In k (map L ["H"; "K"; "L"]%string) -> k = a \/ k = b).
    { intros k Hk. destruct (p k) eqn:Ep.
      - assert (Y : In k (List.filter p (map L ["H"; "K"; "L"]%string))) by (apply filter_In; auto). rewrite Ef in Y. destruct Y.
      - unfold p in Ep. apply negb_false_iff, orb_true_iff in Ep. destruct Ep as [Ep|Ep]; apply seqb_eq in Ep; auto. }
    assert (HK : L "H" <> L "K") by (apply seqb_neq; reflexivity). assert (KL : L "K" <> L "L") by (apply seqb_neq; reflexivity).
    assert (HL : L "H" <> L "L") by (apply seqb_neq; reflexivity).
    destruct (N (L "H")) as [A|A]; [left; auto| |]; (destruct (N (L "K")) as [C|C]; [right; left; auto| |]); (destruct (N (L "L")) as [D|D]; [right; right; left; auto| |]); congruence. }
  destruct X as (k & t & X). rewrite X. assert (Y : In k (List.filter p (map L ["H"; "K"; "L"]%string))) by (rewrite X; left; auto).
  apply filter_In in Y. destruct Y as [Y1 Y2]. split; [auto|]. unfold p in Y2. apply negb_true_iff, orb_false_iff in Y2. destruct Y2 as [Y2 Y3].
  split; apply seqb_neq; auto.
Qed.
Lemma hkl_clean x : In x (map L ["H"; "K"; "L"]%string) -> clean_name x = Ok x.
Proof. intros [<-|[<-|[<-|[]]]]; reflexivity. Qed.

Lemma grid_value c n1 n2 v : List.length c = S n1 * S n2 -> to_hval (DArr (reshape_data NAN (flat_array (nums c)) [S n1; S n2])) = Ok v ->
  v = HArr [S n1; S n2] (map NF c).
Proof.
  intros Hl. unfold reshape_data. cbn [flat flat_array shape to_hval].
  assert (Ep : prod [S n1; S n2] = S n1 * S n2) by (unfold prod; cbn [fold_left]; lia). rewrite Ep, nums_length, Hl, Nat.eqb_refl.
  cbn [to_hval shape flat]. intros X. injection X; intros <-. reflexivity.
Qed.

Section Grid.
  Context (f : h5) (b c : nat) (cmd : str) (o : obj) (items : list (str * node)) (sg : str) (axv : aval).
  Context (MO : mesh_of cmd o items sg axv) (St : Stored f b c items sg axv).
  Context (table : dict col) (labels : list str) (Ht : o A_data = Some table) (Hl : o A_L = Some labels).
  Context (m1 i1 m2 i2 : str) (n1 n2 : nat) (x1 x2 : str) (c1 c2 : list fl).
  Context (HM : mesh_scan cmd m1 i1 m2 i2) (Hi : int_text i1 (Z.of_nat n1)).
  Context (A1 : axis_label table labels 0 m1 x1) (A2 : axis_label table labels 1 m2 x2) (N12 : x1 <> x2).
  Context (D1 : dget x1 table = Some (Col c1)) (D2 : dget x2 table = Some (Col c2)).
  Context (ND : NoDup labels) (L1 : List.length c1 = S n1 * S n2) (L2 : List.length c2 = S n1 * S n2).

  Lemma axis_label_ok i m x : axis_label table labels i m x -> (if has m table then Ok m else index (Z.of_nat i) labels) = Ok x.
  Proof.
    intros [[A ->]|[A B]]; unfold has.
    - destruct (dget m table); [reflexivity|congruence].
    - rewrite A. unfold index. destruct (Z.of_nat i <? 0)%Z eqn:Ez; [apply Z.ltb_lt in Ez; lia|].
      assert (i < List.length labels) by (apply nth_error_Some; congruence).
      rewrite Ez, Nat2Z.id.
      rewrite B. reflexivity.
  Qed.
  Lemma the_grid : exists axes, axv = axes_value axes /\ grid_of cmd o table labels x1 x2 (Z.of_nat n1) items sg axes.
  Proof.
    destruct MO as (a1 & j1 & a2 & j2 & dd & ls & label1 & label2 & z1 & z2 & c1' & axes & MW & B1 & B2 & B3 & B4 & B5 & B6 & B7 & B8 & B9).
    assert (dd = table) by congruence. subst dd. assert (ls = labels) by congruence. subst ls.
    destruct HM as (w & y1 & y2 & y3 & y4 & t & _ & F). apply fields_words in F. destruct MW as (w' & z3 & z4 & z5 & z6 & t' & F').
    assert (Ea : a1 = m1 /\ j1 = i1 /\ a2 = m2 /\ j2 = i2) by (rewrite <- F in F'; injection F'; intros; repeat split; congruence).
    clear F F'. destruct Ea as (-> & -> & -> & ->).
    pose proof (axis_label_ok 0 _ _ A1) as X1. pose proof (axis_label_ok 1 _ _ A2) as X2. change (Z.of_nat 0) with 0%Z in X1. change (Z.of_nat 1) with 1%Z in X2.
    rewrite X1 in B3. rewrite X2 in B4. injection B3; intros <-. injection B4; intros <-.
    assert (Z1 : z1 = Z.of_nat n1) by (rewrite (py_int_text _ _ Hi) in B5; congruence). subst z1.
    assert (c1' = c1) by (unfold get_col in B7; rewrite D1 in B7; congruence). subst c1'.
    destruct B9 as [[B9 _]|[_ B9]]; [unfold len in B9; rewrite L1 in B9; nia|]. exists axes. auto.
  Qed.

  Lemma mesh_nohkl : (exists ws, fields cmd (L "mesh" :: ws)) -> prefixb (L "hkl") cmd = false.
  Proof.
    intros [ws F]. apply fields_words in F. apply not_true_iff_false. intros X. apply prefixb_spec in X. destruct X as [t ->].
    symmetry in F. destruct (words_cons _ _ _ F) as (a & r & Q & Ha & _ & _ & _ & _). destruct a as [|ch a]; [discriminate Q|].
    injection Q; intros _ <-. discriminate Ha.
  Qed.

  (** the datasets of the axes *)
  Lemma grid_axes k1 k2 : own_name table labels x1 k1 -> own_name table labels x2 k2 ->
    (exists j, member f b k1 j /\ nth_error f j = Some (named x1 [] (HArr [S n1] (map NF (firstn (S n1) c1))))) /\
    (exists j ys, member f b k2 j /\ nth_error f j = Some (named x2 [] (HArr [S n2] (map NF ys))) /\ List.length ys = S n2 /\
       forall i, i < S n2 -> nth_error ys i = nth_error c2 (i * S n1)).
  Proof.
    intros (O1 & O2 & O3) (P1 & P2 & P3).
    destruct the_grid as (axes & _ & (c1' & c2' & k1' & k2' & l1 & l2 & hk & cols & its & cl & B1 & B2 & B3 & B4 & B5 & B6 & B7 & B8 & B9 & B10 & B11 & B12 & B13 & B14)).
    assert (c1' = c1) by (unfold get_col in B2; rewrite D1 in B2; congruence). assert (c2' = c2) by (unfold get_col in B3; rewrite D2 in B3; congruence). subst c1' c2'.
    assert (k1' = k1) by (apply (ds_fun x1); auto; apply ds_name_iff; auto). assert (k2' = k2) by (apply (ds_fun x2); auto; apply ds_name_iff; auto). subst k1' k2'.
    replace (Z.to_nat (Z.of_nat n1 + 1)) with (S n1) in * by lia.
    destruct (every_nth (S n1) c2 ltac:(lia) (S n2) L2) as [Y1 Y2].
    assert (F1 : List.length (firstn (S n1) c1) = S n1) by (rewrite firstn_length; nia). rewrite F1, Y1 in *. clear F1.
    assert (M1 : In x1 labels) by (eapply remove1_mem; eauto).
    assert (M2 : In x2 labels) by (eapply remove1_sub; [exact B4|]; eapply remove1_mem; eauto).
    assert (NC : forall n nd, In (n, nd) cols -> exists y, In y labels /\ ds_name y n /\ exists v, nd = named y [] v).
    { intros n nd Hin. destruct (grid_from _ _ _ _ _ B9 n nd Hin) as (y & vs & v & Q1 & Q2 & _ & _ & ->). exists y.
      split; [eapply remove1_sub; [exact B4|]; eapply remove1_sub; eauto|eauto]. }
    assert (NI : forall n, In n (map fst its) -> mca_name table n).
    { intros n Hn. unfold mca_name. destruct (dget (L "_mca_") table) as [[vs|m]|]; [destruct B13| |rewrite B13 in Hn; destruct Hn].
      destruct (mesh_mca_names _ _ _ _ B13 n Hn) as (k & x & Q1 & Q2 & Q3). exists m, k, x. split; [auto|]. split; [|auto].
      unfold keys. apply in_map_iff in Q1. destruct Q1 as (kv & <- & Q1). apply in_map. apply in_sorted. auto. }
    assert (Last : forall x n, own_name table labels x n -> (x = x1 \/ x = x2) -> forall nd, (exists l r, hk ++ [(k1, named x1 [] (HArr [S n1] (nums (firstn (S n1) c1)))); (k2, named x2 [] (HArr [S n2] (nums (every (S n1) c2))))] = l ++ (n, nd) :: r /\ ~ In n (map fst r)) ->
       (forall y v, y = x -> In (n, named y [] v) cols -> False) -> exists j, member f b n j /\ nth_error f j = Some nd).
    { intros x n (R1 & R2 & R3) Hx nd (l & r & El & Nr) Ny.
      destruct (so_items _ _ _ _ _ _ St l n nd (r ++ cols ++ its)) as (j & _ & J2 & J3); [rewrite B14, El, <- app_assoc; reflexivity| |eauto].
      rewrite !map_app. intros X. apply in_app_iff in X. destruct X as [X|X]; [auto|]. apply in_app_iff in X. destruct X as [X|X]; [|apply R3; auto].
      apply in_map_iff in X. destruct X as ([n' nd'] & Q & X). cbn [fst] in Q. subst n'. destruct (NC n nd' X) as (y & Z1 & Z2 & v & ->).
      destruct (str_eq_dec y x) as [->|Nyx]; [apply (Ny x v eq_refl X)|]. apply (R2 y); auto. apply in_app_iff. left; auto. }
    assert (Nx2 : ~ In x1 l2 /\ ~ In x2 l2).
    { destruct (remove1_nodup _ _ _ ND B4) as [Q1 Q2]. destruct (remove1_nodup _ _ _ Q2 B5) as [Q3 Q4]. split; [|exact Q3]. intros X. apply Q1. eapply remove1_sub; eauto. }
    assert (NX : forall x n, (x = x1 \/ x = x2) -> forall y v, y = x -> In (n, named y [] v) cols -> False).
    { intros x n Hx y v -> X. destruct (grid_from _ _ _ _ _ B9 _ _ X) as (y' & vs & v' & Q1 & Q2 & _ & _ & Q3).
      assert (y' = x). { unfold named in Q3. cbn in Q3. injection Q3. intros _ Q. congruence. } subst y'. destruct Nx2 as [W1 W2]. destruct Hx as [Hx|Hx]; rewrite Hx in Q1; auto. }
    split.
    - destruct (Last x1 k1 ltac:(split; [|split]; auto) ltac:(auto) (named x1 [] (HArr [S n1] (map NF (firstn (S n1) c1))))) as (j & J1 & J2); [| |eauto].
      + exists hk, [(k2, named x2 [] (HArr [S n2] (nums (every (S n1) c2))))]. split; [reflexivity|]. cbn [map fst In]. intros [X|[]]. subst k2.
        apply (O2 x2); auto. apply in_app_iff. left; auto.
      + apply NX. auto.
    - destruct (Last x2 k2 ltac:(split; [|split]; auto) ltac:(auto) (named x2 [] (HArr [S n2] (map NF (every (S n1) c2))))) as (j & J1 & J2); [| |].
      + exists (hk ++ [(k1, named x1 [] (HArr [S n1] (nums (firstn (S n1) c1))))]), []. split; [rewrite <- app_assoc; reflexivity|]. cbn [map In]. tauto.
      + apply NX. auto.
      + exists j, (every (S n1) c2). auto.
  Qed.

  (** the datasets of the other columns *)
  Lemma grid_column x n cx : x <> x1 -> x <> x2 -> In x labels -> no_alias labels x -> own_name table labels x n ->
    (forall ws, ~ fields cmd (L "hklmesh" :: ws)) \/ ~ In x (map L ["H"; "K"; "L"]%string) ->
    dget x table = Some (Col cx) -> List.length cx = S n1 * S n2 ->
    exists j, member f b n j /\ nth_error f j = Some (named x [] (HArr [S n1; S n2] (map NF cx))).
  Proof.
    intros X1 X2 Hin [NA1 NA2] (O1 & O2 & O3) Hh Dx Lx.
    destruct the_grid as (axes & _ & (c1' & c2' & k1' & k2' & l1 & l2 & hk & cols & its & cl & B1 & B2 & B3 & B4 & B5 & B6 & B7 & B8 & B9 & B10 & B11 & B12 & B13 & B14)).
    assert (c1' = c1) by (unfold get_col in B2; rewrite D1 in B2; congruence). assert (c2' = c2) by (unfold get_col in B3; rewrite D2 in B3; congruence). subst c1' c2'.
    replace (Z.to_nat (Z.of_nat n1 + 1)) with (S n1) in * by lia.
    destruct (every_nth (S n1) c2 ltac:(lia) (S n2) L2) as [Y1 Y2].
    assert (F1 : List.length (firstn (S n1) c1) = S n1) by (rewrite firstn_length; nia). rewrite F1, Y1 in *. clear F1.
    assert (M1 : In x1 labels) by (eapply remove1_mem; eauto).
    assert (M2 : In x2 labels) by (eapply remove1_sub; [exact B4|]; eapply remove1_mem; eauto).
    assert (Il : In x l2) by (rewrite (remove1_in _ _ _ x B5) by auto; rewrite (remove1_in _ _ _ x B4) by auto; auto).
    assert (Sub : forall y, In y l2 -> In y labels) by (intros; eapply remove1_sub; [exact B4|]; eapply remove1_sub; eauto).
    assert (Hk : forall m, In m (map fst hk) -> m <> x /\ m <> n).
    { intros m Hm. destruct B8 as [(P & n3 & v & vs & C3 & G3 & ->)|[_ ->]]; [|destruct Hm]. destruct Hm as [<-|[]]. cbn [fst].
      destruct (label3_hkl x1 x2) as (Q1 & Q2 & Q3). rewrite (hkl_clean _ Q1) in C3. injection C3; intros <-.
      assert (Nq : label3_of x1 x2 <> x).
      { intros <-. destruct Hh as [Hh|Hh]; [|auto]. destruct HM as (w & y1 & y2 & y3 & y4 & t & Hw & F). destruct Hw as [->| ->]; [|apply (Hh _ F)].
        rewrite mesh_nohkl in P by eauto. discriminate. }
      split; [auto|]. intros <-. apply (O2 (label3_of x1 x2)); auto; [apply in_app_iff; right; auto|]. apply ds_name_iff. apply hkl_clean. auto. }
    destruct (grid_has _ _ _ _ _ B9 x Il NA1) as (n' & N1 & N2).
    { rewrite map_app. intros Q. apply in_app_iff in Q. destruct Q as [Q|[Q|[Q|[]]]]; cbn [fst] in Q.
      - apply Hk in Q. tauto.
      - subst k1'. apply (NA2 x1); auto. apply ds_name_iff; auto.
      - subst k2'. apply (NA2 x2); auto. apply ds_name_iff; auto. }
    { intros y Hy. apply NA2. auto. }
    assert (n' = n) by (eapply ds_fun; eauto). subst n'.
    assert (Pos : exists l nd r, cols = l ++ (n, nd) :: r /\ ~ In n (map fst r)).
    { clear - N1. revert N1. induction cols as [|[m nd] cols IH] using rev_ind; intros N1; [destruct N1|].
      destruct (str_eq_dec m n) as [->|Nm]; [exists cols, nd, []; split; [reflexivity|intros []]|].
      rewrite map_app in N1. apply in_app_iff in N1. destruct N1 as [N1|[N1|[]]]; [|cbn in N1; congruence].
      destruct (IH N1) as (l & nd' & r & -> & Nr). exists l, nd', (r ++ [(m, nd)]). split; [rewrite <- app_assoc; reflexivity|].
      rewrite map_app. intros Q. apply in_app_iff in Q. destruct Q as [Q|[Q|[]]]; [auto|cbn in Q; congruence]. }
    destruct Pos as (l & nd & r & El & Nr).
    destruct (grid_from _ _ _ _ _ B9 n nd) as (y & vs & v & Q1 & Q2 & Q3 & Q4 & ->); [rewrite El; apply in_app_iff; right; left; auto|].
    assert (y = x). { destruct (str_eq_dec y x) as [|Nyx]; [auto|]. exfalso. apply (O2 y); auto. apply in_app_iff. left. auto. } subst y.
    assert (vs = cx) by congruence. subst vs. apply (grid_value cx n1 n2) in Q4; [|auto]. subst v.
    destruct (so_items _ _ _ _ _ _ St (match hk with _ => hk ++ [(k1', named x1 [] (HArr [S n1] (nums (firstn (S n1) c1)))); (k2', named x2 [] (HArr [S n2] (nums (every (S n1) c2))))] ++ l end) n (named x [] (HArr [S n1; S n2] (map NF cx))) (r ++ its)) as (j & _ & J2 & J3); [| |eauto].
    - rewrite B14, El. rewrite <- !app_assoc. reflexivity.
    - rewrite map_app. intros Q. apply in_app_iff in Q. destruct Q as [Q|Q]; [auto|]. apply O3.
      unfold mca_name. destruct (dget (L "_mca_") table) as [[vs|m]|]; [destruct B13| |rewrite B13 in Q; destruct Q].
      destruct (mesh_mca_names _ _ _ _ B13 n Q) as (k & z & R1 & R2 & R3). exists m, k, z. split; [auto|]. split; [|auto].
      unfold keys. apply in_map_iff in R1. destruct R1 as (kv & <- & R1). apply in_map. apply in_sorted. auto.
  Qed.
End Grid.
