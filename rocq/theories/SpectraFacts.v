(** Spectra and axes in the data group of a saved scan *)
From Coq Require Import String Lia QArith.
From Verif Require Import Py PyFacts Utils SpecUtils Keys Handlers Reader SpecHistory SpecText SpecReader SpecInterp SpecNum OrderFacts InterpFacts SpecWriter
  H5 SpecH5 H5Facts FrameH5 H5Exact Writer DataWrite KeepFacts SaveFacts MeshWrite EntryData TableFacts TableFacts2 WriterFacts MeshFacts.
Import ListNotations.
Local Open Scope list_scope.
Local Open Scope nat_scope.

Lemma num_is_dec n q : num_is n q -> exists m e, fl_of_num n = FDec m e /\ (q == decQ m e)%Q.
Proof.
  destruct n as [z|[m e|b|]]; cbn [num_is fl_of_num]; intros H; try contradiction.
  - exists z, 0%Z. split; [reflexivity|]. rewrite H. unfold decQ. cbn [Qpower]. rewrite Qmult_1_r. reflexivity.
  - eauto.
Qed.
Lemma num_add_is a b x y : num_is a x -> num_is b y -> num_is (num_add a b) (x + y)%Q.
Proof.
  intros Ha Hb. destruct (num_is_dec _ _ Ha) as (m & e & Ea & Qa). destruct (num_is_dec _ _ Hb) as (m' & e' & Eb & Qb).
  assert (G : num_is (NF (fl_add (fl_of_num a) (fl_of_num b))) (x + y)%Q).
  { rewrite Ea, Eb. cbn [fl_add num_is]. cbv zeta. rewrite Qa, Qb. set (k := Z.min e e').
    rewrite (decQ_shift m e k), (decQ_shift m' e' k) by lia. unfold decQ. rewrite <- Qmult_plus_distr_l. rewrite <- inject_Z_plus. reflexivity. }
  unfold num_add. destruct a as [z|fa]; [destruct b as [z'|fb]; [|exact G]|exact G]. cbn [num_is] in *. rewrite Ha, Hb. rewrite inject_Z_plus. reflexivity.
Qed.
Lemma num_scale_is n a x : num_is a x -> num_is (num_scale n a) (inject_Z n * x)%Q.
Proof.
  destruct a as [z|[m e|b|]]; cbn [num_is num_scale fl_scale]; intros H; try contradiction.
  - rewrite H, inject_Z_mult. reflexivity.
  - rewrite H. unfold decQ. rewrite inject_Z_mult, Qmult_assoc. reflexivity.
Qed.
Lemma scaled_is a b c x y z n : num_is a x -> num_is b y -> num_is c z ->
  num_is (scaled a b c n) (x + inject_Z n * (y + inject_Z n * z))%Q.
Proof. intros. unfold scaled. apply num_add_is; auto. apply num_scale_is. apply num_add_is; auto. apply num_scale_is. auto. Qed.
Lemma num_eqb_is a b x y : num_is a x -> num_is b y -> (num_eqb a b = true <-> (x == y)%Q).
Proof.
  intros Ha Hb. destruct (num_is_dec _ _ Ha) as (m & e & Ea & Qa). destruct (num_is_dec _ _ Hb) as (m' & e' & Eb & Qb).
  unfold num_eqb, fl_eqb. rewrite Ea, Eb, andb_true_iff, !dec_leb. rewrite Qa, Qb. split.
  - intros [X Y]. apply Qle_antisym; auto.
  - intros X. rewrite X. split; apply Qle_refl.
Qed.
(** the calibration that is used *)
Definition calib (o : obj) (a b c : num) : Prop :=
  exists m d, o A_MCA = Some m /\ dget (L "CALIB") m = Some (MCalib d) /\ dget (L "a") d = Some a /\ dget (L "b") d = Some b /\ dget (L "c") d = Some c.
Lemma calibration_some o a b c x y z : calib o a b c -> num_is a x -> num_is b y -> num_is c z -> ~ (x == 0 /\ y == 0 /\ z == 0)%Q ->
  calibration (o A_MCA) = (a, b, c).
Proof.
  intros (m & d & H1 & H2 & H3 & H4 & H5) Ha Hb Hc N. unfold calibration. rewrite H1, H2, H3, H4, H5.
  destruct (num_eqb a b && num_eqb b c && num_eqb a (NI 0)) eqn:Eq; [|reflexivity]. exfalso. apply N.
  apply andb_true_iff in Eq. destruct Eq as [Eq E3]. apply andb_true_iff in Eq. destruct Eq as [E1 E2].
  apply (num_eqb_is a b x y Ha Hb) in E1. apply (num_eqb_is b c y z Hb Hc) in E2. apply (num_eqb_is a (NI 0) x 0%Q Ha) in E3; [|reflexivity].
  rewrite E3 in E1. rewrite <- E1 in E2. split; [auto|]. split; symmetry; auto.
Qed.
Lemma calibration_none o : o A_MCA = None \/ (exists m, o A_MCA = Some m /\ forall d, dget (L "CALIB") m <> Some (MCalib d)) -> calibration (o A_MCA) = (NI 1, NI 0, NI 0).
Proof.
  intros [->|(m & -> & H)]; [reflexivity|]. unfold calibration. destruct (dget (L "CALIB") m) as [[n|d|d]|] eqn:E; try reflexivity. destruct (H d eq_refl).
Qed.

Lemma stored_name f b c cmd o items sg axv labels : table_of cmd o items sg axv -> Stored f b c items sg axv -> o A_L = Some labels ->
  forall x n, In x labels -> ds_name x n -> exists j, member f b n j.
Proof.
  intros (ls & dd & cols & its & ax & axes & cl & cf & A1 & A2 & A3 & A4 & A5 & _) St Hl x n Hx Hn.
  assert (ls = labels) by congruence. subst ls items. apply ds_name_iff in Hn.
  assert (X : In n (map fst cols)) by (apply (column_names _ _ _ A4); eauto).
  destruct (last_occ n (cols ++ its)) as (a & nd & c' & Es & Nc); [rewrite map_app; apply in_app_iff; auto|].
  destruct (so_items _ _ _ _ _ _ St a n nd c' Es Nc) as (j & _ & J & _). eauto.
Qed.

Section Spectra.
  Context (E : env) (known : list hid).
  Lemma saved_spectra s0 s versions ks s' f : history E known s0 -> plain_mnemonics s0 -> saves E known s0 s -> Forall good_key ks ->
    save E known versions ks s = (s', f, None) ->
    forall k sc0 sc table m det rows0, In k ks -> getScan k s = Ok (Some sc0) -> dget (s_num sc0) (scans s') = Some sc ->
      attr_is sc A_data table -> one_dim (s_cmd sc) -> dget (L "_mca_") table = Some (Mca m) -> In (det, rows0) m -> (forall r, In (det, r) m -> r = rows0) ->
    exists b row rows, at_path f [entry_name k; L "data"] b /\ rows0 = row :: rows /\ Forall (fun r => List.length r = List.length row) rows /\
      forall n, (forall x k' x', In x (map L [""; "channel_"; "channel_scaled_x"]%string) -> ds_name (L "_" ++ det ++ L "_" ++ x) n -> In k' (keys m) -> In x' (map L [""; "channel_"; "channel_scaled_x"]%string) ->
                   ds_name (L "_" ++ k' ++ L "_" ++ x') n -> k' = det /\ x' = x) ->
        (ds_name (L "_" ++ det ++ L "_") n -> exists j, member f b n j /\ dataset f j (HArr [List.length rows0; List.length row] (List.concat rows0))) /\
        (ds_name (L "_" ++ det ++ L "_channel_") n -> exists j, member f b n j /\ dataset f j (HArr [List.length row] (map (fun i => NI (Z.of_nat i)) (seq 1 (List.length row))))) /\
        (ds_name (L "_" ++ det ++ L "_channel_scaled_x") n -> exists j vs, member f b n j /\ dataset f j (HArr [List.length row] vs) /\ List.length vs = List.length row /\
            (forall a b0 c x y z, calib (s_obj sc) a b0 c -> num_is a x -> num_is b0 y -> num_is c z -> ~ (x == 0 /\ y == 0 /\ z == 0)%Q ->
               forall i v, nth_error vs i = Some v -> num_is v (x + inject_Z (Z.of_nat (S i)) * (y + inject_Z (Z.of_nat (S i)) * z))%Q) /\
            (s_obj sc A_MCA = None -> vs = repeat (NI 1) (List.length row))).
  Proof.
    intros Hh Hp Hs Hk H k sc0 sc table m det rows0 K1 K2 K3 K4 K5 Hm Hd Ud.
    assert (Nt : table <> []) by (intros ->; discriminate Hm).
    destruct (saved_table2 E known s0 s versions ks s' f Hh Hp Hs Hk H k sc0 sc table K1 K2 K3 K4 Nt K5) as (b & c & items & sg & axv & P & T & St).
    destruct (stored_spectra _ _ _ _ _ _ _ _ _ T St K4 m det rows0 Hm Hd Ud) as (row & rows & axis & R1 & R2 & _ & R3).
    exists b, row, rows. split; [exact P|]. split; [exact R1|]. split; [exact R2|]. intros n U.
    assert (G : forall x, In x three -> ds_name (L "_" ++ det ++ L "_" ++ x) n -> exists j, member f b n j /\ nth_error f j = Some (spectrum_node axis (calibration (s_obj sc A_MCA)) det row rows x)).
    { intros x Hx Hn. apply R3; auto. }
    unfold spectrum_node in G. split; [|split].
    - intros Hn. destruct (G (L "") (or_introl eq_refl) Hn) as (j & J1 & J2). exists j. split; [exact J1|]. rewrite R1.
      destruct (calibration (s_obj sc A_MCA)) as [[ca cb] cc]. eexists. exact J2.
    - intros Hn. destruct (G (L "channel_") (or_intror (or_introl eq_refl)) Hn) as (j & J1 & J2). exists j. split; [exact J1|].
      destruct (calibration (s_obj sc A_MCA)) as [[ca cb] cc]. eexists. exact J2.
    - intros Hn. destruct (G (L "channel_scaled_x") (or_intror (or_intror (or_introl eq_refl))) Hn) as (j & J1 & J2).
      destruct (calibration (s_obj sc A_MCA)) as [[ca cb] cc] eqn:Ec.
      exists j, (map (fun i => scaled ca cb cc (Z.of_nat i)) (seq 1 (List.length row))). split; [exact J1|]. split; [eexists; exact J2|].
      split; [rewrite map_length, seq_length; reflexivity|]. split.
      + intros a b0 cc0 x y z Cal Ha Hb Hc N i v Hv. rewrite (calibration_some _ _ _ _ _ _ _ Cal Ha Hb Hc N) in Ec. injection Ec; intros <- <- <-.
        assert (Li : i < List.length row). { assert (X : nth_error (map (fun i => scaled a b0 cc0 (Z.of_nat i)) (seq 1 (List.length row))) i <> None) by congruence.
          apply nth_error_Some in X. rewrite map_length, seq_length in X. exact X. }
        assert (Ev : v = scaled a b0 cc0 (Z.of_nat (S i))).
        { assert (X : nth_error (seq 1 (List.length row)) i = Some (1 + i)) by (rewrite nth_error_nth' with (d := 0); [rewrite seq_nth by auto; reflexivity|rewrite seq_length; auto]).
          apply (map_nth_error (fun i => scaled a b0 cc0 (Z.of_nat i))) in X. change (S i) with (1 + i). congruence. }
        subst v. apply scaled_is; auto.
      + intros Hn0. rewrite Hn0 in Ec. injection Ec; intros <- <- <-. clear. generalize (List.length row) as n0. intros n0.
        assert (X : forall k n0, map (fun i => scaled (NI 1) (NI 0) (NI 0) (Z.of_nat i)) (seq k n0) = repeat (NI 1) n0); [|apply X].
        intros k n1. revert k. induction n1 as [|n1 IH]; intros k; [reflexivity|]. cbn [seq map repeat]. rewrite IH. f_equal.
        unfold scaled. cbn [num_scale num_add]. rewrite ?Z.mul_0_r. reflexivity.
  Qed.
  Lemma saved_axes s0 s versions ks s' f : history E known s0 -> plain_mnemonics s0 -> saves E known s0 s -> Forall good_key ks ->
    save E known versions ks s = (s', f, None) ->
    forall k sc0 sc table labels first last, In k ks -> getScan k s = Ok (Some sc0) -> dget (s_num sc0) (scans s') = Some sc ->
      attr_is sc A_data table -> table <> [] -> attr_is sc A_L labels -> one_dim (s_cmd sc) -> ~ hkl_scan (s_cmd sc) ->
      attr_is sc A_column_first first -> attr_is sc A_column_last last -> In first labels -> In last labels ->
    exists b sg ax i j, at_path f [entry_name k; L "data"] b /\ attribute f b (L "signal") (AText sg) /\ member f b sg i /\ ds_name last sg /\
      attribute f b (L "axes") (AText ax) /\ member f b ax j /\ ds_name first ax.
  Proof.
    intros Hh Hp Hs Hk H k sc0 sc table labels first last K1 K2 K3 K4 K5 K6 K7 K8 F1 L1 F2 L2.
    destruct (saved_table2 E known s0 s versions ks s' f Hh Hp Hs Hk H k sc0 sc table K1 K2 K3 K4 K5 K7) as (b & c & items & sg & axv & P & T & St).
    destruct (stored_attrs _ _ _ _ _ _ _ _ T St) as (first' & last' & X1 & X2 & X3 & X4 & X5). destruct (X5 K8) as (ax & Y1 & Y2).
    unfold attr_is in F1, L1. assert (first' = first) by congruence. assert (last' = last) by congruence. subst first' last'.
    destruct (stored_name _ _ _ _ _ _ _ _ _ T St K6 last sg L2 X3) as (i & Mi). destruct (stored_name _ _ _ _ _ _ _ _ _ T St K6 first ax F2 Y1) as (j & Mj).
    exists b, sg, ax, i, j. auto 10.
  Qed.
  Lemma saved_grid s0 s versions ks1 k ks2 s1 f1 s' f : history E known s0 -> plain_mnemonics s0 -> saves E known s0 s ->
    Forall good_key (ks1 ++ k :: ks2) -> save E known versions ks1 s = (s1, f1, None) -> save E known versions (ks1 ++ k :: ks2) s = (s', f, None) ->
    forall sc0 s2 sc table labels, getScan k s1 = Ok (Some sc0) -> interpret E known (s_num sc0) s1 = (s2, None) -> dget (s_num sc0) (scans s2) = Some sc ->
    attr_is sc A_data table -> attr_is sc A_L labels -> NoDup labels ->
    forall m1 i1 m2 i2 n1 n2 x1 x2 c1 c2 d1 d2, mesh_scan (s_cmd sc) m1 i1 m2 i2 -> SpecDecimal.int_text i1 (Z.of_nat n1) ->
      axis_label table labels 0 m1 x1 -> axis_label table labels 1 m2 x2 -> x1 <> x2 -> dget x1 table = Some (Col c1) -> dget x2 table = Some (Col c2) ->
      List.length c1 = S n1 * S n2 -> List.length c2 = S n1 * S n2 -> own_name table labels x1 d1 -> own_name table labels x2 d2 ->
    exists b, at_path f [entry_name k; L "data"] b /\ nx_group f b "NXdata" /\
      (exists j, member f b d1 j /\ dataset f j (HArr [S n1] (map NF (firstn (S n1) c1))) /\ attribute f j (L "spec_name") (AText x1)) /\
      (exists j ys, member f b d2 j /\ dataset f j (HArr [S n2] (map NF ys)) /\ attribute f j (L "spec_name") (AText x2) /\
         List.length ys = S n2 /\ forall i, i < S n2 -> nth_error ys i = nth_error c2 (i * S n1)) /\
      (forall x n cx, In x labels -> x <> x1 -> x <> x2 -> no_alias labels x -> own_name table labels x n ->
         (forall ws, ~ fields (s_cmd sc) (L "hklmesh" :: ws)) \/ ~ In x (map L ["H"; "K"; "L"]%string) ->
         dget x table = Some (Col cx) -> List.length cx = S n1 * S n2 ->
         exists j, member f b n j /\ dataset f j (HArr [S n1; S n2] (map NF cx)) /\ attribute f j (L "spec_name") (AText x)).
  Proof.
    intros Hh Hp Hs Hk H1 H sc0 s2 sc table labels Hg Hi Hd Ht Hl ND m1 i1 m2 i2 n1 n2 x1 x2 c1 c2 d1 d2 HM Hn A1 A2 N12 D1 D2 L1 L2 O1 O2.
    assert (Nt : table <> []) by (intros ->; discriminate D1).
    assert (MC : mesh_cmd (s_cmd sc)). { destruct HM as (w & y1 & y2 & y3 & y4 & t & Hw & F). apply fields_words in F. exists w. eexists. split; [symmetry; exact F|exact Hw]. }
    destruct (saved_mesh E known s0 s versions ks1 k ks2 s1 f1 s' f Hh Hp Hs Hk H1 H sc0 s2 sc table Hg Hi Hd Ht Nt MC) as (b & c & items & sg & axv & P & MO & St).
    exists b. split; [exact P|]. split; [apply (so_cls _ _ _ _ _ _ St)|].
    assert (Nm : forall j x v, nth_error f j = Some (named x [] v) -> dataset f j v /\ attribute f j (L "spec_name") (AText x)).
    { intros j x v X. split; eexists; [exact X|split; [exact X|reflexivity]]. }
    destruct (grid_axes f b c (s_cmd sc) (s_obj sc) items sg axv MO St table labels Ht Hl m1 i1 m2 i2 n1 n2 x1 x2 c1 c2 HM Hn A1 A2 N12 D1 D2 ND L1 L2 d1 d2 O1 O2)
      as ((j1 & J1 & J2) & (j2 & ys & J3 & J4 & J5 & J6)).
    split; [exists j1; split; [exact J1|apply Nm; exact J2]|]. split.
    - exists j2, ys. destruct (Nm _ _ _ J4) as [X Y]. auto.
    - intros x n cx Hx N1 N2 NA Ox Hh' Dx Lx.
      destruct (grid_column f b c (s_cmd sc) (s_obj sc) items sg axv MO St table labels Ht Hl m1 i1 m2 i2 n1 n2 x1 x2 c1 c2 HM Hn A1 A2 D1 D2 L1 L2 x n cx N1 N2 Hx NA Ox Hh' Dx Lx)
        as (j & J7 & J8). exists j. split; [exact J7|apply Nm; exact J8].
  Qed.
End Spectra.
