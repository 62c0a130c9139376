(** What Writer.save_data makes in the data group of the entry of a mesh scan *)
From Coq Require Import String Lia.
From Verif Require Import Py PyFacts Utils SpecUtils Keys Handlers Reader FrameFacts H5 SpecH5 H5Facts FrameH5 H5Exact Writer DataWrite KeepFacts SaveFacts.
Import ListNotations.
Local Open Scope list_scope.

(** the columns of the grid, in order; [B] are the names of the datasets made before.  A label that is the path of something in the
    group is left out. *)
Inductive grid_cols (dd : dict col) (sh : list nat) : list str -> list str -> list (str * node) -> Prop :=
| gc_nil B : grid_cols dd sh B [] []
| gc_skip B x ls its : (plain_name x -> In x B) -> grid_cols dd sh B ls its -> grid_cols dd sh B (x :: ls) its
| gc_put B x ls its n vs v : clean_name x = Ok n -> dget x dd = Some (Col vs) ->
    to_hval (DArr (reshape_data NAN (flat_array (nums vs)) sh)) = Ok v ->
    grid_cols dd sh (B ++ [n]) ls its -> grid_cols dd sh B (x :: ls) ((n, named x [] v) :: its).
Fixpoint mesh_spectra (axes : str) (sh : list nat) (l : list (str * list (list num))) (its : list (str * node)) : Prop :=
  match l with
  | [] => its = []
  | (key, rows) :: t => exists row rs a v n1 n2 its', rows = row :: rs /\ to_hval (DRows rows) = Ok (HArr (shape a) (flat a)) /\
      let sh := sh ++ [List.length row] in
      let ds := L "_" ++ key ++ L "_" in
      clean_name ds = Ok n1 /\ clean_name (ds ++ L "channel_") = Ok n2 /\
      to_hval (DArr (reshape_data NAN a sh)) = Ok v /\
      its = (n1, named ds [(L "axes", AText (axes ++ L ":" ++ ds ++ L "channel_")); (L "units", t_ "counts")] v) ::
            (n2, named (ds ++ L "channel_") [(L "units", t_ "channel")] (HArr [1; List.length row] (map (fun i => NI (Z.of_nat i)) (seq 1 (List.length row))))) :: its' /\
      mesh_spectra axes sh t its'
  end.

Lemma grid_iter g dd sh ls : forall w w' u B, GD (h_id g) (w_h5 w) -> (forall n j, member (w_h5 w) (h_id g) n j -> In n B) ->
  siter (fun label =>
           let* b := hdf (hin g label) in
           if b then sret tt
           else let* v := slift (get_col label dd) in
                write_ds g label (DArr (reshape_data NAN (flat_array (nums v)) sh)) []) ls w = (w', Ok u) ->
  exists its, grid_cols dd sh B ls its /\ Wr (h_id g) its w w'.
Proof.
  induction ls as [|x ls IH]; intros w w' u B G HB H; cbn [siter] in H.
  - unfold sret in H. inversion H; subst. exists []. split; [constructor|apply Wr_nil].
  - rewrite sbind_eq in H. rewrite sbind_eq in H. unfold hdf at 1 in H. unfold hin at 1 in H.
    destruct (resolve (h_id g) x (w_h5 w)) as [j|] eqn:Er.
    + replace (mk_ws (w_scan w) (w_hdr w) (w_h5 w)) with w in H by (destruct w; reflexivity). unfold sret at 1 in H. cbv iota beta in H.
      destruct (IH w w' u B G HB H) as (its & F & W1). exists its. split; [|auto]. constructor; [|auto].
      intros Hp. destruct G as (ms & at_ & G & ND). rewrite (resolve_plain _ _ ms at_ _ Hp G) in Er. apply (HB x j). exists ms, at_. auto.
    + replace (mk_ws (w_scan w) (w_hdr w) (w_h5 w)) with w in H by (destruct w; reflexivity). cbv iota beta in H.
      rewrite sbind_eq in H. unfold slift at 1 in H. destruct (get_col x dd) as [vs|e] eqn:Eg; [|discriminate].
      destruct (write_ds g x _ [] w) as [w1 [u1|e]] eqn:E1; [|discriminate].
      destruct (write_ds_Wr _ _ _ _ _ _ _ E1 G) as (n & v & C & V & W1).
      destruct (IH w1 w' u (B ++ [n]) (Wr_GD _ _ _ _ W1 G)) as (its & F & W2); auto.
      { intros m j M. apply in_app_iff. destruct W1 as (_ & _ & S1). destruct (steps_only _ _ _ _ S1 m j M) as [M0|[<-|[]]]; [left; eauto|right; left; auto]. }
      exists ((n, named x [] v) :: its). split; [|eapply (Wr_app _ [_]); eauto].
      refine (gc_put dd sh B x ls its n vs v C _ V F). unfold get_col in Eg. destruct (dget x dd) as [[c|m]|]; try discriminate Eg. injection Eg; intros ->; reflexivity.
Qed.
Lemma mca_mesh_Wr g axes l : forall sh w w' u, GD (h_id g) (w_h5 w) -> mca_mesh g axes sh l w = (w', Ok u) ->
  exists its, mesh_spectra axes sh l its /\ Wr (h_id g) its w w'.
Proof.
  induction l as [|[key rows] l IH]; intros sh w w' u G H; cbn [mca_mesh] in H.
  - unfold sret in H. inversion H; subst. exists []. split; [reflexivity|apply Wr_nil].
  - rewrite sbind_eq in H. unfold slift at 1 in H. destruct rows as [|row rs]; [discriminate|].
    change (index 0 (row :: rs)) with (@Ok (list num) row) in H. cbv iota beta zeta in H.
    rewrite sbind_eq in H. unfold slift at 1 in H. destruct (to_hval (DRows (row :: rs))) as [v0|e] eqn:E0; [|discriminate].
    rewrite sbind_eq in H.
    assert (Ea : exists a, v0 = HArr (shape a) (flat a) /\ match v0 with HArr s v => mk_array s v | HTexts _ => mk_array [] [] end = a).
    { cbn [to_hval] in E0. destruct (forallb _ _); [|discriminate]. injection E0; intros <-.
      exists (mk_array [List.length (row :: rs); List.length row] (List.concat (row :: rs))). split; reflexivity. }
    destruct Ea as (a & Ea1 & Ea2). rewrite Ea2 in H.
    destruct (write_ds g _ _ _ w) as [w1 [u1|e]] eqn:E1; [|discriminate].
    destruct (write_ds_Wr _ _ _ _ _ _ _ E1 G) as (n1 & v1 & C1 & V1 & W1). pose proof (Wr_GD _ _ _ _ W1 G) as G1.
    rewrite sbind_eq in H. destruct (write_ds g _ _ _ w1) as [w2 [u2|e]] eqn:E2; [|discriminate].
    destruct (write_ds_Wr _ _ _ _ _ _ _ E2 G1) as (n2 & v2 & C2 & V2 & W2). pose proof (Wr_GD _ _ _ _ W2 G1) as G2.
    cbn [to_hval] in V2. injection V2; intros <-. clear V2.
    destruct (IH _ _ _ _ G2 H) as (its & F & W3).
    eexists. split; [|eapply (Wr_app _ [_]); [exact W1|eapply (Wr_app _ [_]); [exact W2|exact W3]]].
    cbn [mesh_spectra]. exists row, rs, a, v1, n1, n2, its. split; [auto|]. split; [rewrite E0, Ea1; reflexivity|]. cbv zeta.
    split; [auto|]. split; [auto|]. split; [auto|]. split; [reflexivity|auto].
Qed.

(** the grid of a mesh with enough points *)
Definition grid_of (cmd : str) (o : obj) (dd : dict col) (ls : list str) (label1 label2 : str) (n1 : Z) (items : list (str * node)) (sg axes : str) : Prop :=
  exists c1 c2 k1 k2 l1 l2 hk cols its cl,
    (0 < n1 + 1)%Z /\ get_col label1 dd = Ok c1 /\ get_col label2 dd = Ok c2 /\ remove1 label1 ls = Ok l1 /\ remove1 label2 l1 = Ok l2 /\
    clean_name label1 = Ok k1 /\ clean_name label2 = Ok k2 /\
    ((prefixb (L "hkl") cmd = true /\ exists n3 v vs, clean_name (label3_of label1 label2) = Ok n3 /\ get_col (label3_of label1 label2) dd = Ok (v :: vs) /\
        hk = [(n3, named (label3_of label1 label2) [] (HArr [1] [NF v]))]) \/ (prefixb (L "hkl") cmd = false /\ hk = [])) /\
    let axis1 := firstn (Z.to_nat (n1 + 1)) c1 in
    let axis2 := every (Z.to_nat (n1 + 1)) c2 in
    let sh := [List.length axis1; List.length axis2] in
    let start := hk ++ [(k1, named label1 [] (HArr [List.length axis1] (nums axis1))); (k2, named label2 [] (HArr [List.length axis2] (nums axis2)))] in
    grid_cols dd sh (map fst start) l2 cols /\ o A_column_last = Some cl /\ clean_name cl = Ok sg /\
    axes = label1 ++ L ":" ++ label2 /\
    (match dget (L "_mca_") dd with None => its = [] | Some (Col _) => False | Some (Mca m) => mesh_spectra axes sh (sorted_items m) its end) /\
    items = start ++ cols ++ its.

Lemma steps_scan d items f f' : steps d items f f' -> (forall B, (forall n j, member f d n j -> In n B) -> forall n j, member f' d n j -> In n (B ++ map fst items)).
Proof. intros S B H n j M. apply in_app_iff. destruct (steps_only _ _ _ _ S n j M); eauto. Qed.

Lemma mesh_grid_Wr g cmd label1 label2 n1 w w' sg ax sh dd ls : GD (h_id g) (w_h5 w) -> (forall n j, ~ member (w_h5 w) (h_id g) n j) ->
  w_scan w A_data = Some dd -> w_scan w A_L = Some ls ->
  mesh_grid g cmd label1 label2 n1 w = (w', Ok (sg, ax, sh)) ->
  exists c1 c2 k1 k2 l1 l2 hk cols cl,
    (0 < n1 + 1)%Z /\ get_col label1 dd = Ok c1 /\ get_col label2 dd = Ok c2 /\ remove1 label1 ls = Ok l1 /\ remove1 label2 l1 = Ok l2 /\
    clean_name label1 = Ok k1 /\ clean_name label2 = Ok k2 /\
    ((prefixb (L "hkl") cmd = true /\ exists n3 v vs, clean_name (label3_of label1 label2) = Ok n3 /\ get_col (label3_of label1 label2) dd = Ok (v :: vs) /\
        hk = [(n3, named (label3_of label1 label2) [] (HArr [1] [NF v]))]) \/ (prefixb (L "hkl") cmd = false /\ hk = [])) /\
    let axis1 := firstn (Z.to_nat (n1 + 1)) c1 in
    let axis2 := every (Z.to_nat (n1 + 1)) c2 in
    let start := hk ++ [(k1, named label1 [] (HArr [List.length axis1] (nums axis1))); (k2, named label2 [] (HArr [List.length axis2] (nums axis2)))] in
    sh = [List.length axis1; List.length axis2] /\
    grid_cols dd sh (map fst start) l2 cols /\ w_scan w A_column_last = Some cl /\ clean_name cl = Ok sg /\
    ax = label1 ++ L ":" ++ label2 /\
    steps (h_id g) (start ++ cols) (w_h5 w) (w_h5 w') /\ (forall x, x <> A_L -> w_scan w' x = w_scan w x) /\ w_hdr w' = w_hdr w.
Proof.
  intros G NM Hd Hl H. unfold mesh_grid in H. rewrite sbind_eq in H. rewrite (rd_eq Scn A_data w dd Hd) in H.
  rewrite sbind_eq in H. unfold slift at 1 in H. destruct (get_col label1 dd) as [c1|e] eqn:C1; [|discriminate].
  rewrite sbind_eq in H. unfold slift at 1 in H. destruct (get_col label2 dd) as [c2|e] eqn:C2; [|discriminate].
  destruct (n1 + 1 <=? 0)%Z eqn:En; [discriminate|]. apply Z.leb_gt in En. cbv zeta in H.
  rewrite sbind_eq in H. rewrite (rd_eq Scn A_L w ls Hl) in H.
  rewrite sbind_eq in H. unfold slift at 1 in H. destruct (remove1 label1 ls) as [l1|e] eqn:R1; [|discriminate].
  rewrite sbind_eq in H. unfold wr at 1 in H. rewrite sbind_eq in H. unfold slift at 1 in H. destruct (remove1 label2 l1) as [l2|e] eqn:R2; [|discriminate].
  rewrite sbind_eq in H. unfold wr at 1 in H. cbn [w_scan w_hdr w_h5] in H.
  set (w0 := mk_ws _ _ _) in H.
  assert (W0s : forall x, x <> A_L -> w_scan w0 x = w_scan w x) by (intros x N; cbn; rewrite !upd_other by auto; reflexivity).
  assert (W0f : w_h5 w0 = w_h5 w) by reflexivity. assert (W0h : w_hdr w0 = w_hdr w) by reflexivity. clearbody w0.
  rewrite sbind_eq in H.
  set (axis1 := firstn (Z.to_nat (n1 + 1)) c1) in *. set (axis2 := every (Z.to_nat (n1 + 1)) c2) in *.
  match type of H with (let (_, _) := ?m w0 in _) = _ => destruct (m w0) as [w1 [u1|e]] eqn:E1; [|discriminate H] end.
  assert (X : exists hk, Wr (h_id g) hk w0 w1 /\ ((prefixb (L "hkl") cmd = true /\ exists n3 v vs, clean_name (label3_of label1 label2) = Ok n3 /\ get_col (label3_of label1 label2) dd = Ok (v :: vs) /\
        hk = [(n3, named (label3_of label1 label2) [] (HArr [1] [NF v]))]) \/ (prefixb (L "hkl") cmd = false /\ hk = []))).
  { destruct (prefixb (L "hkl") cmd) eqn:Ep.
    - rewrite sbind_eq in E1. unfold slift at 1 in E1. destruct (get_col (label3_of label1 label2) dd) as [[|v vs]|e] eqn:Eg; [| |discriminate].
      + rewrite sbind_eq in E1. discriminate E1.
      + rewrite sbind_eq in E1. unfold slift at 1 in E1. change (index 0 (v :: vs)) with (@Ok fl v) in E1. cbv iota beta in E1.
        destruct (write_ds_Wr _ _ _ _ _ _ _ E1) as (n3 & v3 & K1 & K2 & K3); [rewrite W0f; auto|]. cbn [to_hval] in K2. injection K2; intros <-.
        eexists. split; [exact K3|]. left. split; [auto|]. exists n3, v, vs. auto.
    - unfold sret in E1. inversion E1; subst. exists []. split; [apply Wr_nil|]. right. auto. }
  destruct X as (hk & Wk & Hk). assert (G0 : GD (h_id g) (w_h5 w0)) by (rewrite W0f; auto). pose proof (Wr_GD _ _ _ _ Wk G0) as G1.
  rewrite sbind_eq in H. destruct (write_ds g label1 _ [] w1) as [w2 [u2|e]] eqn:E2; [|discriminate].
  destruct (write_ds_Wr _ _ _ _ _ _ _ E2 G1) as (k1 & v1 & K1 & V1 & W1). cbn [to_hval] in V1. rewrite nums_length in V1. injection V1; intros <-. clear V1.
  pose proof (Wr_GD _ _ _ _ W1 G1) as G2.
  rewrite sbind_eq in H. destruct (write_ds g label2 _ [] w2) as [w3 [u3|e]] eqn:E3; [|discriminate].
  destruct (write_ds_Wr _ _ _ _ _ _ _ E3 G2) as (k2 & v2 & K2 & V2 & W2). cbn [to_hval] in V2. rewrite nums_length in V2. injection V2; intros <-. clear V2.
  pose proof (Wr_GD _ _ _ _ W2 G2) as G3.
  pose proof (Wr_app _ _ _ _ _ _ Wk (Wr_app _ _ _ _ _ _ W1 W2)) as W03. cbn [app] in W03. clear Wk W1 W2.
  set (start := hk ++ _) in W03.
  rewrite sbind_eq in H.
  match type of H with (let (_, _) := ?m w3 in _) = _ => destruct (m w3) as [w4 [u4|e]] eqn:E4; [|discriminate H] end.
  destruct (grid_iter g dd [List.length axis1; List.length axis2] l2 w3 w4 u4 (map fst start)) as (cols & F & W4); auto.
  { intros n j M. destruct W03 as (_ & _ & S3). destruct (steps_only _ _ _ _ S3 n j M) as [M0|]; auto. rewrite W0f in M0. destruct (NM n j M0). }
  pose proof (Wr_app _ _ _ _ _ _ W03 W4) as (S1 & S2 & S3).
  rewrite sbind_eq in H. unfold rd at 1 in H. unfold obj_of in H. rewrite S1 in H. rewrite W0s in H by discriminate.
  destruct (w_scan w A_column_last) as [cl|]; [|discriminate].
  rewrite sbind_eq in H. unfold slift at 1 in H. destruct (clean_name cl) as [sg'|e] eqn:Ec; [|discriminate].
  unfold sret in H. assert (Ew : w4 = w') by congruence. assert (Eq : (sg', label1 ++ L ":" ++ label2, [List.length axis1; List.length axis2]) = (sg, ax, sh)) by congruence.
  clear H. subst w4. injection Eq; intros Es Ea Eg. subst sg' ax sh.
  exists c1, c2, k1, k2, l1, l2, hk, cols, cl. do 8 (split; [first [auto|lia]|]). cbv zeta. fold axis1 axis2. fold start.
  split; [auto|]. split; [exact F|]. split; [auto|]. split; [auto|]. split; [auto|]. rewrite <- W0f. split; [exact S3|].
  split; [intros x N; rewrite S1; auto|congruence].
Qed.

Definition mesh_words (cmd : str) (a1 i1 a2 i2 : str) : Prop := exists w x1 x2 x3 x4 t, words cmd = [w; a1; x1; x2; i1; a2; x3; x4; i2; t].
(** the data group of a mesh scan *)
Definition mesh_of (cmd : str) (o : obj) (items : list (str * node)) (sg : str) (axv : aval) : Prop :=
  exists a1 i1 a2 i2 dd ls label1 label2 n1 n2 c1 axes, mesh_words cmd a1 i1 a2 i2 /\
    o A_data = Some dd /\ o A_L = Some ls /\ (if has a1 dd then Ok a1 else index 0 ls) = Ok label1 /\ (if has a2 dd then Ok a2 else index 1 ls) = Ok label2 /\
    py_int i1 = Ok n1 /\ py_int i2 = Ok n2 /\ get_col label1 dd = Ok c1 /\ axv = axes_value axes /\
    (((len c1 < n1)%Z /\ exists cols cl cf, Forall2 (column_item dd) ls cols /\ items = cols /\ o A_column_last = Some cl /\ clean_name cl = Ok sg /\
        o A_column_first = Some cf /\ clean_name cf = Ok axes)
     \/ ((n1 <= len c1)%Z /\ grid_of cmd o dd ls label1 label2 n1 items sg axes)).

Lemma mesh_HT cmd : mesh_cmd cmd -> forall g w w' u, (exists at_, nth_error (w_h5 w) (h_id g) = Some (Group [] at_)) ->
    save_data g cmd w = (w', Ok u) ->
    exists items sg axv f1, mesh_of cmd (w_scan w) items sg axv /\ steps (h_id g) items (w_h5 w) f1 /\ attrs_only (h_id g) f1 (w_h5 w') /\
      attribute (w_h5 w') (h_id g) (L "signal") (AText sg) /\ attribute (w_h5 w') (h_id g) (L "axes") axv.
Proof.
  intros HM g w w' u [at_ Hg] H.
  assert (G : GD (h_id g) (w_h5 w)) by (exists [], at_; split; [exact Hg|constructor]).
  assert (NM : forall n j, ~ member (w_h5 w) (h_id g) n j) by (intros n j (ms & a & X & Y); rewrite Hg in X; injection X; intros; subst; discriminate Y).
  unfold save_data in H. rewrite sbind_eq in H. unfold slift at 1 in H.
  destruct HM as (st & rest & Ew & Hst). rewrite Ew in H. change (index 0 (st :: rest)) with (@Ok str st) in H. cbv iota beta in H.
  assert (Em : mem st (map L ["mesh"; "hklmesh"]%string) = true) by (apply mem_In; destruct Hst as [->| ->]; [left|right; left]; reflexivity).
  rewrite Em in H. rewrite sbind_eq in H. destruct (mesh g cmd w) as [w1 [[sg axes]|e]] eqn:E1; [|discriminate H].
  unfold mesh in E1. rewrite Ew in E1. change (skipn 1 (st :: rest)) with rest in E1.
  destruct rest as [|a1 [|x1 [|x2 [|i1 [|a2 [|x3 [|x4 [|i2 [|t [|]]]]]]]]]]; try discriminate E1.
  assert (MW : mesh_words cmd a1 i1 a2 i2) by (exists st, x1, x2, x3, x4, t; exact Ew).
  rewrite sbind_eq in E1. unfold rd at 1 in E1. unfold obj_of in E1. destruct (w_scan w A_data) as [dd|] eqn:Ed; [|discriminate].
  rewrite sbind_eq in E1. unfold rd at 1 in E1. unfold obj_of in E1. destruct (w_scan w A_L) as [ls|] eqn:El; [|discriminate].
  rewrite sbind_eq in E1. unfold slift at 1 in E1. destruct (if has a1 dd then Ok a1 else index 0 ls) as [label1|e] eqn:L1; [|discriminate].
  rewrite sbind_eq in E1. unfold slift at 1 in E1. destruct (if has a2 dd then Ok a2 else index 1 ls) as [label2|e] eqn:L2; [|discriminate].
  rewrite sbind_eq in E1. unfold slift at 1 in E1. destruct (py_int i1) as [n1|e] eqn:P1; [|discriminate].
  rewrite sbind_eq in E1. unfold slift at 1 in E1. destruct (py_int i2) as [n2|e] eqn:P2; [|discriminate].
  rewrite sbind_eq in E1. unfold slift at 1 in E1. destruct (get_col label1 dd) as [c1|e] eqn:C1; [|discriminate].
  rewrite sbind_eq in E1.
  assert (Tail : forall f1, w_h5 w1 = f1 -> (exists m a, nth_error f1 (h_id g) = Some (Group m a)) -> attrs_only (h_id g) f1 (w_h5 w') /\
     attribute (w_h5 w') (h_id g) (L "signal") (AText sg) /\ attribute (w_h5 w') (h_id g) (L "axes") (axes_value axes)).
  { intros f1 <- X. destruct (save_data_tail g sg axes w1 w' u X) as (B1 & B2 & B3 & B4 & B5); auto. }
  destruct (len c1 <? n1)%Z eqn:Ln.
  - (* too few points *)
    rewrite sbind_eq in E1. destruct (oneD g w) as [w2 [[sg2 ax2]|e]] eqn:E2; [|discriminate]. unfold sret at 1 in E1. cbv iota beta in E1. cbn [fst snd] in E1.
    destruct (oneD_Wr g w w2 sg2 ax2 ls dd G El Ed E2) as (items & its & cl & cf & F & SP & W1 & K1 & K2 & K3 & K4).
    assert (Y : w2 = w1 /\ sg2 = sg /\ ax2 = axes /\ its = []).
    { rewrite sbind_eq in E1. unfold all_spectra in SP. destruct (dget (L "_mca_") dd) as [[vs|m]|].
      - destruct SP.
      - destruct m as [|kv m]; [|discriminate E1]. destruct SP as (l & F2 & ->). cbn in F2. inversion F2; subst. unfold sret in E1. cbv iota beta in E1.
        split; [congruence|]. split; [congruence|]. split; [congruence|reflexivity].
      - unfold sret in E1. cbv iota beta in E1. split; [congruence|]. split; [congruence|]. split; [congruence|auto]. }
    destruct Y as (-> & -> & -> & ->). rewrite app_nil_r in W1.
    pose proof W1 as (S1 & S2 & S3). destruct (Wr_GD _ _ _ _ W1 G) as (m1 & b1 & Gx & _).
    destruct (Tail (w_h5 w1) eq_refl) as (T1 & T2 & T3); [eauto|].
    exists items, sg, (axes_value axes), (w_h5 w1). split; [|auto].
    exists a1, i1, a2, i2, dd, ls, label1, label2, n1, n2, c1, axes. do 9 (split; [auto|]). left. apply Z.ltb_lt in Ln. split; [auto|].
    exists items, cl, cf. do 5 (split; [auto|]). auto.
  - rewrite sbind_eq in E1. destruct (mesh_grid g cmd label1 label2 n1 w) as [w2 [[[sg2 ax2] sh]|e]] eqn:E2; [|discriminate].
    unfold sret at 1 in E1. cbv iota beta in E1.
    destruct (mesh_grid_Wr g cmd label1 label2 n1 w w2 sg2 ax2 sh dd ls G NM Ed El E2)
      as (c1' & c2 & k1 & k2 & l1 & l2 & hk & cols & cl & A1 & A2 & A3 & A4 & A5 & A6 & A7 & A8 & A9 & A10 & A11 & A12 & A13 & A14 & A15 & A16).
    assert (c1' = c1) by congruence. subst c1'.
    assert (G2 : GD (h_id g) (w_h5 w2)) by (eapply steps_GD; eauto).
    rewrite sbind_eq in E1.
    match type of E1 with (let (_, _) := ?m w2 in _) = _ => destruct (m w2) as [w3 [u3|e]] eqn:E3; [|discriminate E1] end.
    unfold sret in E1. assert (Ew3 : w3 = w1) by congruence. assert (Es : sg2 = sg /\ ax2 = axes) by (split; congruence). destruct Es as [-> ->]. subst w3. clear E1.
    assert (Y : exists its, Wr (h_id g) its w2 w1 /\
      (match dget (L "_mca_") dd with None => its = [] | Some (Col _) => False | Some (Mca m) => mesh_spectra axes sh (sorted_items m) its end)).
    { destruct (dget (L "_mca_") dd) as [[vs|m]|].
      - discriminate E3.
      - destruct (mca_mesh_Wr g axes _ _ _ _ _ G2 E3) as (its & F1 & F2). exists its. auto.
      - unfold sret in E3. inversion E3; subst. exists []. split; [apply Wr_nil|reflexivity]. }
    destruct Y as (its & W3 & SP). pose proof W3 as (S1 & S2 & S3). pose proof (steps_app _ _ _ _ _ _ A14 S3) as ST.
    destruct (steps_GD _ _ _ _ ST G) as (m1 & b1 & Gx & _).
    destruct (Tail (w_h5 w1) eq_refl) as (T1 & T2 & T3); [eauto|].
    eexists _, sg, (axes_value axes), (w_h5 w1). split; [|split; [exact ST|auto]].
    exists a1, i1, a2, i2, dd, ls, label1, label2, n1, n2, c1, axes. do 9 (split; [auto|]). right. apply Z.ltb_ge in Ln. split; [auto|].
    exists c1, c2, k1, k2, l1, l2, hk, cols, its, cl. do 8 (split; [auto|]). cbv zeta. subst sh. split; [auto|]. split; [auto|]. split; [auto|]. split; [auto|].
    split; [auto|]. rewrite <- app_assoc. reflexivity.
Qed.
Lemma mesh_TS cmd o o' items sg axv : same_but False o o' -> mesh_of cmd o items sg axv -> mesh_of cmd o' items sg axv.
Proof.
  intros S (a1 & i1 & a2 & i2 & dd & ls & label1 & label2 & n1 & n2 & c1 & axes & A).
  assert (N : forall x, x <> A_counter_xref -> x <> A_positioner_xref -> o' x = o x).
  { intros x N1 N2. apply S. intros [X|[X|[X _]]]; auto. }
  exists a1, i1, a2, i2, dd, ls, label1, label2, n1, n2, c1, axes. unfold grid_of in *. rewrite !N by discriminate. exact A.
Qed.
