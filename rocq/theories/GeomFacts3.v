(** C50: the parameters after interpreting all #G lines. *)
From Coq Require Import String Lia QArith.
From Verif Require Import Uni Py PyFacts NumFacts GeomData Geom SpecText SpecReader SpecNum SpecInterp SpecData SpecGeom OrderFacts InterpFacts DataFacts GeomFacts GeomFacts2.
Import ListNotations.
Local Open Scope nat_scope.
Local Open Scope list_scope.

Lemma new_split nm : d_full (new_diffr nm) = nm /\ d_name (new_diffr nm) = fst (split_name_variation nm) /\ d_variant (new_diffr nm) = snd (split_name_variation nm) /\
  d_sector (new_diffr nm) = None /\ d_mode (new_diffr nm) = None /\ d_wavelength (new_diffr nm) = None /\ d_UB (new_diffr nm) = None /\ d_lattice (new_diffr nm) = None /\ d_refl (new_diffr nm) = [] /\
  (forall k, ~ In k reserved -> dget k (d_gpar (new_diffr nm)) = None) /\ dget (L "ub_matrix") (d_gpar (new_diffr nm)) = None.
Proof.
  unfold new_diffr. destruct (split_name_variation nm) as [a b]. cbn [d_full d_name d_variant d_sector d_mode d_wavelength d_UB d_lattice d_refl d_gpar fst snd]. do 9 (split; [reflexivity|]). split; [|reflexivity].
  intros k Hk. apply dget_none. intros Q. apply Hk. cbn [keys map fst In] in Q. unfold reserved. cbn [map In]. intuition.
Qed.
Lemma mode_split modes z o : o = match mode_at modes z with Some m => Some m | None => None end ->
  ((z < 0)%Z -> o = None) /\ ((0 <= z)%Z -> o = nth_error modes (Z.to_nat z)).
Proof.
  rewrite nth_mode. intros ->. split; intros H.
  - destruct z; try lia. reflexivity.
  - destruct z; try lia; destruct (nth_error _ _); reflexivity.
Qed.
Definition interpreted_g (g : geometry) (G : dict str) (d : diffr) : Prop :=
  (forall vals k v, given G "G0" (g_G g) vals -> at_position (g_G g) vals k v -> ~ In k (U_names g) -> dget k (d_gpar d) = Some (GNum v)) /\
  ((~ exists vals, given G "G0" (g_G g) vals) -> forall k, In k (g_G g) -> ~ In k (U_names g) -> dget k (d_gpar d) = None) /\
  (forall vals k v, given G "G4" (g_Q g) vals -> at_position (g_Q g) vals k v -> dget k (d_gpar d) = Some (GNum v)) /\
  ((~ exists vals, given G "G4" (g_Q g) vals) -> forall k, In k (g_Q g) -> dget k (d_gpar d) = None) /\
  (forall vals k v, numbers_on G "G1" vals -> 1 < List.length vals -> at_position (U_names g) vals k v -> dget k (d_gpar d) = Some (GNum v)).
Definition interpreted_s (g : geometry) (G : dict str) (d : diffr) : Prop :=
  (forall vals v, given G "G0" (g_G g) vals -> at_position (g_G g) vals (L "g_sect") v -> exists z, integer_part v z /\ d_sector d = Some z) /\
  ((~ exists vals, given G "G0" (g_G g) vals) \/ ~ In (L "g_sect") (g_G g) -> d_sector d = None) /\
  (forall vals v, given G "G0" (g_G g) vals -> at_position (g_G g) vals (L "g_mode") v ->
     exists z, integer_part v z /\ ((z < 0)%Z -> d_mode d = None) /\ ((0 <= z)%Z -> d_mode d = nth_error (g_modes g) (Z.to_nat z))) /\
  ((~ exists vals, given G "G0" (g_G g) vals) \/ ~ In (L "g_mode") (g_G g) -> d_mode d = None) /\
  (forall vals v, given G "G4" (g_Q g) vals -> at_position (g_Q g) vals (L "LAMBDA") v -> d_wavelength d = Some v) /\
  ((~ exists vals, given G "G4" (g_Q g) vals) \/ ~ In (L "LAMBDA") (g_Q g) -> d_wavelength d = None) /\
  (forall vals, numbers_on G "G3" vals -> List.length vals = 9 -> d_UB d = Some vals) /\
  ((forall vals, numbers_on G "G3" vals -> List.length vals <> 9) -> d_UB d = None).
Lemma given_dec G line names : (exists vals, given G line names vals) \/ ~ exists vals, given G line names vals.
Proof.
  unfold given. destruct (dget (L line) G) as [t|] eqn:E.
  - destruct (floats t) as [vals|] eqn:Ef.
    + assert (Hn : numbers_on G line vals) by (apply numbers_on_get; eauto). destruct (Nat.eq_dec (List.length vals) (List.length names)) as [Q|Q]; [left; exists vals; auto|].
      right. intros (v & Hv & Hl). rewrite (numbers_on_fun _ _ _ _ Hv Hn) in Hl. contradiction.
    + right. intros (v & Hv & _). apply numbers_on_get in Hv. destruct Hv as (t' & Q1 & Q2). congruence.
  - right. intros (v & Hv & _). apply numbers_on_get in Hv. destruct Hv as (t' & Q1 & Q2). congruence.
Qed.
Lemma diffr_parts i d : diffr_of catalog i = Ok d -> exists nm g d1 d2 d3, geo_name_of catalog i = Ok nm /\ cat_get catalog nm = Some g /\ sound g /\ In g catalog /\ g_name g = fst (split_name_variation nm) /\
  parse_G0 g (gi_G i) (new_diffr nm) = Ok d1 /\ parse_G1 g (gi_G i) d1 = Ok d2 /\ parse_G3 (gi_G i) d2 = Ok d3 /\ parse_G4 g (gi_G i) d3 = Ok d.
Proof.
  unfold diffr_of, parse_diffr. destruct (geo_name_of catalog i) as [nm|] eqn:En; [|discriminate]. cbn [bind]. destruct (new_split nm) as [-> _]. intros H.
  destruct (cat_get catalog nm) as [g|] eqn:Eg; [|discriminate]. cbn [of_opt bind] in H. destruct (parse_G0 g (gi_G i) (new_diffr nm)) as [d1|] eqn:E0; [|discriminate]. cbn [bind] in H.
  destruct (parse_G1 g (gi_G i) d1) as [d2|] eqn:E1; [|discriminate]. cbn [bind] in H. destruct (parse_G3 (gi_G i) d2) as [d3|] eqn:E3; [|discriminate]. cbn [bind] in H.
  pose proof Eg as Eg2. unfold cat_get in Eg2. apply find_some in Eg2. destruct Eg2 as [Hin Hnm]. apply seqb_eq in Hnm.
  exists nm, g, d1, d2, d3. split; [reflexivity|]. split; [exact Eg|]. split; [apply sound_in; exact Hin|]. split; [exact Hin|]. split; [symmetry; exact Hnm|]. auto.
Qed.
Lemma in_res (k : string) : In (L k) (map L ["diffractometer_full"; "diffractometer_simple"; "diffractometer_variant"; "ub_matrix"; "g_mode_name"]%string) -> In (L k) reserved.
Proof. auto. Qed.
Lemma params_lemma i d : diffr_of catalog i = Ok d -> exists g, In g catalog /\ g_name g = d_name d /\ interpreted_g g (gi_G i) d /\ interpreted_s g (gi_G i) d.
Proof.
  intros H. destruct (diffr_parts i d H) as (nm & g & d1 & d2 & d3 & _ & _ & So & Hin & Hnm & E0 & E1 & E3 & E4). clear H. set (G := gi_G i) in *.
  destruct (new_split nm) as (_ & N2 & N3 & N4 & N5 & N6 & N7 & N8 & N9 & N10 & N11). set (d0 := new_diffr nm) in *.
  apply (G0_eff g So G) in E0. destruct E0 as (A1 & A2 & A3 & A4 & A5 & A6 & A7 & A8 & A9).
  apply (G1_eff g So G) in E1. destruct E1 as (B1 & B2 & B3 & B4 & B5 & B6 & B7 & B8 & B9 & B10).
  apply (G3_eff G) in E3. destruct E3 as (C1 & C2 & C3 & C4 & C5 & C6 & C7 & C8 & C9 & C10 & C11).
  apply (G4_eff g So G) in E4. destruct E4 as (D1 & D2 & D3 & D4 & D5 & D6 & D7 & D8 & D9 & D10 & D11).
  assert (Rub : In (L "ub_matrix") reserved) by (unfold reserved; cbn [map In]; auto 10).
  assert (Rmn : In (L "g_mode_name") reserved) by (unfold reserved; cbn [map In]; auto 10).
  exists g. split; [exact Hin|]. split; [rewrite D5, C5, B4, A5, N2; exact Hnm|].
  assert (FG : forall k, In k (g_G g) -> ~ In k (U_names g) -> dget k (d_gpar d) = dget k (d_gpar d1)).
  { intros k Hk Hu. rewrite D9 by (intros Q; exact (so_QG g So k Q Hk)). rewrite C9 by (intros ->; exact (so_rG g So _ Rub Hk)). apply B8. exact Hu. }
  assert (FQ : forall k, In k (g_Q g) -> dget k (d_gpar d3) = dget k (d_gpar d0)).
  { intros k Hk. rewrite C9 by (intros ->; exact (so_rQ g So _ Rub Hk)). rewrite B8 by (exact (so_QU g So k Hk)). apply A7; [exact (so_QG g So k Hk)|]. intros ->. exact (so_rQ g So _ Rmn Hk). }
  assert (FN : forall k, In k (g_G g) \/ In k (g_Q g) -> dget k (d_gpar d0) = None).
  { intros k Hk. apply N10. intros Q. destruct Hk as [Hk|Hk]; [exact (so_rG g So _ Q Hk)|exact (so_rQ g So _ Q Hk)]. }
  split.
  - split. { intros vals k v Hv Hk Hu. rewrite FG; [|exact (at_position_in _ _ _ _ Hk)|exact Hu]. exact (proj1 (A9 vals Hv) k v Hk). }
    split. { intros Hno k Hk Hu. rewrite (FG k Hk Hu), (A8 Hno). apply FN. left. exact Hk. }
    split. { intros vals k v Hv Hk. exact (proj1 (D11 vals Hv) k v Hk). }
    split. { intros Hno k Hk. rewrite (D10 Hno), (FQ k Hk). apply FN. right. exact Hk. }
    intros vals k v Hv Hl Hk. pose proof (at_position_in _ _ _ _ Hk) as Hin2. rewrite D9 by (intros Q; exact (so_QU g So k Q Hin2)). rewrite C9 by (intros ->; exact (so_rU g So _ Rub Hin2)).
    rewrite (proj1 (B10 vals Hv Hl)). apply dget_combine in Hk; [rewrite Hk; reflexivity|exact (so_U g So)].
  - assert (Es : d_sector d = d_sector d1) by (rewrite D7, C7; exact B6). assert (Em : d_mode d = d_mode d1) by (rewrite D8, C8; exact B7).
    assert (Ew : d_wavelength d3 = None) by (rewrite C3, B2, A3; exact N6). assert (Eu : d_UB d2 = None) by (rewrite B1, A2; exact N7).
    split. { intros vals v Hv Hk. rewrite Es. exact (proj1 (proj2 (A9 vals Hv)) v Hk). }
    split. { intros Q. rewrite Es. destruct (given_dec G "G0" (g_G g)) as [(vals & Hv)|Hno]; [|rewrite (A8 Hno); exact N4].
      destruct Q as [Q|Q]; [exfalso; apply Q; exists vals; exact Hv|]. rewrite (proj1 (proj2 (proj2 (A9 vals Hv))) Q). exact N4. }
    split. { intros vals v Hv Hk. rewrite Em. destruct (proj1 (proj2 (proj2 (proj2 (A9 vals Hv)))) v Hk) as (z & Hz & Ez). exists z. split; [exact Hz|]. apply mode_split. rewrite Ez, N5. reflexivity. }
    split. { intros Q. rewrite Em. destruct (given_dec G "G0" (g_G g)) as [(vals & Hv)|Hno]; [|rewrite (A8 Hno); exact N5].
      destruct Q as [Q|Q]; [exfalso; apply Q; exists vals; exact Hv|]. rewrite (proj2 (proj2 (proj2 (proj2 (A9 vals Hv)))) Q). exact N5. }
    split. { intros vals v Hv Hk. exact (proj1 (proj2 (D11 vals Hv)) v Hk). }
    split. { intros Q. destruct (given_dec G "G4" (g_Q g)) as [(vals & Hv)|Hno]; [|rewrite (D10 Hno); exact Ew].
      destruct Q as [Q|Q]; [exfalso; apply Q; exists vals; exact Hv|]. rewrite (proj2 (proj2 (D11 vals Hv)) Q). exact Ew. }
    split. { intros vals Hv Hl. rewrite D3. exact (proj1 (C10 vals Hv Hl)). }
    intros Hno. rewrite D3, (C11 Hno). exact Eu.
Qed.
(** the lattice and the reflections of #G1 *)
Lemma lattice_lemma i d : diffr_of catalog i = Ok d -> exists g, In g catalog /\ g_name g = d_name d /\
  (forall vals, numbers_on (gi_G i) "G1" vals -> 1 < List.length vals ->
     (forall p, upos g vals six p -> d_lattice d = Some (Lat3 p)) /\
     (~ In (L "g_lambda") (U_names g) -> exists p0 p1 a0 a1, d_refl d = [Ref3 p0 a0; Ref3 p1 a1] /\
         upos g vals (map L ["h0"; "k0"; "l0"; "lambda0"]%string) p0 /\ upos g vals (map L ["h1"; "k1"; "l1"; "lambda1"]%string) p1)).
Proof.
  intros H. destruct (diffr_parts i d H) as (nm & g & d1 & d2 & d3 & _ & _ & So & Hin & Hnm & E0 & E1 & E3 & E4). clear H. set (G := gi_G i) in *.
  destruct (new_split nm) as (_ & N2 & N3 & N4 & N5 & N6 & N7 & N8 & N9 & N10 & N11). set (d0 := new_diffr nm) in *.
  pose proof E0 as E0'. apply (G0_eff g So G) in E0. destruct E0 as (A1 & A2 & A3 & A4 & A5 & A6 & A7 & A8 & A9).
  apply (G1_eff g So G) in E1. destruct E1 as (B1 & B2 & B3 & B4 & B5 & B6 & B7 & B8 & B9 & B10).
  apply (G3_eff G) in E3. destruct E3 as (C1 & C2 & C3 & C4 & C5 & C6 & C7 & C8 & C9 & C10 & C11).
  apply (G4_eff g So G) in E4. destruct E4 as (D1 & D2 & D3 & D4 & D5 & D6 & D7 & D8 & D9 & D10 & D11).
  exists g. split; [exact Hin|]. split; [rewrite D5, C5, B4, A5, N2; exact Hnm|]. intros vals Hv Hl. destruct (B10 vals Hv Hl) as (_ & P1 & _ & P3). split.
  - intros p Hp. rewrite D1, C1. exact (P1 p Hp).
  - intros Hu. destruct (P3 Hu) as (p0 & p1 & a0 & a1 & Er & U0 & U1). exists p0, p1, a0, a1. split; [|auto]. rewrite D2, C2, Er.
    assert (E : d_refl d1 = []). { unfold parse_G0 in E0'. destruct (dget (L "G0") G); [|injection E0' as <-; exact N9]. destruct (floats s); [|discriminate]. cbn [bind] in E0'.
      destruct (negb _); [injection E0' as <-; exact N9|]. cbv zeta in E0'. destruct (foldM _ _ _) as [[? ?]|]; [|discriminate]. cbn [bind] in E0'. injection E0' as <-. exact N9. }
    rewrite E. reflexivity.
Qed.
