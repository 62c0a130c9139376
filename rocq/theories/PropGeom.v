(** C49, C50: geometries.  Theorems only; proofs are in GeomFacts*.v. *)
From Coq Require Import String Lia QArith.
From Verif Require Import Uni Py PyFacts GeomData Geom SpecText SpecReader SpecNum SpecInterp SpecData SpecGeom InterpFacts DataFacts GeomFacts GeomFacts2 GeomFacts3.
Import ListNotations.
Local Open Scope nat_scope.
Local Open Scope list_scope.

(** the geometry stated on the first comment line if the catalog has it, else the first variation of the catalog that fits the scan,
    else "spec", the first entry of the catalog *)
Theorem C49_geometry_of_a_scan : forall i nm, geo_name_of catalog i = Ok nm ->
  (exists st, states i st /\ known_geometry catalog st /\ nm = st ++ L ".default") \/
  ((forall st, states i st -> ~ known_geometry catalog st) /\
   ((exists g v, first_fit i catalog g v /\ nm = g_name g ++ L "." ++ v_name v) \/
    (Forall (fun gv => ~ fits i (fst gv) (snd gv)) (all_variations catalog) /\ nm = L "spec"))).
Proof. intros i nm. exact (match_lemma catalog plain_catalog i nm _ _ eq_refl). Qed.
Print Assumptions C49_geometry_of_a_scan.

(** unless a stated geometry has a dot in its name, the catalog has an entry for the name *)
Theorem C49_geometry_is_found_partial : forall i nm, (forall st, states i st -> ~ In 46%N st) -> geo_name_of catalog i = Ok nm ->
  exists g, cat_get catalog nm = Some g /\ In g catalog /\ (nm = g_name g \/ exists v, nm = g_name g ++ L "." ++ v).
Proof. intros i nm. exact (lookup_lemma catalog plain_catalog i nm _ _ eq_refl). Qed.
Print Assumptions C49_geometry_is_found_partial.
(** and there always is a name *)
Theorem C49_there_is_a_geometry : forall i, exists nm, geo_name_of catalog i = Ok nm.
Proof. intros i. unfold geo_name_of. destruct (stated catalog i ++ flat_map (geo_match i) catalog) as [|m l]; [exists (L "spec"); reflexivity|exists m; reflexivity]. Qed.
Print Assumptions C49_there_is_a_geometry.

(** a stated geometry with a variation is not found: interpreting #G lines fails.  So does a #G1 line with few numbers. *)
Definition told (first_comment : string) (G : dict str) : geo_in := mk_gin [L first_comment] None None [] G.
Theorem C49_lookup_refuted : known_geometry catalog (L "fourc.kappa") /\ states (told "fourc.kappa User = me" []) (L "fourc.kappa") /\
  geo_name_of catalog (told "fourc.kappa User = me" []) = Ok (L "fourc.kappa.default") /\ cat_get catalog (L "fourc.kappa.default") = None /\
  diffr_of catalog (told "fourc.kappa User = me" []) = Raise RuntimeError /\
  diffr_of catalog (told "fourc User = me" [(L "G1", L "1 1")]) = Raise KeyError.
Proof.
  split. { exists (mk_geo (L "fourc") 4 (g_G (nth 2 catalog (mk_geo [] 0 [] [] [] None []))) (g_Q (nth 2 catalog (mk_geo [] 0 [] [] [] None []))) (g_modes (nth 2 catalog (mk_geo [] 0 [] [] [] None []))) None (g_vars (nth 2 catalog (mk_geo [] 0 [] [] [] None [])))).
    split; [right; right; left; reflexivity|]. right. exists (mk_var (L "kappa") (map L ["tth"; "om"; "chi"; "phi"; "kth"; "kap"; "kphi"]%string) []). split; [right; left; reflexivity|reflexivity]. }
  split. { exists (L "fourc.kappa User = me"), [], (L "="), (L "me"). split; [reflexivity|]. apply fields_words. vm_compute. reflexivity. }
  split; [vm_compute; reflexivity|]. split; [vm_compute; reflexivity|]. split; vm_compute; reflexivity.
Qed.
Print Assumptions C49_lookup_refuted.

(** a four circle diffractometer found by its motors and numbers *)
Definition G0_line : string := "3 -1.9 0 0 0 1 1.5 0 0 0 1 0 0 0 0 0 0 0 0 0 0 0 0 0 0 0 0".
Definition G1_line : string := "1.54 1.55 1.56 90 91 92 4.08 4.05 4.02 90 90 90 1 0 0 0 1 0 60 30 0 0 0 0 60 30 0 -90 0 0 1.5 1.6".
Definition G4_line : string := "1 2 3 1.54 0 0 0 0 0 0 0 0 0 0 0 0 0 0 0 0 0 0 0 0 0 0".
Definition four_circle : geo_in := mk_gin [L "some comment"] None (Some [[L "2-theta"; L "theta"; L "chi"; L "phi"]; [L "x"]]) []
  [(L "G0", L G0_line); (L "G1", L G1_line); (L "G3", L "1 2 3 4 5 6 7 8 9"); (L "G4", L G4_line)].
Example C49_applies : geo_name_of catalog four_circle = Ok (L "fourc.default") /\
  geo_name_of catalog (told "psic User = me" []) = Ok (L "psic.default") /\ geo_name_of catalog (told "nothing known" [(L "G0", L "1 2")]) = Ok (L "spec").
Proof. split; [|split]; vm_compute; reflexivity. Qed.

(** ** C50 *)
(** the parameters: numbers of #G0 by the names [g_G], of #G4 by the names [g_Q] and of #G1 by the names [U_names] *)
Theorem C50_parameters_by_position_partial : forall i d, diffr_of catalog i = Ok d -> exists g, In g catalog /\ g_name g = d_name d /\
  (forall vals k v, given (gi_G i) "G0" (g_G g) vals -> at_position (g_G g) vals k v -> ~ In k (U_names g) -> dget k (d_gpar d) = Some (GNum v)) /\
  ((~ exists vals, given (gi_G i) "G0" (g_G g) vals) -> forall k, In k (g_G g) -> ~ In k (U_names g) -> dget k (d_gpar d) = None) /\
  (forall vals k v, given (gi_G i) "G4" (g_Q g) vals -> at_position (g_Q g) vals k v -> dget k (d_gpar d) = Some (GNum v)) /\
  ((~ exists vals, given (gi_G i) "G4" (g_Q g) vals) -> forall k, In k (g_Q g) -> dget k (d_gpar d) = None) /\
  (forall vals k v, numbers_on (gi_G i) "G1" vals -> 1 < List.length vals -> at_position (U_names g) vals k v -> dget k (d_gpar d) = Some (GNum v)).
Proof. intros i d H. destruct (params_lemma i d H) as (g & H1 & H2 & H3 & H4). exists g. split; [exact H1|]. split; [exact H2|]. exact H3. Qed.
Print Assumptions C50_parameters_by_position_partial.
Theorem C50_sector_mode_wavelength_UB : forall i d, diffr_of catalog i = Ok d -> exists g, In g catalog /\ g_name g = d_name d /\
  (forall vals v, given (gi_G i) "G0" (g_G g) vals -> at_position (g_G g) vals (L "g_sect") v -> exists z, integer_part v z /\ d_sector d = Some z) /\
  ((~ exists vals, given (gi_G i) "G0" (g_G g) vals) \/ ~ In (L "g_sect") (g_G g) -> d_sector d = None) /\
  (forall vals v, given (gi_G i) "G0" (g_G g) vals -> at_position (g_G g) vals (L "g_mode") v ->
     exists z, integer_part v z /\ ((z < 0)%Z -> d_mode d = None) /\ ((0 <= z)%Z -> d_mode d = nth_error (g_modes g) (Z.to_nat z))) /\
  ((~ exists vals, given (gi_G i) "G0" (g_G g) vals) \/ ~ In (L "g_mode") (g_G g) -> d_mode d = None) /\
  (forall vals v, given (gi_G i) "G4" (g_Q g) vals -> at_position (g_Q g) vals (L "LAMBDA") v -> d_wavelength d = Some v) /\
  ((~ exists vals, given (gi_G i) "G4" (g_Q g) vals) \/ ~ In (L "LAMBDA") (g_Q g) -> d_wavelength d = None) /\
  (forall vals, numbers_on (gi_G i) "G3" vals -> List.length vals = 9 -> d_UB d = Some vals) /\
  ((forall vals, numbers_on (gi_G i) "G3" vals -> List.length vals <> 9) -> d_UB d = None).
Proof. intros i d H. destruct (params_lemma i d H) as (g & H1 & H2 & H3 & H4). exists g. split; [exact H1|]. split; [exact H2|]. exact H4. Qed.
Print Assumptions C50_sector_mode_wavelength_UB.
(** the crystal lattice a, b, c, alpha, beta, gamma and the two reflections (h, k, l, wavelength) of #G1 *)
Definition on_G1 (g : geometry) (vals : list fl) (names : list string) (p : list fl) : Prop :=
  Forall2 (fun k v => at_position (U_names g) vals (L "g_" ++ k) v) (map L names) p.
Theorem C50_lattice_and_reflections : forall i d, diffr_of catalog i = Ok d -> exists g, In g catalog /\ g_name g = d_name d /\
  (forall vals, numbers_on (gi_G i) "G1" vals -> 1 < List.length vals ->
     (forall p, on_G1 g vals ["aa"; "bb"; "cc"; "al"; "be"; "ga"]%string p -> d_lattice d = Some (Lat3 p)) /\
     (~ In (L "g_lambda") (U_names g) -> exists p0 p1 angles0 angles1, d_refl d = [Ref3 p0 angles0; Ref3 p1 angles1] /\
         on_G1 g vals ["h0"; "k0"; "l0"; "lambda0"]%string p0 /\ on_G1 g vals ["h1"; "k1"; "l1"; "lambda1"]%string p1)).
Proof. exact lattice_lemma. Qed.
Print Assumptions C50_lattice_and_reflections.
(** the geometry found is the one of the name: names in the catalog differ *)
Theorem C50_names_differ : NoDup (map g_name catalog).
Proof. apply nodupb_spec. vm_compute. reflexivity. Qed.
Print Assumptions C50_names_differ.

Definition four_circle_d : diffr := match diffr_of catalog four_circle with Ok d => d | Raise _ => new_diffr [] end.
Definition no_geometry : geometry := mk_geo [] 0 [] [] [] None [].
Definition numbers_of (line : string) : list fl := match mapM py_float (words (L line)) with Ok l => l | Raise _ => [] end.
Lemma numbers_on_ok G line (text : string) : dget (L line) G = Some (L text) -> (exists l, mapM py_float (words (L text)) = Ok l) -> numbers_on G line (numbers_of text).
Proof.
  intros H (l & Hl). unfold numbers_of. rewrite Hl. exists (L text), (words (L text)). split; [exact H|]. split; [apply fields_words; reflexivity|]. apply mapM_F2. exact Hl.
Qed.
Example C50_applies : diffr_of catalog four_circle = Ok four_circle_d /\ d_name four_circle_d = L "fourc" /\
  given (gi_G four_circle) "G0" (g_G (nth 2 catalog no_geometry)) (numbers_of G0_line) /\ given (gi_G four_circle) "G4" (g_Q (nth 2 catalog no_geometry)) (numbers_of G4_line) /\
  numbers_on (gi_G four_circle) "G1" (numbers_of G1_line) /\ d_sector four_circle_d = Some (-1)%Z /\ d_mode four_circle_d = Some (L "Phi fixed (Three-circle)") /\
  d_wavelength four_circle_d = Some (FDec 154 (-2)) /\ dget (L "g_zh0") (d_gpar four_circle_d) = Some (GNum (FDec 15 (-1))) /\ dget (L "K") (d_gpar four_circle_d) = Some (GNum (FDec 2 0)).
Proof.
  split; [vm_compute; reflexivity|]. split; [vm_compute; reflexivity|].
  split; [split; [apply numbers_on_ok; [reflexivity|eexists; vm_compute; reflexivity]|vm_compute; reflexivity]|].
  split; [split; [apply numbers_on_ok; [reflexivity|eexists; vm_compute; reflexivity]|vm_compute; reflexivity]|].
  split; [apply numbers_on_ok; [reflexivity|eexists; vm_compute; reflexivity]|].
  repeat split; vm_compute; reflexivity.
Qed.
(** in the geometry "surf" three parameters of #G0 have the names of numbers of #G1, which replace them *)
Definition surface : geo_in := told "surf User = me" [(L "G0", L "0 11 22 33 5"); (L "G1", L G1_line)].
Definition surface_d : diffr := match diffr_of catalog surface with Ok d => d | Raise _ => new_diffr [] end.
Theorem C50_overwritten_refuted : exists g, In g catalog /\ g_name g = L "surf" /\ diffr_of catalog surface = Ok surface_d /\ d_name surface_d = L "surf" /\
  given (gi_G surface) "G0" (g_G g) (map (fun z => FDec z 0) [0; 11; 22; 33; 5]%Z) /\
  at_position (g_G g) (map (fun z => FDec z 0) [0; 11; 22; 33; 5]%Z) (L "g_h0") (FDec 11 0) /\ dget (L "g_h0") (d_gpar surface_d) = Some (GNum (FDec 1 0)).
Proof.
  destruct (List.find (fun g => seqb (L "surf") (g_name g)) catalog) as [g|] eqn:E; [|vm_compute in E; discriminate]. exists g.
  pose proof (find_some _ _ E) as [H1 H2]. apply seqb_eq in H2. split; [exact H1|]. split; [symmetry; exact H2|]. split; [vm_compute; reflexivity|]. split; [vm_compute; reflexivity|].
  assert (EG : option_map g_G (Some g) = Some (map L ["g_mode"; "g_h0"; "g_k0"; "g_l0"; "g_psi"]%string)) by (rewrite <- E; vm_compute; reflexivity).
  cbn [option_map] in EG. assert (EG2 : g_G g = map L ["g_mode"; "g_h0"; "g_k0"; "g_l0"; "g_psi"]%string) by congruence. rewrite EG2.
  split; [split; [|reflexivity]; exists (L "0 11 22 33 5"), (words (L "0 11 22 33 5")); split; [reflexivity|split; [apply fields_words; reflexivity|apply mapM_F2; vm_compute; reflexivity]]|].
  split; [exists 1; split; reflexivity|]. vm_compute. reflexivity.
Qed.
Print Assumptions C50_overwritten_refuted.
