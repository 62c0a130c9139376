(** C100-C102: lines of the user, geometry, instrument and sample in the entries of a NeXus file.
    Theorems only; proofs are in EntryFacts2.v, MetaWrite7.v, MetaWrite8.v, RegAll2.v, RegGeo.v. *)
From Coq Require Import String Lia.
From Verif Require Import Uni Py PyFacts Time SpecTime Utils SpecUtils Keys SpecKeys Geom Handlers Reader SpecText SpecReader SpecHistory SpecInterp SpecDecimal InterpFacts TextFacts ExampleFacts
  H5 SpecH5 H5Exact Writer SpecWriter SpecEntry NumFacts TableFacts TableFacts2 RoundFacts2 EntryFacts EntryFacts2 PropWriter PropGeom PropEntry PropEntry2.
Import ListNotations.
Local Open Scope list_scope.

(* ------------------------------------------------------------------ *)
(** * C100: lines of the user *)
(** the name of the line with number [i] (from 0) and what is said about it *)
Definition item (i : nat) : str := L "item_" ++ str_of_nat (i + 1).
Definition line_no (what : string) (i : nat) : str * aval := (L "description", AText (L what ++ str_of_nat (i + 1))).
Theorem C100_user_lines : forall E known s0 s versions ks s' f k sc, saved E known s0 s versions ks s' f k sc ->
  (forall l i t, attr_is sc A_R l -> nth_error l i = Some t -> text_at f [entry_name k; L "UserResults"; item i] t [line_no "#R line " i]) /\
  (forall l i t, attr_is sc A_U l -> nth_error l i = Some t -> text_at f [entry_name k; L "UserReserved"; item i] t [line_no "#U line " i]).
Proof.
  intros E known s0 s versions ks s' f k sc H. split; [exact (e_R E known s0 s s' versions ks f k sc H)|exact (e_U E known s0 s s' versions ks f k sc H)].
Qed.
Print Assumptions C100_user_lines.
Definition notes : path := one "ascan x 0 1 1 1" ["#R first result"; "#U mine"; "#R second"; "#N 2"; "#L a  b"; "1 2"]%string.
Example C100_example : text_at (nxfile notes [k1]) [L "S1"; L "UserResults"; L "item_2"] (L "second") [line_no "#R line " 1] /\
  text_at (nxfile notes [k1]) [L "S1"; L "UserReserved"; L "item_1"] (L "mine") [line_no "#U line " 0].
Proof.
  assert (X : exists sc, saved E0 all_hids (opened notes) (opened notes) versions0 [k1] (after_save notes [k1]) (nxfile notes [k1]) k1 sc /\
    attr_is sc A_R (map L ["first result"; "second"]%string) /\ attr_is sc A_U (map L ["mine"]%string)) by one_tac.
  destruct X as (sc & SV & H1 & H2). destruct (C100_user_lines _ _ _ _ _ _ _ _ _ _ SV) as [HR HU]. split.
  - apply (HR _ 1 (L "second") H1). reflexivity.
  - apply (HU _ 0 (L "mine") H2). reflexivity.
Qed.

(* ------------------------------------------------------------------ *)
(** * C101: the arrays of the geometry *)
Theorem C101_geometry_arrays : forall E known s0 s versions ks s' f k sc, incl all_hids known -> saved E known s0 s versions ks s' f k sc ->
  forall d G, attr_is sc A_diffractometer d -> attr_is sc A_G G -> group_at f [entry_name k; L "G"] "NXnote" /\
    forall x v m, last_named G x v m -> exists xs, Forall2 (fun w y => py_float w = Ok y) (words v) xs /\
      field_at f [entry_name k; L "G"; m] (HArr [List.length xs] (map NF xs)) [(L "spec_name", AText x)].
Proof. intros E known s0 s versions ks s' f k sc Hk H. exact (e_G E known Hk s0 s s' versions ks f k sc H). Qed.
Print Assumptions C101_geometry_arrays.

(* ------------------------------------------------------------------ *)
(** * C102: the instrument and the sample *)
Definition sample_ (k : skey) (n : string) : list str := [entry_name k; L "sample"; L n].
Theorem C102_instrument_and_sample : forall E known s0 s versions ks s' f k sc, incl all_hids known -> saved E known s0 s versions ks s' f k sc ->
  forall d, attr_is sc A_diffractometer d ->
  text_at f [entry_name k; L "instrument"; L "name"] (d_full d) [] /\
  (forall a b c al be ga, d_lattice d = Some (Lat3 [a; b; c; al; be; ga]) ->
    field_at f (sample_ k "unit_cell_abc") (HArr [3] (map NF [a; b; c])) [att "units" "angstrom"] /\
    field_at f (sample_ k "unit_cell_alphabetagamma") (HArr [3] (map NF [al; be; ga])) [att "units" "degrees"] /\
    field_at f (sample_ k "unit_cell") (HArr [6] (map NF [a; b; c; al; be; ga])) []) /\
  (forall a b ga, d_lattice d = Some (Lat2 [a; b; ga]) ->
    number_at f (sample_ k "unit_cell_a") (NF a) [att "units" "angstrom"] /\ number_at f (sample_ k "unit_cell_b") (NF b) [att "units" "angstrom"] /\
    number_at f (sample_ k "unit_cell_gamma") (NF ga) [att "units" "degrees"]) /\
  (forall m, List.length m = 9 -> dget (L "ub_matrix") (d_gpar d) = Some (GMat m) -> field_at f (sample_ k "ub_matrix") (HArr [3; 3] (map NF m)) []) /\
  (forall m, d_mode d = Some m -> text_at f (sample_ k "diffractometer_mode") m []) /\
  (forall z, d_sector d = Some z -> number_at f (sample_ k "diffractometer_sector") (NI z) []).
Proof. intros E known s0 s versions ks s' f k sc Hk H. exact (e_sample E known Hk s0 s s' versions ks f k sc H). Qed.
Print Assumptions C102_instrument_and_sample.
Definition geo_file : path := file (head ++ ["#O0 2-theta  theta  chi  phi"; "#O1 x"; "#S 1 ascan x 0 1 1 1"; "#D Wed Nov 03 13:48:06 2010"; "#T 1  (Seconds)"]%string ++ with_geo ++
  ["#P0 1 2 3 4"; "#P1 5"; "#N 2"; "#L a  b"; "1 2"]%string) 5 6.
Definition geo_known (sc : scan) : Prop := exists d G, attr_is sc A_diffractometer d /\ attr_is sc A_G G /\ d_full d = L "fourc.default" /\
  d_lattice d = Some (Lat3 [FDec 154 (-2); FDec 155 (-2); FDec 156 (-2); FDec 90 0; FDec 91 0; FDec 92 0]) /\ d_mode d <> None /\ d_sector d = Some (-1)%Z /\
  dget (L "ub_matrix") (d_gpar d) = Some (GMat (map (fun z => FDec z 0) [1; 2; 3; 4; 5; 6; 7; 8; 9]%Z)) /\
  exists g0 g1 g4, G = [(L "G0", g0); (L "G1", g1); (L "G3", L "1 2 3 4 5 6 7 8 9"); (L "G4", g4)].
Lemma geo_saved : exists sc, saved E0 all_hids (opened geo_file) (opened geo_file) versions0 [k1] (after_save geo_file [k1]) (nxfile geo_file [k1]) k1 sc /\ geo_known sc.
Proof.
  apply one_saved; [vm_compute; reflexivity|vm_compute; reflexivity|vm_compute; reflexivity|vm_compute; reflexivity|].
  vm_compute. eexists. eexists. split; [reflexivity|]. split; [reflexivity|]. split; [reflexivity|]. split; [reflexivity|]. split; [discriminate|]. split; [reflexivity|]. split; [reflexivity|].
  eexists. eexists. eexists. reflexivity.
Qed.
Example C101_C102_example :
  field_at (nxfile geo_file [k1]) [L "S1"; L "G"; L "G3"] (HArr [9] (map (fun z => NF (FDec z 0)) [1; 2; 3; 4; 5; 6; 7; 8; 9]%Z)) [(L "spec_name", AText (L "G3"))] /\
  text_at (nxfile geo_file [k1]) [L "S1"; L "instrument"; L "name"] (L "fourc.default") [] /\
  field_at (nxfile geo_file [k1]) (sample_ k1 "unit_cell_alphabetagamma") (HArr [3] (map NF [FDec 90 0; FDec 91 0; FDec 92 0])) [att "units" "degrees"] /\
  field_at (nxfile geo_file [k1]) (sample_ k1 "ub_matrix") (HArr [3; 3] (map (fun z => NF (FDec z 0)) [1; 2; 3; 4; 5; 6; 7; 8; 9]%Z)) [].
Proof.
  destruct geo_saved as (sc & SV & d & G & Hd & HG & Ef & El & _ & _ & Eu & g0 & g1 & g4 & ->).
  destruct (C101_geometry_arrays _ _ _ _ _ _ _ _ _ _ (incl_refl _) SV d _ Hd HG) as (_ & A).
  destruct (C102_instrument_and_sample _ _ _ _ _ _ _ _ _ _ (incl_refl _) SV d Hd) as (B & C & _ & D & _).
  split; [|split; [rewrite <- Ef; exact B|split; [apply (C _ _ _ _ _ _ El)|refine (D _ _ Eu); reflexivity]]].
  destruct (A (L "G3") (L "1 2 3 4 5 6 7 8 9") (L "G3")) as (xs & X1 & X2).
  - exists [(L "G0", g0); (L "G1", g1)], [(L "G4", g4)]. split; [reflexivity|]. split; [apply ds_name_iff; reflexivity|].
    intros y [<-|[]] X. apply ds_name_iff in X. discriminate X.
  - assert (Ex : xs = map (fun z => FDec z 0) [1; 2; 3; 4; 5; 6; 7; 8; 9]%Z).
    { assert (Ew : words (L "1 2 3 4 5 6 7 8 9") = map L ["1"; "2"; "3"; "4"; "5"; "6"; "7"; "8"; "9"]%string) by (vm_compute; reflexivity). rewrite Ew in X1. clear - X1.
      cbn [map] in X1. repeat match goal with H : Forall2 _ (_ :: _) _ |- _ => inversion H; clear H; subst end.
      match goal with H : Forall2 _ [] _ |- _ => inversion H; clear H; subst end.
      repeat match goal with H : py_float _ = Ok _ |- _ => vm_compute in H; injection H; intros <-; clear H end. reflexivity. }
    rewrite Ex in X2. exact X2.
Qed.
