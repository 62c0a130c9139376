(** C96-C98: positioners and metadata in the entries of a NeXus file.
    Theorems only; proofs are in EntryFacts.v, MetaWrite5.v, MetaWrite6.v, RegAll3.v. *)
From Coq Require Import String Lia.
From Verif Require Import Uni Py PyFacts Time SpecTime Utils SpecUtils Keys SpecKeys Handlers Reader SpecText SpecReader SpecHistory SpecInterp SpecDecimal InterpFacts TextFacts ExampleFacts
  H5 SpecH5 H5Exact Writer SpecWriter SpecEntry TableFacts TableFacts2 RoundFacts2 EntryFacts HklFacts PropWriter PropGeom PropEntry.
Import ListNotations.
Local Open Scope list_scope.

(* ------------------------------------------------------------------ *)
(** * A file for the examples *)
Definition motors : path := file (head ++ ["#O0 m1  two theta  two_theta"; "#H0 current  shutter"; "#S 1 ascan x 0 1 1 1"; "#D Wed Nov 03 13:48:06 2010"; "#T 1  (Seconds)";
  "#P0 1.5 2 -3"; "#V0 102.3 open"; "#N 2"; "#L a  b"; "1 2"]%string) 5 6.

Definition never (t : str) (nd : node) : bool := match dget (L "spec_name") (match nd with Group _ a => a | Dset _ a => a end) with Some (AText u) => negb (seqb u t) | _ => true end.
(** the objects at paths where [None] stands for any name *)
Fixpoint ends (f : h5) (ps : list (option str)) (i : nat) : list nat :=
  match ps with [] => [i] | p :: ps => match nth_error f i with
    | Some (Group ms _) => flat_map (fun nj => if match p with Some n => seqb n (fst nj) | None => true end then ends f ps (snd nj) else []) ms
    | _ => [] end end.
Lemma ends_ok f ps i j : leads f i ps j -> forall qs, Forall2 (fun q p => q = None \/ q = Some p) qs ps -> In j (ends f qs i).
Proof.
  induction 1 as [i|i n k ps j (ms & a & M1 & M2) _ IH]; intros qs F; inversion F as [|q ? qs' ? Q F']; subst; cbn [ends]; [left; reflexivity|].
  rewrite M1. apply in_flat_map. exists (n, k). split; [apply PyFacts.dget_In; exact M2|]. cbn [fst snd].
  destruct Q as [->| ->]; [|rewrite seqb_refl]; apply IH; exact F'.
Qed.
Lemma no_such f qs t ps j : forallb (fun i => match nth_error f i with Some nd => never t nd | None => true end) (ends f qs 0) = true ->
  Forall2 (fun q p => q = None \/ q = Some p) qs ps -> at_path f ps j -> ~ attribute f j (L "spec_name") (AText t).
Proof.
  intros H F P (nd & A & B). rewrite forallb_forall in H. specialize (H j (ends_ok _ _ _ _ P _ F)). rewrite A in H. unfold never in H. rewrite B, seqb_refl in H. discriminate H.
Qed.

(* ------------------------------------------------------------------ *)
(** * C96: positioners *)
Theorem C96_positioners : forall E known s0 s versions ks s' f k sc, incl all_hids known -> saved E known s0 s versions ks s' f k sc ->
  forall d, attr_is sc A_positioner d -> d <> [] -> group_at f [entry_name k; L "positioners"] "NXnote" /\
    same_object f [entry_name k; L "instrument"; L "positioners"] [entry_name k; L "positioners"] /\
    forall x v m, last_named d x v m -> group_at f [entry_name k; L "positioners"; m] "NXpositioner" /\
      text_at f [entry_name k; L "positioners"; m; L "name"] m [(L "spec_name", AText x)] /\
      number_at f [entry_name k; L "positioners"; m; L "value"] (NF v) [(L "spec_name", AText x)].
Proof. intros E known s0 s versions ks s' f k sc Hk H. exact (e_P E known Hk s0 s s' versions ks f k sc H). Qed.
Print Assumptions C96_positioners.
(** two mnemonics with the same dataset name: the first one is not in the file *)
Theorem C96_every_positioner_refuted : ~ forall E known s0 s versions ks s' f k sc, incl all_hids known -> saved E known s0 s versions ks s' f k sc ->
  forall d x v, attr_is sc A_positioner d -> In (x, v) d -> exists m, number_at f [entry_name k; L "positioners"; m; L "value"] (NF v) [(L "spec_name", AText x)].
Proof.
  intros H.
  assert (X : exists sc, saved E0 all_hids (opened motors) (opened motors) versions0 [k1] (after_save motors [k1]) (nxfile motors [k1]) k1 sc /\
    attr_is sc A_positioner [(L "m1", FDec 15 (-1)); (L "two theta", FDec 2 0); (L "two_theta", FDec (-3) 0)]) by one_tac.
  destruct X as (sc & SV & H1). destruct (H _ _ _ _ _ _ _ _ _ _ (incl_refl _) SV _ (L "two theta") (FDec 2 0) H1) as (m & j & J1 & _ & J2); [right; left; reflexivity|].
  apply Forall_inv in J2. revert J2. apply (no_such _ [Some (L "S1"); Some (L "positioners"); None; Some (L "value")] (L "two theta") _ j) with (3 := J1); [vm_compute; reflexivity|].
  constructor; [right; reflexivity|]. constructor; [right; reflexivity|]. constructor; [left; reflexivity|]. constructor; [right; reflexivity|constructor].
Qed.
Print Assumptions C96_every_positioner_refuted.
Example C96_example : number_at (nxfile motors [k1]) [L "S1"; L "positioners"; L "two_theta"; L "value"] (NF (FDec (-3) 0)) [(L "spec_name", AText (L "two_theta"))] /\
  number_at (nxfile motors [k1]) [L "S1"; L "positioners"; L "m1"; L "value"] (NF (FDec 15 (-1))) [(L "spec_name", AText (L "m1"))].
Proof.
  assert (X : exists sc, saved E0 all_hids (opened motors) (opened motors) versions0 [k1] (after_save motors [k1]) (nxfile motors [k1]) k1 sc /\
    attr_is sc A_positioner [(L "m1", FDec 15 (-1)); (L "two theta", FDec 2 0); (L "two_theta", FDec (-3) 0)]) by one_tac.
  destruct X as (sc & SV & H1). destruct (C96_positioners _ _ _ _ _ _ _ _ _ _ (incl_refl _) SV _ H1 ltac:(discriminate)) as (_ & _ & H). split.
  - apply (H (L "two_theta")). exists [(L "m1", FDec 15 (-1)); (L "two theta", FDec 2 0)], []. split; [reflexivity|]. split; [apply ds_name_iff; reflexivity|]. intros y [].
  - apply (H (L "m1")). exists [], [(L "two theta", FDec 2 0); (L "two_theta", FDec (-3) 0)]. split; [reflexivity|]. split; [apply ds_name_iff; reflexivity|].
    intros y [<-|[<-|[]]] Hy; apply ds_name_iff in Hy; discriminate Hy.
Qed.

(* ------------------------------------------------------------------ *)
(** * C97: metadata of UNICAT *)
Theorem C97_unicat_metadata : forall E known s0 s versions ks s' f k sc, incl all_hids known -> saved E known s0 s versions ks s' f k sc ->
  forall d, attr_is sc A_metadata d -> d <> [] -> group_at f [entry_name k; L "metadata"] "NXnote" /\
    same_object f [entry_name k; L "instrument"; L "metadata"] [entry_name k; L "metadata"] /\
    forall x v m, last_named d x v m -> value_at f [entry_name k; L "metadata"; m] v [(L "spec_name", AText x)].
Proof. intros E known s0 s versions ks s' f k sc Hk H. exact (e_V E known Hk s0 s s' versions ks f k sc H). Qed.
Print Assumptions C97_unicat_metadata.
Example C97_example : number_at (nxfile motors [k1]) [L "S1"; L "metadata"; L "current"] (NF (FDec 1023 (-1))) [(L "spec_name", AText (L "current"))] /\
  text_at (nxfile motors [k1]) [L "S1"; L "metadata"; L "shutter"] (L "open") [(L "spec_name", AText (L "shutter"))].
Proof.
  assert (X : exists sc, saved E0 all_hids (opened motors) (opened motors) versions0 [k1] (after_save motors [k1]) (nxfile motors [k1]) k1 sc /\
    attr_is sc A_metadata [(L "current", MdF (FDec 1023 (-1))); (L "shutter", MdS (L "open"))]) by one_tac.
  destruct X as (sc & SV & H1). destruct (C97_unicat_metadata _ _ _ _ _ _ _ _ _ _ (incl_refl _) SV _ H1 ltac:(discriminate)) as (_ & _ & H). split.
  - apply (H (L "current") (MdF (FDec 1023 (-1)))). exists [], [(L "shutter", MdS (L "open"))]. split; [reflexivity|]. split; [apply ds_name_iff; reflexivity|]. intros y [<-|[]] Hy; apply ds_name_iff in Hy; discriminate Hy.
  - apply (H (L "shutter") (MdS (L "open"))). exists [(L "current", MdF (FDec 1023 (-1)))], []. split; [reflexivity|]. split; [apply ds_name_iff; reflexivity|]. intros y [].
Qed.

(* ------------------------------------------------------------------ *)
(** * C98: parameters that are read, but never saved *)
Definition xpcs (l : string) : path := one "ascan x 0 1 1 1" [l; "#N 2"; "#L a  b"; "1 2"]%string.
Definition reads (p : path) (x : attr) (v : ty x) : Prop := exists sc, dget (L "1") (scans (after_save p [k1])) = Some sc /\ attr_is sc x v.
(** two files that differ in such a line of a scan, and in the attribute of the scan it is read into, give the same NeXus file *)
Definition lost (x : attr) (a : string) (va : ty x) (b : string) (vb : ty x) : Prop :=
  history E0 all_hids (opened (xpcs a)) /\ history E0 all_hids (opened (xpcs b)) /\
  save E0 all_hids versions0 [k1] (opened (xpcs a)) = (after_save (xpcs a) [k1], nxfile (xpcs a) [k1], None) /\
  save E0 all_hids versions0 [k1] (opened (xpcs b)) = (after_save (xpcs b) [k1], nxfile (xpcs b) [k1], None) /\
  reads (xpcs a) x va /\ reads (xpcs b) x vb /\ va <> vb /\ nxfile (xpcs a) [k1] = nxfile (xpcs b) [k1].
Lemma lost_ok (x : attr) a (va : ty x) b (vb : ty x) : is_ok (open_file E0 all_hids (L "f") (xpcs a)) = true -> is_ok (open_file E0 all_hids (L "f") (xpcs b)) = true ->
  snd (nexus (xpcs a) [k1]) = None -> snd (nexus (xpcs b) [k1]) = None -> nxfile (xpcs a) [k1] = nxfile (xpcs b) [k1] ->
  (match dget (L "1") (scans (after_save (xpcs a) [k1])) with Some sc => attr_is sc x va | _ => False end) ->
  (match dget (L "1") (scans (after_save (xpcs b) [k1])) with Some sc => attr_is sc x vb | _ => False end) -> va <> vb -> lost x a va b vb.
Proof.
  intros A B C D F Ra Rb N. split; [apply opened_history; exact A|]. split; [apply opened_history; exact B|]. split; [apply nexus_ok; exact C|]. split; [apply nexus_ok; exact D|].
  split; [exact (ex_scan (L "1") (after_save (xpcs a) [k1]) (fun sc => attr_is sc x va) Ra)|]. split; [exact (ex_scan (L "1") (after_save (xpcs b) [k1]) (fun sc => attr_is sc x vb) Rb)|]. split; [exact N|exact F].
Qed.
Ltac lost_tac := apply lost_ok; [vm_compute; reflexivity|vm_compute; reflexivity|vm_compute; reflexivity|vm_compute; reflexivity|vm_compute; reflexivity|vm_compute; reflexivity|vm_compute; reflexivity|discriminate].
Theorem C98_scan_parameters_refuted :
  lost A_VA "#VA0 1 2" [(L "VA0", L "1 2")] "#VA0 3 4" [(L "VA0", L "3 4")] /\
  lost A_VD "#VD0 1 2" [(L "VD0", L "1 2")] "#VD0 3 4" [(L "VD0", L "3 4")] /\
  lost A_VE "#VE0 1 2" [(L "VE0", L "1 2")] "#VE0 3 4" [(L "VE0", L "3 4")] /\
  lost A_XPCS "#XPCS gain 1" [(L "gain", [L "1"])] "#XPCS gain 2" [(L "gain", [L "2"])] /\
  lost A_CCD "#CCD exposure 1" [(L "exposure", [L "1"])] "#CCD exposure 2" [(L "exposure", [L "2"])] /\
  lost A_UIM "#UIM a" [L "#UIM a"] "#UIM b" [L "#UIM b"].
Proof. repeat (split; [lost_tac|]). lost_tac. Qed.
Print Assumptions C98_scan_parameters_refuted.

(* ------------------------------------------------------------------ *)
(** * C99: the axes of scans in reciprocal space *)
Theorem C99_axes_of_hkl_scans_partial : forall E known s0 s versions ks s' f k sc, saved E known s0 s versions ks s' f k sc ->
  forall table labels w h0 hN k0 kN l0 lN rest axes, attr_is sc A_data table -> table <> [] -> attr_is sc A_L labels ->
    In w (map L ["hscan"; "kscan"; "lscan"; "hklscan"]%string) -> fields (s_cmd sc) (w :: h0 :: hN :: k0 :: kN :: l0 :: lN :: rest) ->
    moving [(L "H", h0, hN); (L "K", k0, kN); (L "L", l0, lN)] axes ->
  exists b, at_path f [entry_name k; L "data"] b /\ attribute f b (L "axes") (axes_attr axes) /\
    forall a, In a axes -> In a labels -> exists j, member f b a j.
Proof. exact HklFacts.saved_hkl. Qed.
Print Assumptions C99_axes_of_hkl_scans_partial.
Definition recip (c : string) : path := one c ["#N 4"; "#L H  K  L  det"; "1 0 2 5"; "1 0 3 6"]%string.
Lemma recip_axes c cmd ws w h0 hN k0 kN l0 lN rest axes :
  (exists sc, saved E0 all_hids (opened (recip c)) (opened (recip c)) versions0 [k1] (after_save (recip c) [k1]) (nxfile (recip c) [k1]) k1 sc /\
    s_cmd sc = cmd /\ attr_is sc A_L (map L ["H"; "K"; "L"; "det"]%string) /\ exists t, attr_is sc A_data t /\ t <> []) ->
  words cmd = ws -> ws = w :: h0 :: hN :: k0 :: kN :: l0 :: lN :: rest -> In w (map L ["hscan"; "kscan"; "lscan"; "hklscan"]%string) ->
  moving [(L "H", h0, hN); (L "K", k0, kN); (L "L", l0, lN)] axes ->
  exists b, at_path (nxfile (recip c) [k1]) [L "S1"; L "data"] b /\ attribute (nxfile (recip c) [k1]) b (L "axes") (axes_attr axes).
Proof.
  intros (sc & SV & Hc & Hl & t & Ht & Nt) Hw Ew In M.
  destruct (C99_axes_of_hkl_scans_partial _ _ _ _ _ _ _ _ _ _ SV t _ w h0 hN k0 kN l0 lN rest axes Ht Nt Hl In) as (b & B1 & B2 & _); [|exact M|exists b; auto].
  rewrite Hc. apply fields_words. congruence.
Qed.
Ltac recip_tac := apply one_saved; [vm_compute; reflexivity|vm_compute; reflexivity|vm_compute; reflexivity|vm_compute; reflexivity|
  vm_compute; split; [reflexivity|]; split; [reflexivity|]; eexists; split; [reflexivity|discriminate]].
Example C99_example : exists b, at_path (nxfile (recip "hklscan 1 1 0 2 2 3 1 1") [k1]) [L "S1"; L "data"] b /\
  attribute (nxfile (recip "hklscan 1 1 0 2 2 3 1 1") [k1]) b (L "axes") (ATexts (map L ["K"; "L"]%string)).
Proof.
  apply (recip_axes "hklscan 1 1 0 2 2 3 1 1" (L "hklscan 1 1 0 2 2 3 1 1") (map L ["hklscan"; "1"; "1"; "0"; "2"; "2"; "3"; "1"; "1"]%string)
    (L "hklscan") (L "1") (L "1") (L "0") (L "2") (L "2") (L "3") (map L ["1"; "1"]%string) (map L ["K"; "L"]%string)).
  - recip_tac.
  - vm_compute. reflexivity.
  - reflexivity.
  - right; right; right; left; reflexivity.
  - apply mv_no. apply mv_yes; [discriminate|]. apply mv_yes; [discriminate|]. constructor.
Qed.
(** numbers are compared as texts: "1" and "01" count as a movement *)
Theorem C99_axes_that_move_refuted : ~ forall E known s0 s versions ks s' f k sc, saved E known s0 s versions ks s' f k sc ->
  forall w h0 hN k0 kN l0 lN rest x, In w (map L ["hscan"; "kscan"; "lscan"; "hklscan"]%string) -> fields (s_cmd sc) (w :: h0 :: hN :: k0 :: kN :: l0 :: lN :: rest) ->
    py_float h0 = Ok x -> py_float hN = Ok x ->
  forall b axes, at_path f [entry_name k; L "data"] b -> attribute f b (L "axes") (axes_attr axes) -> ~ In (L "H") axes.
Proof.
  intros H.
  assert (X : exists sc, saved E0 all_hids (opened (recip "hklscan 1 01 0 0 2 3 1 1")) (opened (recip "hklscan 1 01 0 0 2 3 1 1")) versions0 [k1]
    (after_save (recip "hklscan 1 01 0 0 2 3 1 1") [k1]) (nxfile (recip "hklscan 1 01 0 0 2 3 1 1") [k1]) k1 sc /\
    s_cmd sc = L "hklscan 1 01 0 0 2 3 1 1" /\ attr_is sc A_L (map L ["H"; "K"; "L"; "det"]%string) /\ exists t, attr_is sc A_data t /\ t <> []) by recip_tac.
  destruct (recip_axes "hklscan 1 01 0 0 2 3 1 1" (L "hklscan 1 01 0 0 2 3 1 1") (map L ["hklscan"; "1"; "01"; "0"; "0"; "2"; "3"; "1"; "1"]%string)
    (L "hklscan") (L "1") (L "01") (L "0") (L "0") (L "2") (L "3") (map L ["1"; "1"]%string) (map L ["H"; "L"]%string) X) as (b & B1 & B2).
  - vm_compute. reflexivity.
  - reflexivity.
  - right; right; right; left; reflexivity.
  - apply mv_yes; [discriminate|]. apply mv_no. apply mv_yes; [discriminate|]. constructor.
  - destruct X as (sc & SV & Hc & _).
    apply (H _ _ _ _ _ _ _ _ _ _ SV (L "hklscan") (L "1") (L "01") (L "0") (L "0") (L "2") (L "3") (map L ["1"; "1"]%string) (FDec 1 0)) with (b := b) (axes := map L ["H"; "L"]%string);
      [right; right; right; left; reflexivity| |vm_compute; reflexivity|vm_compute; reflexivity|exact B1|exact B2|left; reflexivity].
    rewrite Hc. apply fields_words. vm_compute. reflexivity.
Qed.
Print Assumptions C99_axes_that_move_refuted.
