(** C58-C60, C70-C75: eznx calls, repeated saves, meshes and spectra.
    Theorems only; proofs are in EznxFacts.v, SaveSame.v, AgainFacts.v, MeshFacts.v, SpectraFacts.v. *)
From Coq Require Import String Lia QArith.
From Verif Require Import Uni Py PyFacts Time Utils SpecUtils Keys Handlers Reader SpecText SpecReader SpecHistory SpecInterp SpecDecimal SpecNum InterpFacts ExampleFacts
  H5 SpecH5 Writer SpecWriter TableFacts WriterFacts SaveSame EznxFacts SpectraFacts PropWriter.
Import ListNotations.
Local Open Scope list_scope.
Local Open Scope nat_scope.

(* ------------------------------------------------------------------ *)
(** * C58 *)

(** write_dataset under a single name: the name is that of a new dataset with the data and attributes given; the other members of the
    group and all other objects are as they were *)
Theorem C58_write_dataset : forall f o n d l v, eznx_file f -> is_group f (h_id o) -> plain_name n -> to_hval d = Ok v ->
  exists f' h, write_dataset o n d l f = (f', Ok h) /\ List.length f <= h_id h /\
    member f' (h_id o) n (h_id h) /\ dataset f' (h_id h) v /\
    (forall k x, In (k, x) l -> NoDup (map fst l) -> attribute f' (h_id h) k x) /\
    (forall m j, m <> n -> (member f' (h_id o) m j <-> member f (h_id o) m j)) /\
    (forall j, j <> h_id o -> j < List.length f -> nth_error f' j = nth_error f j) /\
    (forall k x, attribute f' (h_id o) k x <-> attribute f (h_id o) k x).
Proof. exact write_plain. Qed.
Print Assumptions C58_write_dataset.
(** openGroup, whatever the path and the outcome, loses no member and no dataset *)
Theorem C58_open_group_keeps : forall f o p c l f' r, eznx_file f -> openGroup o p c l f = (f', r) ->
  (forall i n j, member f i n j -> member f' i n j) /\ (forall i v, dataset f i v -> dataset f' i v) /\
  (forall i, is_group f i -> is_group f' i) /\ List.length f <= List.length f'.
Proof. exact open_keeps. Qed.
Print Assumptions C58_open_group_keeps.
Theorem C58_make_group_keeps : forall f o p c l f' r, eznx_file f -> makeGroup o p c l f = (f', r) ->
  (forall i n j, member f i n j -> member f' i n j) /\ (forall i v, dataset f i v -> dataset f' i v) /\
  (forall i, is_group f i -> is_group f' i) /\ List.length f <= List.length f'.
Proof. exact make_keeps. Qed.
Print Assumptions C58_make_group_keeps.
(** openGroup of a member gives that member *)
Theorem C58_open_existing : forall f o n c l i, eznx_file f -> plain_name n -> member f (h_id o) n i ->
  exists f' h, openGroup o n c l f = (f', Ok h) /\ h_id h = i.
Proof. exact open_existing. Qed.
Print Assumptions C58_open_existing.
Definition one_group : h5 := fst (makeGroup root (L "a") (L "NXdata") [] new_file).
Definition with_x : h5 := fst (write_dataset root (L "x") (DNum (NI 1)) [] one_group).
Lemma with_x_file : eznx_file with_x.
Proof.
  unfold with_x. destruct (write_dataset root (L "x") (DNum (NI 1)) [] one_group) as [f r] eqn:E1. cbn [fst]. eapply E_write; [|exact E1].
  unfold one_group. destruct (makeGroup root (L "a") (L "NXdata") [] new_file) as [f0 r0] eqn:E2. cbn [fst]. eapply E_make; [|exact E2]. constructor.
Qed.
Example C58_example : exists f' h, write_dataset root (L "x") (DNums [NI 5; NI 6]) [] with_x = (f', Ok h) /\ dataset f' (h_id h) (HArr [2] [NI 5; NI 6]) /\ member f' 0 (L "a") 1.
Proof.
  destruct (C58_write_dataset with_x root (L "x") (DNums [NI 5; NI 6]) [] (HArr [2] [NI 5; NI 6]) with_x_file) as (f' & h & A & _ & _ & B & _ & C & _).
  - eexists. eexists. reflexivity.
  - split; [discriminate|split; [discriminate|]]. intros [X|[]]; discriminate X.
  - reflexivity.
  - exists f', h. split; [exact A|]. split; [exact B|]. apply (C (L "a") 1); [discriminate|]. eexists. eexists. split; reflexivity.
Qed.
(** if the new data cannot be stored, the old ones are gone all the same *)
Theorem C58_failed_write_refuted : ~ forall f o n d l f' e, eznx_file f -> write_dataset o n d l f = (f', Raise e) -> forall j, member f (h_id o) n j -> member f' (h_id o) n j.
Proof.
  intros H. specialize (H with_x root (L "x") (DRows [[NI 1]; [NI 2; NI 3]]) [] _ _ with_x_file eq_refl 2).
  destruct H as (ms & a & X & Y); [eexists; eexists; split; reflexivity|]. vm_compute in X. injection X; intros <- <-. vm_compute in Y. discriminate.
Qed.
Print Assumptions C58_failed_write_refuted.

(* ------------------------------------------------------------------ *)
(** * C59 *)

(** after saving any scans that are not meshes, saving anything gives the same file and outcome as without *)
Theorem C59_saving_leaves_no_trace_partial : forall E known versions ks s versions2 ks2, all_interpreted s -> Forall (flat_scan s) ks ->
  snd (save E known versions2 ks2 (fst (fst (save E known versions ks s)))) = snd (save E known versions2 ks2 s) /\
  snd (fst (save E known versions2 ks2 (fst (fst (save E known versions ks s))))) = snd (fst (save E known versions2 ks2 s)).
Proof. exact save_no_trace. Qed.
Print Assumptions C59_saving_leaves_no_trace_partial.
(** saving, successful or not, changes nothing of an interpreted scan but its cross references and the labels of a mesh *)
Theorem C59_scans_unchanged_partial : forall E known versions ks s s' f r, all_interpreted s -> save E known versions ks s = (s', f, r) ->
  keys (scans s') = keys (scans s) /\
  forall n sc, dget n (scans s) = Some sc -> exists sc', dget n (scans s') = Some sc' /\ s_raw sc' = s_raw sc /\ s_num sc' = s_num sc /\ s_cmd sc' = s_cmd sc /\
    forall a, a <> A_counter_xref -> a <> A_positioner_xref -> (a = A_L -> one_dim (s_cmd sc)) -> s_obj sc' a = s_obj sc a.
Proof. exact save_unchanged. Qed.
Print Assumptions C59_scans_unchanged_partial.
(** a mesh can be saved only once: the labels of its axes are taken out of scan.L *)
Theorem C59_mesh_saved_twice_refuted : ~ forall E known versions ks s, history E known s -> all_interpreted s -> snd (save E known versions ks s) = None ->
  snd (save E known versions ks (fst (fst (save E known versions ks s)))) = None.
Proof.
  intros H. specialize (H E0 all_hids versions0 [k1] (interpreted "1" (opened grid))).
  assert (X : snd (save E0 all_hids versions0 [k1] (fst (fst (save E0 all_hids versions0 [k1] (interpreted "1" (opened grid)))))) = Some ValueError) by (vm_compute; reflexivity).
  rewrite X in H. discriminate H.
  - unfold interpreted. apply Hist_interpret. apply opened_history. vm_compute. reflexivity.
  - unfold all_interpreted. rewrite Forall_forall. intros kv Hin.
    assert (A : forallb (fun kv => s_done (snd kv)) (scans (interpreted "1" (opened grid))) = true) by (vm_compute; reflexivity).
    rewrite forallb_forall in A. apply A. exact Hin.
  - vm_compute. reflexivity.
Qed.
Print Assumptions C59_mesh_saved_twice_refuted.
Definition two_done : sdf := interpreted "2" (interpreted "1" (opened two)).
Example C59_example : snd (fst (save E0 all_hids versions0 [k1; k2] (fst (fst (save E0 all_hids versions0 [k1; k2] two_done))))) = snd (fst (save E0 all_hids versions0 [k1; k2] two_done)).
Proof.
  apply C59_saving_leaves_no_trace_partial.
  - unfold all_interpreted. rewrite Forall_forall. intros kv Hin.
    assert (A : forallb (fun kv => s_done (snd kv)) (scans two_done) = true) by (vm_compute; reflexivity).
    rewrite forallb_forall in A. apply A. exact Hin.
  - assert (G : forall sc0 sc, dget (s_num sc0) (scans two_done) = Some sc -> one_dim (s_cmd sc)); [|repeat (constructor; [intros sc0 sc _ Hd; eapply G; exact Hd|]); constructor].
    intros sc0 sc Hd. apply dget_In in Hd.
    assert (A : forallb (fun kv => match words (s_cmd (snd kv)) with w :: _ => negb (seqb w (L "mesh") || seqb w (L "hklmesh")) | [] => true end) (scans two_done) = true) by (vm_compute; reflexivity).
    rewrite forallb_forall in A. apply one_dim_b. exact (A _ Hd).
Qed.

(* ------------------------------------------------------------------ *)
(** * C60 *)

(** a completed mesh of (n1 + 1) x (n2 + 1) points; [x1], [x2] are the columns of its motors *)
Theorem C60_mesh_stored_partial : forall E known s0 s versions ks1 k ks2 s1 f1 s' f, history E known s0 -> plain_mnemonics s0 -> saves E known s0 s ->
  Forall good_key (ks1 ++ k :: ks2) -> save E known versions ks1 s = (s1, f1, None) -> save E known versions (ks1 ++ k :: ks2) s = (s', f, None) ->
  forall sc0 s2 sc table labels, getScan k s1 = Ok (Some sc0) -> interpret E known (s_num sc0) s1 = (s2, None) -> dget (s_num sc0) (scans s2) = Some sc ->
  attr_is sc A_data table -> attr_is sc A_L labels -> NoDup labels ->
  forall m1 i1 m2 i2 n1 n2 x1 x2 c1 c2 d1 d2, mesh_scan (s_cmd sc) m1 i1 m2 i2 -> int_text i1 (Z.of_nat n1) ->
    axis_label table labels 0 m1 x1 -> axis_label table labels 1 m2 x2 -> x1 <> x2 -> dget x1 table = Some (Col c1) -> dget x2 table = Some (Col c2) ->
    List.length c1 = S n1 * S n2 -> List.length c2 = S n1 * S n2 -> own_name table labels x1 d1 -> own_name table labels x2 d2 ->
  exists b, at_path f [entry_name k; L "data"] b /\ nx_group f b "NXdata" /\
    (exists j, member f b d1 j /\ dataset f j (HArr [S n1] (map NF (firstn (S n1) c1))) /\ attribute f j (L "spec_name") (AText x1)) /\
    (exists j ys, member f b d2 j /\ dataset f j (HArr [S n2] (map NF ys)) /\ attribute f j (L "spec_name") (AText x2) /\
       List.length ys = S n2 /\ forall i, i < S n2 -> nth_error ys i = nth_error c2 (i * S n1)) /\
    (forall x n cx, In x labels -> x <> x1 -> x <> x2 -> no_alias labels x -> own_name table labels x n ->
       (forall ws, ~ fields (s_cmd sc) (L "hklmesh" :: ws)) \/ ~ In x (map L ["H"; "K"; "L"]%string) ->
       dget x table = Some (Col cx) -> List.length cx = S n1 * S n2 ->
       exists j, member f b n j /\ dataset f j (HArr [S n1; S n2] (map NF cx)) /\ attribute f j (L "spec_name") (AText x)).
Proof. exact saved_grid. Qed.
Print Assumptions C60_mesh_stored_partial.

Lemma int_text_1 : int_text (L "1") 1.
Proof.
  exists [], false, (L "1"). split; [left; auto|]. split; [discriminate|]. split; [|split; reflexivity].
  constructor; [|constructor]. split; vm_compute; discriminate.
Qed.
Definition cols_of (l : list (string * list Z)) : dict col := map (fun kv => (L (fst kv), Col (map (fun z => FDec z 0) (snd kv)))) l.
Definition grid_table : dict col := cols_of [("x", [0; 1; 0; 1]%Z); ("y", [0; 0; 2; 2]%Z); ("det", [1; 2; 3; 4]%Z)]%string.
Definition grid_labels : list str := map L ["x"; "y"; "det"]%string.
Lemma grid_start : history E0 all_hids (opened grid) /\ plain_mnemonics (opened grid) /\ saves E0 all_hids (opened grid) (opened grid).
Proof. split; [apply opened_history; vm_compute; reflexivity|]. split; [apply plain_mnemonics_ok; vm_compute; reflexivity|constructor]. Qed.
Lemma grid_saved : save E0 all_hids versions0 [k1] (opened grid) = (after_save grid [k1], nxfile grid [k1], None).
Proof. apply nexus_ok. vm_compute. reflexivity. Qed.
Definition grid0 := save E0 all_hids versions0 [] (opened grid).
Lemma grid_own x : In x grid_labels -> own_name grid_table grid_labels x x.
Proof.
  intros Hx. assert (C : forall y, In y (grid_labels ++ map L ["H"; "K"; "L"]%string) -> clean_name y = Ok y).
  { intros y Hy. repeat (destruct Hy as [<-|Hy]; [reflexivity|]). destruct Hy. }
  split; [apply ds_name_iff; apply C; apply in_app_iff; auto|]. split.
  - intros y Hy N D. apply ds_name_iff in D. rewrite (C y Hy) in D. congruence.
  - apply no_mca. reflexivity.
Qed.
Example C60_example : exists b jx jy jd, at_path (nxfile grid [k1]) [L "S1"; L "data"] b /\
  member (nxfile grid [k1]) b (L "x") jx /\ dataset (nxfile grid [k1]) jx (HArr [2] (map NF [FDec 0 0; FDec 1 0])) /\
  member (nxfile grid [k1]) b (L "y") jy /\ dataset (nxfile grid [k1]) jy (HArr [2] (map NF [FDec 0 0; FDec 2 0])) /\
  member (nxfile grid [k1]) b (L "det") jd /\ dataset (nxfile grid [k1]) jd (HArr [2; 2] (map NF [FDec 1 0; FDec 2 0; FDec 3 0; FDec 4 0])).
Proof.
  destruct grid_start as (A & B & C).
  assert (G0 : save E0 all_hids versions0 [] (opened grid) = (fst (fst grid0), snd (fst grid0), None)).
  { assert (X : snd grid0 = None) by (vm_compute; reflexivity). unfold grid0 in *. destruct (save E0 all_hids versions0 [] (opened grid)) as [[s f] r]. cbn in *. congruence. }
  destruct (ex_getScan k1 (fst (fst grid0)) (fun sc => s_num sc = L "1")) as (sc0 & G1 & G2); [vm_compute; reflexivity|].
  assert (G3 : interpret E0 all_hids (s_num sc0) (fst (fst grid0)) = (fst (interpret E0 all_hids (L "1") (fst (fst grid0))), None)).
  { rewrite G2. apply step_ok. vm_compute. reflexivity. }
  destruct (ex_scan (L "1") (fst (interpret E0 all_hids (L "1") (fst (fst grid0)))) (fun sc => s_obj sc A_L = Some grid_labels /\ s_cmd sc = L "mesh x 0 1 1 y 0 2 1 1" /\ s_obj sc A_data = Some grid_table)) as (sc & G4 & G5 & G6 & G7).
  { vm_compute. auto. }
  assert (MS : mesh_scan (s_cmd sc) (L "x") (L "1") (L "y") (L "1")).
  { rewrite G6. exists (L "mesh"), (L "0"), (L "1"), (L "0"), (L "2"), (L "1"). split; [left; reflexivity|]. apply fields_words. vm_compute. reflexivity. }
  assert (IT : int_text (L "1") (Z.of_nat 1)) by apply int_text_1.
  destruct (C60_mesh_stored_partial E0 all_hids _ _ versions0 [] k1 [] _ _ _ _ A B C one_key G0 grid_saved sc0 _ sc grid_table grid_labels G1 G3 ltac:(rewrite G2; exact G4) G7 G5
    ltac:(repeat constructor; vm_compute; intuition discriminate) (L "x") (L "1") (L "y") (L "1") 1 1 (L "x") (L "y") _ _ (L "x") (L "y") MS IT
    ltac:(left; split; [discriminate|reflexivity]) ltac:(left; split; [discriminate|reflexivity]) ltac:(discriminate) eq_refl eq_refl eq_refl eq_refl
    (grid_own _ ltac:(left; reflexivity)) (grid_own _ ltac:(right; left; reflexivity)))
    as (b & P & _ & (jx & X1 & X2 & _) & (jy & ys & Y1 & Y2 & _ & Y3 & Y4) & O).
  destruct (O (L "det") (L "det") [FDec 1 0; FDec 2 0; FDec 3 0; FDec 4 0] ltac:(right; right; left; reflexivity) ltac:(discriminate) ltac:(discriminate)) as (jd & D1 & D2 & _).
  - split; [split; [discriminate|split; [discriminate|vm_compute; intuition discriminate]]|]. intros y Hy N D. apply ds_name_iff in D.
    repeat (destruct Hy as [<-|Hy]; [try (discriminate D); congruence|]). destruct Hy.
  - apply grid_own. right; right; left; reflexivity.
  - right. vm_compute. intuition discriminate.
  - reflexivity.
  - reflexivity.
  - exists b, jx, jy, jd. split; [exact P|]. split; [exact X1|]. split; [exact X2|]. split; [exact Y1|]. split; [|split; [exact D1|exact D2]].
    assert (Ey : ys = [FDec 0 0; FDec 2 0]); [|rewrite Ey in Y2; exact Y2].
    destruct ys as [|a [|c [|]]]; try discriminate Y3. pose proof (Y4 0 ltac:(lia)) as Z0. pose proof (Y4 1 ltac:(lia)) as Z1. vm_compute in Z0, Z1. congruence.
Qed.
