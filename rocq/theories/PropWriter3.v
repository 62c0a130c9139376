(** C70-C75: more about saved scans.
    Theorems only; proofs are in WriterFacts.v and SpectraFacts.v. *)
From Coq Require Import String Lia QArith.
From Verif Require Import Uni Py PyFacts Time Utils SpecUtils Keys Handlers Reader SpecText SpecReader SpecHistory SpecInterp SpecDecimal SpecNum InterpFacts ExampleFacts
  H5 SpecH5 Writer SpecWriter TableFacts WriterFacts SpectraFacts PropWriter.
Import ListNotations.
Local Open Scope list_scope.
Local Open Scope nat_scope.

(* ------------------------------------------------------------------ *)
(** * C70 *)

(** in a saved mesh with axes [x], [y], the value measured at xs[i], ys[i2] is element [i, i2] of its dataset: false *)
Theorem C70_values_at_their_coordinates_refuted : ~ forall E known s versions k s' f sc0 sc table, history E known s -> good_key k -> save E known versions [k] s = (s', f, None) ->
  getScan k s = Ok (Some sc0) -> dget (s_num sc0) (scans s') = Some sc -> attr_is sc A_data table ->
  forall b x y n cx cy cn jx jy jn w h xs ys vs, at_path f [entry_name k; L "data"] b -> attribute f b (L "axes") (ATexts [x; y]) ->
    dget x table = Some (Col cx) -> dget y table = Some (Col cy) -> dget n table = Some (Col cn) ->
    member f b x jx -> dataset f jx (HArr [w] (map NF xs)) -> member f b y jy -> dataset f jy (HArr [h] (map NF ys)) -> member f b n jn -> dataset f jn (HArr [w; h] (map NF vs)) ->
    NoDup xs -> NoDup ys ->
    forall r i i2 vx vy, nth_error cx r = Some vx -> nth_error xs i = Some vx -> nth_error cy r = Some vy -> nth_error ys i2 = Some vy ->
      nth_error vs (i * h + i2) = nth_error cn r.
Proof.
  intros H.
  destruct (ex_getScan k1 (opened grid) (fun sc => s_num sc = L "1")) as (sc0 & G1 & G2); [vm_compute; reflexivity|].
  destruct (ex_scan (L "1") (after_save grid [k1]) (fun sc => s_obj sc A_data = Some [(L "x", Col [FDec 0 0; FDec 1 0; FDec 0 0; FDec 1 0]); (L "y", Col [FDec 0 0; FDec 0 0; FDec 2 0; FDec 2 0]);
     (L "det", Col [FDec 1 0; FDec 2 0; FDec 3 0; FDec 4 0])])) as (sc & G3 & G4); [vm_compute; reflexivity|].
  assert (X : nth_error [FDec 1 0; FDec 2 0; FDec 3 0; FDec 4 0] (0 * 2 + 1) = nth_error [FDec 1 0; FDec 2 0; FDec 3 0; FDec 4 0] 2); [|discriminate X].
  refine (H E0 all_hids (opened grid) versions0 k1 (after_save grid [k1]) (nxfile grid [k1]) sc0 sc _ (opened_history grid ltac:(vm_compute; reflexivity)) (Forall_inv one_key)
    (nexus_ok grid [k1] None ltac:(vm_compute; reflexivity)) G1 ltac:(rewrite G2; exact G3) G4
    9 (L "x") (L "y") (L "det") [FDec 0 0; FDec 1 0; FDec 0 0; FDec 1 0] [FDec 0 0; FDec 0 0; FDec 2 0; FDec 2 0] _ 10 11 12 2 2 [FDec 0 0; FDec 1 0] [FDec 0 0; FDec 2 0] _
    _ _ eq_refl eq_refl eq_refl _ _ _ _ _ _ _ _ 2 0 1 (FDec 0 0) (FDec 2 0) eq_refl eq_refl eq_refl eq_refl).
  - econstructor; [unfold member; eexists; eexists; split; vm_compute; reflexivity|]. econstructor; [unfold member; eexists; eexists; split; vm_compute; reflexivity|]. constructor.
  - eexists. split; vm_compute; reflexivity.
  - eexists; eexists; split; vm_compute; reflexivity.
  - eexists; vm_compute; reflexivity.
  - eexists; eexists; split; vm_compute; reflexivity.
  - eexists; vm_compute; reflexivity.
  - eexists; eexists; split; vm_compute; reflexivity.
  - eexists; vm_compute; reflexivity.
  - repeat constructor; cbn; intuition discriminate.
  - repeat constructor; cbn; intuition discriminate.
Qed.
Print Assumptions C70_values_at_their_coordinates_refuted.
(** what is stored instead: point number r of the mesh is at [r / (n2 + 1), r mod (n2 + 1)], which is where it belongs
    only if there is a single row or column *)
Theorem C70_where_values_are_partial : forall E known s0 s versions ks1 k ks2 s1 f1 s' f, history E known s0 -> plain_mnemonics s0 -> saves E known s0 s ->
  Forall good_key (ks1 ++ k :: ks2) -> save E known versions ks1 s = (s1, f1, None) -> save E known versions (ks1 ++ k :: ks2) s = (s', f, None) ->
  forall sc0 s2 sc table labels, getScan k s1 = Ok (Some sc0) -> interpret E known (s_num sc0) s1 = (s2, None) -> dget (s_num sc0) (scans s2) = Some sc ->
  attr_is sc A_data table -> attr_is sc A_L labels -> NoDup labels ->
  forall m1 i1 m2 i2 n1 n2 x1 x2 c1 c2 d1 d2, mesh_scan (s_cmd sc) m1 i1 m2 i2 -> int_text i1 (Z.of_nat n1) ->
    axis_label table labels 0 m1 x1 -> axis_label table labels 1 m2 x2 -> x1 <> x2 -> dget x1 table = Some (Col c1) -> dget x2 table = Some (Col c2) ->
    List.length c1 = S n1 * S n2 -> List.length c2 = S n1 * S n2 -> own_name table labels x1 d1 -> own_name table labels x2 d2 ->
  forall x n cx, In x labels -> x <> x1 -> x <> x2 -> no_alias labels x -> own_name table labels x n ->
       (forall ws, ~ fields (s_cmd sc) (L "hklmesh" :: ws)) \/ ~ In x (map L ["H"; "K"; "L"]%string) ->
       dget x table = Some (Col cx) -> List.length cx = S n1 * S n2 ->
  exists b j vs, at_path f [entry_name k; L "data"] b /\ member f b n j /\ dataset f j (HArr [S n1; S n2] (map NF vs)) /\
    (forall r, r < S n1 * S n2 -> nth_error vs (r / S n2 * S n2 + r mod S n2) = nth_error cx r) /\
    (n1 = 0 \/ n2 = 0 -> forall i1 i2, i1 < S n1 -> i2 < S n2 -> nth_error vs (i1 * S n2 + i2) = nth_error cx (i2 * S n1 + i1)).
Proof.
  intros E known s0 s versions ks1 k ks2 s1 f1 s' f A1 A2 A3 A4 A5 A6 sc0 s2 sc table labels B1 B2 B3 B4 B5 B6 m1 i1 m2 i2 n1 n2 x1 x2 c1 c2 d1 d2
    C1 C2 C3 C4 C5 C6 C7 C8 C9 C10 C11 x n cx D1 D2 D3 D4 D5 D6 D7 D8.
  destruct (saved_grid E known s0 s versions ks1 k ks2 s1 f1 s' f A1 A2 A3 A4 A5 A6 sc0 s2 sc table labels B1 B2 B3 B4 B5 B6 m1 i1 m2 i2 n1 n2 x1 x2 c1 c2 d1 d2
    C1 C2 C3 C4 C5 C6 C7 C8 C9 C10 C11) as (b & P & _ & _ & _ & O). destruct (O x n cx D1 D2 D3 D4 D5 D6 D7 D8) as (j & J1 & J2 & _).
  exists b, j, cx. split; [exact P|]. split; [exact J1|]. split; [exact J2|]. split.
  - intros r _. f_equal. pose proof (Nat.div_mod r (S n2) ltac:(lia)). lia.
  - intros [->| ->] a c La Lc; f_equal; lia.
Qed.
Print Assumptions C70_where_values_are_partial.

(* ------------------------------------------------------------------ *)
(** * C71 *)
Theorem C71_signal_and_axes_partial : forall E known s0 s versions ks s' f, history E known s0 -> plain_mnemonics s0 -> saves E known s0 s -> Forall good_key ks ->
  save E known versions ks s = (s', f, None) ->
  forall k sc0 sc table labels first last, In k ks -> getScan k s = Ok (Some sc0) -> dget (s_num sc0) (scans s') = Some sc ->
    attr_is sc A_data table -> table <> [] -> attr_is sc A_L labels -> one_dim (s_cmd sc) -> ~ hkl_scan (s_cmd sc) ->
    attr_is sc A_column_first first -> attr_is sc A_column_last last -> In first labels -> In last labels ->
  exists b sg ax i j, at_path f [entry_name k; L "data"] b /\ attribute f b (L "signal") (AText sg) /\ member f b sg i /\ ds_name last sg /\
    attribute f b (L "axes") (AText ax) /\ member f b ax j /\ ds_name first ax.
Proof. exact saved_axes. Qed.
Print Assumptions C71_signal_and_axes_partial.
(** in a mesh the axes attribute has the labels, not the names of the datasets; both axes are said to have index 0 *)
Definition grid2 : path := one "mesh tth 0 1 1 y 0 2 1 1" ["#N 3"; "#L Two Theta  y  det"; "0 0 1"; "1 0 2"; "0 2 3"; "1 2 4"]%string.
Theorem C71_axes_name_datasets_refuted : ~ forall E known s versions k s' f, history E known s -> good_key k -> save E known versions [k] s = (s', f, None) ->
  forall b axes a, at_path f [entry_name k; L "data"] b -> attribute f b (L "axes") (ATexts axes) -> In a axes -> exists j, member f b a j.
Proof.
  intros H. destruct (H E0 all_hids (opened grid2) versions0 k1 (after_save grid2 [k1]) (nxfile grid2 [k1]) (opened_history grid2 ltac:(vm_compute; reflexivity)) (Forall_inv one_key)
    (nexus_ok grid2 [k1] None ltac:(vm_compute; reflexivity)) 9 (map L ["Two Theta"; "y"]%string) (L "Two Theta")) as (j & ms & a & X & Y).
  - econstructor; [unfold member; eexists; eexists; split; vm_compute; reflexivity|]. econstructor; [unfold member; eexists; eexists; split; vm_compute; reflexivity|]. constructor.
  - eexists. split; vm_compute; reflexivity.
  - left; reflexivity.
  - vm_compute in X. injection X; intros <- <-. vm_compute in Y. discriminate.
Qed.
Print Assumptions C71_axes_name_datasets_refuted.
Theorem C71_axis_indices_refuted : ~ forall E known s versions k s' f, history E known s -> good_key k -> save E known versions [k] s = (s', f, None) ->
  forall b x y, at_path f [entry_name k; L "data"] b -> attribute f b (L "axes") (ATexts [x; y]) -> ~ (attribute f b (x ++ L "_indices") (ANums [0%Z]) /\ attribute f b (y ++ L "_indices") (ANums [0%Z])).
Proof.
  intros H. apply (H E0 all_hids (opened grid) versions0 k1 (after_save grid [k1]) (nxfile grid [k1]) (opened_history grid ltac:(vm_compute; reflexivity)) (Forall_inv one_key)
    (nexus_ok grid [k1] None ltac:(vm_compute; reflexivity)) 9 (L "x") (L "y")).
  - econstructor; [unfold member; eexists; eexists; split; vm_compute; reflexivity|]. econstructor; [unfold member; eexists; eexists; split; vm_compute; reflexivity|]. constructor.
  - eexists. split; vm_compute; reflexivity.
  - split; eexists; (split; vm_compute; reflexivity).
Qed.
Print Assumptions C71_axis_indices_refuted.
Example C71_example : exists b sg ax i j, at_path (nxfile two [k1; k2]) [L "S1"; L "data"] b /\ attribute (nxfile two [k1; k2]) b (L "signal") (AText sg) /\ member (nxfile two [k1; k2]) b sg i /\
  attribute (nxfile two [k1; k2]) b (L "axes") (AText ax) /\ member (nxfile two [k1; k2]) b ax j.
Proof.
  destruct two_start as (A & B & C).
  destruct (ex_getScan k1 (opened two) (fun sc => s_num sc = L "1")) as (sc0 & G1 & G2); [vm_compute; reflexivity|].
  destruct (ex_scan (L "1") (after_save two [k1; k2]) (fun sc => s_obj sc A_L = Some (map L ["Two Theta"; "I0"; "det"]%string) /\ s_cmd sc = L "ascan x 0 1 1 1" /\
    s_obj sc A_data = Some [(L "Two Theta", Col [FDec 15 (-1); FDec 25 (-1)]); (L "I0", Col [FDec 10 0; FDec 20 0]); (L "det", Col [FDec 100 0; FDec 200 0])] /\
    s_obj sc A_column_first = Some (L "Two Theta") /\ s_obj sc A_column_last = Some (L "det"))) as (sc & G3 & G4 & G5 & G6 & G7 & G8).
  { vm_compute. auto. }
  destruct (C71_signal_and_axes_partial _ _ _ _ _ _ _ _ A B C two_keys two_saved k1 sc0 sc _ _ _ _ (or_introl eq_refl) G1 ltac:(rewrite G2; exact G3) G6 ltac:(discriminate) G4
    ltac:(rewrite G5; apply one_dim_b; vm_compute; reflexivity)
    ltac:(rewrite G5; intros (ws & w & F & W & Hin); apply fields_words in F; subst ws; vm_compute in W; injection W; intros <-; vm_compute in Hin; intuition discriminate)
    G7 G8 ltac:(left; reflexivity) ltac:(right; right; left; reflexivity)) as (b & sg & ax & i & j & Q1 & Q2 & Q3 & _ & Q4 & Q5 & _).
  exists b, sg, ax, i, j. auto.
Qed.

(* ------------------------------------------------------------------ *)
(** * C72, C75 *)

(** the spectra of a scan; [det] is a detector (mca, mca1, ...) with the spectra [rows0], one per point.
    The datasets _det_, _det_channel_ and _det_channel_scaled_x are those of this detector only. *)
Theorem C75_spectra_stored : forall E known s0 s versions ks s' f, history E known s0 -> plain_mnemonics s0 -> saves E known s0 s -> Forall good_key ks ->
  save E known versions ks s = (s', f, None) ->
  forall k sc0 sc table m det rows0, In k ks -> getScan k s = Ok (Some sc0) -> dget (s_num sc0) (scans s') = Some sc ->
    attr_is sc A_data table -> one_dim (s_cmd sc) -> dget (L "_mca_") table = Some (Mca m) -> In (det, rows0) m -> (forall r, In (det, r) m -> r = rows0) ->
  exists b row rows, at_path f [entry_name k; L "data"] b /\ rows0 = row :: rows /\ Forall (fun r => List.length r = List.length row) rows /\
    forall n, (forall x k' x', In x (map L [""; "channel_"; "channel_scaled_x"]%string) -> ds_name (L "_" ++ det ++ L "_" ++ x) n -> In k' (keys m) ->
                 In x' (map L [""; "channel_"; "channel_scaled_x"]%string) -> ds_name (L "_" ++ k' ++ L "_" ++ x') n -> k' = det /\ x' = x) ->
      (ds_name (L "_" ++ det ++ L "_") n -> exists j, member f b n j /\ dataset f j (HArr [List.length rows0; List.length row] (List.concat rows0))) /\
      (ds_name (L "_" ++ det ++ L "_channel_") n -> exists j, member f b n j /\ dataset f j (HArr [List.length row] (map (fun i => NI (Z.of_nat i)) (seq 1 (List.length row))))) /\
      (ds_name (L "_" ++ det ++ L "_channel_scaled_x") n -> exists j vs, member f b n j /\ dataset f j (HArr [List.length row] vs) /\ List.length vs = List.length row /\
          (forall a b0 c x y z, calib (s_obj sc) a b0 c -> num_is a x -> num_is b0 y -> num_is c z -> ~ (x == 0 /\ y == 0 /\ z == 0)%Q ->
             forall i v, nth_error vs i = Some v -> num_is v (x + inject_Z (Z.of_nat (S i)) * (y + inject_Z (Z.of_nat (S i)) * z))%Q) /\
          (s_obj sc A_MCA = None -> vs = repeat (NI 1) (List.length row))).
Proof. exact saved_spectra. Qed.
Print Assumptions C75_spectra_stored.
Example C75_example : exists b j, at_path (nxfile spectrum [k1]) [L "S1"; L "data"] b /\ member (nxfile spectrum [k1]) b (L "_mca_") j /\
  dataset (nxfile spectrum [k1]) j (HArr [2; 3] [NI 1; NI 2; NI 3; NI 4; NI 5; NI 6]).
Proof.
  destruct (ex_getScan k1 (opened spectrum) (fun sc => s_num sc = L "1")) as (sc0 & G1 & G2); [vm_compute; reflexivity|].
  destruct (ex_scan (L "1") (after_save spectrum [k1]) (fun sc => s_cmd sc = L "ascan x 0 1 1 1" /\
    s_obj sc A_data = Some [(L "x", Col [FDec 0 0; FDec 1 0]); (L "det", Col [FDec 1 0; FDec 2 0]); (L "_mca_", Mca [(L "mca", [[NI 1; NI 2; NI 3]; [NI 4; NI 5; NI 6]])])])) as (sc & G3 & G4 & G5).
  { vm_compute. auto. }
  destruct (C75_spectra_stored E0 all_hids (opened spectrum) (opened spectrum) versions0 [k1] _ _ (opened_history spectrum ltac:(vm_compute; reflexivity))
    (plain_mnemonics_ok (opened spectrum) ltac:(vm_compute; reflexivity)) (saves_none _ _ _) one_key (nexus_ok spectrum [k1] None ltac:(vm_compute; reflexivity))
    k1 sc0 sc _ [(L "mca", [[NI 1; NI 2; NI 3]; [NI 4; NI 5; NI 6]])] (L "mca") [[NI 1; NI 2; NI 3]; [NI 4; NI 5; NI 6]] (or_introl eq_refl) G1 ltac:(rewrite G2; exact G3) G5
    ltac:(rewrite G4; apply one_dim_b; vm_compute; reflexivity) eq_refl (or_introl eq_refl)) as (b & row & rows & P & R1 & _ & O).
  { intros r [X|[]]. congruence. }
  destruct (O (L "_mca_")) as (O1 & _).
  { intros x k' x' Hx Dx [<-|[]] Hx' Dx'. split; [reflexivity|]. apply ds_name_iff in Dx. apply ds_name_iff in Dx'.
    destruct Hx as [<-|[<-|[<-|[]]]]; try discriminate Dx. destruct Hx' as [<-|[<-|[<-|[]]]]; try discriminate Dx'. reflexivity. }
  destruct O1 as (j & J1 & J2); [apply ds_name_iff; reflexivity|]. exists b, j. split; [exact P|]. split; [exact J1|].
  injection R1; intros <- <-. exact J2.
Qed.
(** without calibration the scaled axis is not the channel number: all channels are at 1 *)
Theorem C72_uncalibrated_axis_refuted : ~ forall E known s versions k s' f sc0 sc, history E known s -> good_key k -> save E known versions [k] s = (s', f, None) ->
  getScan k s = Ok (Some sc0) -> dget (s_num sc0) (scans s') = Some sc -> s_obj sc A_MCA = None ->
  forall b j n vs, at_path f [entry_name k; L "data"] b -> member f b (L "_mca_channel_scaled_x") j -> dataset f j (HArr [n] vs) ->
    exists j2, member f b (L "_mca_channel_") j2 /\ dataset f j2 (HArr [n] vs).
Proof.
  intros H.
  destruct (ex_getScan k1 (opened spectrum) (fun sc => s_num sc = L "1")) as (sc0 & G1 & G2); [vm_compute; reflexivity|].
  destruct (ex_scan (L "1") (after_save spectrum [k1]) (fun sc => s_obj sc A_MCA = None)) as (sc & G3 & G4); [vm_compute; reflexivity|].
  destruct (H E0 all_hids (opened spectrum) versions0 k1 (after_save spectrum [k1]) (nxfile spectrum [k1]) sc0 sc (opened_history spectrum ltac:(vm_compute; reflexivity)) (Forall_inv one_key)
    (nexus_ok spectrum [k1] None ltac:(vm_compute; reflexivity)) G1 ltac:(rewrite G2; exact G3) G4 9 14 3 [NI 1; NI 1; NI 1]) as (j2 & M2 & D2).
  - econstructor; [unfold member; eexists; eexists; split; vm_compute; reflexivity|]. econstructor; [unfold member; eexists; eexists; split; vm_compute; reflexivity|]. constructor.
  - eexists; eexists; split; vm_compute; reflexivity.
  - eexists; vm_compute; reflexivity.
  - destruct M2 as (ms & a & X & Y). vm_compute in X. injection X; intros <- <-. vm_compute in Y. injection Y; intros <-. destruct D2 as (a2 & Z2). vm_compute in Z2. discriminate.
Qed.
Print Assumptions C72_uncalibrated_axis_refuted.
(** a calibrated axis is a + b n + c n^2 for channel n: C75.  Without any MCA line it is 1 for all channels. *)
Theorem C72_scaled_axis_partial : forall a b c x y z n, num_is a x -> num_is b y -> num_is c z ->
  num_is (scaled a b c n) (x + inject_Z n * (y + inject_Z n * z))%Q.
Proof. exact scaled_is. Qed.
Print Assumptions C72_scaled_axis_partial.
Example C72_example : num_is (scaled (NF (FDec 5 (-1))) (NI 2) (NI 0) 3) (13 # 2).
Proof. vm_compute. reflexivity. Qed.

(* ------------------------------------------------------------------ *)
(** * C73 *)
Definition no_unit : path := file (head ++ ["#S 1 ascan x 0 1 1 1"; "#D Wed Nov 03 13:48:06 2010"; "#T 1"; "#N 2"; "#L x  y"; "1 2"]%string) 5 6.
Definition short_hkl : path := one "hscan 0 1 10 1" ["#N 2"; "#L H  det"; "0 1"; "1 2"]%string.
Theorem C73_can_be_saved_refuted : ~ forall E known s versions k sc0 s2, history E known s -> good_key k -> getScan k s = Ok (Some sc0) ->
  interpret E known (s_num sc0) s = (s2, None) -> snd (save E known versions [k] s) = None.
Proof.
  intros H.
  destruct (ex_getScan k1 (opened no_unit) (fun sc => s_num sc = L "1")) as (sc0 & G1 & G2); [vm_compute; reflexivity|].
  assert (X : snd (save E0 all_hids versions0 [k1] (opened no_unit)) = Some ValueError) by (vm_compute; reflexivity).
  rewrite (H E0 all_hids (opened no_unit) versions0 k1 sc0 (fst (interpret E0 all_hids (L "1") (opened no_unit)))) in X; [discriminate X| | |exact G1|].
  - apply opened_history. vm_compute. reflexivity.
  - apply (Forall_inv one_key).
  - rewrite G2. apply step_ok. vm_compute. reflexivity.
Qed.
Print Assumptions C73_can_be_saved_refuted.
(** so are: a scan along h whose command has four arguments, and temperatures without sample *)
Example C73_short_hscan : snd (interpret E0 all_hids (L "1") (opened short_hkl)) = None /\ snd (nexus short_hkl [k1]) = Some ValueError.
Proof. split; vm_compute; reflexivity. Qed.

(* ------------------------------------------------------------------ *)
(** * C74 *)

(** saving more keys to a file leaves everything of the entries before as it was *)
Theorem C74_earlier_entries_unchanged_partial : forall E known s0 s versions ks more s1 f1 s' f' r, history E known s0 -> plain_mnemonics s0 -> saves E known s0 s ->
  Forall good_key ks -> Forall good_key more ->
  save E known versions ks s = (s1, f1, None) -> save E known versions (ks ++ more) s = (s', f', r) -> kept_in f1 f'.
Proof. exact save_kept. Qed.
Print Assumptions C74_earlier_entries_unchanged_partial.
Example C74_example : kept_in (nxfile two [k1]) (nxfile two [k1; k2]).
Proof.
  destruct two_start as (A & B & C).
  apply (C74_earlier_entries_unchanged_partial E0 all_hids _ _ versions0 [k1] [k2] _ _ _ _ None A B C one_key (Forall_inv_tail two_keys) (nexus_ok two [k1] None ltac:(vm_compute; reflexivity)) two_saved).
Qed.
