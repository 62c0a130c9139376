(** C111: what the detector lines of a scan say, in its entry of the saved file *)
From Coq Require Import String.
From Verif Require Import Py Utils Keys Handlers Reader SpecUtils SpecHistory SpecMca H5 SpecH5 Writer SpecWriter SpecEntry McaEntry ExampleFacts PropWriter PropEntry.
Import ListNotations.
Local Open Scope list_scope.

(** the constants of the calibration, by their letters *)
Theorem C111_calibration : forall E known s0 s versions ks s' f k sc d c v, saved E known s0 s versions ks s' f k sc ->
  detector sc "CALIB" (MCalib d) -> In c ["a"; "b"; "c"]%string -> dget (L c) d = Some v ->
  number_at f [entry_name k; L "MCA"; L ("calib_" ++ c)] v [].
Proof. intros E known s0 s versions ks s' f k sc d c v H. exact (e_calib E known s0 s versions ks s' f k sc H d c v). Qed.
Print Assumptions C111_calibration.
(** the four numbers of the channels *)
Theorem C111_channels : forall E known s0 s versions ks s' f k sc n v, saved E known s0 s versions ks s' f k sc ->
  In n ["number_saved"; "first_saved"; "last_saved"; "reduction_coef"]%string -> detector sc n (MNum v) ->
  number_at f [entry_name k; L "MCA"; L n] v [].
Proof. intros E known s0 s versions ks s' f k sc n v H. exact (e_chann E known s0 s versions ks s' f k sc H n v). Qed.
Print Assumptions C111_channels.
(** the three times, in seconds *)
Theorem C111_times : forall E known s0 s versions ks s' f k sc n v, saved E known s0 s versions ks s' f k sc ->
  In n ["preset_time"; "elapsed_live_time"; "elapsed_real_time"]%string -> detector sc n (MNum v) ->
  number_at f [entry_name k; L "MCA"; L n] v [att "units" "s"].
Proof. intros E known s0 s versions ks s' f k sc n v H. exact (e_ctime E known s0 s versions ks s' f k sc H n v). Qed.
Print Assumptions C111_times.

Definition mca_file : path := one "ascan x 0 1 1 1" ["#@CALIB 1 2 3"; "#@CHANN 2048 0 2047 1"; "#G0 1 2"; "#@CTIME 1 0.5 1.5"; "#@ROI Fe 600 680"; "#U mine"; "#@CALIB 0 0.5 0 more"; "#N 2"; "#L a  b"; "1 2"]%string.
Lemma mca_saved : exists sc, saved E0 all_hids (opened mca_file) (opened mca_file) versions0 [k1] (after_save mca_file [k1]) (nxfile mca_file [k1]) k1 sc /\
  exists m, s_obj sc A_MCA = Some m /\ dget (L "CALIB") m = Some (MCalib [(L "a", NF (FDec 0 0)); (L "b", NF (FDec 5 (-1))); (L "c", NF (FDec 0 0))]) /\
    dget (L "number_saved") m = Some (MNum (NI 2048)) /\ dget (L "reduction_coef") m = Some (MNum (NF (FDec 1 0))) /\ dget (L "elapsed_real_time") m = Some (MNum (NF (FDec 15 (-1)))).
Proof. apply one_saved; vm_compute; auto. eexists. repeat split. Qed.
Example C111_example : let f := nxfile mca_file [k1] in
  number_at f [L "S1"; L "MCA"; L "calib_b"] (NF (FDec 5 (-1))) [] /\ number_at f [L "S1"; L "MCA"; L "number_saved"] (NI 2048) [] /\
  number_at f [L "S1"; L "MCA"; L "reduction_coef"] (NF (FDec 1 0)) [] /\ number_at f [L "S1"; L "MCA"; L "elapsed_real_time"] (NF (FDec 15 (-1))) [att "units" "s"].
Proof.
  destruct mca_saved as (sc & SV & m & Hm & D1 & D2 & D3 & D4). cbv zeta. repeat split.
  - refine (C111_calibration _ _ _ _ _ _ _ _ _ _ _ "b" _ SV (ex_intro _ m (conj Hm D1)) _ eq_refl). simpl; tauto.
  - refine (C111_channels _ _ _ _ _ _ _ _ _ _ _ _ SV _ (ex_intro _ m (conj Hm D2))). simpl; tauto.
  - refine (C111_channels _ _ _ _ _ _ _ _ _ _ _ _ SV _ (ex_intro _ m (conj Hm D3))). simpl; tauto.
  - refine (C111_times _ _ _ _ _ _ _ _ _ _ _ _ SV _ (ex_intro _ m (conj Hm D4))). simpl; tauto.
Qed.
