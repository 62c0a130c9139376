(** C86-C89: detector lines, keyed lines of plugins, #Q and #X lines.  Theorems only; proofs are in McaFacts.v, KeyedFacts.v. *)
From Coq Require Import String Lia.
From Verif Require Import Uni Py PyFacts Time Utils Keys Handlers Reader SpecText SpecReader SpecHistory SpecKeys SpecInterp SpecMeta SpecDecimal SpecScanf SpecMca
  KeyFacts DispatchFacts InterpFacts HandlerFacts ExampleFacts McaFacts KeyedFacts.
Import ListNotations.
Local Open Scope list_scope.

(** a scan with all these lines *)
Definition many : path := file (head ++
  ["#S 1 ascan x 0 1 1 1"; "#D Wed Nov 03 13:48:06 2010"; "#@CALIB 1 2 3"; "#@CHANN 2048 0 2047 1"; "#@CTIME 1 0.5 1.5"; "#@ROI Fe Ka 600 680"; "#@ROI Cu 700 900";
   "#@ROI Fe Ka 601 681"; "#@CALIB 0 0.5 0 junk"; "#VA0 first"; "#VA1 second"; "#VA0 third  one"; "#XPCS gain 1 2"; "#XPCS preset 3"; "#CCD x y"; "#UIM file.img"; "#UIMx other.img";
   "#Q 1 2 3"; "#Q 1 0 0.5"; "#Q  "; "#X 10.0Kohm (24.2C)"; "#X -1.5 2."; "#N 2"; "#L x  y"; "1 2"]%string) 5 6.
Lemma many_interpreted : first_interpret E0 all_hids (opened many) (L "1") (scan_of "1" (opened many)) (interpreted "1" (opened many)) (scan_of "1" (interpreted "1" (opened many))).
Proof. apply interpreted_ok; vm_compute; reflexivity. Qed.

(* ------------------------------------------------------------------ *)
(** * C86 *)

(** the calibration is that of the last #@CALIB line: its first three numbers *)
Theorem C86_calibration : forall E known, incl all_hids known -> forall s name sc s' sc' ls,
  first_interpret E known s name sc s' sc' -> lines_of (s_raw sc) ls ->
  (Forall (fun l => ~ control H_CALIB l) ls /\ no_detector sc' "CALIB") \/
  exists l t wa wb wc rest a b c, last_line_of H_CALIB ls l /\ content l t /\ fields t (wa :: wb :: wc :: rest) /\
    py_float wa = Ok a /\ py_float wb = Ok b /\ py_float wc = Ok c /\
    detector sc' "CALIB" (MCalib [(L "a", NF a); (L "b", NF b); (L "c", NF c)]).
Proof. exact C86_calib_lemma. Qed.
Print Assumptions C86_calibration.
(** the channels are those of the last #@CHANN line *)
Theorem C86_channels : forall E known, incl all_hids known -> forall s name sc s' sc' ls,
  first_interpret E known s name sc s' sc' -> lines_of (s_raw sc) ls ->
  (Forall (fun l => ~ control H_CHANN l) ls /\ no_detector sc' "number_saved" /\ no_detector sc' "first_saved" /\ no_detector sc' "last_saved" /\ no_detector sc' "reduction_coef") \/
  exists l t wa wb wc rest a b c r, last_line_of H_CHANN ls l /\ content l t /\ fields t (wa :: wb :: wc :: rest) /\
    py_int wa = Ok a /\ py_int wb = Ok b /\ py_int wc = Ok c /\ py_float (last rest wc) = Ok r /\
    detector sc' "number_saved" (MNum (NI a)) /\ detector sc' "first_saved" (MNum (NI b)) /\ detector sc' "last_saved" (MNum (NI c)) /\ detector sc' "reduction_coef" (MNum (NF r)).
Proof. exact C86_chann_lemma. Qed.
Print Assumptions C86_channels.
(** the counting times are those of the last #@CTIME line *)
Theorem C86_times : forall E known, incl all_hids known -> forall s name sc s' sc' ls,
  first_interpret E known s name sc s' sc' -> lines_of (s_raw sc) ls ->
  (Forall (fun l => ~ control H_CTIME l) ls /\ no_detector sc' "preset_time" /\ no_detector sc' "elapsed_live_time" /\ no_detector sc' "elapsed_real_time") \/
  exists l t wa wb wc a b c, last_line_of H_CTIME ls l /\ content l t /\ fields t [wa; wb; wc] /\
    py_float wa = Ok a /\ py_float wb = Ok b /\ py_float wc = Ok c /\
    detector sc' "preset_time" (MNum (NF a)) /\ detector sc' "elapsed_live_time" (MNum (NF b)) /\ detector sc' "elapsed_real_time" (MNum (NF c)).
Proof. exact C86_ctime_lemma. Qed.
Print Assumptions C86_times.
Definition mca_text (k : string) (sc : scan) : option mcaval := match s_obj sc A_MCA with Some m => dget (L k) m | None => None end.
Example C86_applies : let sc := scan_of "1" (interpreted "1" (opened many)) in
  mca_text "CALIB" sc = Some (MCalib [(L "a", NF (FDec 0 0)); (L "b", NF (FDec 5 (-1))); (L "c", NF (FDec 0 0))]) /\
  mca_text "last_saved" sc = Some (MNum (NI 2047)) /\ mca_text "elapsed_real_time" sc = Some (MNum (NF (FDec 15 (-1)))).
Proof. repeat split; vm_compute; reflexivity. Qed.

(* ------------------------------------------------------------------ *)
(** * C87 *)

(** regions of interest, if each #@ROI line has the blanks between its three parts; the last line with a name counts *)
Theorem C87_regions_partial : forall E known, incl all_hids known -> forall s name sc s' sc' ls,
  first_interpret E known s name sc s' sc' -> lines_of (s_raw sc) ls ->
  Forall (fun l => control H_ROI l -> two_blanks l) ls ->
  exists rs o, Keeps (control H_ROI) ls rs /\ Forall (fun l => exists nm f z, roi_line l nm f z) rs /\ (forall v, detector sc' "ROI" v <-> exists d, o = Some d /\ v = MRoi d) /\
    from_lines o rs (fun l k => exists f z, roi_line l k f z) (fun l v => exists k, roi_line l k (fst v) (snd v)).
Proof. exact C87_lemma. Qed.
Print Assumptions C87_regions_partial.
Example C87_applies : mca_text "ROI" (scan_of "1" (interpreted "1" (opened many))) = Some (MRoi [(L "Fe Ka", (601, 681)%Z); (L "Cu", (700, 900)%Z)]) /\
  two_blanks (L "#@ROI Cu 700 900") /\ roi_line (L "#@ROI Fe Ka 600 680") (L "Fe Ka") 600 680.
Proof.
  split; [vm_compute; reflexivity|]. split.
  - exists (L "Cu"), (L "700"), (L "900"). apply content_strip; [vm_compute; tauto|vm_compute; reflexivity].
  - exists (L "Fe Ka"), (L "600"), (L "680"). split; [apply content_strip; [vm_compute; tauto|vm_compute; reflexivity]|].
    split; [vm_compute; intros Q; decompose [or] Q; try discriminate; auto|]. split; [vm_compute; intros Q; decompose [or] Q; try discriminate; auto|].
    split; [apply MetaLineFacts.trimmed_strip; vm_compute; reflexivity|]. split; vm_compute; reflexivity.
Qed.
(** without a name, or with a tab, digits of the first channel are taken for the name *)
Definition odd_roi : path := file (head ++ ["#S 1 ascan x 0 1 1 1"; "#D Wed Nov 03 13:48:06 2010"; "#@ROI 100 200"; "#N 2"; "#L x  y"; "1 2"]%string) 5 6.
Theorem C87_no_name_refuted : exists s name sc s' sc', first_interpret E0 all_hids s name sc s' sc' /\
  lines_of (s_raw sc) (map L ["#S 1 ascan x 0 1 1 1"; "#D Wed Nov 03 13:48:06 2010"; "#@ROI 100 200"; "#N 2"; "#L x  y"; "1 2"]%string) /\
  detector sc' "ROI" (MRoi [(L "10", (0, 200)%Z)]).
Proof.
  exists (opened odd_roi), (L "1"), (scan_of "1" (opened odd_roi)), (interpreted "1" (opened odd_roi)), (scan_of "1" (interpreted "1" (opened odd_roi))).
  split; [apply interpreted_ok; vm_compute; reflexivity|]. split; [apply lines_of_scan_lines; vm_compute; reflexivity|].
  exists [(L "ROI", MRoi [(L "10", (0, 200)%Z)])]. split; vm_compute; reflexivity.
Qed.
Print Assumptions C87_no_name_refuted.

(* ------------------------------------------------------------------ *)
(** * C88 *)

Theorem C88_VA_lines : forall E known, incl all_hids known -> forall s name sc s' sc' ls,
  first_interpret E known s name sc s' sc' -> lines_of (s_raw sc) ls ->
  exists rs, Keeps (control H_VA) ls rs /\ from_lines (s_obj sc' A_VA) rs (fun l k => first_word_is l (L "#" ++ k)) content.
Proof. exact C88_VA_lemma. Qed.
Print Assumptions C88_VA_lines.
Theorem C88_VD_lines : forall E known, incl all_hids known -> forall s name sc s' sc' ls,
  first_interpret E known s name sc s' sc' -> lines_of (s_raw sc) ls ->
  exists rs, Keeps (control H_VD) ls rs /\ from_lines (s_obj sc' A_VD) rs (fun l k => first_word_is l (L "#" ++ k)) content.
Proof. exact C88_VD_lemma. Qed.
Print Assumptions C88_VD_lines.
Theorem C88_VE_lines : forall E known, incl all_hids known -> forall s name sc s' sc' ls,
  first_interpret E known s name sc s' sc' -> lines_of (s_raw sc) ls ->
  exists rs, Keeps (control H_VE) ls rs /\ from_lines (s_obj sc' A_VE) rs (fun l k => first_word_is l (L "#" ++ k)) content.
Proof. exact C88_VE_lemma. Qed.
Print Assumptions C88_VE_lines.
Theorem C88_XPCS_lines : forall E known, incl all_hids known -> forall s name sc s' sc' ls,
  first_interpret E known s name sc s' sc' -> lines_of (s_raw sc) ls ->
  exists rs, Keeps (control H_XPCS) ls rs /\
    from_lines (s_obj sc' A_XPCS) rs (fun l k => exists t v, content l t /\ fields t (k :: v)) (fun l v => exists t k, content l t /\ fields t (k :: v)).
Proof. exact C88_XPCS_lemma. Qed.
Print Assumptions C88_XPCS_lines.
Theorem C88_CCD_lines : forall E known, incl all_hids known -> forall s name sc s' sc' ls,
  first_interpret E known s name sc s' sc' -> lines_of (s_raw sc) ls ->
  exists rs, Keeps (control H_CCD) ls rs /\
    from_lines (s_obj sc' A_CCD) rs (fun l k => exists t v, content l t /\ fields t (k :: v)) (fun l v => exists t k, content l t /\ fields t (k :: v)).
Proof. exact C88_CCD_lemma. Qed.
Print Assumptions C88_CCD_lines.
Theorem C88_UIM_lines : forall E known, incl all_hids known -> forall s name sc s' sc' ls,
  first_interpret E known s name sc s' sc' -> lines_of (s_raw sc) ls ->
  exists us, Keeps (control H_UIM) ls us /\ if_any (s_obj sc' A_UIM) us.
Proof. exact C88_UIM_lemma. Qed.
Print Assumptions C88_UIM_lines.
Example C88_applies : let sc := scan_of "1" (interpreted "1" (opened many)) in
  s_obj sc A_VA = Some [(L "VA0", L "third  one"); (L "VA1", L "second")] /\ s_obj sc A_VD = None /\
  s_obj sc A_XPCS = Some [(L "gain", [L "1"; L "2"]); (L "preset", [L "3"])] /\ s_obj sc A_CCD = Some [(L "x", [L "y"])] /\
  s_obj sc A_UIM = Some [L "#UIM file.img"; L "#UIMx other.img"].
Proof. repeat split; vm_compute; reflexivity. Qed.

(* ------------------------------------------------------------------ *)
(** * C89 *)

(** the reciprocal-space position is that of the last #Q line that is not empty *)
Theorem C89_Q : forall E known, incl all_hids known -> forall s name sc s' sc' ls,
  first_interpret E known s name sc s' sc' -> lines_of (s_raw sc) ls ->
  (Forall (fun l => control H_Q l -> content l []) ls /\ attr_is sc' A_Q None) \/
  exists pre l post t ws q, ls = pre ++ l :: post /\ control H_Q l /\ content l t /\ t <> [] /\ fields t ws /\ Forall2 (fun w f => py_float w = Ok f) ws q /\
    Forall (fun l => control H_Q l -> content l []) post /\ attr_is sc' A_Q (Some q).
Proof. exact C89_Q_lemma. Qed.
Print Assumptions C89_Q.
(** the temperatures are those of the last #X line, in any of the three forms *)
Theorem C89_X : forall E known, incl all_hids known -> forall s name sc s' sc' ls,
  first_interpret E known s name sc s' sc' -> lines_of (s_raw sc) ls ->
  (Forall (fun l => ~ control H_X l) ls -> s_obj sc' A_TEMP_SP = None /\ s_obj sc' A_DEGC_SP = None) /\
  (forall l a b, last_line_of H_X ls l -> x_form l a b -> attr_is sc' A_TEMP_SP a /\ attr_is sc' A_DEGC_SP b).
Proof. exact C89_X_lemma. Qed.
Print Assumptions C89_X.
Lemma a_number : fixed_text (L "10.5") 105 (-1).
Proof. exists [], false, (L "10"), (L "."), (L "5"). split; [left; auto|]. split; [repeat constructor; vm_compute; discriminate|]. split; [repeat constructor; vm_compute; discriminate|]. split; [auto|]. split; [discriminate|]. split; [reflexivity|]. split; vm_compute; reflexivity. Qed.
Example C89_applies : let sc := scan_of "1" (interpreted "1" (opened many)) in
  s_obj sc A_Q = Some (Some [FDec 1 0; FDec 0 0; FDec 5 (-1)]) /\ s_obj sc A_TEMP_SP = Some (FDec (-15) (-1)) /\ s_obj sc A_DEGC_SP = Some (FDec 2 0) /\
  x_form (L "#X 10.5Kohm (10.5C) now") (FDec 105 (-1)) (FDec 105 (-1)) /\ x_form (L "#X Control: 10.5K  Sample: 10.5K") (FDec 105 (-1)) (FDec 105 (-1)).
Proof.
  split; [vm_compute; reflexivity|]. split; [vm_compute; reflexivity|]. split; [vm_compute; reflexivity|]. split.
  - exact (X_kohm _ _ _ _ _ _ (L " now") a_number a_number).
  - exact (X_control _ _ _ _ _ _ [] a_number a_number).
Qed.
