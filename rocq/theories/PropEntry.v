(** C90-C95: what the entry of a NeXus file says about its scan.
    Theorems only; proofs are in EntryFacts.v, MetaWrite.v to MetaWrite4.v, RegAll.v to RegAll3.v. *)
From Coq Require Import String Lia.
From Verif Require Import Uni Py PyFacts Time SpecTime Utils SpecUtils Keys SpecKeys Handlers Reader SpecText SpecReader SpecHistory SpecInterp SpecDecimal InterpFacts TextFacts ExampleFacts
  H5 SpecH5 H5Exact Writer SpecWriter SpecEntry TableFacts TableFacts2 RoundFacts2 EntryFacts PropWriter PropGeom.
Import ListNotations.
Local Open Scope list_scope.

(* ------------------------------------------------------------------ *)
(** * A file for the examples *)
Definition meta : path := one "ascan x 0 1 1 1" ["#C first"; "#M 500  (I0)"; "#Q 1 0 2.5"; "#MD plan = scan me"; "#MD plan = again"; "#MD uid = 7"; "#ZZ 1 2"; "#YY"; "#C second"; "#N 2"; "#L a  b"; "1 2"]%string.
Definition cold (geo : list string) : path := one "ascan x 0 1 1 1" (geo ++ ["#X 10.0Kohm (24.2C)"; "#N 2"; "#L a  b"; "1 2"]%string).
Definition with_geo : list string := [("#G0 " ++ G0_line)%string; ("#G1 " ++ G1_line)%string; "#G3 1 2 3 4 5 6 7 8 9"%string; ("#G4 " ++ G4_line)%string].
Lemma one_saved p : is_ok (open_file E0 all_hids (L "f") p) = true -> 
  forallb (fun h => plain_b (h_raw h)) (headers (opened p)) && forallb (fun kv => plain_b (s_raw (snd kv))) (scans (opened p)) = true -> snd (nexus p [k1]) = None ->
  forall P : scan -> Prop, (match getScan k1 (opened p) with Ok (Some sc) => s_num sc = L "1" | _ => False end) ->
    (match dget (L "1") (scans (after_save p [k1])) with Some sc => P sc | _ => False end) ->
  exists sc, saved E0 all_hids (opened p) (opened p) versions0 [k1] (after_save p [k1]) (nxfile p [k1]) k1 sc /\ P sc.
Proof.
  intros H1 H2 H3 P H4 H5. destruct (ex_getScan k1 (opened p) (fun sc => s_num sc = L "1") H4) as (sc0 & G1 & G2).
  destruct (ex_scan (L "1") (after_save p [k1]) P H5) as (sc & G3 & G4). exists sc. split; [|exact G4].
  split; [apply opened_history; exact H1|]. split; [apply plain_mnemonics_ok; exact H2|]. split; [constructor|]. split; [apply one_key|]. split; [apply nexus_ok; exact H3|].
  split; [left; reflexivity|]. exists sc0. split; [exact G1|]. rewrite G2. exact G3.
Qed.
Ltac one_tac := apply one_saved; vm_compute; auto.

(* ------------------------------------------------------------------ *)
(** * C90: the scan an entry is of *)
Theorem C90_title_and_command_partial : forall E known s0 s versions ks s' f k sc, saved E known s0 s versions ks s' f k sc ->
  text_at f [entry_name k; L "title"] (s_S sc) [] /\ text_at f [entry_name k; L "command"] (s_cmd sc) [] /\
  text_at f [entry_name k; L "experiment_description"] (L "SPEC scan") [att "description" "SPEC data file scan"].
Proof.
  intros E known s0 s versions ks s' f k sc H. split; [|split].
  - exact (e_title E known s0 s s' versions ks f k sc H).
  - exact (e_command E known s0 s s' versions ks f k sc H).
  - exact (e_descr E known s0 s s' versions ks f k sc H).
Qed.
Print Assumptions C90_title_and_command_partial.
(** [n] is the number of the scan, [r] counts its repetitions *)
Theorem C90_number : forall E known s0 s versions ks s' f k sc, saved E known s0 s versions ks s' f k sc ->
  forall n r t, split_scan_number_string (s_num sc) = Ok (n :: r :: t) ->
    number_at f [entry_name k; L "scan_number"] (NI n) [att "spec_name" "SCAN_N"] /\
    ((0 < r)%Z -> number_at f [entry_name k; L "scan_number"] (NI n) [(L "repeat", ANum (NI r))]) /\
    ((r <= 0)%Z -> lacks f [entry_name k; L "scan_number"] (L "repeat")).
Proof. intros E known s0 s versions ks s' f k sc H n r t. exact (e_number E known s0 s s' versions ks f k sc H n r t). Qed.
Print Assumptions C90_number.
Example C90_example : text_at (nxfile meta [k1]) [L "S1"; L "title"] (L "1 ascan x 0 1 1 1") [] /\ number_at (nxfile meta [k1]) [L "S1"; L "scan_number"] (NI 1) [] /\
  lacks (nxfile meta [k1]) [L "S1"; L "scan_number"] (L "repeat").
Proof.
  assert (X : exists sc, saved E0 all_hids (opened meta) (opened meta) versions0 [k1] (after_save meta [k1]) (nxfile meta [k1]) k1 sc /\ s_S sc = L "1 ascan x 0 1 1 1" /\ s_num sc = L "1") by one_tac.
  destruct X as (sc & SV & H1 & H2). destruct (C90_title_and_command_partial _ _ _ _ _ _ _ _ _ _ SV) as (A & _). rewrite H1 in A. split; [exact A|].
  destruct (C90_number _ _ _ _ _ _ _ _ _ _ SV 1%Z 0%Z []) as (B & _ & C); [rewrite H2; vm_compute; reflexivity|]. split; [|apply C; lia].
  destruct B as (j & J1 & J2 & _). exists j. auto.
Qed.
(** characters that are not ASCII are lost *)
Definition accent : path := one "ascan é 0 1 1 1" ["#N 2"; "#L a  b"; "1 2"]%string.
Lemma leads_fun f i ps j j' : leads f i ps j -> leads f i ps j' -> j = j'.
Proof.
  intros H. revert j'. induction H as [i|i n k ps j M _ IH]; intros j' H'; inversion H'; subst; auto.
  apply IH. match goal with M' : member f i n ?x |- _ => assert (x = k) by (destruct M as (ms & a & A1 & A2); destruct M' as (ms' & a' & B1 & B2); congruence) end. subst. auto.
Qed.
Lemma field_fun f ps v v' l l' : field_at f ps v l -> field_at f ps v' l' -> v = v'.
Proof.
  intros (j & A & (a & B) & _) (j' & A' & (a' & B') & _). assert (j = j') by (eapply leads_fun; eauto). subst j'. congruence.
Qed.
Theorem C90_title_refuted : ~ forall E known s0 s versions ks s' f k sc, saved E known s0 s versions ks s' f k sc ->
  field_at f [entry_name k; L "title"] (HTexts [s_S sc]) [].
Proof.
  intros H.
  assert (X : exists sc, saved E0 all_hids (opened accent) (opened accent) versions0 [k1] (after_save accent [k1]) (nxfile accent [k1]) k1 sc /\ forallb (fun c => (c <? 128)%N) (s_S sc) = false) by one_tac.
  destruct X as (sc & SV & H1). specialize (H _ _ _ _ _ _ _ _ _ _ SV). destruct (C90_title_and_command_partial _ _ _ _ _ _ _ _ _ _ SV) as ((u & A & B) & _).
  pose proof (field_fun _ _ _ _ _ _ H B) as X. assert (X1 : s_S sc = u) by (injection X; auto). rewrite X1 in H1. clear - A H1.
  induction A; cbn [forallb] in H1; try discriminate; auto. destruct (N.ltb_spec c 128); cbn in H1; auto. lia.
Qed.
Print Assumptions C90_title_refuted.

(* ------------------------------------------------------------------ *)
(** * C91: date and comments *)
Theorem C91_date : forall E known s0 s versions ks s' f k sc, incl all_hids known -> saved E known s0 s versions ks s' f k sc ->
  forall ls l d y m dd h mi se, lines_of (s_raw sc) ls -> In l ls -> control H_D l -> attr_is sc A_date d ->
  calendar y m dd -> clock h mi se -> spec_date d y m dd h mi se \/ spock_date d y m dd h mi se ->
  text_at f [entry_name k; L "date"] (iso y m dd h mi se) [].
Proof. intros E known s0 s versions ks s' f k sc Hk H. exact (e_date E known Hk s0 s s' versions ks f k sc H). Qed.
Print Assumptions C91_date.
Theorem C91_comments : forall E known s0 s versions ks s' f k sc, saved E known s0 s versions ks s' f k sc ->
  forall c, attr_is sc A_comments c -> c <> [] -> text_at f [entry_name k; L "comments"] (join [LF] c) [].
Proof. intros E known s0 s versions ks s' f k sc H. exact (e_comments E known s0 s s' versions ks f k sc H). Qed.
Print Assumptions C91_comments.
Example C91_example : text_at (nxfile meta [k1]) [L "S1"; L "date"] (L "2010-11-03T13:48:06") [] /\
  text_at (nxfile meta [k1]) [L "S1"; L "comments"] (L "first" ++ [LF] ++ L "second") [].
Proof.
  assert (X : exists sc, saved E0 all_hids (opened meta) (opened meta) versions0 [k1] (after_save meta [k1]) (nxfile meta [k1]) k1 sc /\
    attr_is sc A_date (L "Wed Nov 03 13:48:06 2010") /\ attr_is sc A_comments (map L ["first"; "second"]%string) /\ In (L "#D Wed Nov 03 13:48:06 2010") (Handlers.scan_lines (s_raw sc))) by one_tac.
  destruct X as (sc & SV & H1 & H2 & H3). split.
  - change (L "2010-11-03T13:48:06") with (iso 2010 11 3 13 48 6).
    apply (C91_date _ _ _ _ _ _ _ _ _ _ (incl_refl _) SV _ _ (L "Wed Nov 03 13:48:06 2010") 2010 11 3 13 48 6 (proj2 (lines_of_scan_lines _ _) eq_refl) H3 (RoundFacts2.control_D (L "Wed Nov 03 13:48:06 2010")) H1).
    + split; [lia|]. exists 30%Z. split; [right; left; split; [right; right; right; left; reflexivity|reflexivity]|lia].
    + unfold clock. lia.
    + left. assert (G : gap (L " ")) by (split; [discriminate|repeat constructor]).
      exists (L "Wed"), (L " "), (L "Nov"), (L " "), (L "03"), (L " "), (L "13"), (L "48"), (L "06"), (L " ").
      split; [reflexivity|]. split; [right; right; left; reflexivity|]. split; [split; [lia|reflexivity]|].
      split; [apply (field_two 3); lia|]. split; [apply (field_two 13); lia|]. split; [apply (field_two 48); lia|]. split; [apply (field_two 6); lia|].
      split; [exact G|]. split; [exact G|]. split; exact G.
  - apply (C91_comments _ _ _ _ _ _ _ _ _ _ SV _ H2). discriminate.
Qed.

(* ------------------------------------------------------------------ *)
(** * C92: the monitor count and the counting time *)
Theorem C92_monitor_count : forall E known s0 s versions ks s' f k sc, saved E known s0 s versions ks s' f k sc ->
  forall v x, attr_is sc A_M v -> v <> [] -> py_float v = Ok x ->
  number_at f [entry_name k; L "M"] (NF x) [att "units" "counts"; att "description" "SPEC scan with constant monitor count"].
Proof. intros E known s0 s versions ks s' f k sc H. exact (e_M E known s0 s s' versions ks f k sc H). Qed.
Print Assumptions C92_monitor_count.
Theorem C92_counting_time : forall E known s0 s versions ks s' f k sc, saved E known s0 s versions ks s' f k sc ->
  forall v x, attr_is sc A_T v -> v <> [] -> py_float v = Ok x ->
  number_at f [entry_name k; L "T"] (NF x) [att "units" "s"; att "description" "SPEC scan with constant counting time"].
Proof. intros E known s0 s versions ks s' f k sc H. exact (e_T E known s0 s s' versions ks f k sc H). Qed.
Print Assumptions C92_counting_time.
Example C92_example : number_at (nxfile meta [k1]) [L "S1"; L "M"] (NF (FDec 500 0)) [att "units" "counts"] /\ number_at (nxfile meta [k1]) [L "S1"; L "T"] (NF (FDec 1 0)) [att "units" "s"].
Proof.
  assert (X : exists sc, saved E0 all_hids (opened meta) (opened meta) versions0 [k1] (after_save meta [k1]) (nxfile meta [k1]) k1 sc /\
    attr_is sc A_M (L "500") /\ attr_is sc A_T (L "1")) by one_tac.
  destruct X as (sc & SV & H1 & H2).
  destruct (C92_monitor_count _ _ _ _ _ _ _ _ _ _ SV (L "500") (FDec 500 0) H1) as (j & J1 & J2 & J3); [discriminate|vm_compute; reflexivity|].
  destruct (C92_counting_time _ _ _ _ _ _ _ _ _ _ SV (L "1") (FDec 1 0) H2) as (j' & J1' & J2' & J3'); [discriminate|vm_compute; reflexivity|].
  inversion J3; subst. inversion J3'; subst. split; [exists j|exists j']; auto.
Qed.

(* ------------------------------------------------------------------ *)
(** * C93: reciprocal-space position and temperatures *)
Theorem C93_position : forall E known s0 s versions ks s' f k sc, saved E known s0 s versions ks s' f k sc ->
  forall q, attr_is sc A_Q (Some q) -> field_at f [entry_name k; L "Q"] (HArr [List.length q] (map NF q)) [att "description" "hkl at start of scan"].
Proof. intros E known s0 s versions ks s' f k sc H. exact (e_Q E known s0 s s' versions ks f k sc H). Qed.
Print Assumptions C93_position.
Theorem C93_temperatures_partial : forall E known s0 s versions ks s' f k sc, saved E known s0 s versions ks s' f k sc ->
  (forall x, attr_is sc A_TEMP_SP x -> number_at f [entry_name k; L "TEMP_SP"] (NF x) [att "description" "temperature set point"]) /\
  (forall x, attr_is sc A_DEGC_SP x -> number_at f [entry_name k; L "DEGC_SP"] (NF x) [att "units" "C"; att "description" "temperature set point (C)"]).
Proof. intros E known s0 s versions ks s' f k sc H. split; [exact (e_TEMP E known s0 s s' versions ks f k sc H)|exact (e_DEGC E known s0 s s' versions ks f k sc H)]. Qed.
Print Assumptions C93_temperatures_partial.
(** without diffractometer geometry the scan cannot be saved *)
Theorem C93_temperatures_refuted : exists p, history E0 all_hids (opened p) /\ plain_mnemonics (opened p) /\
  (forall sc, getScan k1 (opened p) = Ok (Some sc) -> lines_of (s_raw sc) (map L ["#S 1 ascan x 0 1 1 1"; "#D Wed Nov 03 13:48:06 2010"; "#T 1  (Seconds)"; "#X 10.0Kohm (24.2C)"; "#N 2"; "#L a  b"; "1 2"]%string)) /\
  snd (nexus p [k1]) = Some KeyError.
Proof.
  exists (cold []). split; [apply opened_history; vm_compute; reflexivity|]. split; [apply plain_mnemonics_ok; vm_compute; reflexivity|]. split; [|vm_compute; reflexivity].
  intros sc H. apply lines_of_scan_lines.
  destruct (ex_getScan k1 (opened (cold [])) (fun sc => Handlers.scan_lines (s_raw sc) = map L ["#S 1 ascan x 0 1 1 1"; "#D Wed Nov 03 13:48:06 2010"; "#T 1  (Seconds)"; "#X 10.0Kohm (24.2C)"; "#N 2"; "#L a  b"; "1 2"]%string)) as (sc' & G1 & G2).
  { vm_compute. reflexivity. }
  rewrite H in G1. assert (sc = sc') by congruence. subst sc'. symmetry. exact G2.
Qed.
Print Assumptions C93_temperatures_refuted.
Example C93_example : field_at (nxfile meta [k1]) [L "S1"; L "Q"] (HArr [3] [NF (FDec 1 0); NF (FDec 0 0); NF (FDec 25 (-1))]) [att "description" "hkl at start of scan"] /\
  number_at (nxfile (cold with_geo) [k1]) [L "S1"; L "DEGC_SP"] (NF (FDec 242 (-1))) [att "units" "C"; att "description" "temperature set point (C)"].
Proof.
  assert (X : exists sc, saved E0 all_hids (opened meta) (opened meta) versions0 [k1] (after_save meta [k1]) (nxfile meta [k1]) k1 sc /\
    attr_is sc A_Q (Some [FDec 1 0; FDec 0 0; FDec 25 (-1)])) by one_tac.
  destruct X as (sc & SV & H1). split; [exact (C93_position _ _ _ _ _ _ _ _ _ _ SV _ H1)|].
  assert (X : exists sc, saved E0 all_hids (opened (cold with_geo)) (opened (cold with_geo)) versions0 [k1] (after_save (cold with_geo) [k1]) (nxfile (cold with_geo) [k1]) k1 sc /\
    attr_is sc A_DEGC_SP (FDec 242 (-1))) by one_tac.
  destruct X as (sc' & SV' & H1'). exact (proj2 (C93_temperatures_partial _ _ _ _ _ _ _ _ _ _ SV') _ H1').
Qed.

(* ------------------------------------------------------------------ *)
(** * C94: metadata of bluesky *)
Theorem C94_bluesky_metadata_partial : forall E known s0 s versions ks s' f k sc, saved E known s0 s versions ks s' f k sc ->
  forall d, attr_is sc A_MD d -> d <> [] -> group_at f [entry_name k; L "bluesky_metadata"] "NXcollection" /\
    forall x v m, last_named d x v m -> text_at f [entry_name k; L "bluesky_metadata"; m] v [(L "spec_name", AText x)].
Proof. intros E known s0 s versions ks s' f k sc H. exact (e_MD E known s0 s s' versions ks f k sc H). Qed.
Print Assumptions C94_bluesky_metadata_partial.
Definition md_twice : path := file (head ++ ["#MD a = b"; "#S 1 ascan x 0 1 1 1"; "#D Wed Nov 03 13:48:06 2010"; "#T 1  (Seconds)"; "#MD c = d"; "#N 2"; "#L a  b"; "1 2"]%string) 5 6.
(** with such lines in the header and in the scan the scan cannot be saved *)
Theorem C94_header_and_scan_refuted : history E0 all_hids (opened md_twice) /\ plain_mnemonics (opened md_twice) /\ snd (nexus md_twice [k1]) = Some ValueError /\
  snd (nexus (file (head ++ ["#MD a = b"; "#S 1 ascan x 0 1 1 1"; "#D Wed Nov 03 13:48:06 2010"; "#T 1  (Seconds)"; "#N 2"; "#L a  b"; "1 2"]%string) 5 6) [k1]) = None.
Proof.
  split; [apply opened_history; vm_compute; reflexivity|]. split; [apply plain_mnemonics_ok; vm_compute; reflexivity|]. split; vm_compute; reflexivity.
Qed.
Print Assumptions C94_header_and_scan_refuted.
Example C94_example : text_at (nxfile meta [k1]) [L "S1"; L "bluesky_metadata"; L "plan"] (L "again") [(L "spec_name", AText (L "plan"))].
Proof.
  assert (X : exists sc, saved E0 all_hids (opened meta) (opened meta) versions0 [k1] (after_save meta [k1]) (nxfile meta [k1]) k1 sc /\
    attr_is sc A_MD [(L "plan", L "again"); (L "uid", L "7")]) by one_tac.
  destruct X as (sc & SV & H1). apply (proj2 (C94_bluesky_metadata_partial _ _ _ _ _ _ _ _ _ _ SV _ H1 ltac:(discriminate)) (L "plan")).
  exists [], [(L "uid", L "7")]. split; [reflexivity|]. split; [apply ds_name_iff; reflexivity|]. intros y [<-|[]] Hy. apply ds_name_iff in Hy. discriminate Hy.
Qed.

(* ------------------------------------------------------------------ *)
(** * C95: lines that are not recognized *)
Theorem C95_unrecognized_lines : forall E known s0 s versions ks s' f k sc, saved E known s0 s versions ks s' f k sc ->
  forall us, attr_is sc A_unrec us -> us <> [] -> exists m : nat,
    group_at f [entry_name k; L "unrecognized_" ++ str_of_nat m] "NXnote" /\
    forall i l, nth_error us i = Some l -> text_at f [entry_name k; L "unrecognized_" ++ str_of_nat m; L "u" ++ str_of_nat i] l [].
Proof. intros E known s0 s versions ks s' f k sc H. exact (e_unrec E known s0 s s' versions ks f k sc H). Qed.
Print Assumptions C95_unrecognized_lines.
Example C95_example : exists m, text_at (nxfile meta [k1]) [L "S1"; L "unrecognized_" ++ str_of_nat m; L "u0"] (L "#ZZ 1 2") [].
Proof.
  assert (X : exists sc, saved E0 all_hids (opened meta) (opened meta) versions0 [k1] (after_save meta [k1]) (nxfile meta [k1]) k1 sc /\
    attr_is sc A_unrec (map L ["#ZZ 1 2"; "#YY"]%string)) by one_tac.
  destruct X as (sc & SV & H1). destruct (C95_unrecognized_lines _ _ _ _ _ _ _ _ _ _ SV _ H1 ltac:(discriminate)) as (m & _ & H). exists m. apply (H 0). reflexivity.
Qed.
