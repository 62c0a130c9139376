(** C05-C19, C64: reading files, looking up scans, following a growing file.
    Theorems only; proofs are in ReaderFacts*.v and ExnFacts.v. *)
From Coq Require Import String Permutation Sorted Lia.
From Verif Require Import Uni Py PyFacts Time Utils Keys Handlers Reader SpecText SpecReader SpecNum SpecHistory SpecLookup
  TextFacts OrderFacts ReaderFacts ReaderFacts2 ReaderFacts3 ReaderFacts4 ReaderFacts5 ReaderFacts6 ReaderFacts7 ReaderFacts8 ExnFacts ExampleFacts.
Import ListNotations.
Local Open Scope nat_scope.
Local Open Scope list_scope.

Ltac opened_at p := assert (open_file E0 all_hids (L "f") p = Ok (opened p)) by (apply opened_ok; vm_compute; reflexivity).
Ltac read_history := cbv zeta; repeat match goal with |- history _ _ (fst (read _ _ _ _)) => apply Hist_read end; apply Hist_new.
Ltac dissected p := assert (dissect p = Ok (sections p)) by (apply sections_ok; vm_compute; reflexivity).

(* ------------------------------------------------------------------ *)
(** * C05 *)

Theorem C05_first_read_keeps_every_scan : forall E known name p s,
  incl all_hids known -> open_file E known name p = Ok s ->
  exists secs, dissect p = Ok secs /\
    Keeps scan_section secs (map s_raw (values (scans s))) /\
    NoDup (keys (scans s)) /\ map s_num (values (scans s)) = keys (scans s).
Proof. exact C05_lemma. Qed.
Print Assumptions C05_first_read_keeps_every_scan.

Theorem C05_no_duplicate_scan_number : forall E known name p,
  (forall t, mktime E t <> Raise DuplicateSpecScanNumber) ->
  (forall f, fromtimestamp E f <> Raise DuplicateSpecScanNumber) ->
  (forall x, uxml_parse E x <> Raise DuplicateSpecScanNumber) ->
  open_file E known name p <> Raise DuplicateSpecScanNumber.
Proof. intros E known name p H1 H2 H3. apply nd_open. split; [exact H1|split; [exact H2|exact H3]]. Qed.
Print Assumptions C05_no_duplicate_scan_number.

(** nor does any later reading or refreshing *)
Theorem C05_no_duplicate_scan_number_ever : forall E known p s,
  (forall t, mktime E t <> Raise DuplicateSpecScanNumber) ->
  (forall f, fromtimestamp E f <> Raise DuplicateSpecScanNumber) ->
  (forall x, uxml_parse E x <> Raise DuplicateSpecScanNumber) ->
  snd (read E known p s) <> Some DuplicateSpecScanNumber /\ snd (refresh E known p s) <> Raise DuplicateSpecScanNumber.
Proof. intros E known p s H1 H2 H3. split; [apply ndo_read|apply nd_refresh]; split; auto. Qed.
Print Assumptions C05_no_duplicate_scan_number_ever.

Definition three : path := file (head ++ scan_lines "7" "10" ["1 2"]%string ++ scan_lines "7" "11" ["1 3"]%string
                                 ++ scan_lines "7" "12" ["1 4"]%string) 5 6.
Example C05_applies : open_file E0 all_hids (L "f") three = Ok (opened three) /\
  keys (scans (opened three)) = map L ["7"; "7.1"; "7.2"]%string.
Proof. split; [apply opened_ok|]; vm_compute; reflexivity. Qed.

(* ------------------------------------------------------------------ *)
(** * C06 *)

Theorem C06_repeats_are_numbered : forall E known name p s secs scansecs ns,
  incl all_hids known -> open_file E known name p = Ok s ->
  dissect p = Ok secs -> Keeps scan_section secs scansecs -> Forall2 scan_number scansecs ns ->
  Forall (fun n => ~ In 46%N n) ns ->
  forall i n k sec, nth_error ns i = Some n -> nth_error scansecs i = Some sec -> occurs (firstn i ns) n k ->
  exists nm sc, repeat_name n k nm /\ nth_error (keys (scans s)) i = Some nm /\
    dget nm (scans s) = Some sc /\ s_raw sc = sec /\ s_num sc = nm.
Proof. exact C06_lemma. Qed.
Print Assumptions C06_repeats_are_numbered.
Example C06_applies : exists ns, Forall2 scan_number (scan_texts three) ns /\ Forall (fun n => ~ In 46%N n) ns /\
  nth_error ns 2 = Some (L "7") /\ occurs (firstn 2 ns) (L "7") 2.
Proof.
  exists [L "7"; L "7"; L "7"]. split; [|split; [|split; [reflexivity|]]].
  - set (x := scan_texts three). vm_compute in x. subst x.
    repeat (constructor; [eexists; eexists; split; [apply Lines_splitlines; vm_compute; reflexivity|apply second_words; vm_compute; eauto]|]). constructor.
  - repeat constructor; intros [Q|[]]; discriminate.
  - simpl. apply count_yes; auto. apply count_yes; auto. constructor.
Qed.

(* ------------------------------------------------------------------ *)
(** * C07 *)

Definition its_header (s : sdf) (secs : list str) : Prop :=
  forall before sec after ss hb, secs = before ++ sec :: after -> scan_section sec ->
    Keeps scan_section before ss -> Keeps header_section before hb ->
    exists sc h, nth_error (values (scans s)) (List.length ss) = Some sc /\ s_raw sc = sec /\
      nth_error (headers s) (s_hdr sc) = Some h /\ last_of [] hb (h_raw h).

(** holds for files in which no header block is repeated *)
Theorem C07_scan_has_preceding_header_partial : forall E known name p s secs hs,
  incl all_hids known -> open_file E known name p = Ok s -> dissect p = Ok secs ->
  Keeps header_section secs hs -> ForallOrdPairs (fun a b => ~ same_text a b) hs ->
  its_header s secs.
Proof. exact C07_lemma. Qed.
Print Assumptions C07_scan_has_preceding_header_partial.
Definition two_headers : path :=
  file (head ++ scan_lines "1" "10" [] ++ ["#E 2"; "#D Wed Nov 03 13:48:11 2010"]%string ++ scan_lines "2" "12" []) 5 6.
Example C07_applies : exists hs, Keeps header_section (sections two_headers) hs /\ ForallOrdPairs (fun a b => ~ same_text a b) hs /\
  List.length hs = 2 /\ is_ok (open_file E0 all_hids (L "f") two_headers) = true.
Proof.
  eexists. split; [apply Keeps_headerb|]. split; [apply distinct_texts; vm_compute; repeat constructor; intros Q; simpl in Q; intuition discriminate|].
  split; vm_compute; reflexivity.
Qed.

(** does not hold in general: header blocks A, B, A and a scan after each *)
Definition header_again : path :=
  file (["#E 1"; "#S 1 ct"; "#D Wed Nov 03 13:48:11 2010"; "#E 2"; "#S 2 ct"; "#D Wed Nov 03 13:48:12 2010"; "#E 1"; "#S 3 ct"; "#D Wed Nov 03 13:48:13 2010"]%string) 5 6.
Theorem C07_scan_has_preceding_header_refuted :
  ~ (forall E known name p s secs, incl all_hids known -> open_file E known name p = Ok s -> dissect p = Ok secs -> its_header s secs).
Proof.
  intros H. opened_at header_again. dissected header_again.
  assert (I := H E0 all_hids (L "f") header_again (opened header_again) (sections header_again) (incl_refl _) H0 H1).
  assert (Hs : scan_section (nth 5 (sections header_again) [])) by (apply scanb_spec; vm_compute; reflexivity).
  assert (He : sections header_again = firstn 5 (sections header_again) ++ nth 5 (sections header_again) [] :: []) by (vm_compute; reflexivity).
  specialize (I _ _ _ _ _ He Hs (Keeps_scanb _) (Keeps_headerb _)). clear H H0 H1 He Hs.
  destruct I as (sc & h & H1 & _ & H2 & H3).
  apply (f_equal (option_map s_hdr)) in H1. cbn [option_map] in H1.
  assert (K : Some (s_hdr sc) = Some 1) by (rewrite <- H1; vm_compute; reflexivity). injection K as K. rewrite K in H2.
  apply (f_equal (option_map h_raw)) in H2. cbn [option_map] in H2.
  assert (K2 : Some (h_raw h) = Some (L "#E 2")) by (rewrite <- H2; vm_compute; reflexivity). injection K2 as K2. rewrite K2 in H3.
  destruct H3 as [[Q _]|[l Q]]; [vm_compute in Q; discriminate|].
  assert (Q2 := f_equal (fun l => last l []) Q). cbv beta in Q2. rewrite last_last in Q2. vm_compute in Q2. discriminate.
Qed.
Print Assumptions C07_scan_has_preceding_header_refuted.

(* ------------------------------------------------------------------ *)
(** * C08 *)

Theorem C08_no_header_twice : forall E known s, history E known s ->
  ForallOrdPairs (fun a b => ~ same_text (h_raw a) (h_raw b)) (headers s).
Proof. exact C08_lemma. Qed.
Print Assumptions C08_no_header_twice.
Theorem C08_reading_again_adds_no_header : forall E known p p' s s1, incl all_hids known ->
  read E known p s = (s1, None) -> dissect p' = dissect p ->
  map h_raw (headers (fst (read E known p' s1))) = map h_raw (headers s1).
Proof. intros E known p p' s s1 Hk. apply C08_again_lemma. exact Hk. Qed.
Print Assumptions C08_reading_again_adds_no_header.
Example C08_applies : history E0 all_hids (fst (read E0 all_hids header_again (fst (read E0 all_hids header_again (sdf_init []))))) /\
  snd (read E0 all_hids header_again (sdf_init [])) = None /\
  List.length (headers (fst (read E0 all_hids header_again (sdf_init [])))) = 2.
Proof. split; [read_history|]. split; vm_compute; reflexivity. Qed.

(* ------------------------------------------------------------------ *)
(** * C09 *)

Theorem C09_getScan_finds_the_scan : forall E known s k f, history E known s ->
  key_float k = Ok f -> num_le (fl_of_Z 1) f -> f <> FInf false ->
  (forall sc, In sc (values (scans s)) -> s_num sc = key_str k -> getScan k s = Ok (Some sc)) /\
  (Forall (fun sc => s_num sc <> key_str k) (values (scans s)) -> getScan k s = Ok None).
Proof. exact C09_history. Qed.
Print Assumptions C09_getScan_finds_the_scan.
(** (getScan takes the state and returns no new one: it changes nothing) *)
Theorem C09_getScan_only_held_scans : forall s k sc, getScan k s = Ok (Some sc) -> In sc (values (scans s)).
Proof. exact C09_held. Qed.
Print Assumptions C09_getScan_only_held_scans.
(** keys below 1 count positions in the list of numbers *)
Theorem C09_getScan_by_position : forall E known s z l, history E known s -> (z < 1)%Z -> getScanNumbers s = Ok l -> l <> [] ->
  (forall n, index z l = Ok n -> exists sc, getScan (KInt z) s = Ok (Some sc) /\ In sc (values (scans s)) /\ s_num sc = n) /\
  (forall e, index z l = Raise e -> getScan (KInt z) s = Raise e).
Proof. exact C09_low. Qed.
Print Assumptions C09_getScan_by_position.
Definition has_raw (r : res (option scan)) : option str := match r with Ok (Some sc) => Some (s_num sc) | _ => None end.
Example C09_applies :
  let s := fst (read E0 all_hids three (sdf_init [])) in
  history E0 all_hids s /\ key_float (KStr (L "7.1")) = Ok (FDec 71 (-1)) /\ num_le (fl_of_Z 1) (FDec 71 (-1)) /\
  has_raw (getScan (KStr (L "7.1")) s) = Some (L "7.1") /\ has_raw (getScan (KInt 7) s) = Some (L "7") /\
  has_raw (getScan (KInt (-1)) s) = Some (L "7.2").
Proof. split; [read_history|]. split; [vm_compute; reflexivity|]. split; [apply fl_leb_num; vm_compute; reflexivity|]. repeat split; vm_compute; reflexivity. Qed.

(* ------------------------------------------------------------------ *)
(** * C10 *)

Theorem C10_numbers_sorted : forall s l, no_nan s -> getScanNumbers s = Ok l ->
  Permutation l (keys (scans s)) /\
  StronglySorted (fun a b => exists x y, py_float a = Ok x /\ py_float b = Ok y /\ num_le x y) l /\
  (forall a b x y, before (keys (scans s)) a b -> py_float a = Ok x -> py_float b = Ok y -> num_eq x y -> before l a b).
Proof. exact C10_lemma. Qed.
Print Assumptions C10_numbers_sorted.
Theorem C10_numbers_total : forall s,
  (numeric s -> exists l, getScanNumbers s = Ok l) /\ (~ numeric s -> getScanNumbers s = Raise ValueError).
Proof. exact C10_total. Qed.
Print Assumptions C10_numbers_total.
Definition mixed : path := file (scan_lines "10" "10" [] ++ scan_lines "9" "12" [] ++ scan_lines "9" "11" [] ++ scan_lines "09" "11" []) 5 6.
Example C10_applies : no_nan (opened mixed) /\ getScanNumbers (opened mixed) = Ok (map L ["9"; "09"; "9.1"; "10"]%string) /\
  keys (scans (opened mixed)) = map L ["10"; "9"; "9.1"; "09"]%string.
Proof. split; [|split; vm_compute; reflexivity]. unfold no_nan. set (ks := keys _). vm_compute in ks. subst ks. repeat constructor; vm_compute; discriminate. Qed.

(* ------------------------------------------------------------------ *)
(** * C11 *)

Theorem C11_chronological_list : forall s l, getScanNumbersChronological s = Ok l ->
  exists scs, chronological s scs /\ l = map s_num scs.
Proof. exact C11_chron. Qed.
Print Assumptions C11_chronological_list.
Theorem C11_first_scan : forall s k, getFirstScanNumber s = Ok k ->
  exists scs, chronological s scs /\ ((scs = [] /\ k = KInt 0) \/ exists sc t, scs = sc :: t /\ k = KStr (s_num sc)).
Proof. exact C11_first. Qed.
Print Assumptions C11_first_scan.
Theorem C11_last_scan : forall s k, getLastScanNumber s = Ok k ->
  exists scs, chronological s scs /\ ((scs = [] /\ k = KInt 0) \/ exists sc t, scs = t ++ [sc] /\ k = KStr (s_num sc)).
Proof. exact C11_last. Qed.
Print Assumptions C11_last_scan.
Theorem C11_bad_date : forall s, Forall (fun sc => s_obj sc A_date <> None) (values (scans s)) ->
  (Forall (fun sc => exists t, scan_time sc t) (values (scans s)) -> exists l, getScanNumbersChronological s = Ok l) /\
  (Exists (fun sc => ~ exists t, scan_time sc t) (values (scans s)) -> getScanNumbersChronological s = Raise ValueError).
Proof. exact C11_total. Qed.
Print Assumptions C11_bad_date.
Example C11_applies : getScanNumbersChronological (opened mixed) = Ok (map L ["10"; "9.1"; "09"; "9"]%string) /\
  getFirstScanNumber (opened mixed) = Ok (KStr (L "10")) /\ getLastScanNumber (opened mixed) = Ok (KStr (L "9")) /\
  getLastScanNumber (sdf_init []) = Ok (KInt 0).
Proof. repeat split; vm_compute; reflexivity. Qed.

(* ------------------------------------------------------------------ *)
(** * C12 *)

Theorem C12_min_bounds : forall s k, no_nan s -> getMinScanNumber s = Ok k ->
  (scans s = [] /\ k = KInt 0) \/
  exists n x, k = KStr n /\ In n (keys (scans s)) /\ py_float n = Ok x /\
    Forall (fun m => exists y, py_float m = Ok y /\ num_le x y) (keys (scans s)).
Proof. exact C12_min. Qed.
Print Assumptions C12_min_bounds.
Theorem C12_max_bounds : forall s k, no_nan s -> getMaxScanNumber s = Ok k ->
  (scans s = [] /\ k = KInt 0) \/
  exists n x, k = KStr n /\ In n (keys (scans s)) /\ py_float n = Ok x /\
    Forall (fun m => exists y, py_float m = Ok y /\ num_le y x) (keys (scans s)).
Proof. exact C12_max. Qed.
Print Assumptions C12_max_bounds.
Theorem C12_min_max_exist : forall s, numeric s ->
  (exists k, getMinScanNumber s = Ok k) /\ (exists k, getMaxScanNumber s = Ok k).
Proof. exact C12_total. Qed.
Print Assumptions C12_min_max_exist.
Example C12_applies : no_nan (opened mixed) /\ getMinScanNumber (opened mixed) = Ok (KStr (L "9")) /\ getMaxScanNumber (opened mixed) = Ok (KStr (L "10")).
Proof. split; [apply C10_applies|]. split; vm_compute; reflexivity. Qed.

(* ------------------------------------------------------------------ *)
(** * C13 *)

Theorem C13_commands_of_list : forall s ks out, ks <> [] -> getScanCommands ks s = Ok out -> reported s ks out.
Proof. exact C13_reported. Qed.
Print Assumptions C13_commands_of_list.
Theorem C13_commands_of_all : forall E known s out, history E known s -> all_ge1 s -> getScanCommands [] s = Ok out ->
  exists scs, Permutation scs (values (scans s)) /\
    StronglySorted (fun a b => exists x y, py_float (s_num a) = Ok x /\ py_float (s_num b) = Ok y /\ num_le x y) scs /\
    out = map (fun sc => L "#S " ++ s_num sc ++ L " " ++ s_cmd sc) scs.
Proof. exact C13_all. Qed.
Print Assumptions C13_commands_of_all.
Example C13_applies :
  let s := fst (read E0 all_hids mixed (sdf_init [])) in
  history E0 all_hids s /\ all_ge1 s /\
  getScanCommands [KInt 10; KInt 11; KStr (L "9.1")] s = Ok (map L ["#S 10 ascan x 0 1 1 1"; "#S 9.1 ascan x 0 1 1 1"]%string) /\
  is_ok (getScanCommands [] s) = true.
Proof.
  split; [read_history|]. split; [|split; vm_compute; reflexivity].
  unfold all_ge1. set (ks := keys _). vm_compute in ks. subst ks. repeat (constructor; [apply one_b_ok; vm_compute; reflexivity|]). constructor.
Qed.

(* ------------------------------------------------------------------ *)
(** * C14 *)

Theorem C14_slice_selects_range : forall E known s a b r, history E known s -> (1 <= a)%Z -> (1 <= b)%Z ->
  get_slice (Some a) (Some b) None s = Ok r ->
  exists scs kept, chronological s scs /\ Keeps (in_range_of a b) scs kept /\ r = map Some kept.
Proof. exact C14_range. Qed.
Print Assumptions C14_slice_selects_range.
Theorem C14_slice_succeeds : forall E known s a b l, history E known s -> (1 <= a)%Z -> (1 <= b)%Z ->
  getScanNumbersChronological s = Ok l -> numeric s -> exists r, get_slice (Some a) (Some b) None s = Ok r.
Proof. exact C14_total. Qed.
Print Assumptions C14_slice_succeeds.
Theorem C14_mixed_signs_rejected : forall s a b step l, getScanNumbersChronological s = Ok l -> ((a < 0 < b) \/ (b < 0 < a))%Z ->
  get_slice (Some a) (Some b) step s = Raise IndexError.
Proof. exact C14_mixed_lemma. Qed.
Print Assumptions C14_mixed_signs_rejected.
Theorem C14_step_selects_repeats : forall E known s a b k r, history E known s -> (1 <= a)%Z -> (1 <= b)%Z -> (0 <= k)%Z ->
  get_slice (Some a) (Some b) (Some k) s = Ok r ->
  exists scs kept, chronological s scs /\ Keeps (fun sc => in_range_of a b sc /\ repeat_of k (s_num sc)) scs kept /\ r = map Some kept.
Proof. exact C14_step. Qed.
Print Assumptions C14_step_selects_repeats.
Theorem C14_negative_index : forall E known s k l, history E known s -> all_ge1 s -> getScanNumbersChronological s = Ok l -> 0 < k ->
  exists scs, chronological s scs /\
    get_plain (KInt (- Z.of_nat k)) s = match nth_error (rev scs) (k - 1) with Some sc => Ok (Some sc) | None => Raise IndexError end.
Proof. exact C14_neg. Qed.
Print Assumptions C14_negative_index.
Theorem C14_tuple_is_concatenation : forall items s r, get_tuple items s = Ok r ->
  exists parts, r = List.concat parts /\
    Forall2 (fun it p => match it with
                         | GIdx k => exists sc, get_plain k s = Ok (Some sc) /\ p = [Some sc]
                         | GSlice a b c => get_slice a b c s = Ok p
                         end) items parts.
Proof. exact C14_tuple_lemma. Qed.
Print Assumptions C14_tuple_is_concatenation.
Definition nums (r : res (list (option scan))) : option (list str) :=
  match r with Ok l => Some (map (fun o => match o with Some sc => s_num sc | None => [] end) l) | _ => None end.
Example C14_applies :
  let s := fst (read E0 all_hids mixed (sdf_init [])) in
  history E0 all_hids s /\ nums (get_slice (Some 9%Z) (Some 10%Z) None s) = Some (map L ["9.1"; "09"; "9"]%string) /\
  nums (get_slice (Some 1%Z) (Some 11%Z) (Some 1%Z) s) = Some [L "9.1"] /\
  has_raw (get_plain (KInt (-1)) s) = Some (L "9") /\
  get_slice (Some 3%Z) (Some (-1)%Z) None s = Raise IndexError.
Proof. split; [read_history|]. repeat split; vm_compute; reflexivity. Qed.

(** * C64: open-ended slices *)

Theorem C64_relative_slices : forall E known s a b l, history E known s -> all_ge1 s ->
  getScanNumbersChronological s = Ok l -> l <> [] -> rel_bound a -> rel_bound b ->
  exists scs, chronological s scs /\ get_slice a b None s = Ok (map Some (pslice a b scs)).
Proof. exact C64_relative. Qed.
Print Assumptions C64_relative_slices.
(** a slice from a number on stops short of the number of the chronologically last scan *)
Theorem C64_slice_from_number : forall E known s a r, history E known s -> all_ge1 s -> scans s <> [] -> (1 <= a)%Z ->
  get_slice (Some a) None None s = Ok r ->
  exists scs pre last kept, chronological s scs /\ scs = pre ++ [last] /\ r = map Some kept /\
    Keeps (fun sc => exists x y, py_float (s_num sc) = Ok x /\ py_float (s_num last) = Ok y /\ num_le (fl_of_Z a) x /\ num_lt x y) scs kept /\
    ~ In last kept.
Proof. exact C64_from. Qed.
Print Assumptions C64_slice_from_number.
Example C64_applies :
  let s := fst (read E0 all_hids three (sdf_init [])) in
  history E0 all_hids s /\ all_ge1 s /\ nums (get_slice (Some 7%Z) None None s) = Some (map L ["7"; "7.1"]%string) /\
  nums (get_slice (Some (-2)%Z) None None s) = Some (map L ["7.1"; "7.2"]%string) /\
  nums (get_slice None None None s) = Some (map L ["7"; "7.1"; "7.2"]%string).
Proof.
  split; [read_history|]. split; [|repeat split; vm_compute; reflexivity].
  unfold all_ge1. set (ks := keys _). vm_compute in ks. subst ks. repeat (constructor; [apply one_b_ok; vm_compute; reflexivity|]). constructor.
Qed.

(* ------------------------------------------------------------------ *)
(** * C15 *)

Theorem C15_reread_exactly_on_visible_change : forall E known c m z s s1 s2 c' m' z',
  read E known (File c m z) s = (s1, None) -> uses E known s1 s2 ->
  (update_available (File c' m' z') s2 = Ok false <-> m' = m /\ z' = z) /\
  (m' = m /\ z' = z -> refresh E known (File c' m' z') s2 = (s2, Ok None)) /\
  (~ (m' = m /\ z' = z) -> forall s3,
      (read E known (File c' m' z') s2 = (s3, None) -> refresh E known (File c' m' z') s2 = (s3, Ok (last_scan s2))) /\
      (forall e, read E known (File c' m' z') s2 = (s3, Some e) -> refresh E known (File c' m' z') s2 = (s3, Raise e))).
Proof. exact C15_lemma. Qed.
Print Assumptions C15_reread_exactly_on_visible_change.
Example C15_applies :
  let s1 := fst (read E0 all_hids three (sdf_init [])) in
  snd (read E0 all_hids three (sdf_init [])) = None /\ snd (refresh E0 all_hids three s1) = Ok None /\
  snd (refresh E0 all_hids (file (head ++ scan_lines "7" "10" ["1 2"]%string) 6 6) s1) = Ok (Some (KStr (L "7.2"))).
Proof. repeat split; vm_compute; reflexivity. Qed.

(* ------------------------------------------------------------------ *)
(** * C16, C17, C18: a file that grows *)

(** at any time the scans held are those of the file as last read, under distinct numbers *)
Theorem C16_follows_the_file_partial : forall E known T s, incl all_hids known -> follows E known T s ->
  Forall2 same_text (map s_raw (values (scans s))) T /\ NoDup (keys (scans s)) /\ map s_num (values (scans s)) = keys (scans s).
Proof. intros E known T s Hk. apply C16_lemma. exact Hk. Qed.
Print Assumptions C16_follows_the_file_partial.
(** the numbers already in use are kept, and one is added for each new section *)
Theorem C16_numbers_kept_partial : forall E known T T' s p secs s' k, incl all_hids known ->
  follows E known T s -> dissect p = Ok secs -> Keeps scan_section secs T' -> grows s T T' ->
  (read E known p s = (s', None) \/ refresh E known p s = (s', Ok (Some k))) ->
  exists new, keys (scans s') = keys (scans s) ++ new /\ Forall2 same_text (map s_raw (values (scans s'))) T'.
Proof. intros E known T T' s p secs s' k Hk. apply C16_step. exact Hk. Qed.
Print Assumptions C16_numbers_kept_partial.

Definition day1 : path := file (head ++ scan_lines "1" "10" ["1 2"]%string ++ scan_lines "2" "11" ["1 2"]%string) 1 1.
Definition day2 : path := file (head ++ scan_lines "1" "10" ["1 2"]%string ++ scan_lines "2" "11" ["1 2"; ""]%string
                                     ++ scan_lines "2" "12" ["5 6"]%string) 2 2.
Example C16_applies : follows E0 all_hids (scan_texts day1) (opened day1) /\ dissect day2 = Ok (sections day2) /\
  Keeps scan_section (sections day2) (scan_texts day2) /\ grows (opened day1) (scan_texts day1) (scan_texts day2) /\
  snd (refresh E0 all_hids day2 (opened day1)) = Ok (Some (KStr (L "2"))) /\
  keys (scans (fst (refresh E0 all_hids day2 (opened day1)))) = map L ["1"; "2"; "2.1"]%string.
Proof.
  split; [eapply (Follow_open _ _ (L "f") day1); [apply opened_ok|apply sections_ok|apply scan_texts_ok]; vm_compute; reflexivity|].
  split; [apply sections_ok; vm_compute; reflexivity|]. split; [apply scan_texts_ok|]. split; [|split; vm_compute; reflexivity].
  exists (firstn 1 (scan_texts day1)), (firstn 1 (scan_texts day2)), (nth 1 (scan_texts day1) []), (nth 1 (scan_texts day2) []), (skipn 2 (scan_texts day2)), [L "1"], (L "2").
  split; [vm_compute; reflexivity|]. split; [vm_compute; reflexivity|].
  split; [constructor; [apply same; vm_compute; reflexivity|constructor]|].
  split; [constructor; [apply not_same; vm_compute; reflexivity|constructor]|].
  split; [vm_compute; reflexivity|]. split; [vm_compute; reflexivity|]. split; [apply one_b_ok; vm_compute; reflexivity|].
  left. split; [apply same; vm_compute; reflexivity|]. split; [apply distinct_texts; vm_compute; constructor; [intros []|constructor]|].
  constructor; [|constructor]. split; [|apply not_opening; vm_compute; reflexivity].
  constructor; [apply not_same; vm_compute; reflexivity|]. constructor; [apply not_same; vm_compute; reflexivity|constructor].
Qed.

(** without the conditions on the new scans it does not hold: a scan like an earlier one is not added *)
Definition again1 : path := file (["#S 1 ct"; "#D Wed Nov 03 13:48:11 2010"; "#S 2 ct"; "#D Wed Nov 03 13:48:12 2010"]%string) 1 1.
Definition again2 : path := file (["#S 1 ct"; "#D Wed Nov 03 13:48:11 2010"; "#S 2 ct"; "#D Wed Nov 03 13:48:12 2010"; ""; "#S 1 ct"; "#D Wed Nov 03 13:48:11 2010"]%string) 2 2.
Theorem C16_appended_scans_added_refuted :
  ~ (forall E known name p p' s secs secs' T l' N s' k, incl all_hids known ->
       open_file E known name p = Ok s -> dissect p = Ok secs -> dissect p' = Ok secs' ->
       forall l, Keeps scan_section secs (T ++ [l]) -> Keeps scan_section secs' (T ++ l' :: N) -> same_text l' l ->
       last_scan s = Some (KStr (last (keys (scans s)) [])) ->
       refresh E known p' s = (s', Ok (Some k)) ->
       List.length (scans s') = List.length T + 1 + List.length N).
Proof.
  intros H. opened_at again1. dissected again1. dissected again2.
  assert (Q : 2 = 3); [|discriminate].
  transitivity (List.length (scans (fst (refresh E0 all_hids again2 (opened again1))))); [vm_compute; reflexivity|].
  apply (H E0 all_hids (L "f") again1 again2 (opened again1) (sections again1) (sections again2)
    [nth 0 (scan_texts again2) []] (nth 1 (scan_texts again2) []) [nth 2 (scan_texts again2) []]
    (fst (refresh E0 all_hids again2 (opened again1))) (KStr (L "2")) (incl_refl _)) with (l := nth 1 (scan_texts again1) []); try assumption.
  - exact (scan_texts_ok again1).
  - exact (scan_texts_ok again2).
  - apply same; vm_compute; reflexivity.
  - vm_compute; reflexivity.
  - apply step_ok. vm_compute; reflexivity.
Qed.
Print Assumptions C16_appended_scans_added_refuted.

(** C17: more lines for the last scan, if at least five of its lines were there at the first reading *)
Theorem C17_longer_scan_is_lengthened : forall A l more ls n,
  (forall x y, l = x ++ y -> blank x -> x = []) -> (forall x y, l = x ++ y -> blank y -> y = []) ->
  Lines py_eol l ls -> 5 <= List.length ls -> scan_number l n -> ~ blank more ->
  Forall (fun a => ~ same_text (l ++ LF :: more) a) A ->
  lengthened A l (l ++ LF :: more).
Proof. exact longer_lemma. Qed.
Print Assumptions C17_longer_scan_is_lengthened.
Theorem C17_last_scan_replaced_partial : forall E known A l l' ks n s p secs s' k, incl all_hids known ->
  follows E known (A ++ [l]) s -> dissect p = Ok secs -> Keeps scan_section secs (A ++ [l']) ->
  Forall (fun a => ~ same_text a l) A -> keys (scans s) = ks ++ [n] -> last_scan s = Some (KStr n) -> at_least_one n ->
  lengthened A l l' ->
  (read E known p s = (s', None) \/ refresh E known p s = (s', Ok (Some k))) ->
  keys (scans s') = keys (scans s) /\ exists sc, dget n (scans s') = Some sc /\ same_text (s_raw sc) l'.
Proof. intros E known A l l' ks n s p secs s' k Hk. apply C17_lemma. exact Hk. Qed.
Print Assumptions C17_last_scan_replaced_partial.
Definition grown1 : path := file (head ++ scan_lines "1" "10" ["1 2"]%string ++ scan_lines "2" "11" []) 1 1.
Definition grown2 : path := file (head ++ scan_lines "1" "10" ["1 2"]%string ++ scan_lines "2" "11" ["1 2"; "2 3"]%string) 2 2.
Example C17_applies :
  let l := nth 1 (scan_texts grown1) [] in
  scan_texts grown2 = firstn 1 (scan_texts grown1) ++ [l ++ LF :: L "1 2" ++ LF :: L "2 3"] /\
  5 <= List.length (splitlines l) /\ last_scan (opened grown1) = Some (KStr (L "2")) /\
  keys (scans (opened grown1)) = map L ["1"; "2"]%string /\
  snd (refresh E0 all_hids grown2 (opened grown1)) = Ok (Some (KStr (L "2"))) /\
  keys (scans (fst (refresh E0 all_hids grown2 (opened grown1)))) = map L ["1"; "2"]%string.
Proof. cbv zeta. split; [vm_compute; reflexivity|]. split; [vm_compute; lia|]. repeat split; vm_compute; reflexivity. Qed.

(** a scan first read when it had fewer lines is kept and stored a second time *)
Definition early1 : path := file (head ++ ["#S 1 ct"; "#D Wed Nov 03 13:48:11 2010"]%string) 1 1.
Definition early2 : path := file (head ++ ["#S 1 ct"; "#D Wed Nov 03 13:48:11 2010"; "#T 1"; "#N 1"; "#L x"; "5"]%string) 2 2.
Theorem C17_last_scan_replaced_refuted :
  ~ (forall E known name p p' s secs secs' l more s' k, incl all_hids known ->
       open_file E known name p = Ok s -> dissect p = Ok secs -> dissect p' = Ok secs' ->
       Keeps scan_section secs [l] -> Keeps scan_section secs' [l ++ LF :: more] ->
       refresh E known p' s = (s', Ok (Some k)) ->
       keys (scans s') = keys (scans s)).
Proof.
  intros H. opened_at early1. dissected early1. dissected early2.
  assert (Q : [L "1"; L "1.1"] = [L "1"]); [|discriminate].
  transitivity (keys (scans (fst (refresh E0 all_hids early2 (opened early1))))); [vm_compute; reflexivity|].
  transitivity (keys (scans (opened early1))); [|vm_compute; reflexivity].
  apply (H E0 all_hids (L "f") early1 early2 (opened early1) (sections early1) (sections early2)
    (nth 0 (scan_texts early1) []) (text_of ["#T 1"; "#N 1"; "#L x"; "5"]%string)
    (fst (refresh E0 all_hids early2 (opened early1))) (KStr (L "1")) (incl_refl _)); try assumption.
  - exact (scan_texts_ok early1).
  - exact (scan_texts_ok early2).
  - apply step_ok. vm_compute; reflexivity.
Qed.
Print Assumptions C17_last_scan_replaced_refuted.

(** C18 *)
Theorem C18_same_content_same_scans_partial : forall E known T s p secs s', incl all_hids known ->
  follows E known T s -> dissect p = Ok secs -> Keeps scan_section secs T ->
  (exists A l ks n, T = A ++ [l] /\ Forall (fun a => ~ same_text a l) A /\ keys (scans s) = ks ++ [n] /\ last_scan s = Some (KStr n) /\ at_least_one n) ->
  read E known p s = (s', None) ->
  keys (scans s') = keys (scans s) /\ Forall2 same_text (map s_raw (values (scans s'))) (map s_raw (values (scans s))).
Proof. exact C18_lemma. Qed.
Print Assumptions C18_same_content_same_scans_partial.
Example C18_applies :
  (exists A l ks n, scan_texts day1 = A ++ [l] /\ Forall (fun a => ~ same_text a l) A /\ keys (scans (opened day1)) = ks ++ [n] /\
     last_scan (opened day1) = Some (KStr n) /\ at_least_one n) /\
  snd (read E0 all_hids day1 (opened day1)) = None.
Proof.
  split; [|vm_compute; reflexivity].
  exists (firstn 1 (scan_texts day1)), (nth 1 (scan_texts day1) []), [L "1"], (L "2"). split; [vm_compute; reflexivity|].
  split; [constructor; [apply not_same; vm_compute; reflexivity|constructor]|]. split; [vm_compute; reflexivity|]. split; [vm_compute; reflexivity|].
  apply one_b_ok; vm_compute; reflexivity.
Qed.
(** if the scans are not in order of time in the file, reading it again duplicates some *)
Definition unordered : path := file (["#S 1 ct"; "#D Wed Nov 03 13:48:12 2010"; "#S 2 ct"; "#D Wed Nov 03 13:48:11 2010"]%string) 1 1.
Theorem C18_same_content_same_scans_refuted :
  ~ (forall E known name p s s', incl all_hids known -> open_file E known name p = Ok s -> read E known p s = (s', None) ->
       keys (scans s') = keys (scans s)).
Proof.
  intros H. opened_at unordered.
  assert (Q : [L "2"; L "1"; L "2.1"] = [L "1"; L "2"]); [|discriminate].
  transitivity (keys (scans (fst (read E0 all_hids unordered (opened unordered))))); [vm_compute; reflexivity|].
  transitivity (keys (scans (opened unordered))); [|vm_compute; reflexivity].
  apply (H E0 all_hids (L "f") unordered (opened unordered) (fst (read E0 all_hids unordered (opened unordered))) (incl_refl _)); try assumption.
  apply step_ok. vm_compute; reflexivity.
Qed.
Print Assumptions C18_same_content_same_scans_refuted.

(* ------------------------------------------------------------------ *)
(** * C19 *)

(** a file without scans can never be followed: reading it again fails as soon as it has a scan *)
Theorem C19_header_only_file_refuted : forall E known name p s p' secs, incl all_hids known ->
  open_file E known name p = Ok s -> scans s = [] -> dissect p' = Ok secs -> Exists scan_section secs ->
  forall s', uses E known s s' -> snd (read E known p' s') <> None /\ scans (fst (read E known p' s')) = [].
Proof. intros E known name p s p' secs Hk. apply C19_lemma. exact Hk. Qed.
Print Assumptions C19_header_only_file_refuted.
Example C19_applies : let p := file head 1 1 in
  open_file E0 all_hids (L "f") p = Ok (opened p) /\ scans (opened p) = [] /\
  snd (refresh E0 all_hids three (opened p)) = Raise AttributeError.
Proof. cbv zeta. split; [apply opened_ok|split]; vm_compute; reflexivity. Qed.
