(** C29, C30, C31, C67: tables of names and values in headers and scans.
    Theorems only; proofs are in TablesFacts.v, MetaFacts.v, HeaderFacts.v, LinkFacts.v. *)
From Coq Require Import String Lia.
From Verif Require Import Uni Py PyFacts NumFacts Time Utils Keys Handlers Reader SpecText SpecUtils SpecReader SpecNum SpecHistory SpecKeys SpecInterp SpecData SpecTables
  TextFacts KeyFacts ReaderFacts2 DispatchFacts InterpFacts MonadFacts HandlerFacts ExampleFacts DataFacts DataFacts2 LastFacts TablesFacts MetaFacts HeaderFacts LinkFacts UseFacts PropData.
Import ListNotations.
Local Open Scope list_scope.

(** a file with names in its header *)
Definition a_file (hd ls : list string) : path := file (head ++ hd ++ ["#S 1 ascan x 0 1 1 1"; "#D Wed Nov 03 13:48:06 2010"]%string ++ ls) 5 6.
Definition named : path := a_file
  ["#O0 Two Theta  chi"; "#o0 tth chi"; "#O1 m1"; "#o1 m1"; "#J0 Monitor  Det 1"; "#j0 mon det"; "#H0 start  user"; "#H1 sample"; "#C made by spec"]%string
  ["#P0 1.5 -2"; "#P1 3 4"; "#P2 5"; "#V0 1e3  a user"; "#V1 my sample"; "#V1 Si"]%string.

(* ------------------------------------------------------------------ *)
(** * C29 *)

(** [O] the table of names the header of the scan has, [P] the values on the #P lines: each name is given the
    value at its own place, the last one for a name written twice; every value with a name is a number;
    the values without a name are reported and there is nothing else in [positioner]; if the names are all
    different and each has a value, they are in the order of the #O lines *)
Theorem C29_positioners : forall E known, incl all_hids known -> forall s name sc s' sc' ls,
  first_interpret E known s name sc s' sc' -> lines_of (s_raw sc) ls ->
  exists o O P pos ic, header_is s' sc' o /\ o A_O = Some O /\ word_rows H_P ls P /\ attr_is sc' A_P P /\
    attr_is sc' A_positioner pos /\ NoDup (keys pos) /\
    (NoDup (List.concat O) -> map (@List.length str) P = map (@List.length str) O -> keys pos = List.concat O) /\
    (forall k v, dget k pos = Some v <-> exists w, last_pair O P k w /\ number w v) /\
    (forall r c k w, at_cell O r c k -> at_cell P r c w -> exists v, number w v) /\
    attr_is sc' A_icomments ic /\ messages O P ic.
Proof. exact C29_lemma. Qed.
Print Assumptions C29_positioners.
(** the names a header has are those of its #O lines, from the last #O0 line on, unless a scan has #O lines of its own *)
Theorem C29_names_of_positioners : forall E known, incl all_hids known -> forall name p s s' h ls,
  open_file E known name p = Ok s -> uses E known s s' -> no_names_in_scans s -> In h (headers s') -> Lines py_eol (h_raw h) ls ->
  exists O, h_obj h A_O = Some O /\ ((h_raw h = [] /\ O = []) \/ (h_raw h <> [] /\ positioner_names ls O)).
Proof. exact names_link. Qed.
Print Assumptions C29_names_of_positioners.
Definition extra : path := a_file ["#O0 Two Theta  chi"; "#O1 m1"]%string ["#P0 1.5 -2"; "#P1 3 4"; "#P2 5"]%string.
Lemma extra_good : good extra. Proof. good_tac. Qed.
Example C29_applies : exists O P pos, attr_is (after extra) A_P P /\ attr_is (after extra) A_positioner pos /\
  forall k v, dget k pos = Some v <-> exists w, last_pair O P k w /\ number w v.
Proof.
  destruct (C29_positioners E0 all_hids (incl_refl _) _ _ _ _ _ _ extra_good (its_lines_ok _)) as (o & O & P & pos & ic & _ & _ & _ & H1 & H2 & _ & _ & H3 & _).
  exists O, P, pos. split; [exact H1|]. split; [exact H2|exact H3].
Qed.
Example C29_values : attr_is (after extra) A_positioner [(L "Two Theta", FDec 15 (-1)); (L "chi", FDec (-2) 0); (L "m1", FDec 3 0)] /\
  attr_is (after extra) A_icomments (map L ["extra value in #P1 position 2, no matching label in #O1"; "#P2 found without #O2"]%string).
Proof. split; vm_compute; reflexivity. Qed.
Example C29_names_applies : exists O, option_map (fun h => h_obj h A_O) (nth_error (headers (opened extra)) 0) = Some (Some O) /\ O = [[L "Two Theta"; L "chi"]; [L "m1"]].
Proof. eexists; split; vm_compute; reflexivity. Qed.
Example C29_no_names : no_names_in_scans (opened extra).
Proof. exact (fun name sc ls l => no_names_by (scans (opened extra)) name sc ls l ltac:(vm_compute; reflexivity)). Qed.

(* ------------------------------------------------------------------ *)
(** * C30 *)

(** [H] the labels the header of the scan has, [V] the values on the #V lines: each label is given the value at its
    own place; a value without a label is not possible if the interpretation succeeds *)
Theorem C30_metadata : forall E known, incl all_hids known -> forall s name sc s' sc' ls,
  first_interpret E known s name sc s' sc' -> lines_of (s_raw sc) ls ->
  exists o H cs V, header_is s' sc' o /\ o A_H = Some H /\ Keeps (control H_V) ls cs /\ attr_is sc' A_V V /\ List.length V = List.length cs /\
    (forall r l, nth_error cs r = Some l -> exists labels t row, nth_error H r = Some labels /\ content l t /\ nth_error V r = Some row /\ value_row labels t row) /\
    (forall r c w, at_cell V r c w -> exists k, at_cell H r c k) /\
    ((cs = [] /\ s_obj sc' A_metadata = None) \/
     (cs <> [] /\ exists m, attr_is sc' A_metadata m /\ NoDup (keys m) /\ forall k v, dget k m = Some v <-> exists w, last_pair H V k w /\ meta_value w v)).
Proof. exact C30_lemma. Qed.
Print Assumptions C30_metadata.
Definition unicat : path := a_file ["#H0 start  user"; "#H1 sample"]%string ["#V0 1e3  a user"; "#V1 my"]%string.
Lemma unicat_good : good unicat. Proof. good_tac. Qed.
Example C30_applies : exists H V m, attr_is (after unicat) A_V V /\ attr_is (after unicat) A_metadata m /\
  forall k v, dget k m = Some v <-> exists w, last_pair H V k w /\ meta_value w v.
Proof.
  destruct (C30_metadata E0 all_hids (incl_refl _) _ _ _ _ _ _ unicat_good (its_lines_ok _)) as (o & H & cs & V & _ & _ & _ & H1 & _ & _ & _ & [[_ Q]|(_ & m & H2 & _ & H3)]).
  - assert (Q' : match s_obj (after unicat) A_metadata with Some _ => true | None => false end = true) by (vm_compute; reflexivity). rewrite Q in Q'. discriminate.
  - exists H, V, m. split; [exact H1|]. split; [exact H2|exact H3].
Qed.
Example C30_values : attr_is (after unicat) A_metadata [(L "start", MdF (FDec 1 3)); (L "user", MdS (L "a user")); (L "sample", MdS (L "my"))].
Proof. vm_compute. reflexivity. Qed.
(** values without labels: a row too many, a value too many *)
Example C30_errors :
  snd (interpret E0 all_hids (L "1") (opened (a_file ["#H0 start  user"]%string ["#V0 1e3  a user"; "#V1 my"]%string))) = Some IndexError /\
  snd (interpret E0 all_hids (L "1") (opened (a_file ["#H0 start"]%string ["#V0 my  sample"]%string))) = Some TypeError.
Proof. split; vm_compute; reflexivity. Qed.

(* ------------------------------------------------------------------ *)
(** * C31 *)

Theorem C31_cross_references : forall E known, incl all_hids known -> forall s h ls,
  clean_history E known s -> In h (headers s) -> h_raw h <> [] -> Lines py_eol (h_raw h) ls ->
  exists J j O m, header_rows H_J ls J /\ header_rows H_j ls j /\ positioner_names ls O /\ header_rows H_o ls m /\
    ((J <> [] /\ j <> [] /\ exists x, h_obj h A_counter_xref = Some x /\ cross_reference x j J) \/ ((J = [] \/ j = []) /\ h_obj h A_counter_xref = None)) /\
    ((m <> [] /\ exists x, h_obj h A_positioner_xref = Some x /\ cross_reference x m O) \/ (m = [] /\ h_obj h A_positioner_xref = None)).
Proof. exact C31_link. Qed.
Print Assumptions C31_cross_references.
Definition xref : path := a_file ["#O0 Two Theta  chi"; "#o0 tth chi"; "#O1 m1  m2"; "#o1 m"; "#J0 Monitor  Det"; "#j0 mon det"]%string [].
Example C31_applies : exists h ls, clean_history E0 all_hids (opened xref) /\ nth_error (headers (opened xref)) 0 = Some h /\ h_raw h <> [] /\ Lines py_eol (h_raw h) ls.
Proof.
  destruct (nth_error (headers (opened xref)) 0) as [h|] eqn:Eh.
  - exists h, (splitlines (h_raw h)). split; [apply (open_clean E0 all_hids (L "f") xref); apply opened_ok; vm_compute; reflexivity|]. split; [reflexivity|]. split; [|apply Lines_splitlines; reflexivity].
    assert (Q : option_map (fun h => match h_raw h with [] => false | _ => true end) (nth_error (headers (opened xref)) 0) = Some true) by (vm_compute; reflexivity).
    rewrite Eh in Q. cbn [option_map] in Q. intros Q'. rewrite Q' in Q. discriminate.
  - exfalso. assert (Q : List.length (headers (opened xref)) = 1) by (vm_compute; reflexivity). apply nth_error_None in Eh. lia.
Qed.
Example C31_values :
  option_map (fun h => (h_obj h A_positioner_xref, h_obj h A_counter_xref)) (nth_error (headers (opened xref)) 0) =
  Some (Some [(L "tth", L "Two Theta"); (L "chi", L "chi"); (L "m", L "m1")], Some [(L "mon", L "Monitor"); (L "det", L "Det")]).
Proof. vm_compute. reflexivity. Qed.
(** a mnemonic without a name *)
Example C31_error : match open_file E0 all_hids (L "f") (a_file ["#O0 Two Theta"; "#o0 tth chi"]%string []) with Raise e => e = IndexError | Ok _ => False end.
Proof. vm_compute. reflexivity. Qed.

(* ------------------------------------------------------------------ *)
(** * C67 *)

Theorem C67_header_comments_and_labels : forall E known, incl all_hids known -> forall s h ls,
  clean_history E known s -> In h (headers s) -> Lines py_eol (h_raw h) ls ->
  (exists cs ts, Keeps (starts H_C) ls cs /\ Forall2 content cs ts /\ h_obj h A_comments = Some ts) /\
  (exists cs labs, Keeps (starts H_H) ls cs /\ Forall2 meta_labels cs labs /\ h_obj h A_H = Some labs).
Proof. exact C67_link. Qed.
Print Assumptions C67_header_comments_and_labels.
Example C67_values : option_map (fun h => (h_obj h A_comments, h_obj h A_H)) (nth_error (headers (opened named)) 0) =
  Some (Some [L "c"; L "made by spec"], Some [[L "start"; L "user"]; [L "sample"]]).
Proof. vm_compute. reflexivity. Qed.

(* ------------------------------------------------------------------ *)
(** * C66 *)

(** if no scan has #O lines: whatever was done with the scans of an opened file, the first interpretation of a scan has
    the same outcome, errors included, and leaves the same scan; the headers are never changed *)
Theorem C66_order_of_use_partial : forall E known, incl all_hids known -> forall fname p s s1 s2 name sc1 sc2 s1' s2' r1 r2,
  open_file E known fname p = Ok s -> no_names_in_scans s -> uses E known s s1 -> uses E known s s2 ->
  dget name (scans s1) = Some sc1 -> s_lazy sc1 = true -> dget name (scans s2) = Some sc2 -> s_lazy sc2 = true ->
  interpret E known name s1 = (s1', r1) -> interpret E known name s2 = (s2', r2) ->
  r1 = r2 /\ dget name (scans s1') = dget name (scans s2') /\ headers s1' = headers s /\ headers s2' = headers s.
Proof. exact C66_lemma. Qed.
Print Assumptions C66_order_of_use_partial.
(** a scan with #O lines changes the names of the header and so of the other scans *)
Definition renaming : path := file (head ++ ["#O0 chi"; "#S 1 ascan x 0 1 1 1"; "#D Wed Nov 03 13:48:06 2010"; "#O0 phi"; "#P0 1";
  "#S 2 ascan x 0 1 1 1"; "#D Wed Nov 03 13:48:07 2010"; "#P0 2"]%string) 5 6.
Definition other_first : sdf := interpreted "1" (opened renaming).
Theorem C66_order_of_use_refuted :
  attr_is (scan_of "2" (interpreted "2" (opened renaming))) A_positioner [(L "chi", FDec 2 0)] /\
  attr_is (scan_of "2" (interpreted "2" other_first)) A_positioner [(L "phi", FDec 2 0)].
Proof. split; vm_compute; reflexivity. Qed.
Print Assumptions C66_order_of_use_refuted.


Definition two : path := file (head ++ ["#O0 chi"; "#S 1 ascan x 0 1 1 1"; "#D Wed Nov 03 13:48:06 2010"; "#P0 1";
  "#S 2 ascan x 0 1 1 1"; "#D Wed Nov 03 13:48:07 2010"; "#P0 2"]%string) 5 6.
Lemma two_no_names : no_names_in_scans (opened two).
Proof. exact (fun name sc ls l => no_names_by (scans (opened two)) name sc ls l ltac:(vm_compute; reflexivity)). Qed.
Example C66_applies : open_file E0 all_hids (L "f") two = Ok (opened two) /\ no_names_in_scans (opened two) /\
  uses E0 all_hids (opened two) (interpreted "1" (opened two)) /\ option_map s_lazy (dget (L "2") (scans (interpreted "1" (opened two)))) = Some true /\
  snd (interpret E0 all_hids (L "2") (interpreted "1" (opened two))) = None.
Proof.
  split; [apply opened_ok; vm_compute; reflexivity|]. split; [exact two_no_names|]. split; [apply Uses_interpret; apply Uses_none|]. split; vm_compute; reflexivity.
Qed.
