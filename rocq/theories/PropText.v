(** C01-C04: dissecting and recognising files.  Theorems only; proofs are in TextFacts.v. *)
From Coq Require Import String.
From Verif Require Import Py Handlers Keys Reader SpecText TextFacts.
Import ListNotations.
Local Open Scope list_scope.

Definition sample : str :=
  text_of ["junk"; "#F /tmp/a.dat"; "#E 1"; "#D Wed Nov 03 13:48:06 2010"; ""; "#S 1  ascan";
           "#N 1"; "1 2"; "#S 2 ct"; ""]%string.

(** every text has exactly one list of lines *)
Theorem C01_lines_exist : forall content, exists! ls, Lines py_eol content ls.
Proof. exact lines_exist_unique. Qed.
Print Assumptions C01_lines_exist.

Theorem C01_dissect_loses_nothing : forall content m z ls secs,
  Lines py_eol content ls -> dissect (File (Some content) m z) = Ok secs ->
  exists pre groups,
    ls = pre ++ List.concat groups /\
    Forall (fun l => ~ section_line l) pre /\
    Forall a_section groups /\
    secs = map (join [LF]) groups /\
    map (split_c LF) secs = groups.
Proof. exact C01_lemma. Qed.
Print Assumptions C01_dissect_loses_nothing.
Example C01_applies : exists ls secs, Lines py_eol sample ls /\
  dissect (File (Some sample) 0 0) = Ok secs /\ List.length secs = 4%nat.
Proof.
  exists (splitlines sample). eexists. split; [apply Lines_splitlines; reflexivity|].
  split; vm_compute; reflexivity.
Qed.

Theorem C02_dissect_accepts_exactly : forall content m z ls,
  Lines py_eol content ls ->
  ((exists l, In l ls /\ starts_with "#S " l) \/ spec_header content ->
     exists secs n, dissect (File (Some content) m z) = Ok secs /\ count section_line ls n /\
                    List.length secs = n /\ 0 < n) /\
  (~ ((exists l, In l ls /\ starts_with "#S " l) \/ spec_header content) ->
     dissect (File (Some content) m z) = Raise NotASpecDataFile).
Proof. exact C02_lemma. Qed.
Print Assumptions C02_dissect_accepts_exactly.

Theorem C02_no_section_rejected : forall content m z ls,
  Lines py_eol content ls -> Forall (fun l => ~ section_line l) ls ->
  dissect (File (Some content) m z) = Raise NotASpecDataFile.
Proof. exact C02_lemma2. Qed.
Print Assumptions C02_no_section_rejected.
Example C02_applies :
  dissect (File (Some (text_of ["hello"; "# S"; "1 2 3"]%string)) 0 0) = Raise NotASpecDataFile /\
  dissect (File (Some (text_of ["#S 1"]%string)) 0 0) = Ok [L "#S 1"].
Proof. split; vm_compute; reflexivity. Qed.

Theorem C03_line_ends_do_not_matter : forall a b last m z m' z',
  map fst a = map fst b ->
  Forall (free_of file_eol) (map fst a) -> free_of file_eol last ->
  no_cr_lf_clash a -> no_cr_lf_clash b ->
  dissect (File (Some (render a last)) m z) = dissect (File (Some (render b last)) m' z').
Proof. exact C03_lemma. Qed.
Print Assumptions C03_line_ends_do_not_matter.
Example C03_applies :
  let ls := map L ["#F a"; "#S 1 ct"; ""; "1 2"]%string in
  let a := map (fun l => (l, E_LF)) ls in
  let b := combine ls [E_CRLF; E_CR; E_CR; E_LF] in
  map fst a = map fst b /\ Forall (free_of file_eol) (map fst a) /\ no_cr_lf_clash a /\ no_cr_lf_clash b /\
  dissect (File (Some (render b [])) 0 0) = Ok [L "#F a"; L "#S 1 ct" ++ [LF; LF] ++ L "1 2"].
Proof. vm_compute. repeat split; repeat constructor. Qed.

Theorem C04_header_test_exact : forall p,
  is_spec_file_with_header p = true <->
  exists content m z, p = File (Some content) m z /\ spec_header content.
Proof. exact C04_header. Qed.
Print Assumptions C04_header_test_exact.

Theorem C04_recognition_exact : forall p,
  is_spec_file p = true <->
  exists content m z, p = File (Some content) m z /\ (spec_header content \/ spec_scan_line content).
Proof. exact C04_file. Qed.
Print Assumptions C04_recognition_exact.

Theorem C04_constructor_errors : forall E known name p,
  (p = Absent -> open_file E known name p = Raise SpecDataFileNotFound) /\
  (p <> Absent -> is_spec_file p = false -> open_file E known name p = Raise NotASpecDataFile).
Proof. exact C04_open. Qed.
Print Assumptions C04_constructor_errors.
Example C04_applies :
  is_spec_file_with_header (File (Some (text_of ["#F a"; "#E 1"; "#D x"; "#C c"; "#S 1"]%string)) 0 0) = true /\
  is_spec_file_with_header (File (Some (text_of ["#F a"; "#E 1"; "#D x"]%string)) 0 0) = false /\
  is_spec_file (File (Some (text_of ["x"; "#S 1"]%string)) 0 0) = true /\
  is_spec_file NotFile = false.
Proof. repeat split; vm_compute; reflexivity. Qed.
