(** C110: the mnemonics of positioners in a saved file *)
From Coq Require Import String Lia.
From Verif Require Import Py PyFacts Utils SpecUtils Keys Handlers Reader SpecText SpecHistory SpecInterp SpecTables SpecWriter SpecEntry SpecXref H5 Writer SpecH5 XrefEntry MneEntry
  MonadFacts H5Facts TextFacts InterpFacts HeaderFacts LinkFacts TableFacts ExampleFacts PropWriter PropTables PropEntry PropXref.
Import ListNotations.
Local Open Scope list_scope.

(** [O], [m]: the names on the #O lines and the mnemonics on the #o lines of the header of the scan, [d]: the positioners of the scan.
    The datasets of the positioner with the name in row [r] and column [c] say the mnemonic in row [r] and column [c];
    if the names, and the mnemonics, are different, and every name has a mnemonic and a value *)
Theorem C110_positioner_mnemonics_partial : forall E known s0 s versions ks s' f k sc h ls O m d, incl all_hids known ->
  saved E known s0 s versions ks s' f k sc -> clean_history E known s0 ->
  nth_error (headers s') (s_hdr sc) = Some h -> Lines py_eol (h_raw h) ls -> positioner_names ls O -> header_rows H_o ls m -> attr_is sc A_positioner d ->
  map (@List.length str) m = map (@List.length str) O -> NoDup (List.concat m) -> NoDup (List.concat O) -> map fst d = List.concat O ->
  forall r c n v y p, at_cell O r c n -> at_cell m r c y -> last_named d n v p ->
    text_at f [entry_name k; L "positioners"; p; L "name"] p [(L "spec_name", AText n); (L "spec_mne", AText y)] /\
    number_at f [entry_name k; L "positioners"; p; L "value"] (NF v) [(L "spec_name", AText n); (L "spec_mne", AText y)].
Proof.
  intros E known s0 s versions ks s' f k sc h ls O m d Hk SV Cl Eh Hl RO Rm Hd Sh ND1 ND2 Ek r c n v y p HO Hm Hn.
  refine (e_cells E known Hk s0 s s' versions ks f k sc h ls SV Cl Eh Hl O m d RO Rm Hd Sh ND1 Ek r c n v y p HO Hm _ Hn). rewrite Ek. exact ND2.
Qed.
Print Assumptions C110_positioner_mnemonics_partial.

(** in general: the i-th positioner of the scan is given the i-th mnemonic of the cross reference of the header *)
Theorem C110_mnemonics_in_order : forall E known s0 s versions ks s' f k sc h d x, incl all_hids known ->
  saved E known s0 s versions ks s' f k sc -> attr_is sc A_positioner d ->
  nth_error (headers s') (s_hdr sc) = Some h -> h_obj h A_positioner_xref = Some x -> x <> [] ->
  forall pre n v post p, d = pre ++ (n, v) :: post -> ds_name n p -> (forall y, In y (map fst post) -> ~ ds_name y p) ->
  exists mne, nth_error (keys x) (List.length pre) = Some mne /\
    text_at f [entry_name k; L "positioners"; p; L "name"] p [(L "spec_name", AText n); (L "spec_mne", AText mne)] /\
    number_at f [entry_name k; L "positioners"; p; L "value"] (NF v) [(L "spec_name", AText n); (L "spec_mne", AText mne)].
Proof.
  intros E known s0 s versions ks s' f k sc h d x Hk SV Hd Eh Hx Nx pre n v post p E1 E2 E3.
  exact (e_mne E known Hk s0 s s' versions ks f k sc h d x SV Hd Eh Hx Nx pre n v post p E1 E2 E3).
Qed.
Print Assumptions C110_mnemonics_in_order.

(** a scan with more positioners than its header has mnemonics is not saved *)
Theorem C110_enough_mnemonics : forall E known s0 s versions ks s' f k sc h d x, incl all_hids known ->
  saved E known s0 s versions ks s' f k sc -> attr_is sc A_positioner d -> (forall n v, In (n, v) d -> n <> []) ->
  nth_error (headers s') (s_hdr sc) = Some h -> h_obj h A_positioner_xref = Some x -> x <> [] -> List.length d <= List.length x.
Proof.
  intros E known s0 s versions ks s' f k sc h d x Hk SV Hd Hn Eh Hx Nx.
  exact (e_enough E known Hk s0 s s' versions ks f k sc h d x SV Hd Eh Hx Nx Hn).
Qed.
Print Assumptions C110_enough_mnemonics.

Lemma refs_saved_P : exists sc, saved E0 all_hids (opened refs) (opened refs) versions0 [k1] (after_save refs [k1]) (nxfile refs [k1]) k1 sc /\
  s_hdr sc = 0 /\ s_obj sc A_positioner = Some [(L "Two Theta", FDec 1 0); (L "chi", FDec 2 0)].
Proof. one_tac. Qed.
Example C110_example : number_at (nxfile refs [k1]) [L "S1"; L "positioners"; L "Two_Theta"; L "value"] (NF (FDec 1 0)) [(L "spec_name", AText (L "Two Theta")); (L "spec_mne", AText (L "tth"))].
Proof.
  destruct refs_saved_P as (sc & SV & Hs & Hd). destruct refs_header as (h & Eh & El). rewrite <- Hs in Eh.
  assert (Cl : clean_history E0 all_hids (opened refs)) by (apply (open_clean E0 all_hids (L "f") refs); apply opened_ok; vm_compute; reflexivity).
  assert (Hl : Lines py_eol (h_raw h) (map L hdr_lines)) by (apply Lines_splitlines; symmetry; exact El).
  assert (Ro : header_rows H_o (map L hdr_lines) [[L "tth"; L "chi"]]) by (apply (rows_are H_o (h_raw h)); [discriminate|discriminate|exact El|vm_compute; reflexivity]).
  assert (RO : positioner_names (map L hdr_lines) [[L "Two Theta"; L "chi"]]).
  { pose proof (HeaderFacts.names_ok all_hids (incl_refl _) (h_raw h)) as R. rewrite El in R.
    assert (Q : fold_left (fun rows l => o_step l rows) (hlines all_hids H_O (map L hdr_lines)) [] = [[L "Two Theta"; L "chi"]]) by (vm_compute; reflexivity). rewrite Q in R. exact R. }
  assert (ND : forall a b : str, seqb a b = false -> NoDup (List.concat [[a; b]])).
  { intros a b Q. apply seqb_neq in Q. cbn [List.concat app]. repeat constructor; simpl; intuition. }
  refine (proj2 (C110_positioner_mnemonics_partial _ _ _ _ _ _ _ _ _ _ _ _ _ _ _ (incl_refl _) SV Cl Eh Hl RO Ro Hd eq_refl (ND (L "tth") (L "chi") eq_refl) (ND (L "Two Theta") (L "chi") eq_refl) eq_refl 0 0 (L "Two Theta") (FDec 1 0) (L "tth") (L "Two_Theta") _ _ _)).
  - exists [L "Two Theta"; L "chi"]. split; reflexivity.
  - exists [L "tth"; L "chi"]. split; reflexivity.
  - exists [], [(L "chi", FDec 2 0)]. split; [reflexivity|]. split; [apply ds_name_iff; vm_compute; reflexivity|].
    intros y [<-|[]] Q. cbn [fst] in Q. apply ds_name_iff in Q. assert (Ec : clean_name (L "chi") = Ok (L "chi")) by (vm_compute; reflexivity). rewrite Ec in Q. injection Q. discriminate.
Qed.

(** two positioners with one name: those that follow get the mnemonic of another one *)
Definition twice : path := a_file ["#O0 m  m  n"; "#o0 x y z"]%string ["#T 1  (Seconds)"; "#P0 1 2 3"; "#N 2"; "#L a  b"; "1 2"]%string.
Definition twice_lines : list string := ["#E 1"; "#D Wed Nov 03 13:48:06 2010"; "#C c"; "#O0 m  m  n"; "#o0 x y z"]%string.
Lemma twice_saved : exists sc, saved E0 all_hids (opened twice) (opened twice) versions0 [k1] (after_save twice [k1]) (nxfile twice [k1]) k1 sc /\
  s_hdr sc = 0 /\ s_obj sc A_positioner = Some [(L "m", FDec 2 0); (L "n", FDec 3 0)].
Proof. one_tac. Qed.
Lemma twice_header : exists h, nth_error (headers (after_save twice [k1])) 0 = Some h /\ splitlines (h_raw h) = map L twice_lines /\
  h_obj h A_positioner_xref = Some [(L "x", L "m"); (L "y", L "m"); (L "z", L "n")].
Proof.
  assert (Q : option_map (fun h => (splitlines (h_raw h), h_obj h A_positioner_xref)) (nth_error (headers (after_save twice [k1])) 0) = Some (map L twice_lines, Some [(L "x", L "m"); (L "y", L "m"); (L "z", L "n")])) by (vm_compute; reflexivity).
  destruct (nth_error (headers (after_save twice [k1])) 0) as [h|]; [|discriminate Q]. exists h. split; [reflexivity|]. cbn [option_map] in Q. apply MonadFacts.Some_inj in Q. split; [exact (f_equal fst Q)|exact (f_equal snd Q)].
Qed.
Lemma attr_fun f i n v v' : attribute f i n v -> attribute f i n v' -> v = v'.
Proof. intros (nd & A & B) (nd' & A' & B'). rewrite A in A'. injection A'; intros <-. rewrite B in B'. injection B'; auto. Qed.
Theorem C110_positioner_mnemonics_refuted :
  ~ (forall E known s0 s versions ks s' f k sc h ls O m d, incl all_hids known -> saved E known s0 s versions ks s' f k sc -> clean_history E known s0 ->
     nth_error (headers s') (s_hdr sc) = Some h -> Lines py_eol (h_raw h) ls -> positioner_names ls O -> header_rows H_o ls m -> attr_is sc A_positioner d ->
     map (@List.length str) m = map (@List.length str) O -> NoDup (List.concat m) ->
     forall r c n v y p, at_cell O r c n -> (forall r' c', at_cell O r' c' n -> (r', c') = (r, c)) -> at_cell m r c y -> last_named d n v p ->
     number_at f [entry_name k; L "positioners"; p; L "value"] (NF v) [(L "spec_name", AText n); (L "spec_mne", AText y)]).
Proof.
  intros H. destruct twice_saved as (sc & SV & Hs & Hd). destruct twice_header as (h & Eh & El & Ex). rewrite <- Hs in Eh.
  assert (Cl : clean_history E0 all_hids (opened twice)) by (apply (open_clean E0 all_hids (L "f") twice); apply opened_ok; vm_compute; reflexivity).
  assert (Hl : Lines py_eol (h_raw h) (map L twice_lines)) by (apply Lines_splitlines; symmetry; exact El).
  assert (Ro : header_rows H_o (map L twice_lines) [[L "x"; L "y"; L "z"]]) by (apply (rows_are H_o (h_raw h)); [discriminate|discriminate|exact El|vm_compute; reflexivity]).
  assert (RO : positioner_names (map L twice_lines) [[L "m"; L "m"; L "n"]]).
  { pose proof (HeaderFacts.names_ok all_hids (incl_refl _) (h_raw h)) as R. rewrite El in R.
    assert (Q : fold_left (fun rows l => o_step l rows) (hlines all_hids H_O (map L twice_lines)) [] = [[L "m"; L "m"; L "n"]]) by (vm_compute; reflexivity). rewrite Q in R. exact R. }
  assert (Dn : ds_name (L "n") (L "n")) by (apply ds_name_iff; vm_compute; reflexivity).
  destruct (C110_mnemonics_in_order _ _ _ _ _ _ _ _ _ _ _ _ _ (incl_refl _) SV Hd Eh Ex ltac:(discriminate) [(L "m", FDec 2 0)] (L "n") (FDec 3 0) [] (L "n") eq_refl Dn) as (mne & M1 & _ & M2); [intros y []|].
  cbn in M1. assert (Em : mne = L "y") by (injection M1; auto). rewrite Em in M2. clear M1 Em mne.
  pose proof (H _ _ _ _ _ _ _ _ _ _ _ _ _ _ _ (incl_refl _) SV Cl Eh Hl RO Ro Hd eq_refl) as X. clear H SV Hd Eh Hl.
  assert (Y : number_at (nxfile twice [k1]) [entry_name k1; L "positioners"; L "n"; L "value"] (NF (FDec 3 0)) [(L "spec_name", AText (L "n")); (L "spec_mne", AText (L "z"))]).
  { apply (X ltac:(cbn [List.concat app]; repeat constructor; simpl; intuition discriminate) 0 2).
    - exists [L "m"; L "m"; L "n"]. split; reflexivity.
    - intros [|[|r']] c' (row & Q1 & Q2); cbn in Q1; try discriminate Q1. injection Q1; intros <-. destruct c' as [|[|[|[|c']]]]; cbn in Q2; try discriminate Q2. reflexivity.
    - exists [L "x"; L "y"; L "z"]. split; reflexivity.
    - exists [(L "m", FDec 2 0)], []. split; [reflexivity|]. split; [exact Dn|intros y []]. }
  destruct M2 as (j & J1 & _ & J2). destruct Y as (j' & K1 & _ & K2). assert (j = j') by (eapply leads_fun; eauto). subst j'.
  inversion J2 as [|? ? _ J3]. inversion J3 as [|? ? J4 _]. inversion K2 as [|? ? _ K3]. inversion K3 as [|? ? K4 _]. cbn [fst snd] in J4, K4.
  pose proof (attr_fun _ _ _ _ _ J4 K4) as Q. discriminate Q.
Qed.
Print Assumptions C110_positioner_mnemonics_refuted.

(** fewer mnemonics than positioners: nothing is saved *)
Definition few : path := a_file ["#O0 m  n"; "#o0 x"]%string ["#T 1  (Seconds)"; "#P0 1 2"; "#N 2"; "#L a  b"; "1 2"]%string.
Example C110_few_mnemonics : snd (save E0 all_hids versions0 [k1] (opened few)) = Some IndexError.
Proof. vm_compute. reflexivity. Qed.
