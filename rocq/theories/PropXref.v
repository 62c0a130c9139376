(** C109: the cross references of mnemonics and names in a saved file *)
From Coq Require Import String Lia.
From Verif Require Import Py PyFacts Utils SpecUtils Keys Handlers Reader SpecText SpecHistory SpecInterp SpecTables SpecWriter SpecEntry SpecXref H5 Writer SpecH5 XrefEntry
  H5Facts TextFacts InterpFacts HeaderFacts LinkFacts TableFacts ExampleFacts PropWriter PropTables PropEntry.
Import ListNotations.
Local Open Scope list_scope.

(** [J], [j]: the words of the #J and #j lines of the header of the scan. Every mnemonic is a dataset whose text is the name at the same place *)
Theorem C109_counter_cross_reference : forall E known s0 s versions ks s' f k sc h ls J j, incl all_hids known ->
  saved E known s0 s versions ks s' f k sc -> clean_history E known s0 ->
  nth_error (headers s') (s_hdr sc) = Some h -> Lines py_eol (h_raw h) ls -> header_rows H_J ls J -> header_rows H_j ls j ->
  J <> [] -> (exists r c m, at_cell j r c m) -> (forall r c m, at_cell j r c m -> plain_name m) ->
  note_at f [entry_name k; L "counter_cross_reference"] "cross-reference SPEC counter mnemonics and names" "keys are SPEC counter mnemonics, values are SPEC counter names" /\
  (forall r c m, at_cell j r c m -> exists n, last_pair j J m n) /\
  forall m n, last_pair j J m n -> text_at f [entry_name k; L "counter_cross_reference"; m] n [].
Proof.
  intros E known s0 s versions ks s' f k sc h ls J j Hk SV Cl Eh Hl RJ Rj NJ Ne Pl.
  exact (e_counters E known Hk s0 s s' versions ks f k sc h ls SV Cl Eh Hl J j RJ Rj NJ Pl Ne).
Qed.
Print Assumptions C109_counter_cross_reference.

(** the same for positioners; the dataset also says the name of the dataset of the positioner *)
Theorem C109_positioner_cross_reference : forall E known s0 s versions ks s' f k sc h ls O m, incl all_hids known ->
  saved E known s0 s versions ks s' f k sc -> clean_history E known s0 ->
  nth_error (headers s') (s_hdr sc) = Some h -> Lines py_eol (h_raw h) ls -> positioner_names ls O -> header_rows H_o ls m ->
  (exists r c x, at_cell m r c x) -> (forall r c x, at_cell m r c x -> plain_name x) ->
  note_at f [entry_name k; L "positioner_cross_reference"] "cross-reference SPEC positioner mnemonics and names" "keys are SPEC positioner mnemonics, values are SPEC positioner names" /\
  (forall r c x, at_cell m r c x -> exists n, last_pair m O x n) /\
  forall x n, last_pair m O x n ->
    exists c, ds_name n c /\ text_at f [entry_name k; L "positioner_cross_reference"; x] n [(L "mne", AText x); (L "field_name", AText c)].
Proof.
  intros E known s0 s versions ks s' f k sc h ls O m Hk SV Cl Eh Hl RO Rm Ne Pl.
  exact (e_positioners E known Hk s0 s s' versions ks f k sc h ls SV Cl Eh Hl O m RO Rm Pl Ne).
Qed.
Print Assumptions C109_positioner_cross_reference.

Definition refs : path := a_file ["#O0 Two Theta  chi"; "#o0 tth chi"; "#J0 Monitor Det"; "#j0 mon det"]%string ["#T 1  (Seconds)"; "#P0 1 2"; "#N 2"; "#L a  b"; "1 2"]%string.
Lemma refs_saved : exists sc, saved E0 all_hids (opened refs) (opened refs) versions0 [k1] (after_save refs [k1]) (nxfile refs [k1]) k1 sc /\ s_hdr sc = 0.
Proof. one_tac. Qed.
Definition hdr_lines : list string := ["#E 1"; "#D Wed Nov 03 13:48:06 2010"; "#C c"; "#O0 Two Theta  chi"; "#o0 tth chi"; "#J0 Monitor Det"; "#j0 mon det"]%string.
Lemma refs_header : exists h, nth_error (headers (after_save refs [k1])) 0 = Some h /\ splitlines (h_raw h) = map L hdr_lines.
Proof.
  assert (Q : option_map (fun h => splitlines (h_raw h)) (nth_error (headers (after_save refs [k1])) 0) = Some (map L hdr_lines)) by (vm_compute; reflexivity).
  destruct (nth_error (headers (after_save refs [k1])) 0) as [h|]; [|discriminate Q]. exists h. split; [reflexivity|]. cbn [option_map] in Q. injection Q. auto.
Qed.
Lemma rows_are h raw ls rows : h <> H_unrec -> h <> H_E -> splitlines raw = map L ls -> map wrow (hlines all_hids h (map L ls)) = rows -> header_rows h (map L ls) rows.
Proof. intros A B C <-. pose proof (rows_ok all_hids (incl_refl _) h raw A B) as R. rewrite C in R. exact R. Qed.
Example C109_example :
  text_at (nxfile refs [k1]) [L "S1"; L "counter_cross_reference"; L "mon"] (L "Monitor") [] /\
  text_at (nxfile refs [k1]) [L "S1"; L "positioner_cross_reference"; L "tth"] (L "Two Theta") [(L "mne", AText (L "tth")); (L "field_name", AText (L "Two_Theta"))].
Proof.
  destruct refs_saved as (sc & SV & Hs). destruct refs_header as (h & Eh & El). rewrite <- Hs in Eh.
  assert (Cl : clean_history E0 all_hids (opened refs)) by (apply (open_clean E0 all_hids (L "f") refs); apply opened_ok; vm_compute; reflexivity).
  assert (Hl : Lines py_eol (h_raw h) (map L hdr_lines)) by (apply Lines_splitlines; symmetry; exact El).
  assert (RJ : header_rows H_J (map L hdr_lines) [[L "Monitor"; L "Det"]]) by (apply (rows_are H_J (h_raw h)); [discriminate|discriminate|exact El|vm_compute; reflexivity]).
  assert (Rj : header_rows H_j (map L hdr_lines) [[L "mon"; L "det"]]) by (apply (rows_are H_j (h_raw h)); [discriminate|discriminate|exact El|vm_compute; reflexivity]).
  assert (Ro : header_rows H_o (map L hdr_lines) [[L "tth"; L "chi"]]) by (apply (rows_are H_o (h_raw h)); [discriminate|discriminate|exact El|vm_compute; reflexivity]).
  assert (PC : forall (a b : str) r c m, at_cell [[a; b]] r c m -> r = 0 /\ ((c = 0 /\ m = a) \/ (c = 1 /\ m = b))).
  { intros a b [|[|r]] c m (row & Q1 & Q2); cbn in Q1; try discriminate Q1. injection Q1; intros <-. split; [reflexivity|].
    destruct c as [|[|[|c]]]; cbn in Q2; try discriminate Q2; injection Q2; auto. }
  split.
  - destruct (C109_counter_cross_reference _ _ _ _ _ _ _ _ _ _ _ _ _ _ (incl_refl _) SV Cl Eh Hl RJ Rj) as (_ & _ & T).
    + discriminate.
    + exists 0, 0, (L "mon"), [L "mon"; L "det"]. split; reflexivity.
    + intros r c m Hm. apply PC in Hm. destruct Hm as [_ [[_ ->]|[_ ->]]]; apply plainb_ok; reflexivity.
    + apply T. exists 0, 0. split; [exists [L "mon"; L "det"]; split; reflexivity|]. split; [exists [L "Monitor"; L "Det"]; split; reflexivity|].
      intros r' c' v' H1 H2. apply PC in H1. destruct H1 as [-> [[-> _]|[_ Q]]]; [left; reflexivity|discriminate Q].
  - assert (RO : positioner_names (map L hdr_lines) [[L "Two Theta"; L "chi"]]).
    { pose proof (names_ok all_hids (incl_refl _) (h_raw h)) as R. rewrite El in R. 
      assert (Q : fold_left (fun rows l => o_step l rows) (hlines all_hids H_O (map L hdr_lines)) [] = [[L "Two Theta"; L "chi"]]) by (vm_compute; reflexivity). rewrite Q in R. exact R. }
    destruct (C109_positioner_cross_reference _ _ _ _ _ _ _ _ _ _ _ _ _ _ (incl_refl _) SV Cl Eh Hl RO Ro) as (_ & _ & T).
    + exists 0, 0, (L "tth"), [L "tth"; L "chi"]. split; reflexivity.
    + intros r c m Hm. apply PC in Hm. destruct Hm as [_ [[_ ->]|[_ ->]]]; apply plainb_ok; reflexivity.
    + destruct (T (L "tth") (L "Two Theta")) as (c & Hc & Ht).
      * exists 0, 0. split; [exists [L "tth"; L "chi"]; split; reflexivity|]. split; [exists [L "Two Theta"; L "chi"]; split; reflexivity|].
        intros r' c' v' H1 H2. apply PC in H1. destruct H1 as [-> [[-> _]|[_ Q]]]; [left; reflexivity|discriminate Q].
      * apply ds_name_iff in Hc. assert (Ec : clean_name (L "Two Theta") = Ok (L "Two_Theta")) by (vm_compute; reflexivity). rewrite Ec in Hc. injection Hc; intros <-. exact Ht.
Qed.
