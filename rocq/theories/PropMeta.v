(** C61, C65: Bluesky metadata lines; dates needed to read a file.
    Theorems only; proofs are in MetaLineFacts.v and ReaderFacts4.v. *)
From Coq Require Import String Lia.
From Verif Require Import Uni Py PyFacts NumFacts Time Utils Keys Handlers Reader SpecText SpecUtils SpecReader SpecNum SpecHistory SpecLookup SpecKeys SpecInterp SpecMeta
  TextFacts KeyFacts ReaderFacts2 ReaderFacts4 DispatchFacts InterpFacts MonadFacts HandlerFacts ExampleFacts MetaLineFacts PropData.
Import ListNotations.
Local Open Scope list_scope.

(* ------------------------------------------------------------------ *)
(** * C61 *)

(** each '#MD key = value' line gives an entry, the last one for a key written twice; if no line writes a key of the form
    MD_line_n, the entries with such keys are, in order, the lines that are not of this kind; keys are distinct *)
Theorem C61_metadata_partial : forall E known, incl all_hids known -> forall s name sc s' sc' ls,
  first_interpret E known s name sc s' sc' -> lines_of (s_raw sc) ls ->
  exists ms d, Keeps (control H_MD) ls ms /\ ((ms = [] /\ s_obj sc' A_MD = None) \/ (ms <> [] /\ attr_is sc' A_MD d)) /\ NoDup (keys d) /\
    Forall (fun l => (exists k v, md_pair l k v) \/ md_bad l) ms /\
    (forall k v, ~ line_key k -> (dget k d = Some v <-> exists l, last_with (fun l k => exists v, md_pair l k v) k ms l /\ md_pair l k v)) /\
    ((forall l k v, In l ms -> md_pair l k v -> ~ line_key k) ->
     exists bs es, Keeps md_bad ms bs /\ Keeps (fun kv => line_key (fst kv)) d es /\ Forall2 (fun l kv => trimmed l (snd kv)) bs es).
Proof. exact C61_full. Qed.
Print Assumptions C61_metadata_partial.
Definition bluesky : path := a_scan ["#MD uid = a=b"; "#MD hello"; "#MD user = me"; "#MD uid =  c d "; "#MD there"]%string.
Lemma bluesky_good : good bluesky. Proof. good_tac. Qed.
Example C61_applies : exists ms d, Keeps (control H_MD) (its_lines bluesky) ms /\ attr_is (after bluesky) A_MD d /\ NoDup (keys d) /\ List.length d = 4.
Proof.
  assert (V : s_obj (after bluesky) A_MD = Some [(L "uid", L "c d"); (L "MD_line_2", L "#MD hello"); (L "user", L "me"); (L "MD_line_4", L "#MD there")]) by (vm_compute; reflexivity).
  destruct (C61_metadata_partial E0 all_hids (incl_refl _) _ _ _ _ _ _ bluesky_good (its_lines_ok _)) as (ms & d & H1 & H2 & H3 & _).
  exists ms, d. split; [exact H1|]. rewrite V in H2. destruct H2 as [[_ H2]|[_ H2]]; [discriminate|]. unfold attr_is in *. rewrite V in *. split; [exact H2|]. split; [exact H3|].
  injection H2 as <-. reflexivity.
Qed.
Example C61_values : attr_is (after bluesky) A_MD [(L "uid", L "c d"); (L "MD_line_2", L "#MD hello"); (L "user", L "me"); (L "MD_line_4", L "#MD there")].
Proof. vm_compute. reflexivity. Qed.
(** a key MD_line_n written in the file is overwritten by a line that is not well formed; a one-letter key without blanks is
    not recognized; without blanks around the '=' the key has the '=' and the value *)
Theorem C61_metadata_refuted :
  attr_is (after (a_scan ["#MD MD_line_2 = x"; "#MD hello"]%string)) A_MD [(L "MD_line_2", L "#MD hello")] /\
  attr_is (after (a_scan ["#MD k=1"]%string)) A_MD [(L "MD_line_1", L "#MD k=1")] /\
  attr_is (after (a_scan ["#MD longkey=5"]%string)) A_MD [(L "longkey=5", L "5")].
Proof. split; [|split]; vm_compute; reflexivity. Qed.
Print Assumptions C61_metadata_refuted.

(* ------------------------------------------------------------------ *)
(** * C65 *)

(** reading succeeds only if the dates of all scans, also those read before, are understood *)
Theorem C65_every_scan_has_a_date : forall E known s p s', read E known p s = (s', None) ->
  forall name sc, dget name (scans s') = Some sc -> exists t, scan_time sc t.
Proof. exact read_dated. Qed.
Print Assumptions C65_every_scan_has_a_date.
Definition undated : path := file (head ++ ["#S 1 ascan x 0 1 1 1"; "#D Wed Nov 03 13:48:06 2010"; "#S 2 ascan x 0 1 1 1"; "#N 2"]%string) 5 6.
Definition spock : path := file (head ++ ["#S 1 ascan x 0 1 1 1"; "#D Wed Nov 03 13:48:06 2010"; "#S 2 ascan x 0 1 1 1"; "#D 2010-11-03 13:48:07"]%string) 5 6.
Theorem C65_bad_date_refuted :
  match open_file E0 all_hids (L "f") undated with Raise e => e = ValueError | Ok _ => False end /\
  match open_file E0 all_hids (L "f") spock with Raise e => e = ValueError | Ok _ => False end.
Proof. split; vm_compute; reflexivity. Qed.
Print Assumptions C65_bad_date_refuted.
