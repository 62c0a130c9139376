(** C106-C108: #UXML metadata in a saved file *)
From Coq Require Import String Lia.
From Verif Require Import Py PyFacts Utils Keys Handlers Reader SpecHistory SpecInterp SpecWriter SpecEntry SpecUxml H5 Writer SpecH5 UxmlEntry
  ExampleFacts PropWriter PropEntry.
Import ListNotations.
Local Open Scope list_scope.

(** ** examples: the XML text is parsed as the tree [r] *)
Definition EX (r : list xnode) : env := mk_env (fun _ => Ok (NI 0)) (fun _ => Ok (L "Thu Jan  1 00:00:00 1970")) (fun _ => Ok r).
Definition xfile : path := one "ascan x 0 1 1 1" ["#UXML <a/>"; "#N 2"; "#L a  b"; "1 2"]%string.
Definition xopened (r : list xnode) : sdf := got (sdf_init []) (open_file (EX r) all_hids (L "f") xfile).
Definition xnexus (r : list xnode) := save (EX r) all_hids versions0 [k1] (xopened r).
Lemma xhistory r : is_ok (open_file (EX r) all_hids (L "f") xfile) = true -> history (EX r) all_hids (xopened r).
Proof. intros H. apply (open_history _ _ _ _ _ (got_ok (sdf_init []) _ H)). Qed.
Lemma x_saved r : is_ok (open_file (EX r) all_hids (L "f") xfile) = true ->
  forallb (fun h => plain_b (h_raw h)) (headers (xopened r)) && forallb (fun kv => plain_b (s_raw (snd kv))) (scans (xopened r)) = true -> snd (xnexus r) = None ->
  (match getScan k1 (xopened r) with Ok (Some sc) => s_num sc = L "1" | _ => False end) ->
  (match dget (L "1") (scans (fst (fst (xnexus r)))) with Some sc => s_obj sc A_UXML_root = Some r | _ => False end) ->
  exists sc, saved (EX r) all_hids (xopened r) (xopened r) versions0 [k1] (fst (fst (xnexus r))) (snd (fst (xnexus r))) k1 sc /\ attr_is sc A_UXML_root r.
Proof.
  intros H1 H2 H3 H4 H5. destruct (ex_getScan k1 (xopened r) (fun sc => s_num sc = L "1") H4) as (sc0 & G1 & G2).
  destruct (ex_scan (L "1") (fst (fst (xnexus r))) (fun sc => s_obj sc A_UXML_root = Some r) H5) as (sc & G3 & G4). exists sc. split; [|exact G4].
  split; [apply xhistory; exact H1|]. split; [apply plain_mnemonics_ok; exact H2|]. split; [constructor|]. split; [apply one_key|].
  split; [fold (xnexus r); destruct (xnexus r) as [[s f] x]; cbn in *; congruence|].
  split; [left; reflexivity|]. exists sc0. split; [exact G1|]. rewrite G2. exact G3.
Qed.
Ltac x_tac := apply x_saved; vm_compute; auto.

(* ------------------------------------------------------------------ *)
(** * C106: every dataset and group of the tree is in the file *)
Theorem C106_uxml_tree : forall E known s0 s versions ks s' f k sc, incl all_hids known -> saved E known s0 s versions ks s' f k sc ->
  forall root, attr_is sc A_UXML_root root ->
    group_at f [entry_name k; L "UXML"] "NXnote" /\
    forall ps x, elem root ps x -> shown f (entry_name k :: L "UXML" :: ps) x.
Proof.
  intros E known s0 s versions ks s' f k sc Hk SV root Hr. split.
  - destruct (e_UXML_group E known Hk s0 s s' versions ks f k sc SV root Hr) as (j & A & B & _). exists j. auto.
  - intros ps x H. apply (e_UXML_elem E known Hk s0 s s' versions ks f k sc SV root Hr ps x H).
Qed.
Print Assumptions C106_uxml_tree.
Definition tree : list xnode :=
  [ XGroup (L "motors") (L "NXcollection") (Some (L "m")) [(L "prefix", L "ioc:")]
      [ XData (L "x") (Some (L "float")) (Some (L "mx")) [(L "units", L "mm")] (Some (L "1.5")); XData (L "note") None None [] None ];
    XData (L "n") (Some (L "int")) None [] (Some (L "42")); XLink (L "x_again") (L "mx") ].
Lemma tree_saved : exists sc, saved (EX tree) all_hids (xopened tree) (xopened tree) versions0 [k1] (fst (fst (xnexus tree))) (snd (fst (xnexus tree))) k1 sc /\ attr_is sc A_UXML_root tree.
Proof. x_tac. Qed.
Example C106_uxml_tree_example : exists j, at_path (snd (fst (xnexus tree))) [L "S1"; L "UXML"; L "motors"; L "x"] j /\ dataset (snd (fst (xnexus tree))) j (HArr [1] [NF (FDec 15 (-1))]) /\
  attribute (snd (fst (xnexus tree))) j (L "units") (AText (L "mm")).
Proof.
  destruct tree_saved as (sc & SV & Hr). destruct (C106_uxml_tree _ _ _ _ _ _ _ _ _ _ (incl_refl _) SV tree Hr) as [_ H].
  specialize (H [L "motors"; L "x"] (XData (L "x") (Some (L "float")) (Some (L "mx")) [(L "units", L "mm")] (Some (L "1.5")))).
  destruct H as (j & v & A & B & C & D); [eapply el_in; [left; reflexivity|]; apply el_data; left; reflexivity|].
  exists j. split; [exact A|]. split.
  - inversion B as [| t x Hx | t0 t a Ht |]; subst; [|destruct Ht as [Ht|Ht]; discriminate Ht]. assert (X : py_float (L "1.5") = Ok (FDec 15 (-1))) by (vm_compute; reflexivity).
    rewrite X in Hx. injection Hx; intros <-. exact C.
  - apply D. exists [], []. split; [reflexivity|intros []].
Qed.
(** a dataset without text is not empty in the file: it says "None" *)
Theorem C106_empty_text_refuted : ~ forall E known s0 s versions ks s' f k sc, incl all_hids known -> saved E known s0 s versions ks s' f k sc ->
  forall root, attr_is sc A_UXML_root root -> forall ps n u l, elem root ps (XData n None u l None) ->
    exists j, at_path f (entry_name k :: L "UXML" :: ps) j /\ dataset f j (HTexts [[]]).
Proof.
  intros H. destruct tree_saved as (sc & SV & Hr).
  destruct (H _ _ _ _ _ _ _ _ _ _ (incl_refl _) SV tree Hr [L "motors"; L "note"] (L "note") None []) as (j & A & B).
  { eapply el_in; [left; reflexivity|]. apply el_data. right; left; reflexivity. }
  destruct (C106_uxml_tree _ _ _ _ _ _ _ _ _ _ (incl_refl _) SV tree Hr) as [_ G].
  destruct (G [L "motors"; L "note"] (XData (L "note") None None [] None)) as (j' & v & A' & V & B' & _).
  { eapply el_in; [left; reflexivity|]. apply el_data. right; left; reflexivity. }
  assert (j = j') by (eapply leads_fun; [exact A|exact A']). subst j'. inversion V; subst. destruct B as (a & B), B' as (a' & B'). rewrite B in B'. discriminate B'.
Qed.
Print Assumptions C106_empty_text_refuted.

(* ------------------------------------------------------------------ *)
(** * C107: hard links *)
(** of the hard links with the same target the last one is a second path to the element with that id (of several, the last one) *)
Theorem C107_hardlinks_partial : forall E known s0 s versions ks s' f k sc, incl all_hids known -> saved E known s0 s versions ks s' f k sc ->
  forall root, attr_is sc A_UXML_root root -> forall t p q, last_of t (ids_of root) p -> last_of t (links_of root) q -> ascii_path p -> ascii_path q ->
    same_object f (entry_name k :: L "UXML" :: p) (entry_name k :: L "UXML" :: q).
Proof. intros E known s0 s versions ks s' f k sc Hk SV root Hr. exact (e_UXML_links E known Hk s0 s s' versions ks f k sc SV root Hr). Qed.
Print Assumptions C107_hardlinks_partial.
Example C107_hardlinks_example : same_object (snd (fst (xnexus tree))) [L "S1"; L "UXML"; L "motors"; L "x"] [L "S1"; L "UXML"; L "x_again"].
Proof.
  destruct tree_saved as (sc & SV & Hr). apply (C107_hardlinks_partial _ _ _ _ _ _ _ _ _ _ (incl_refl _) SV tree Hr (L "mx") [L "motors"; L "x"] [L "x_again"]).
  - exists [(L "m", [L "motors"])], []. split; [reflexivity|intros []].
  - exists [], []. split; [reflexivity|intros []].
  - repeat constructor.
  - repeat constructor.
Qed.
(** of two links to one element only the last one is made *)
Definition twice : list xnode := [ XData (L "x") None (Some (L "i")) [] (Some (L "v")); XLink (L "a") (L "i"); XLink (L "b") (L "i") ].
Lemma twice_saved : exists sc, saved (EX twice) all_hids (xopened twice) (xopened twice) versions0 [k1] (fst (fst (xnexus twice))) (snd (fst (xnexus twice))) k1 sc /\ attr_is sc A_UXML_root twice.
Proof. x_tac. Qed.
Lemma not_there f ps j : H5.walk ps 0 f = None -> ~ at_path f ps j.
Proof. intros H X. apply H5Facts.walk_leads in X. congruence. Qed.
Theorem C107_all_links_refuted : ~ forall E known s0 s versions ks s' f k sc, incl all_hids known -> saved E known s0 s versions ks s' f k sc ->
  forall root, attr_is sc A_UXML_root root -> forall t p q, last_of t (ids_of root) p -> In (t, q) (links_of root) -> ascii_path p -> ascii_path q ->
    same_object f (entry_name k :: L "UXML" :: p) (entry_name k :: L "UXML" :: q).
Proof.
  intros H. destruct twice_saved as (sc & SV & Hr).
  destruct (H _ _ _ _ _ _ _ _ _ _ (incl_refl _) SV twice Hr (L "i") [L "x"] [L "a"]) as (j & _ & J).
  - exists [], []. split; [reflexivity|intros []].
  - left. reflexivity.
  - repeat constructor.
  - repeat constructor.
  - revert J. apply not_there. vm_compute. reflexivity.
Qed.
Print Assumptions C107_all_links_refuted.
(** the link to an element whose name has a character that is not ASCII is one to another object *)
Definition accents : list xnode := [ XData [233%N] None (Some (L "i")) [] (Some (L "v")); XLink (L "b") (L "i") ].
Lemma accents_saved : exists sc, saved (EX accents) all_hids (xopened accents) (xopened accents) versions0 [k1] (fst (fst (xnexus accents))) (snd (fst (xnexus accents))) k1 sc /\ attr_is sc A_UXML_root accents.
Proof. x_tac. Qed.
Theorem C107_other_names_refuted : ~ forall E known s0 s versions ks s' f k sc, incl all_hids known -> saved E known s0 s versions ks s' f k sc ->
  forall root, attr_is sc A_UXML_root root -> forall t p q, last_of t (ids_of root) p -> last_of t (links_of root) q ->
    same_object f (entry_name k :: L "UXML" :: p) (entry_name k :: L "UXML" :: q).
Proof.
  intros H. destruct accents_saved as (sc & SV & Hr).
  destruct (H _ _ _ _ _ _ _ _ _ _ (incl_refl _) SV accents Hr (L "i") [[233%N]] [L "b"]) as (j & J1 & J2).
  - exists [], []. split; [reflexivity|intros []].
  - exists [], []. split; [reflexivity|intros []].
  - apply H5Facts.walk_leads in J1. apply H5Facts.walk_leads in J2. rewrite <- J2 in J1. vm_compute in J1. discriminate J1.
Qed.
Print Assumptions C107_other_names_refuted.

(* ------------------------------------------------------------------ *)
(** * C108: which trees can be saved *)
Theorem C108_saved_trees_partial : forall E known s0 s versions ks s' f k sc, incl all_hids known -> saved E known s0 s versions ks s' f k sc ->
  forall root, attr_is sc A_UXML_root root ->
    (forall ps, ~ elem root ps XComment) /\
    (forall ps n typ u l text, elem root ps (XData n typ u l text) -> exists v, uxml_value typ text v) /\
    NoDup (sibling_names root) /\ forall ps n c u l b, elem root ps (XGroup n c u l b) -> NoDup (sibling_names b).
Proof.
  intros E known s0 s versions ks s' f k sc Hk SV root Hr. split; [|split].
  - intros ps H. destruct (e_UXML_elem E known Hk s0 s s' versions ks f k sc SV root Hr ps _ H) as [N _]. apply N. reflexivity.
  - intros ps n typ u l text H. destruct (e_UXML_elem E known Hk s0 s s' versions ks f k sc SV root Hr ps _ H) as (_ & j & v & _ & V & _). exists v. exact V.
  - exact (e_UXML_names E known Hk s0 s s' versions ks f k sc SV root Hr).
Qed.
Print Assumptions C108_saved_trees_partial.
Example C108_saved_trees_example : exists v, uxml_value (Some (L "int")) (Some (L "42")) v.
Proof.
  destruct tree_saved as (sc & SV & Hr). destruct (C108_saved_trees_partial _ _ _ _ _ _ _ _ _ _ (incl_refl _) SV tree Hr) as (_ & H & _).
  apply (H [L "n"] (L "n") _ None []). apply el_data. right; left; reflexivity.
Qed.
(** a tree that the schema accepts makes the save fail, though the scan was read without problem *)
Definition commented : list xnode := [ XComment; XData (L "x") None None [] (Some (L "v")) ].
Theorem C108_valid_trees_refuted : forallb xvalid commented = true /\ history (EX commented) all_hids (xopened commented) /\ plain_mnemonics (xopened commented) /\
  snd (xnexus commented) = Some KeyError /\ snd (xnexus (List.tl commented)) = None /\ snd (interpret (EX commented) all_hids (L "1") (xopened commented)) = None.
Proof.
  split; [reflexivity|]. split; [apply xhistory; vm_compute; reflexivity|]. split; [apply plain_mnemonics_ok; vm_compute; reflexivity|].
  split; [vm_compute; reflexivity|]. split; vm_compute; reflexivity.
Qed.
Print Assumptions C108_valid_trees_refuted.
