(** The remaining lemmas on the command line tools. *)
From Coq Require Import String Lia.
From Verif Require Import Uni Py PyFacts NumFacts Keys Handlers Reader Cli SpecText SpecReader SpecHistory SpecKeys SpecInterp SpecData SpecCli
  ReaderFacts5 InterpFacts ExampleFacts CliFacts CliFacts2 CliFacts3.
Import ListNotations.
Local Open Scope nat_scope.
Local Open Scope list_scope.

Lemma output_name_lemma o f : (exists n, o_output o = Some n /\ output_name o f = n) \/
  (o_output o = None /\ exists base ext, extension_of f base ext /\ f = base ++ ext /\
    ((exists t, o_ext o = L "." ++ t /\ output_name o f = base ++ o_ext o) \/ ((forall t, o_ext o <> L "." ++ t) /\ output_name o f = base ++ L "." ++ o_ext o))).
Proof.
  unfold output_name. destruct (o_output o) as [n|]; [left; exists n; auto|right]. split; [reflexivity|]. exists (fst (splitext f)), (snd (splitext f)).
  destruct (splitext_spec f) as [H1 H2]. split; [exact H2|]. split; [exact H1|]. unfold extension. destruct (prefixb [DOT] (o_ext o)) eqn:E.
  - left. apply prefixb_spec in E. destruct E as (t & Ht). exists t. split; [exact Ht|reflexivity].
  - right. split; [|reflexivity]. intros t Q. rewrite Q in E. discriminate.
Qed.
Lemma C68_lemma (B S : Type) (open_spec : str -> B -> res S) numbers save o (st : str -> option B) f b s all :
  o_infile o = [f] -> st f = Some b -> open_spec f b = Ok s -> numbers s = Ok all -> st (output_name o f) = None ->
  (o_scan o = None -> nexus_main open_spec numbers save o st = (st :: map (fun b => fs_set (output_name o f) b st) (fst (save s all)), snd (save s all))) /\
  (forall t l, o_scan o = Some t -> parse_scan_list_spec [t] = Ok l ->
     exists sel, Keeps (fun n => In n all) (map str_of_Z l) sel /\
       nexus_main open_spec numbers save o st = (st :: map (fun b => fs_set (output_name o f) b st) (fst (save s sel)), snd (save s sel))).
Proof.
  intros H1 H2 H3 H4 H5.
  assert (Hc : forall sel, convert_all open_spec numbers save o sel (o_infile o) st = (map (fun b => fs_set (output_name o f) b st) (fst (save s (pick_scans all sel))), snd (save s (pick_scans all sel)))).
  { intros sel. rewrite H1. cbn [convert_all]. unfold convert. rewrite H2, H3, H4. cbv zeta. rewrite H5, Bool.orb_true_r. destruct (save s (pick_scans all sel)) as [bs e]. cbn [fst snd].
    destruct e; [reflexivity|]. rewrite app_nil_r. reflexivity. }
  split.
  - intros Hs. unfold nexus_main, scan_selection. rewrite Hs, Hc. reflexivity.
  - intros t l Hs Hl. exists (pick_scans all (Some l)). split; [apply C41_order|]. unfold nexus_main, scan_selection. rewrite Hs, Hl. cbn [bind]. rewrite Hc. reflexivity.
Qed.
Lemma missing_lemma E known show o s n s' w : extract E known show o s n = (s', Ok w) ->
  exists sc0 sc lab, getScan (KStr n) s = Ok (Some sc0) /\ dget (s_num sc0) (scans s') = Some sc /\ attr_is sc A_L lab /\
    (w = None <-> exists l, In l (x_column o) /\ ~ In l lab).
Proof.
  intros H. destruct (extract_cases E known show o s n s' w H) as (sc0 & sc & lab & G1 & _ & G3 & G4 & G5). exists sc0, sc, lab. split; [exact G1|]. split; [exact G3|]. split; [exact G4|].
  destruct G5 as [[-> Q]|(Q & txt & hdr & _ & _ & ->)]; [split; [intros _; exact Q|reflexivity]|]. split; [discriminate|]. intros (l & L1 & L2). destruct (L2 (Q l L1)).
Qed.
Lemma no_data_lemma E known show o s n s' nm text : extract E known show o s n = (s', Ok (Some (nm, text))) ->
  (forall sc0 sc, getScan (KStr n) s = Ok (Some sc0) -> dget (s_num sc0) (scans s') = Some sc -> attr_is sc A_data []) ->
  exists hdr, Forall starts_with_hash hdr /\
    text = join [10%N] hdr ++ [10%N] ++ join [10%N] ((if x_labels o then [L "# " ++ join [9%N] (x_column o)] else []) ++ [L "# <no SPEC data points in this scan>"]).
Proof.
  intros H Hd. destruct (extract_cases E known show o s n s' _ H) as (sc0 & sc & lab & G1 & _ & G3 & G4 & [[Q _]|(_ & txt & hdr & D1 & D2 & D3)]); [discriminate|].
  exists hdr. split; [exact (proj1 (header_hash show o n sc hdr D2))|]. rewrite (data_text_none show o sc txt D1 (Hd sc0 sc G1 G3)) in D3. injection D3 as _ ->. reflexivity.
Qed.
Lemma C62_name_lemma f n : exists base ext, extension_of f base ext /\ f = base ++ ext /\
  exists u, makeOutputFileName f n = base ++ L "_" ++ u ++ ext /\ Forall2 (fun c d => d = if (c =? 46)%N then 95%N else c) n u.
Proof.
  exists (fst (splitext f)), (snd (splitext f)). destruct (splitext_spec f) as [H1 H2]. split; [exact H2|]. split; [exact H1|]. exists (undotted n). split; [apply make_name|].
  unfold undotted. induction n as [|c n IH]; constructor; [reflexivity|exact IH].
Qed.
Lemma extract_state E known show o s n s' w sc num s1 sc1 (P : scan -> Prop) : extract E known show o s n = (s', Ok w) -> getScan (KStr n) s = Ok (Some sc) -> s_num sc = num ->
  interpret E known num s = (s1, None) -> dget num (scans s1) = Some sc1 -> P sc1 -> forall sc', dget (s_num sc) (scans s') = Some sc' -> P sc'.
Proof.
  intros H Hg Hn Hi Hd HP sc' Q. destruct (extract_cases E known show o s n s' w H) as (sc0 & sc2 & lab & G1 & G2 & G3 & _). rewrite Hg in G1. injection G1 as <-. rewrite Hn in *. rewrite Hi in G2. injection G2 as <-.
  rewrite Hd in Q. injection Q as <-. exact HP.
Qed.
