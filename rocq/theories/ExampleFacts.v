(** Tools and files for the concrete examples beside the theorems. *)
From Coq Require Import String Lia Permutation Sorted QArith.
From Verif Require Import Uni Py PyFacts NumFacts Time Utils Keys Handlers Reader SpecText SpecReader SpecNum SpecHistory SpecLookup SpecKeys SpecInterp
  TextFacts ReaderFacts ReaderFacts2 ReaderFacts4 ReaderFacts5 ReaderFacts6 ReaderFacts7.
Import ListNotations.
Local Open Scope list_scope.

(** an environment: all times are second 0 of the epoch, all XML is valid *)
Definition E0 : env := mk_env (fun _ => Ok (NI 0)) (fun _ => Ok (L "Thu Jan  1 00:00:00 1970")) (fun _ => Ok []).
Definition file (ls : list string) (m z : Z) : path := File (Some (text_of ls)) m z.

Definition got {A} (d : A) (r : res A) : A := match r with Ok a => a | Raise _ => d end.
Definition is_ok {A} (r : res A) : bool := match r with Ok _ => true | Raise _ => false end.
Lemma got_ok {A} (d : A) r : is_ok r = true -> r = Ok (got d r).
Proof. destruct r; simpl; congruence. Qed.
Definition opened (p : path) : sdf := got (sdf_init []) (open_file E0 all_hids (L "f") p).
Lemma opened_ok p : is_ok (open_file E0 all_hids (L "f") p) = true -> open_file E0 all_hids (L "f") p = Ok (opened p).
Proof. apply got_ok. Qed.
Definition sections (p : path) : list str := got [] (dissect p).
Lemma sections_ok p : is_ok (dissect p) = true -> dissect p = Ok (sections p).
Proof. apply got_ok. Qed.
Lemma step_ok {S A} (r : S * A) a : snd r = a -> r = (fst r, a).
Proof. destruct r; simpl; congruence. Qed.
Definition scanb (b : str) : bool := match words b with w :: _ => seqb w (L "#S") | [] => false end.
Definition scan_texts (p : path) : list str := List.filter scanb (sections p).
Lemma scanb_spec b : scanb b = true <-> scan_section b.
Proof.
  unfold scanb, scan_section. rewrite first_word_words. destruct (words b) as [|w ws]; [split; [discriminate|intros [? Q]; discriminate]|].
  rewrite seqb_eq. split; [intros ->; eauto|intros [? Q]; inversion Q; auto].
Qed.
Lemma scan_texts_ok p : Keeps scan_section (sections p) (scan_texts p).
Proof. apply Keeps_filter. apply scanb_spec. Qed.
Definition headerb (b : str) : bool := match words b with w :: _ => seqb w (L "#E") | [] => false end.
Lemma headerb_spec b : headerb b = true <-> header_section b.
Proof.
  unfold headerb, header_section. rewrite first_word_words. destruct (words b) as [|w ws]; [split; [discriminate|intros [? Q]; discriminate]|].
  rewrite seqb_eq. split; [intros ->; eauto|intros [? Q]; inversion Q; auto].
Qed.
Lemma Keeps_scanb l : Keeps scan_section l (List.filter scanb l).
Proof. apply Keeps_filter. apply scanb_spec. Qed.
Lemma Keeps_headerb l : Keeps header_section l (List.filter headerb l).
Proof. apply Keeps_filter. apply headerb_spec. Qed.

Definition one_b (n : str) : bool := match py_float n with Ok (FDec m e) => fl_leb (fl_of_Z 1) (FDec m e) | _ => false end.
Lemma one_b_ok n : one_b n = true -> at_least_one n.
Proof.
  unfold one_b, at_least_one. destruct (py_float n) as [[m e|b|]|]; try discriminate. intros H. exists (FDec m e). split; auto.
  split; [apply OrderFacts.fl_leb_num; auto|discriminate].
Qed.
Lemma not_same a b : seqb (strip a) (strip b) = false -> ~ same_text a b.
Proof. intros H Q. apply same_text_strip in Q. rewrite Q, seqb_refl in H. discriminate. Qed.
Lemma same a b : seqb (strip a) (strip b) = true -> same_text a b.
Proof. intros H. apply same_text_strip. apply seqb_eq; auto. Qed.
Lemma not_opening a b : seqb (beginning a) (beginning b) = false -> ~ same_opening a b.
Proof. intros H Q. apply same_opening_beginning in Q. rewrite Q, seqb_refl in H. discriminate. Qed.
Lemma same_opening_b a b : seqb (beginning a) (beginning b) = true -> same_opening a b.
Proof. intros H. apply same_opening_beginning. apply seqb_eq; auto. Qed.

(** ** Files *)
Definition head : list string := ["#F x"; "#E 1"; "#D Wed Nov 03 13:48:06 2010"; "#C c"]%string.
Definition scan_lines (n d : string) (rows : list string) : list string :=
  (("#S " ++ n ++ " ascan x 0 1 1 1")%string :: ("#D Wed Nov 03 13:48:" ++ d ++ " 2010")%string :: "#T 1"%string :: "#N 2"%string :: "#L x  y"%string :: rows).

(** ** Interpreted scans *)
Lemma open_history E known name p s : open_file E known name p = Ok s -> history E known s.
Proof.
  unfold open_file. destruct (exists_p p); [|discriminate]. destruct (is_spec_file p); [|discriminate]. cbn [negb].
  destruct (read E known p (sdf_init name)) as [s1 [e|]] eqn:Er; [discriminate|]. intros H. injection H as <-.
  change s1 with (fst (s1, @None exn)). rewrite <- Er. apply Hist_read. apply Hist_new.
Qed.
Definition no_scan : scan := mk_scan [] [] [] [] 0 empty_obj false false.
Definition scan_of (name : string) (s : sdf) : scan := match dget (L name) (scans s) with Some sc => sc | None => no_scan end.
Definition interpreted (name : string) (s : sdf) : sdf := fst (interpret E0 all_hids (L name) s).
Lemma interpreted_ok name p : is_ok (open_file E0 all_hids (L "f") p) = true ->
  option_map s_lazy (dget (L name) (scans (opened p))) = Some true ->
  snd (interpret E0 all_hids (L name) (opened p)) = None -> has (L name) (scans (interpreted name (opened p))) = true ->
  first_interpret E0 all_hids (opened p) (L name) (scan_of name (opened p)) (interpreted name (opened p)) (scan_of name (interpreted name (opened p))).
Proof.
  intros H1 H2 H3 H4. split; [apply (open_history _ _ _ _ _ (opened_ok _ H1))|].
  unfold scan_of. destruct (dget (L name) (scans (opened p))) as [sc|]; [|discriminate]. split; [reflexivity|].
  split; [injection H2 as H2; exact H2|]. split; [unfold interpreted; apply step_ok; exact H3|].
  unfold has in H4. destruct (dget (L name) (scans (interpreted name (opened p)))); [reflexivity|discriminate].
Qed.
