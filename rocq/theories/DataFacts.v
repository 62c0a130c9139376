(** C24, C25, C27, C28, C32: data columns. *)
From Coq Require Import String Lia.
From Verif Require Import Uni Py PyFacts NumFacts Keys Handlers Geom Reader SpecText SpecUtils SpecReader SpecNum SpecHistory SpecKeys SpecInterp SpecData
  TextFacts KeyFacts ReaderFacts2 ReaderFacts4 ReaderFacts5 DispatchFacts FrameFacts StateFacts InterpFacts MonadFacts HandlerFacts PostFacts.
Import ListNotations.
Local Open Scope list_scope.

(* ------------------------------------------------------------------ *)
(** * Labels *)

Definition cand (l : str) (i : nat) : str := match i with O => l | _ => l ++ L "_" ++ str_of_nat i end.
Lemma cand_ok l i : candidate l i (cand l i).
Proof. destruct i; [left; auto|right]. split; [lia|]. exists (str_of_nat (S i)). split; [apply numeral_str|reflexivity]. Qed.
Lemma unique_from_ok fuel i l taken c : unique_key_from fuel i l taken = Ok c ->
  (forall j, j < i -> In (cand l j) taken) -> exists k, k < i + fuel /\ first_free taken l c k.
Proof.
  revert i; induction fuel as [|f IH]; intros i; [discriminate|]. cbn [unique_key_from]. fold (cand l i).
  destruct (mem (cand l i) taken) eqn:Em; intros H Hj.
  - destruct (IH _ H) as (k & Hk & Hf).
    + intros j Hji. destruct (Nat.eq_dec j i) as [->|]; [apply mem_In; auto|apply Hj; lia].
    + exists k. split; auto. lia.
  - injection H as <-. exists i. split; [lia|]. split; [apply cand_ok|]. split; [intros Q; apply mem_In in Q; congruence|].
    intros j Hji. exists (cand l j). split; [apply cand_ok|auto].
Qed.
Lemma unique_from_raise fuel i l taken e : unique_key_from fuel i l taken = Raise e ->
  e = RuntimeError /\ forall j, i <= j < i + fuel -> In (cand l j) taken.
Proof.
  revert i; induction fuel as [|f IH]; intros i; [intros H; injection H as <-; split; auto; intros j; lia|]. cbn [unique_key_from]. fold (cand l i).
  destruct (mem (cand l i) taken) eqn:Em; [|discriminate]. intros H. destruct (IH _ H) as [He Hj]. split; auto.
  intros j Hji. destruct (Nat.eq_dec j i) as [->|]; [apply mem_In; auto|apply Hj; lia].
Qed.
Lemma unique_key_ok l taken c : unique_key l taken = Ok c -> exists k, k < 1000 /\ first_free taken l c k.
Proof. intros H. apply unique_from_ok in H; [exact H|]. intros j; lia. Qed.

Lemma unique_labels_ok ls taken ls' ks : unique_labels taken ls = (ls', ks, Ok tt) -> relabelled taken ls ls' /\ ks = taken ++ ls'.
Proof.
  revert taken ls' ks; induction ls as [|l ls IH]; intros taken ls' ks H; cbn [unique_labels] in H.
  - injection H as <- <-. split; [constructor|rewrite app_nil_r; auto].
  - destruct (unique_key l taken) as [k|e] eqn:Ek; [|discriminate]. destruct (unique_labels (taken ++ [k]) ls) as [[t' ks'] r] eqn:Eu.
    injection H as <- <- ->. destruct (IH _ _ _ Eu) as [H1 H2]. destruct (unique_key_ok _ _ _ Ek) as (i & Hi & Hf).
    split; [econstructor; eauto|]. rewrite H2, <- app_assoc. reflexivity.
Qed.
Lemma relabelled_nodup taken ls ls' : relabelled taken ls ls' -> NoDup taken -> NoDup (taken ++ ls').
Proof.
  induction 1 as [|taken l ls c i cs (_ & Hn & _) Hi _ IH]; intros Hd; [rewrite app_nil_r; auto|].
  change (c :: cs) with ([c] ++ cs). rewrite app_assoc. apply IH. apply NoDup_snoc; auto.
Qed.
Lemma relabelled_length taken ls ls' : relabelled taken ls ls' -> List.length ls' = List.length ls.
Proof. induction 1; simpl; auto. Qed.

(* ------------------------------------------------------------------ *)
(** * Rows *)

Lemma nth_error_skip {A} (l : list A) c x rest : skipn c l = x :: rest -> nth_error l c = Some x /\ skipn (S c) l = rest.
Proof. revert c; induction l as [|y l IH]; intros [|c] H; cbn in *; try discriminate; [injection H as -> ->; auto|]. apply IH; auto. Qed.
Lemma firstn_snoc {A} (l : list A) c x rest : skipn c l = x :: rest -> firstn (S c) l = firstn c l ++ [x].
Proof. revert c; induction l as [|y l IH]; intros [|c] H; try discriminate; [cbn in *; injection H as -> ->; auto|]. cbn in H. change (firstn (S (S c)) (y :: l)) with (y :: firstn (S c) l). rewrite (IH _ H). reflexivity. Qed.
Lemma index_nat {A} c (l : list A) : index (Z.of_nat c) l = of_opt IndexError (nth_error l c).
Proof. unfold index. assert (Q : (Z.of_nat c <? 0)%Z = false) by (apply Z.ltb_ge; lia). rewrite !Q. rewrite Nat2Z.id. reflexivity. Qed.

Lemma row_spec ls ws c buf r : NoDup ls -> keys buf = firstn c ls -> interpret_row_from ls c ws buf = r ->
  match r with
  | Ok b => exists vals, Forall2 number ws vals /\ b = buf ++ combine (skipn c ls) vals /\ List.length vals <= List.length (skipn c ls)
  | Raise ValueError => ~ exists vals, Forall2 number ws vals
  | Raise _ => True
  end.
Proof.
  intros Hn. revert c buf r; induction ws as [|w ws IH]; intros c buf r Hb H; cbn [interpret_row_from] in H.
  - subst r. exists []. split; [constructor|]. split; [|simpl; lia]. destruct (skipn c ls); rewrite app_nil_r; auto.
  - destruct (py_float_total w) as [(f & Ef)|Ef]; rewrite Ef in H; cbn [bind] in H.
    + rewrite index_nat in H. destruct (nth_error ls c) as [l|] eqn:En; cbn [of_opt bind] in H; [|subst r; exact I].
      destruct (skipn c ls) as [|l' rest] eqn:Es.
      { exfalso. assert (c < List.length ls) by (apply nth_error_Some; congruence). apply (f_equal (@List.length _)) in Es. rewrite skipn_length in Es. simpl in Es. lia. }
      destruct (nth_error_skip _ _ _ _ Es) as [En' Es']. assert (l' = l) by congruence. subst l'.
      assert (Hd : dset l f buf = buf ++ [(l, f)]).
      { apply dset_fresh. rewrite Hb. intros Q. assert (Hls : ls = firstn c ls ++ l :: rest) by (rewrite <- Es, firstn_skipn; auto).
        rewrite Hls in Hn. apply NoDup_remove_2 in Hn. apply Hn. apply in_or_app; auto. }
      rewrite Hd in H. apply IH in H.
      * rewrite Es' in H. destruct r as [b|[]]; auto.
        -- destruct H as (vals & H1 & H2 & H3). exists (f :: vals). split; [constructor; auto|]. split; [rewrite H2, <- app_assoc; reflexivity|simpl; lia].
        -- intros (vals & Q). apply H. inversion Q; subst; eauto.
      * rewrite keys_app, Hb, (firstn_snoc _ _ _ _ Es). reflexivity.
    + subst r. intros (vals & Q). inversion Q; subst. unfold number in *. congruence.
Qed.
Lemma data_row_spec ls line r : NoDup ls -> interpret_data_row ls line = r ->
  match r with
  | Ok b => exists vals, Forall2 number (words line) vals /\ b = combine ls vals /\ List.length vals <= List.length ls
  | Raise ValueError => ~ exists vals, Forall2 number (words line) vals
  | Raise _ => True
  end.
Proof. intros Hn H. apply (row_spec ls (words line) 0 []) in H; auto. Qed.
Lemma number_fun ws vals vals' : Forall2 number ws vals -> Forall2 number ws vals' -> vals = vals'.
Proof. intros H; revert vals'; induction H as [|w v ws vals Hw _ IH]; intros vals' Q; inversion Q; subst; auto. f_equal; auto. unfold number in *. congruence. Qed.
Lemma a_row_words n line vals : a_row n line vals <-> Forall2 number (words line) vals /\ List.length vals = n.
Proof.
  split.
  - intros (ws & Hf & H1 & H2). apply fields_words in Hf. subst ws. auto.
  - intros [H1 H2]. exists (words line). split; auto. apply fields_words; auto.
Qed.

(** appending one value to each column *)
Lemma append_spec buf : forall d d', NoDup (keys buf) -> foldM append_val buf d = Ok d' ->
  keys d' = keys d /\
  forall l, match dget l buf with
            | Some v => exists vs, dget l d = Some (Col vs) /\ dget l d' = Some (Col (vs ++ [v]))
            | None => dget l d' = dget l d
            end.
Proof.
  induction buf as [|[k v] buf IH]; intros d d' Hn H; cbn [foldM] in H.
  - injection H as <-. split; [reflexivity|]. intros l. reflexivity.
  - destruct (append_val d (k, v)) as [d1|e] eqn:Ea; [|discriminate]. cbn [bind] in H. unfold append_val in Ea. cbn [fst snd] in Ea.
    destruct (dget k d) as [[vs|]|] eqn:Eg; [|discriminate|discriminate]. injection Ea as <-.
    cbn in Hn. inversion Hn as [|? ? Hk Hn']; subst. destruct (IH _ _ Hn' H) as [H1 H2]. split.
    + rewrite H1, keys_dset. unfold has. rewrite Eg. reflexivity.
    + intros l. cbn [dget]. destruct (seqb l k) eqn:El.
      * apply seqb_eq in El. subst l. exists vs. split; auto. specialize (H2 k).
        destruct (dget k buf) as [v'|] eqn:Eb; [exfalso; apply Hk; apply dget_In in Eb; apply in_map_iff; exists (k, v'); auto|].
        rewrite H2. apply dget_dset_same.
      * specialize (H2 l). assert (l <> k) by (intros Q; rewrite Q, seqb_refl in El; discriminate).
        rewrite dget_dset_other in H2 by auto. exact H2.
Qed.
Lemma dget_combine {V} ls (vals : list V) j l : NoDup ls -> nth_error ls j = Some l -> dget l (combine ls vals) = nth_error vals j.
Proof.
  revert vals j; induction ls as [|x ls IH]; intros [|v vals] [|j] Hn H; try discriminate; cbn in *; auto.
  - injection H as ->. rewrite seqb_refl. reflexivity.
  - inversion Hn; subst. destruct (seqb l x) eqn:El; [|apply IH; auto]. apply seqb_eq in El. subst x. exfalso. apply nth_error_In in H. contradiction.
Qed.
Lemma keys_combine {V} ls (vals : list V) : List.length vals = List.length ls -> keys (combine ls vals) = ls.
Proof. revert vals; induction ls as [|x ls IH]; intros [|v vals] H; try discriminate; cbn; auto. f_equal. apply IH. auto. Qed.

(* ------------------------------------------------------------------ *)
(** * Filling the table *)

Definition is_at (line : str) : bool := prefixb (L "@A") line.
Definition det_key (line : str) : str := match words line with w :: _ => L "mca" ++ skipn 2 w | [] => [] end.
Definition rows_of (n : nat) (lines : list str) : list (list fl) :=
  flat_map (fun l => if is_at l then [] else match mapM py_float (words l) with Ok vals => if Nat.eqb (List.length vals) n then [vals] else [] | Raise _ => [] end) lines.

Definition mkey : str := L "_mca_".
Definition mca_of (d : dict col) : dict (list (list num)) := match dget mkey d with Some (Mca m) => m | _ => [] end.

Lemma mapM_F2 {A B} (f : A -> res B) l vals : mapM f l = Ok vals <-> Forall2 (fun a b => f a = Ok b) l vals.
Proof.
  split.
  - revert vals; induction l as [|a l IH]; intros vals H; cbn in H; [injection H as <-; constructor|].
    destruct (f a) as [b|] eqn:Ea; [|discriminate]. cbn in H. destruct (mapM f l) as [bs|]; [|discriminate]. injection H as <-. constructor; auto.
  - induction 1 as [|a b l vals H _ IH]; [reflexivity|]. cbn. rewrite H. cbn. rewrite IH. reflexivity.
Qed.

Lemma at_word line : is_at line = true -> exists x ws, words line = (L "@A" ++ x) :: ws.
Proof.
  intros H. apply prefixb_spec in H. destruct H as (t & ->). unfold words.
  rewrite words_aux_nospace by reflexivity. cbn [app]. exists (fst (words_aux t)), (snd (words_aux t)). reflexivity.
Qed.
Lemma at_key x : (if seqb (L "@A" ++ x) (L "@A") then L "mca" else L "mca" ++ skipn 2 (L "@A" ++ x)) = L "mca" ++ x.
Proof. destruct (seqb _ _) eqn:E; [|reflexivity]. apply seqb_eq in E. destruct x; [reflexivity|discriminate]. Qed.
Lemma at_det line key : is_at line = true -> (mca_line_of key line <-> key = det_key line).
Proof.
  intros H. destruct (at_word _ H) as (x & ws & Hw). unfold mca_line_of, det_key. rewrite Hw. split.
  - intros (w & Hf & ->). apply first_word_words in Hf. destruct Hf as (ws' & Q). rewrite Hw in Q. apply (f_equal (fun l => skipn 2 (hd [] l))) in Q. cbn in Q. subst. reflexivity.
  - intros ->. exists x. split; [|reflexivity]. apply first_word_words. eauto.
Qed.
Lemma at_no_row n line : is_at line = true -> ~ is_row n line.
Proof.
  intros H (vals & R). apply a_row_words in R. destruct R as [R _]. destruct (at_word _ H) as (x & ws & Hw). rewrite Hw in R.
  inversion R as [|? v ? ? Q]; subst. unfold number in Q. cbn [app L] in Q.
  change (L "@A" ++ x) with (64%N :: 65%N :: x) in Q. rewrite py_float_letter in Q by (right; left; auto). discriminate.
Qed.
Lemma dot_mem line : mem [46%N] (map (fun c : N => [c]) line) = true <-> In 46%N line.
Proof.
  rewrite mem_In, in_map_iff. split; [intros (c & Q & H); injection Q as ->; auto|]. intros H. exists 46%N. auto.
Qed.
Lemma rmap_F2 {A B} (g : A -> B) (f : str -> res A) ws sp : mapM (fun t => rmap g (f t)) ws = Ok sp -> exists vs, Forall2 (fun w v => f w = Ok v) ws vs /\ sp = map g vs.
Proof.
  revert sp; induction ws as [|w ws IH]; intros sp H; cbn in H; [injection H as <-; exists []; auto|].
  destruct (f w) as [v|] eqn:Ef; cbn in H; [|discriminate]. destruct (mapM _ ws) as [sp'|]; [|discriminate]. cbn in H. injection H as <-.
  destruct (IH _ eq_refl) as (vs & Hv & ->). exists (v :: vs). auto.
Qed.

(** one line *)
Definition more (line : str) (sp : list num) (m : dict (list (list num))) : dict (list (list num)) :=
  dset (det_key line) ((match dget (det_key line) m with Some l => l | None => [] end) ++ [sp]) m.
Lemma data_line_spec ls line d d' : NoDup ls -> (is_at line = true -> ~ In mkey ls) ->
  data_line ls (List.length ls) line d = Ok d' ->
  keys d' = keys d /\
  if is_at line then
    (forall l, In l ls -> dget l d' = dget l d) /\
    exists m sp, dget mkey d = Some (Mca m) /\ spectrum line sp /\ dget mkey d' = Some (Mca (more line sp m))
  else
    (~ In mkey ls -> dget mkey d' = dget mkey d) /\
    ((exists vals, a_row (List.length ls) line vals /\ forall j l, nth_error ls j = Some l ->
        exists vs v, dget l d = Some (Col vs) /\ nth_error vals j = Some v /\ dget l d' = Some (Col (vs ++ [v]))) \/
     (~ is_row (List.length ls) line /\ d' = d)).
Proof.
  intros Hn Hm H. unfold data_line in H. fold (is_at line) in H. destruct (is_at line) eqn:Ea.
  - unfold mca_line in H. destruct (at_word _ Ea) as (x & ws & Hw). rewrite Hw in H.
    change (index 0 ((L "@A" ++ x) :: ws)) with (@Ok str (L "@A" ++ x)) in H. cbn [bind] in H. rewrite at_key in H.
    assert (Hd : L "mca" ++ x = det_key line) by (unfold det_key; rewrite Hw; reflexivity). rewrite Hd in H.
    fold mkey in H. destruct (dget mkey d) as [[|m]|] eqn:Eg; [discriminate| |discriminate]. cbn [bind] in H.
    change (skipn 1 ((L "@A" ++ x) :: ws)) with ws in H.
    destruct (if mem [46%N] (map (fun c : N => [c]) line) then _ else _) as [sp|] eqn:Es; [|discriminate]. cbn [bind] in H. injection H as <-.
    split; [rewrite keys_dset; unfold has; rewrite Eg; reflexivity|]. split.
    + intros l Hl. apply dget_dset_other. intros ->. apply Hm; auto.
    + exists m, sp. split; [reflexivity|]. split; [|apply dget_dset_same]. exists (L "@A" ++ x), ws. split; [apply fields_words; auto|].
      destruct (mem _ _) eqn:Edot.
      * left. split; [apply dot_mem; auto|]. apply rmap_F2 in Es. exact Es.
      * right. split; [intros Q; apply dot_mem in Q; congruence|]. apply rmap_F2 in Es. exact Es.
  - destruct (interpret_data_row ls line) as [buf|e] eqn:Er.
    + apply data_row_spec in Er; auto. destruct Er as (vals & Hv & -> & Hle).
      rewrite combine_length, Nat.min_r in H by auto. destruct (Nat.eqb_spec (List.length vals) (List.length ls)) as [Hl|Hl].
      * apply append_spec in H; [|rewrite keys_combine; auto]. destruct H as [H1 H2]. split; auto. split.
        -- intros Hnm. specialize (H2 mkey). destruct (dget mkey (combine ls vals)) eqn:Eg; auto. exfalso. apply Hnm.
           apply dget_In in Eg. apply in_combine_l in Eg. auto.
        -- left. exists vals. split; [apply a_row_words; auto|]. intros j l Hj. specialize (H2 l). rewrite (dget_combine _ _ _ _ Hn Hj) in H2.
           destruct (nth_error vals j) as [v|] eqn:Ev.
           ++ destruct H2 as (vs & Q1 & Q2). exists vs, v. auto.
           ++ apply nth_error_None in Ev. assert (j < List.length ls) by (apply nth_error_Some; congruence). lia.
      * injection H as <-. split; auto. split; auto. right. split; auto. intros (vals' & R). apply a_row_words in R. destruct R as [R1 R2].
        rewrite (number_fun _ _ _ R1 Hv) in R2. auto.
    + apply data_row_spec in Er; auto. destruct e; try discriminate H. injection H as <-. split; auto. split; auto. right. split; auto.
      intros (vals & R). apply a_row_words in R. apply Er. exists vals. apply R.
Qed.

Lemma fill_spec ls lines : forall d d', NoDup ls -> (existsb is_at lines = true -> ~ In mkey ls) ->
  foldM (fun d v => data_line ls (List.length ls) v d) lines d = Ok d' ->
  keys d' = keys d /\
  (exists rows tbl, Keeps (is_row (List.length ls)) lines rows /\ Forall2 (a_row (List.length ls)) rows tbl /\
    forall j l vs, nth_error ls j = Some l -> dget l d = Some (Col vs) ->
      exists c, Forall2 (fun vals x => nth_error vals j = Some x) tbl c /\ dget l d' = Some (Col (vs ++ c))) /\
  (~ In mkey ls -> forall m, dget mkey d = Some (Mca m) -> exists sps, Forall2 spectrum (List.filter is_at lines) sps /\
     dget mkey d' = Some (Mca (fold_left (fun m lsp => more (fst lsp) (snd lsp) m) (combine (List.filter is_at lines) sps) m))).
Proof.
  induction lines as [|line lines IH]; intros d d' Hn Hm H; cbn [foldM] in H.
  - injection H as <-. split; auto. split.
    + exists [], []. repeat split; try constructor. intros j l vs _ Hg. exists []. rewrite app_nil_r. split; [constructor|auto].
    + intros _ m Hg. exists []. cbn. split; [constructor|auto].
  - destruct (data_line ls (List.length ls) line d) as [d1|] eqn:Ed; [|discriminate]. cbn [bind] in H.
    apply data_line_spec in Ed; auto; [|intros Q; apply Hm; cbn [existsb]; rewrite Q; auto]. destruct Ed as [K1 Ed].
    destruct (IH d1 d' Hn) as (K2 & (rows & tbl & R1 & R2 & R3) & M); auto.
    { intros Q. apply Hm. cbn [existsb]. rewrite Q, orb_true_r. auto. }
    split; [congruence|]. cbn [List.filter]. destruct (is_at line) eqn:Ea.
    + destruct Ed as (D1 & m1 & sp & D2 & D3 & D4). split.
      * exists rows, tbl. split; [apply Keeps_no; auto; apply at_no_row; auto|]. split; auto. intros j l vs Hj Hg. apply R3; auto.
        rewrite D1; auto. apply nth_error_In in Hj; auto.
      * intros Hnm m Hg. rewrite D2 in Hg. injection Hg as <-. destruct (M Hnm _ D4) as (sps & S1 & S2). exists (sp :: sps). split; [constructor; auto|exact S2].
    + destruct Ed as [D1 [(vals & D2 & D3)|[D2 ->]]].
      * split.
        -- exists (line :: rows), (vals :: tbl). split; [apply Keeps_yes; auto; exists vals; auto|]. split; [constructor; auto|].
           intros j l vs Hj Hg. destruct (D3 _ _ Hj) as (vs' & v & E1 & E2 & E3). rewrite Hg in E1. injection E1 as <-.
           destruct (R3 _ _ _ Hj E3) as (c & C1 & C2). exists (v :: c). split; [constructor; auto|]. rewrite <- app_assoc in C2. exact C2.
        -- intros Hnm m Hg. apply M; auto. rewrite D1; auto.
      * split.
        -- exists rows, tbl. split; [apply Keeps_no; auto|]. auto.
        -- exact M.
Qed.

(** the spectra of each detector *)
Lemma more_get line sp m key : dget key (more line sp m) = if seqb key (det_key line) then Some ((match dget key m with Some l => l | None => [] end) ++ [sp]) else dget key m.
Proof.
  unfold more. destruct (seqb key (det_key line)) eqn:E.
  - apply seqb_eq in E. subst key. apply dget_dset_same.
  - apply dget_dset_other. intros ->. rewrite seqb_refl in E. discriminate.
Qed.
Lemma spectra_fold lines sps : Forall2 spectrum (List.filter is_at lines) sps -> (forall l key, In l lines -> is_at l = false -> ~ mca_line_of key l) ->
  forall key m, exists ml sl, Keeps (mca_line_of key) lines ml /\ Forall2 spectrum ml sl /\
    dget key (fold_left (fun m lsp => more (fst lsp) (snd lsp) m) (combine (List.filter is_at lines) sps) m) =
      match dget key m, sl with None, [] => None | Some l, _ => Some (l ++ sl) | None, _ => Some sl end.
Proof.
  revert sps; induction lines as [|line lines IH]; intros sps H Hno key m.
  - exists [], []. split; [constructor|]. split; [constructor|]. cbn. destruct (dget key m); [rewrite app_nil_r|]; reflexivity.
  - cbn [List.filter] in *. destruct (is_at line) eqn:Ea.
    + inversion H as [|? sp ? sps' Hsp Hsps]; subst. cbn [combine fold_left fst snd].
      destruct (IH sps' Hsps (fun l k Hl => Hno l k (or_intror Hl)) key (more line sp m)) as (ml & sl & K1 & K2 & K3).
      rewrite more_get in K3. destruct (seqb key (det_key line)) eqn:Ek.
      * exists (line :: ml), (sp :: sl). split; [apply Keeps_yes; auto; apply at_det; auto; apply seqb_eq; auto|]. split; [constructor; auto|].
        rewrite K3. destruct (dget key m) as [l|]; [rewrite <- app_assoc|]; reflexivity.
      * exists ml, sl. split; [apply Keeps_no; auto; intros Q; apply at_det in Q; auto; subst key; rewrite seqb_refl in Ek; discriminate|]. split; auto.
    + destruct (IH sps H (fun l k Hl => Hno l k (or_intror Hl)) key m) as (ml & sl & K1 & K2 & K3). exists ml, sl. split; [|auto].
      apply Keeps_no; auto. apply Hno; auto. left; auto.
Qed.

(* ------------------------------------------------------------------ *)
(** * The post-processor *)

Lemma iter_fold ls n lines : forall w w', iterM (fun v => mbind (getA A_data) (fun d => mbind (lift (data_line ls n v d)) (fun d => setA A_data d))) lines w = (w', Ok tt) ->
  forall d, me w A_data = Some d -> exists d', foldM (fun d v => data_line ls n v d) lines d = Ok d' /\ me w' A_data = Some d' /\
    is_scan w' = is_scan w /\ peer w' = peer w /\ forall a, a <> A_data -> me w' a = me w a.
Proof.
  induction lines as [|l lines IH]; intros w w' H d Hd.
  - cbn in H. inversion H; subst. exists d. auto.
  - apply iter_bind in H. destruct H as (w1 & H1 & H2). apply mbind_ok in H1. destruct H1 as (w2 & d0 & G & H1). apply getA_ok in G. destruct G as [-> G].
    rewrite Hd in G. apply Some_inj in G. subst d0. apply mbind_ok in H1. destruct H1 as (w3 & d1 & G & H1). apply lift_ok in G. destruct G as [-> G]. apply setA_ok in H1. subst w1.
    destruct (IH _ _ H2 d1) as (d' & F1 & F2 & F3 & F4 & F5); [mattr; reflexivity|].
    exists d'. cbn [foldM]. rewrite G. cbn [bind]. split; auto. split; auto. cbn in F3, F4. split; auto. split; auto.
    intros a Ha. rewrite F5 by auto. cbn [me]. apply upd_other. auto.
Qed.

Definition empty_table (ls : list str) (dl : list str) : dict col :=
  let d := map (fun l => (l, Col [])) ls in if has_mca dl then dset mkey (Mca []) d else d.
Lemma post_data_ok wa wb : post_data wa = (wb, Ok tt) ->
  exists ls nl ls' dl lines d, me wa A_L = Some ls /\ me wa A_N = Some (Some nl) /\ me wa A_data_lines = Some dl /\
    relabelled [] ls ls' /\ me wb A_L = Some ls' /\ combine_split_NM_lines nl dl = Ok lines /\
    foldM (fun d v => data_line ls' (List.length ls') v d) lines (empty_table ls' dl) = Ok d /\ me wb A_data = Some d.
Proof.
  intros H. unfold post_data in H. apply mbind_ok in H. destruct H as (w1 & ls & H1 & H). apply getA_ok in H1. destruct H1 as [-> HL].
  destruct (one_space_labels ls); [destruct (raise_ok _ _ _ _ H)|].
  apply mbind_ok in H. destruct H as (w2 & n & H1 & H). apply getA_ok in H1. destruct H1 as [-> HN].
  apply mbind_ok in H. destruct H as (w3 & n0 & H1 & H). apply lift_ok in H1. destruct H1 as [-> HN0].
  destruct (unique_labels [] ls) as [[ls' ks] r] eqn:Eu.
  apply mbind_ok in H. destruct H as (w4 & [] & H1 & H). apply setA_ok in H1. subst w4.
  apply mbind_ok in H. destruct H as (w5 & [] & H1 & H). apply setA_ok in H1. subst w5.
  apply mbind_ok in H. destruct H as (w6 & [] & H1 & H). apply lift_ok in H1. destruct H1 as [-> ->].
  apply unique_labels_ok in Eu. destruct Eu as [Hr Hks]. cbn [app] in Hks. subst ks.
  apply mbind_ok in H. destruct H as (w7 & dl & H1 & H). apply getA_ok in H1. destruct H1 as [-> HD]. mattr.
  apply mbind_ok in H. destruct H as (w8 & d0 & H1 & H). apply getA_ok in H1. destruct H1 as [-> HD0]. mattr. apply Some_inj in HD0. subst d0.
  apply mbind_ok in H. destruct H as (w9 & [] & H1 & H).
  assert (W9 : me w9 A_data = Some (empty_table ls' dl) /\ me w9 A_L = Some ls').
  { unfold empty_table. destruct (has_mca dl); mgo H1; auto. }
  destruct W9 as [W1 W2].
  apply mbind_ok in H. destruct H as (w10 & nl & H2 & H). apply lift_ok in H2. destruct H2 as [-> Hnl].
  apply mbind_ok in H. destruct H as (w11 & lines & H2 & H). apply lift_ok in H2. destruct H2 as [-> Hlines].
  apply mbind_ok in H. destruct H as (w12 & [] & H2 & H).
  destruct (iter_fold _ _ _ _ _ H2 _ W1) as (d & F1 & F2 & _ & _ & F3).
  apply addH5_ok in H. destruct H as (_ & _ & F4 & _).
  exists ls, nl, ls', dl, lines, d. destruct n as [l|]; [|discriminate]. injection Hnl as ->.
  repeat split; auto; rewrite F4 by discriminate; auto. rewrite F3 by discriminate. exact W2.
Qed.

Section Data.
  Context (E : env) (known : list hid) (Hk : incl all_hids known).

  (** the last line of a handler *)
  Lemma last_line h (S : list attr) lines : (forall h' a, h' <> h -> In a S -> ~ In a (sets h')) ->
    forall w w', iterM (scan_line E known) lines w = (w', Ok tt) ->
    (Forall (fun l => eff known l <> Some h) lines /\ forall a, In a S -> me w' a = me w a) \/
    exists pre l post wa wb, lines = pre ++ l :: post /\ eff known l = Some h /\ Forall (fun l => eff known l <> Some h) post /\
      iterM (scan_line E known) pre w = (wa, Ok tt) /\ process E h l wa = (wb, Ok tt) /\ forall a, In a S -> me w' a = me wb a.
  Proof.
    intros HS. induction lines as [|l lines IH]; intros w w' H.
    - inversion H; subst. left. auto.
    - pose proof H as H0. apply iter_bind in H. destruct H as (w1 & H1 & H2). destruct (IH _ _ H2) as [[I1 I2]|(pre & l' & post & wa & wb & I1 & I2 & I3 & I4 & I5 & I6)].
      + pose proof H1 as H1'. rewrite (scan_line_eff E known Hk) in H1'. destruct (eff known l) as [h'|] eqn:El.
        * destruct (hid_eq_dec h' h) as [->|Hn].
          -- right. exists [], l, lines, w, w1. repeat split; auto.
          -- left. split; [constructor; auto; congruence|]. intros a Ha. rewrite I2 by auto.
             pose proof (frame_process E h' l w) as (_ & [F _] & _). rewrite H1' in F. apply F. apply HS; auto.
        * inversion H1'; subst. left. split; [constructor; auto; congruence|auto].
      + right. exists (l :: pre), l', post, wa, wb. repeat split; auto; [rewrite I1; reflexivity|]. cbn [iterM]. unfold mbind. rewrite H1. exact I4.
  Qed.

  (** data lines *)
  Definition data_h (h : hid) : bool := only H_data h || only H_atA h.
  Definition dlines (raw : str) : list str := lines_h known data_h (scan_lines raw).
  Lemma dlines_keeps raw : Keeps (fun l => control H_data l \/ control H_atA l) (scan_lines raw) (dlines raw).
  Proof.
    apply lines_h_keeps; [apply scan_lines_no_lf|]. intros l Hl. rewrite <- !(eff_control known Hk) by (auto; discriminate).
    unfold of_h, data_h. destruct (eff known l) as [h|]; [|split; [discriminate|intros [Q|Q]; discriminate]].
    rewrite orb_true_iff, !only_true. split; intros [Q|Q]; [left|right|left|right]; congruence.
  Qed.

  Definition written (ls : list str) (lab : list str) : Prop :=
    (Forall (fun l => ~ control H_L l) ls /\ lab = []) \/
    exists pre l post t, ls = pre ++ l :: post /\ control H_L l /\ Forall (fun l => ~ control H_L l) post /\ content l t /\
      (lab = Utils.split_column_labels t \/ (List.length (Utils.split_column_labels t) = 1 /\ fields t lab)).

  Lemma process_L_ok l w w' : process_L l w = (w', Ok tt) -> exists lab, me w' A_L = Some lab /\
    (lab = Utils.split_column_labels (Utils.strip_first_word l) \/ (List.length (Utils.split_column_labels (Utils.strip_first_word l)) = 1 /\ lab = words (Utils.strip_first_word l))) /\
    me w' A_column_first = nth_error lab 0 /\ me w' A_column_last = nth_error lab (List.length lab - 1) /\ lab <> [].
  Proof.
    intros H. unfold process_L in H. set (sp := Utils.split_column_labels (Utils.strip_first_word l)) in *.
    apply mbind_ok in H. destruct H as (w1 & [] & H1 & H). apply setA_ok in H1. subst w1.
    apply mbind_ok in H. destruct H as (w2 & b & H1 & H). apply hasA_ok in H1. destruct H1 as [-> Hb].
    apply mbind_ok in H. destruct H as (w3 & [] & H1 & H).
    assert (W : exists lab, me w3 A_L = Some lab /\ (lab = sp \/ (List.length sp = 1 /\ lab = words (Utils.strip_first_word l)))).
    { destruct ((List.length sp =? 1)%nat && b) eqn:Esp; [apply andb_true_iff in Esp; destruct Esp as [Esp _]; apply Nat.eqb_eq in Esp|apply ret_ok in H1; destruct H1 as [-> _]; mattr; eauto].
      apply mbind_ok in H1. destruct H1 as (w4 & n & H2 & H1). apply getA_ok in H2. destruct H2 as [-> Hn].
      apply mbind_ok in H1. destruct H1 as (w5 & n0 & H2 & H1). apply lift_ok in H2. destruct H2 as [-> Hn0].
      destruct (1 <? n0)%Z; [|apply ret_ok in H1; destruct H1 as [-> _]; mattr; eauto].
      destruct (_ =? n0)%Z; [apply setA_ok in H1; subst w3; mattr; eauto|apply ret_ok in H1; destruct H1 as [-> _]; mattr; eauto]. }
    destruct W as (lab & W1 & W2). exists lab.
    apply mbind_ok in H. destruct H as (w4 & lab' & H2 & H). apply getA_ok in H2. destruct H2 as [-> H2]. rewrite W1 in H2. apply Some_inj in H2. subst lab'.
    apply mbind_ok in H. destruct H as (w5 & f & H2 & H). apply lift_ok in H2. destruct H2 as [-> Hf].
    apply mbind_ok in H. destruct H as (w6 & [] & H2 & H). apply setA_ok in H2. subst w6.
    apply mbind_ok in H. destruct H as (w7 & g & H2 & H). apply lift_ok in H2. destruct H2 as [-> Hg]. apply setA_ok in H. subst w'. mattr.
    split; [exact W1|]. split; [exact W2|].
    change 0%Z with (Z.of_nat 0) in Hf. rewrite index_nat in Hf. destruct lab as [|x lab]; [discriminate|]. split; [injection Hf as <-; reflexivity|].
    split; [|discriminate]. unfold index in Hg. change ((-1 <? 0)%Z) with true in Hg. cbv iota zeta in Hg.
    assert (Q : (-1 + Z.of_nat (List.length (x :: lab)) <? 0)%Z = false) by (apply Z.ltb_ge; cbn [List.length]; lia). rewrite Q in Hg.
    replace (Z.to_nat (-1 + Z.of_nat (List.length (x :: lab)))) with (List.length (x :: lab) - 1) in Hg by (cbn [List.length]; lia).
    destruct (nth_error (x :: lab) (List.length (x :: lab) - 1)); [injection Hg as ->; reflexivity|discriminate].
  Qed.

  (** everything about the data of an interpreted scan with data lines *)
  Lemma data_lemma s name sc s' sc' : first_interpret E known s name sc s' sc' -> dlines (s_raw sc) <> [] ->
    exists lab0 lab nl lines data, written (scan_lines (s_raw sc)) lab0 /\ relabelled [] lab0 lab /\ s_obj sc' A_L = Some lab /\
      s_obj sc' A_N = Some (Some nl) /\ s_obj sc' A_data_lines = Some (dlines (s_raw sc)) /\
      combine_split_NM_lines nl (dlines (s_raw sc)) = Ok lines /\
      foldM (fun d v => data_line lab (List.length lab) v d) lines (empty_table lab (dlines (s_raw sc))) = Ok data /\ s_obj sc' A_data = Some data /\
      s_obj sc' A_column_first = Some (hd [] lab0) /\ s_obj sc' A_column_last = Some (last lab0 []).
  Proof.
    intros Hf Hne. destruct (first_interpret_ran _ _ _ _ _ _ _ Hf) as (w0 & w1 & w & R).
    assert (Hl : exists l h, In l (scan_lines (s_raw sc)) /\ eff known l = Some h /\ data_h h = true).
    { unfold dlines, lines_h in Hne. destruct (List.filter (of_h known data_h) (scan_lines (s_raw sc))) as [|l t] eqn:Ef; [congruence|].
      assert (Hin : In l (List.filter (of_h known data_h) (scan_lines (s_raw sc)))) by (rewrite Ef; left; auto). apply filter_In in Hin. destruct Hin as [Hin Ho].
      unfold of_h in Ho. destruct (eff known l) as [h|] eqn:Ee; [|discriminate]. eauto. }
    destruct Hl as (l & h & Hin & He & Hh).
    set (S := [A_L; A_data; A_N; A_data_lines]).
    destruct (ran_post E known Hk S s sc s' sc' w0 w1 w h PP_data R) as (wa & wb & P1 & P2 & P3 & P4 & P5 & P6).
    { intros q Hq a Ha. destruct q; try (exfalso; apply Hq; reflexivity); cbn in Ha; cbn; intros Q; decompose [or] Q; subst; decompose [or] Ha; try discriminate; auto. }
    { unfold data_h in Hh. apply orb_true_iff in Hh. rewrite !only_true in Hh. destruct Hh; subst h; reflexivity. }
    { discriminate. }
    { eauto. }
    cbn [run_post] in P1. pose proof P1 as P1'. apply post_data_ok in P1. destruct P1 as (lab0 & nl & lab & dl & lines & data & D1 & D2 & D3 & D4 & D5 & D6 & D7 & D8).
    assert (Hdl : s_obj sc' A_data_lines = Some (dlines (s_raw sc))).
    { destruct (C23_data_lines_lemma E known Hk _ _ _ _ _ _ Hf (proj2 (lines_of_scan_lines _ _) eq_refl)) as (ds & K & Q). rewrite Q. f_equal.
      eapply Keeps_fun; [exact K|apply dlines_keeps]. }
    rewrite (ran_obj _ _ _ _ _ _ _ _ _ R) in Hdl.
    pose proof (frame_post E PP_data wa) as (_ & [F _] & _). cbn [run_post] in F. rewrite P1' in F. cbn [fst] in F.
    assert (N1 : me w A_N = Some (Some nl)).
    { rewrite P5 by (unfold S; simpl; auto). rewrite F; [exact D2|]. cbn. intros Q; decompose [or] Q; try discriminate; auto. }
    assert (Edl : dl = dlines (s_raw sc)).
    { rewrite P5 in Hdl by (unfold S; simpl; auto). rewrite F in Hdl by (cbn; intros Q; decompose [or] Q; try discriminate; auto). rewrite D3 in Hdl. injection Hdl as Hdl. auto. }
    subst dl. rewrite P3 in D1 by (unfold S; simpl; auto).
    (* the labels *)
    pose proof (ran_lines _ _ _ _ _ _ _ _ _ R) as HL.
    destruct (last_line H_L [A_L; A_column_first; A_column_last] (scan_lines (s_raw sc))) with (w := w0) (w' := w1) as [[I1 I2]|(pre & ll & post & wl & wl' & I1 & I2 & I3 & I4 & I5 & I6)]; auto.
    { intros h' a Hh' Ha. destruct h'; try congruence; cbn; intros Q; decompose [or] Q; subst; cbn in Ha; decompose [or] Ha; try discriminate; auto. }
    - pose proof (ran_w0 _ _ _ _ _ _ _ _ _ R) as (_ & Hm & _). destruct (ran_fresh _ _ _ _ _ _ _ _ _ R) as [U _].
      assert (Q : forall a, ~ In a StateFacts.D3 -> me w0 a = scan_init (fileName s) a) by (intros a Ha; rewrite Hm; apply U; auto).
      assert (lab0 = []). { rewrite I2 in D1 by (simpl; auto). rewrite Q in D1 by (cbn; intros Q'; decompose [or] Q'; try discriminate; auto). cbn in D1. injection D1 as D1. auto. }
      subst lab0. exists [], lab, nl, lines, data. rewrite (ran_obj _ _ _ _ _ _ _ _ _ R).
      split; [left; split; auto|]. { rewrite Forall_forall in *. intros l' Hl' C. apply (I1 _ Hl'). apply (eff_control known Hk); auto; try discriminate.
        pose proof (scan_lines_no_lf (s_raw sc)) as N. rewrite Forall_forall in N. auto. }
      split; auto. split; [rewrite P5 by (unfold S; simpl; auto); auto|]. split; auto. split; auto. split; auto. split; auto.
      split; [rewrite P5 by (unfold S; simpl; auto); auto|].
      assert (C : forall a, In a [A_column_first; A_column_last] -> me w a = scan_init (fileName s) a).
      { intros a Ha. rewrite (posts_keep E a w1 w (Ok tt)); [|intros p; destruct p; cbn; intros Q'; decompose [or] Q'; subst; cbn in Ha; decompose [or] Ha; try discriminate; auto|apply (ran_posts _ _ _ _ _ _ _ _ _ R)].
        rewrite I2 by (cbn in *; tauto). apply Q. cbn in Ha. cbn. intros Q'; decompose [or] Q'; subst; decompose [or] Ha; try discriminate; auto. }
      split; rewrite C by (simpl; auto); reflexivity.
    - cbn [process] in I5. apply process_L_ok in I5. destruct I5 as (lab1 & J1 & J2 & J3 & J4 & J5).
      assert (lab1 = lab0). { rewrite I6 in D1 by (simpl; auto). rewrite J1 in D1. injection D1 as D1. auto. } subst lab1.
      exists lab0, lab, nl, lines, data. rewrite (ran_obj _ _ _ _ _ _ _ _ _ R).
      pose proof (scan_lines_no_lf (s_raw sc)) as N. rewrite Forall_forall in N.
      split.
      { right. exists pre, ll, post, (Utils.strip_first_word ll). split; auto.
        assert (Cl : control H_L ll) by (apply (eff_control known Hk); auto; try discriminate; apply N; rewrite I1; apply in_elt).
        split; auto. split.
        - rewrite Forall_forall in *. intros l' Hl' C. apply (I3 _ Hl'). apply (eff_control known Hk); auto; try discriminate. apply N. rewrite I1. apply in_or_app. right; right; auto.
        - split; [apply content_strip; auto; eapply control_SP; eauto|]. destruct J2 as [->|[J2 J2']]; [auto|right; split; [auto|apply fields_words; auto]]. }
      split; auto. split; [rewrite P5 by (unfold S; simpl; auto); auto|]. split; auto. split; auto. split; auto. split; auto.
      split; [rewrite P5 by (unfold S; simpl; auto); auto|].
      assert (C : forall a, In a [A_column_first; A_column_last] -> me w a = me wl' a).
      { intros a Ha. rewrite (posts_keep E a w1 w (Ok tt)); [|intros p; destruct p; cbn; intros Q'; decompose [or] Q'; subst; cbn in Ha; decompose [or] Ha; try discriminate; auto|apply (ran_posts _ _ _ _ _ _ _ _ _ R)].
        apply I6. cbn in *; tauto. }
      split; rewrite C by (simpl; auto).
      + rewrite J3. destruct lab0; [congruence|reflexivity].
      + rewrite J4. clear - J5. destruct (exists_last J5) as (l0 & x & ->). rewrite app_length, last_last. cbn [List.length].
        rewrite nth_error_app2 by lia. replace (List.length l0 + 1 - 1 - List.length l0) with 0 by lia. reflexivity.
  Qed.
End Data.
