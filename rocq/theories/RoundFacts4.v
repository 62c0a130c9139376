(** C26: the text of a file written by SPEC (for PropRound.v). *)
From Coq Require Import String Lia.
From Verif Require Import Uni Py PyFacts NumFacts Time Utils UtilsFacts Keys Handlers Geom Reader SpecText SpecUtils SpecReader SpecNum SpecHistory SpecKeys SpecInterp SpecData SpecDecimal SpecRound
  TextFacts KeyFacts ReaderFacts ReaderFacts2 ReaderFacts4 FrameFacts StateFacts DispatchFacts InterpFacts MonadFacts HandlerFacts DecimalFacts DataFacts DataFacts2 LastFacts ReaderFacts5 ReaderFacts7 UseFacts RoundFacts RoundFacts2 RoundFacts3.
Import ListNotations.
Local Open Scope nat_scope.
Local Open Scope list_scope.

(* ------------------------------------------------------------------ *)
(** * Lines and texts *)
Definition pad {A} (rest : list A) : list str := match rest with [] => [] | _ => [[]] end.
Definition closed (l : str) : Prop := forall a, l <> a ++ [BACKSLASH].

Lemma lines_lf ls : Forall (free_of is_eol) ls -> splitlines (List.concat (map (fun l => l ++ [LF]) ls)) = ls.
Proof.
  induction 1 as [|l ls H HF IH]; [reflexivity|]. cbn [map List.concat]. rewrite <- app_assoc. cbn [app]. rewrite splitlines_app_lf by exact H. rewrite IH. reflexivity.
Qed.
Lemma join_pad ls : ls <> [] -> join [LF] (ls ++ [[]]) = List.concat (map (fun l => l ++ [LF]) ls).
Proof.
  induction ls as [|l ls IH]; intros Hne; [congruence|]. cbn [app map List.concat]. rewrite join_cons. destruct ls as [|l2 ls].
  - cbn [app map List.concat]. rewrite join_cons. cbn [app]. rewrite app_nil_r. reflexivity.
  - rewrite IH by discriminate. cbn [app map List.concat]. rewrite <- !app_assoc. reflexivity.
Qed.
Lemma lines_join ls : ls <> [] -> Forall (free_of is_eol) ls -> Forall (fun l => l <> []) ls -> splitlines (join [LF] ls) = ls.
Proof.
  intros Hne H HF. induction H as [|l ls H HF' IH]; [congruence|]. inversion_clear HF as [|? ? N1 N2]. rewrite join_cons. destruct ls as [|l2 ls].
  - rewrite app_nil_r. apply splitlines_one; auto.
  - cbn [app]. rewrite splitlines_app_lf by exact H. f_equal. apply IH; [discriminate|exact N2].
Qed.
Lemma lines_sec {A} ls (rest : list A) : ls <> [] -> Forall (free_of is_eol) ls -> Forall (fun l => l <> []) ls -> splitlines (join [LF] (ls ++ pad rest)) = ls.
Proof.
  intros Hne H HF. destruct rest; cbn [pad]; [rewrite app_nil_r; apply lines_join; auto|]. rewrite join_pad by exact Hne. apply lines_lf. exact H.
Qed.
Lemma unf_one l : ~ In LF l -> unfolded l l.
Proof.
  induction l as [|c l IH]; intros H; [constructor|]. constructor; [|apply IH; intros Q; apply H; right; exact Q]. intros t' Q. apply H. injection Q as _ ->. right. left. reflexivity.
Qed.
Lemma unf_app l t : ~ In LF l -> closed l -> unfolded t t -> unfolded (l ++ LF :: t) (l ++ LF :: t).
Proof.
  intros Hl Hc Ht. induction l as [|c l IH]; cbn [app]; [constructor; [intros t' Q; discriminate|exact Ht]|].
  constructor; [|apply IH; [intros Q; apply Hl; right; exact Q|intros a Q; apply (Hc (c :: a)); rewrite Q; reflexivity]].
  intros t' Q. destruct l as [|c' l]; [injection Q as -> _; apply (Hc []); reflexivity|]. injection Q as _ -> _. apply Hl. right. left. reflexivity.
Qed.
Lemma unf_join ls : Forall (fun l => ~ In LF l /\ closed l) ls -> unfolded (join [LF] ls) (join [LF] ls).
Proof.
  induction 1 as [|l ls [H1 H2] H IH]; [constructor|]. rewrite join_cons. destruct ls as [|l2 ls]; [rewrite app_nil_r; apply unf_one; exact H1|]. cbn [app]. apply unf_app; auto.
Qed.
Lemma lines_of_sec {A} ls (rest : list A) : ls <> [] -> Forall (free_of is_eol) ls -> Forall (fun l => l <> []) ls -> Forall closed ls ->
  lines_of (join [LF] (ls ++ pad rest)) ls.
Proof.
  intros Hne H HF HC. exists (join [LF] (ls ++ pad rest)). split.
  - apply unf_join. apply Forall_app. split.
    + rewrite Forall_forall in *. intros l Hl. split; [apply free_eol_LF; auto|apply HC; exact Hl].
    + destruct rest; constructor; [|constructor]. split; [intros []|]. intros x Q. destruct x; discriminate.
  - apply Lines_splitlines. symmetry. apply lines_sec; auto.
Qed.

(* ------------------------------------------------------------------ *)
(** * Sections *)
Lemma closed_app a b : b <> [] -> closed b -> closed (a ++ b).
Proof. intros Hb Hc x Q. destruct (snoc_app _ _ _ _ Hb Q) as [b' ->]. apply (Hc b'). reflexivity. Qed.
Lemma closed_word w : ~ In BACKSLASH w -> closed w.
Proof. intros H a ->. apply H. apply in_or_app. right. left. reflexivity. Qed.
Lemma number_closed w v : written_number w v -> closed w.
Proof.
  intros (m & e & H & _). apply float_numch in H. apply closed_word. intros Q. rewrite Forall_forall in H. specialize (H _ Q). apply numch_list in H. cbn [In] in H.
  repeat (destruct H as [H|H]; [discriminate|]). destruct H.
Qed.
Lemma numeral_closed n k : numeral n k -> closed n.
Proof.
  intros (_ & H & _). apply closed_word. intros Q. rewrite Forall_forall in H. specialize (H _ Q). unfold digit in H. destruct H; cbv in *; congruence.
Qed.
Lemma section_closed E w vals : good_scan E w vals -> Forall closed (section_lines w) /\ Forall (fun l => l <> []) (section_lines w).
Proof.
  intros (S1 & S2 & S3 & S4 & S5 & GT). pose proof GT as (G1 & G2 & G3 & G4 & G5 & G6). unfold section_lines, table_lines. cbn [app]. split.
  - constructor; [|constructor; [|constructor; [|constructor]]].
    + rewrite !app_assoc. apply closed_app; [exact S3|exact (proj2 S2)].
    + destruct S5 as [[[_ Q] [_ R]] _]. apply closed_app; [intros Z; rewrite Z in R; destruct R|exact Q].
    + apply closed_app; [destruct (numeral_word _ _ G4) as [Q _]; exact Q|eapply numeral_closed; exact G4].
    + destruct (w_labels w) as [|l ls] eqn:El; [cbn in G1; lia|]. destruct (join_last [SP; SP] l ls) as [a ->]. rewrite app_assoc.
      rewrite Forall_forall in G3. destruct (G3 (last (l :: ls) [])) as (Q1 & _ & _ & Q2); [apply last_In; discriminate|]. apply closed_app; [apply good_label_ne; exact Q1|exact Q2].
    + apply Forall_forall. intros l Hl. apply in_map_iff in Hl. destruct Hl as (r & <- & Hi). rewrite Forall_forall in G5. pose proof (G5 _ Hi) as Hlen.
      destruct (rows_ex _ _ _ G6 Hi) as [v Hv]. destruct r as [|x r]; [cbn in Hlen; lia|]. destruct (join_last [SP] x r) as [a ->].
      assert (In (last (x :: r) []) (x :: r)) as Hin by (apply last_In; discriminate).
      assert (Q : exists y, written_number (last (x :: r) []) y). { revert Hin. generalize (last (x :: r) []). clear - Hv. intros z Hz. induction Hv; [destruct Hz|]. destruct Hz as [->|Hz]; eauto. }
      destruct Q as [y Q]. apply closed_app; [destruct (number_word _ _ Q) as [[Q' _] _]; exact Q'|eapply number_closed; exact Q].
  - constructor; [discriminate|constructor; [discriminate|constructor; [discriminate|constructor; [discriminate|]]]].
    apply Forall_forall. intros l Hl Q. destruct (row_line w vals l GT Hl) as [_ [v (ws & V1 & V2 & V3)]]. apply fields_words in V1. subst l. cbn in V1. subst ws. inversion V2; subst. cbn in V3. lia.
Qed.

(** which lines start a section *)
Lemma not_section c rest : c <> 70%N -> c <> 69%N -> c <> 83%N -> is_space c = false -> is_section_start (35%N :: c :: SP :: rest) = false.
Proof.
  intros H1 H2 H3 H4. apply section_start_false. unfold section_line. assert (W : words (35%N :: c :: SP :: rest) = [35%N; c] :: words rest).
  { change (35%N :: c :: SP :: rest) with ([35%N; c] ++ SP :: rest). apply words_word_space; [discriminate| |reflexivity]. apply nospace_Forall. repeat constructor. exact H4. }
  rewrite !first_word_words, W. intros [[x Q]|[[x Q]|[x Q]]]; injection Q as Q _; contradiction.
Qed.
Lemma a_section c rest : In c [70%N; 69%N; 83%N] -> is_section_start (35%N :: c :: SP :: rest) = true.
Proof.
  intros H. apply section_start_spec. unfold section_line. assert (W : words (35%N :: c :: SP :: rest) = [35%N; c] :: words rest).
  { change (35%N :: c :: SP :: rest) with ([35%N; c] ++ SP :: rest). apply words_word_space; [discriminate| |reflexivity]. apply nospace_Forall. repeat constructor. destruct H as [<-|[<-|[<-|[]]]]; reflexivity. }
  rewrite !first_word_words, W. destruct H as [<-|[<-|[<-|[]]]]; eauto.
Qed.
Lemma row_not_section n l vals : 1 <= n -> a_row n l vals -> is_section_start l = false.
Proof.
  intros Hn H. apply a_row_words in H. destruct H as [H1 H2]. apply section_start_false. unfold section_line. rewrite !first_word_words.
  destruct H1 as [|w v ws vs Hw _]; [cbn in H2; lia|].
  intros [[x Q]|[[x Q]|[x Q]]]; injection Q as -> _; unfold number in Hw; vm_compute in Hw; discriminate.
Qed.
Lemma group_plain ls rest : Forall (fun l => is_section_start l = false) ls -> group_lines (ls ++ rest) = (ls ++ fst (group_lines rest), snd (group_lines rest)).
Proof.
  induction 1 as [|l ls H HF IH]; cbn [app]; [apply surjective_pairing|]. cbn [group_lines]. rewrite IH, H. reflexivity.
Qed.
Fixpoint sections (ws : list SpecRound.written) : list (list str) :=
  match ws with [] => [] | w :: ws' => (section_lines w ++ pad ws') :: sections ws' end.
Lemma group_scans E ws valss : Forall2 (good_scan E) ws valss -> group_lines (List.concat (map (fun w => [] :: section_lines w) ws)) = (pad ws, sections ws).
Proof.
  induction 1 as [|w vals ws valss H HF IH]; [reflexivity|]. cbn [map List.concat sections]. unfold section_lines at 1, table_lines at 1. cbn [app group_lines].
  destruct H as (S1 & S2 & S3 & S4 & S5 & GT).
  assert (Q : Forall (fun l => is_section_start l = false) (map (join [SP]) (w_rows w))).
  { apply Forall_forall. intros l Hl. destruct (row_line w vals l GT Hl) as [_ [v V]]. destruct GT as (G1 & _). eapply row_not_section; [|exact V]. lia. }
  rewrite (group_plain _ _ Q), IH. clear Q IH. cbn [fst snd].
  change (L "#L " ++ ?x) with (35%N :: 76%N :: SP :: x). change (L "#N " ++ ?x) with (35%N :: 78%N :: SP :: x). change (L "#D " ++ ?x) with (35%N :: 68%N :: SP :: x).
  change (L "#S " ++ ?x) with (35%N :: 83%N :: SP :: x).
  rewrite !not_section by (discriminate || reflexivity). rewrite a_section by (cbn; auto). reflexivity.
Qed.
Definition head_lines (h : head) : list str := [L "#E " ++ hd_epoch h; L "#D " ++ hd_date h; L "#C " ++ hd_comment h].
Lemma group_file E h ws valss : Forall2 (good_scan E) ws valss ->
  group_lines (file_lines h ws) = ([], [L "#F " ++ hd_file h] :: (head_lines h ++ pad ws) :: sections ws).
Proof.
  intros H. unfold file_lines. cbn [app group_lines]. rewrite (group_scans E ws valss H).
  change (L "#C " ++ ?x) with (35%N :: 67%N :: SP :: x). change (L "#D " ++ ?x) with (35%N :: 68%N :: SP :: x).
  change (L "#F " ++ ?x) with (35%N :: 70%N :: SP :: x). change (L "#E " ++ ?x) with (35%N :: 69%N :: SP :: x).
  rewrite !not_section by (discriminate || reflexivity). rewrite !a_section by (cbn; auto). reflexivity.
Qed.
Lemma int_word t z : int_text t z -> a_word t /\ Forall numch t.
Proof.
  intros (sg & neg & ds & H1 & H2 & H3 & -> & _).
  assert (Q : Forall numch (sg ++ ds)).
  { apply Forall_app. split; [|eapply Forall_impl; [|exact H3]; intros c Hc; left; exact Hc]. destruct H1 as [[-> _]|[[-> _]|[-> _]]]; repeat constructor; right; cbn; auto. }
  split; [split|exact Q]; [destruct sg; [exact H2|discriminate]|]. eapply Forall_impl; [|exact Q]. intros c Hc. apply numch_nospace. exact Hc.
Qed.
Lemma file_free E h ws valss : good_head E h -> Forall2 (good_scan E) ws valss -> Forall (free_of is_eol) (file_lines h ws).
Proof.
  intros ((H1 & _) & (z & H2 & _) & ((H3 & _) & _) & (H4 & _)) HW. unfold file_lines. apply Forall_app. split.
  - repeat (constructor; [apply free_app; [repeat constructor|]|]); try constructor; auto. apply word_free. eapply int_word; eauto.
  - induction HW as [|w vals ws valss H HF IH]; [constructor|]. cbn [map List.concat app]. constructor; [constructor|]. apply Forall_app. split; [eapply section_free; eauto|exact IH].
Qed.
