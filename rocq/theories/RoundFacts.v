(** C26: reading back a table written by SPEC (for PropRound.v). *)
From Coq Require Import String Lia.
From Verif Require Import Uni Py PyFacts NumFacts Time Utils UtilsFacts Keys Handlers Reader SpecText SpecUtils SpecReader SpecNum SpecHistory SpecKeys SpecInterp SpecData SpecDecimal SpecRound
  TextFacts KeyFacts ReaderFacts ReaderFacts2 DispatchFacts InterpFacts MonadFacts HandlerFacts DecimalFacts DataFacts DataFacts2 LastFacts ReaderFacts5.
Import ListNotations.
Local Open Scope nat_scope.
Local Open Scope list_scope.

(* ------------------------------------------------------------------ *)
(** * Texts *)

Lemma numch_nospace c : numch c -> is_space c = false.
Proof. intros H. apply numch_list in H. cbn [In] in H. each H. Qed.
Lemma number_ne t m e : float_text t m e -> t <> [].
Proof.
  intros H Q. subst t. apply py_float_text in H. discriminate H.
Qed.
Lemma number_word w v : written_number w v -> a_word w /\ number w v.
Proof.
  intros (m & e & H & ->). split; [split; [eapply number_ne; eauto|]|apply py_float_text; exact H].
  apply float_numch in H. eapply Forall_impl; [|exact H]. intros c Hc. apply numch_nospace. exact Hc.
Qed.
Lemma words_join_sp ws : Forall a_word ws -> words (join [SP] ws) = ws.
Proof.
  induction 1 as [|w ws [Hw1 Hw2] H IH]; [reflexivity|]. rewrite join_cons. apply nospace_Forall in Hw2. destruct ws as [|w' ws'].
  - rewrite app_nil_r. apply words_word; auto.
  - change (w ++ [SP] ++ join [SP] (w' :: ws')) with (w ++ SP :: join [SP] (w' :: ws')). rewrite words_word_space by auto. rewrite IH. reflexivity.
Qed.
Lemma strip_key k t : ~ In SP k -> tight t -> strip_first_word (k ++ SP :: t) = t.
Proof.
  intros H Ht. pose proof (C39_lemma k [] t [] H (Forall_nil _) Ht (Forall_nil _)) as Q. rewrite app_nil_r in Q. exact Q.
Qed.
Lemma word_tight w : a_word w -> tight w.
Proof.
  intros [_ H]. rewrite Forall_forall in H. split; intros c t ->; apply H; [left; auto|apply in_or_app; right; left; auto].
Qed.
Lemma content_key k t : ~ In SP k -> tight t -> forall t', content (k ++ SP :: t) t' -> t' = t.
Proof.
  intros H Ht t' Hc. apply content_strip in Hc; [|apply in_or_app; right; left; auto]. rewrite Hc. apply strip_key; auto.
Qed.
Lemma numeral_word n k : numeral n k -> a_word n.
Proof.
  intros (H1 & H2 & _). split; auto. eapply Forall_impl; [|exact H2]. intros c Hc. apply numch_nospace. left. exact Hc.
Qed.
Lemma numeral_int n k : numeral n k -> py_int n = Ok (Z.of_nat k).
Proof.
  intros (H1 & H2 & _ & H3). apply py_int_text. exists [], false, n. split; [left; auto|]. split; auto. split; auto. split; auto. cbn [signed]. rewrite H3. lia.
Qed.

(** labels *)
Lemma join_joined sep l ls : join sep (l :: ls) = joined l (map (fun x => (sep, x)) ls).
Proof.
  revert l; induction ls as [|x ls IH]; intros l; [cbn; reflexivity|]. rewrite join_cons. rewrite IH. reflexivity.
Qed.
Lemma labels_listed labs : labs <> [] -> Forall good_label labs -> label_list (join [SP; SP] labs) labs.
Proof.
  intros Hne H. destruct labs as [|l ls]; [congruence|]. inversion H; subst. right. exists l, (map (fun x => ([SP; SP], x)) ls).
  split; [apply join_joined|]. split; auto. split; [|rewrite map_map; cbn [snd]; rewrite map_id; reflexivity].
  apply Forall_forall. intros p Hp. apply in_map_iff in Hp. destruct Hp as (x & <- & Hx). cbn [fst snd]. split.
  - split; [repeat constructor|]; cbn; auto.
  - rewrite Forall_forall in H3. auto.
Qed.
Lemma join_last sep l ls : exists a, join sep (l :: ls) = a ++ last (l :: ls) [].
Proof.
  revert l; induction ls as [|x ls IH]; intros l; [exists []; reflexivity|]. rewrite join_cons. destruct (IH x) as [a Ha]. rewrite Ha.
  exists (l ++ sep ++ a). rewrite <- !app_assoc. reflexivity.
Qed.
Lemma last_In {A} (l : list A) d : l <> [] -> In (last l d) l.
Proof. intros H. destruct (exists_last H) as (l' & x & ->). rewrite last_last. apply in_or_app; right; left; auto. Qed.
Lemma good_label_ne l : good_label l -> l <> []. Proof. intros H; apply H. Qed.
Lemma snoc_app {A} (a b : list A) c t : b <> [] -> a ++ b = t ++ [c] -> exists b', b = b' ++ [c].
Proof.
  intros H Q. destruct (exists_last H) as (b' & x & ->). rewrite app_assoc in Q. apply app_inj_tail in Q. destruct Q as [_ ->]. eauto.
Qed.
Lemma join_tight sep labs : Forall (fun l => l <> [] /\ tight l) labs -> tight (join sep labs).
Proof.
  intros H. destruct labs as [|l ls]; [split; intros c t Q; [discriminate|destruct t; discriminate]|].
  assert (Hlast : last (l :: ls) [] <> [] /\ tight (last (l :: ls) [])).
  { rewrite Forall_forall in H. apply H. apply last_In. discriminate. }
  destruct (join_last sep l ls) as [a Ha]. destruct (Forall_inv H) as [Hn [Ht1 _]]. split.
  - intros c t Q. rewrite join_cons in Q. destruct l as [|x l']; [congruence|]. injection Q as <- _. eapply Ht1; reflexivity.
  - intros c t Q. pose proof (eq_trans (eq_sym Ha) Q) as Q'. destruct Hlast as [L1 [_ L2]]. destruct (snoc_app _ _ _ _ L1 Q') as [b' Hb]. eapply L2; exact Hb.
Qed.

(** a row *)
Lemma a_row_written r vals n : Forall2 written_number r vals -> List.length r = n -> a_row n (join [SP] r) vals.
Proof.
  intros H Hn. exists r. assert (Hw : Forall a_word r /\ Forall2 number r vals).
  { clear Hn. induction H as [|w v r vals H1 H IH]; [split; constructor|]. destruct IH. apply number_word in H1. destruct H1. split; constructor; auto. }
  destruct Hw as [Hw1 Hw2]. split; [apply fields_words; symmetry; apply words_join_sp; auto|]. split; auto.
  rewrite <- Hn. clear - Hw2. induction Hw2; cbn; auto.
Qed.
Lemma row_control r vals : Forall2 written_number r vals -> 2 <= List.length r -> control H_data (join [SP] r).
Proof.
  intros H Hn. inversion H as [|w v r' vals' H1 H2]; subst; [cbn in Hn; lia|]. destruct r' as [|w' r']; [cbn in Hn; lia|].
  apply number_word in H1. destruct H1 as [[Hw1 Hw2] H1]. exists [], w, (join [SP] (w' :: r')). split; [reflexivity|]. split; [constructor|].
  split; [intros Q; rewrite Forall_forall in Hw2; specialize (Hw2 _ Q); discriminate|].
  split; [destruct w as [|c t]; [congruence|]; exists c, t; split; auto; inversion Hw2; auto|].
  left. exists w, v. split; auto. split; [split; auto|]. exists [], []. rewrite app_nil_r. split; auto. split; [constructor|left; auto].
Qed.
Lemma F2_length {A B} (R : A -> B -> Prop) l k : Forall2 R l k -> List.length l = List.length k.
Proof. induction 1; cbn; auto. Qed.
Lemma F2_fun {A B} (R : A -> B -> Prop) l k k' : (forall a b b', R a b -> R a b' -> b = b') -> Forall2 R l k -> Forall2 R l k' -> k = k'.
Proof. intros Hf H; revert k'; induction H; intros k' H'; inversion H'; subst; auto. f_equal; eauto. Qed.
Lemma a_row_fun n l v v' : a_row n l v -> a_row n l v' -> v = v'.
Proof. rewrite !a_row_words. intros [H1 _] [H2 _]. eapply number_fun; eauto. Qed.

(* ------------------------------------------------------------------ *)
(** * A table with other lines around *)
Section Table.
  Context (E : env) (known : list hid) (Hk : incl all_hids known).

  Lemma not_at l : control H_data l -> ~ In LF l -> ~ control H_atA l.
  Proof. intros H1 Hl H2. pose proof (control_unique _ _ _ Hl H1 H2). discriminate. Qed.
  Lemma table_lemma s name sc s' sc' ls w vals : first_interpret E known s name sc s' sc' -> lines_of (s_raw sc) ls ->
    good_table w vals -> w_rows w <> [] ->
    last_line_of H_N ls (L "#N " ++ w_ncols w) -> last_line_of H_L ls (L "#L " ++ join [SP; SP] (w_labels w)) ->
    Keeps data_line_of ls (map (join [SP]) (w_rows w)) -> read_back sc' w vals.
  Proof.
    intros Hf Hl (G1 & G2 & G3 & G4 & G5 & G6) Hr HN HL HK.
    assert (Hrow : Forall (fun l => ~ In LF l) ls).
    { pose proof (proj1 (lines_of_scan_lines _ _) Hl) as ->. apply scan_lines_no_lf. }
    (* the number of columns *)
    assert (N1 : attr_is sc' A_N (Some [Z.of_nat (List.length (w_labels w))])).
    { destruct (N_lemma E known Hk _ _ _ _ _ _ Hf Hl) as [[Q _]|(l & t & ws & zs & Q1 & Q2 & Q3 & Q4 & Q5)].
      - exfalso. destruct HN as (pre & post & -> & C & _). rewrite Forall_forall in Q. apply (Q (L "#N " ++ w_ncols w)); [apply in_or_app; right; left; auto|exact C].
      - rewrite (last_line_fun _ _ _ _ Q1 HN) in Q2.
        assert (t = w_ncols w) as ->. { apply (content_key (L "#N")); [cbn; intros [Q|[Q|[]]]; discriminate|apply word_tight; eapply numeral_word; eauto|exact Q2]. }
        apply fields_words in Q3. pose proof (numeral_word _ _ G4) as [W1 W2]. rewrite words_word in Q3 by (auto; apply nospace_Forall; auto). subst ws.
        inversion Q4 as [|? z ? ? P1 P2]; subst. inversion P2; subst. rewrite (numeral_int _ _ G4) in P1. injection P1 as <-. exact Q5. }
    (* no spectra *)
    assert (A1 : forall l, In l (map (join [SP]) (w_rows w)) -> ~ control H_atA l).
    { intros l Hi. apply not_at.
      - apply in_map_iff in Hi. destruct Hi as (r & <- & Hi). destruct (In_nth_error _ _ Hi) as [i Hi']. rewrite Forall_forall in G5. pose proof (G5 _ Hi) as Hlen.
        assert (Q : exists v, Forall2 written_number r v). { clear - G6 Hi. induction G6; [destruct Hi|]. destruct Hi as [->|Hi]; eauto. }
        destruct Q as [v Q]. apply (row_control r v Q). lia.
      - rewrite Forall_forall in Hrow. apply Hrow. destruct (Keeps_incl _ _ _ HK) as [K _]. apply K. exact Hi. }
    assert (Hne : map (join [SP]) (w_rows w) <> []) by (destruct (w_rows w); [congruence|discriminate]).
    destruct (C25_lemma E known Hk _ _ _ _ _ _ _ _ Hf Hl HK N1 A1 Hne) as (lab & data & B1 & B2 & B3 & B4 & B5).
    destruct (C24_lemma E known Hk _ _ _ _ _ _ _ Hf Hl HK Hne) as (lab0 & lab' & data' & C1 & C2 & _ & _ & C3 & _).
    unfold attr_is in B1, C3. rewrite B1 in C3. apply Some_inj in C3. subst lab'.
    assert (Elab : lab0 = w_labels w).
    { assert (LL : label_list (join [SP; SP] (w_labels w)) (w_labels w)).
      { apply labels_listed; [destruct (w_labels w); [cbn in G1; lia|discriminate]|]. eapply Forall_impl; [|exact G3]. intros l Q; apply Q. }
      destruct C1 as [[Q _]|(l & t & Q1 & Q2 & Q3)].
      - exfalso. destruct HL as (pre & post & -> & C & _). rewrite Forall_forall in Q. eapply Q; [apply in_or_app; right; left; reflexivity|exact C].
      - rewrite (last_line_fun _ _ _ _ Q1 HL) in Q2.
        assert (t = join [SP; SP] (w_labels w)) as ->.
        { apply (content_key (L "#L")); [cbn; intros [Q|[Q|[]]]; discriminate| |exact Q2]. apply join_tight. eapply Forall_impl; [|exact G3]. intros l0 (Q & Q' & _). split; auto. apply good_label_ne; auto. }
        apply label_list_fun in LL. destruct Q3 as [Q3|[Q3 _]]; apply label_list_fun in Q3; [congruence|].
        exfalso. rewrite <- Q3 in LL. rewrite LL in G1. cbn in G1. lia. }
    subst lab0. apply relabelled_id in C2; [|exact G2]. rewrite C2 in B1, B3, B5. clear C2.
    split; [exact B1|]. exists data. split; [exact B2|]. split; [exact B3|].
    destruct B5 as (rows & tbl & T1 & T2 & T3).
    assert (Erows : rows = map (join [SP]) (w_rows w)).
    { eapply Keeps_fun; [exact T1|]. apply Keeps_all. apply Forall_forall. intros l Hi. apply in_map_iff in Hi. destruct Hi as (r & <- & Hi).
      rewrite Forall_forall in G5. assert (Q : exists v, Forall2 written_number r v). { clear - G6 Hi. induction G6; [destruct Hi|]. destruct Hi as [->|Hi]; eauto. }
      destruct Q as [v Q]. exists v. apply a_row_written; auto. }
    assert (Etbl : tbl = vals).
    { subst rows. eapply F2_fun; [apply a_row_fun|exact T2|]. clear - G5 G6. induction G6; [constructor|]. inversion G5; subst. constructor; auto. apply a_row_written; auto. }
    subst tbl. exact T3.
  Qed.
End Table.
