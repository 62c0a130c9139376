(** The cross references of the header of a scan in its entry *)
From Coq Require Import String Lia.
From Verif Require Import Py PyFacts NumFacts Utils SpecUtils Keys Geom Handlers Reader SpecText SpecHistory SpecInterp SpecTables SpecWriter NamesFacts
  H5 SpecH5 H5Facts FrameH5 H5Exact Writer DataWrite KeepFacts WriterFrame SaveFacts EntryData TableFacts FrameK WriterFrameK WriterFacts AgainFacts GrowFacts ClaimFacts
  FrameFacts StateFacts TextFacts HeaderFacts LinkFacts SpecEntry SpecXref MetaWrite MetaWrite2 MetaWrite6 EntryFacts XrefWrite HdrKeep HdrClaim XrefReg.
Import ListNotations.
Local Open Scope list_scope.

Lemma est_cx o h : isJ h -> est_of o h (fun ob => Psi_tab CX xref_counters cx_attrs (ob A_counter_xref)).
Proof.
  intros Hh. apply (est_tab CX xref_counters cx_attrs isJ (fun ob => ob A_counter_xref)); auto.
  - apply plainb_ok; reflexivity.
  - nodup.
  - cbn [keys map fst xref_counters xref_attrs desc In]. intros [X|[X|[]]]; revert X; apply seqb_neq; reflexivity.
  - cbn [keys map fst xref_counters xref_attrs desc In]. intros [X|[X|[]]]; revert X; apply seqb_neq; reflexivity.
  - apply cx_tame.
  - intros; eapply case_J; eauto.
  - intros h' N. unfold okw, K1, isJ in *. destruct h'; try (exfalso; apply N; auto; fail); repeat split; try discriminate; try (intros; discriminate); try exact I.
  - intros h'. unfold isJ. destruct (hid_eq_dec h' H_J), (hid_eq_dec h' H_j); intuition.
Qed.
Lemma est_px o : est_of o H_o (fun ob => Psi_tab PX xref_positioners px_attrs (ob A_positioner_xref)).
Proof.
  apply (est_tab PX xref_positioners px_attrs (fun h => h = H_o) (fun ob => ob A_positioner_xref)); auto.
  - apply plainb_ok; reflexivity.
  - nodup.
  - cbn [keys map fst xref_positioners xref_attrs desc In]. intros [X|[X|[]]]; revert X; apply seqb_neq; reflexivity.
  - cbn [keys map fst xref_positioners xref_attrs desc In]. intros [X|[X|[]]]; revert X; apply seqb_neq; reflexivity.
  - apply px_tame.
  - intros cmd h e o' w w' u ->. apply case_o.
  - okk.
  - intros h'. destruct (hid_eq_dec h' H_o); auto.
Qed.

Section Tabs.
  Context (n : str) (l : attrs_t) (at_of : str -> str -> res attrs_t) (hs : hid -> Prop) (get : obj -> option (dict str)) (lbl : str).
  Context (NT : ~ In TGT (keys l)) (T : tame at_of).
  Context (Est : forall h, hs h -> est_of Hdr h (fun ob => Psi_tab n l at_of (get ob))).
  Context (Gs : forall o o', hstep o o' -> get o' = get o \/ (get o = None /\ get o' = Some [])).
  Definition Phi_tab (h : header) (f : h5) (a : nat) : Prop :=
    (exists hw v, h_obj h A_h5 = Some hw /\ dget lbl hw = Some v /\ hs v) -> Psi_tab n l at_of (get (h_obj h)) f a.
  Lemma get_same o o' x : hstep o o' -> x <> [] -> (get o = Some x <-> get o' = Some x).
  Proof. intros H Nx. destruct (Gs _ _ H) as [Q|[Q1 Q2]]; [rewrite Q; tauto|]. rewrite Q1, Q2. split; intros X; [discriminate|congruence]. Qed.
  Section S1.
    Context (E : env) (known : list hid) (Hk : incl all_hids known).
    Lemma saved_tab s0 s versions ks s' f k sc : saved E known s0 s versions ks s' f k sc ->
      exists h' a, nth_error (headers s') (s_hdr sc) = Some h' /\ member f 0 (entry_name k) a /\ Phi_tab h' f a.
    Proof.
      intros (Hh & Hp & Hs & Hkk & H & Hin & sc0 & Hg & Hd).
      destruct (save_hclaim E known (fun _ => True) (fun _ => Phi_tab)) with (versions := versions) (ks := ks) (s := s) (s' := s') (f := f) (k := k) as (sc1 & sc' & h' & a & B1 & B2 & _ & B3 & B4 & B5); auto.
      - intros _ h f0 f1 a Ha G P R x E1 Nx N1 N2. eapply table_in_grow; [exact Ha|exact NT|exact T|exact G|]. apply (P R x); auto.
      - intros a sk sc1 h f0 w Ha Hpl Has F N1 N2 _ B (hw & v & R1 & R2 & R3).
        apply (hdr_body v (fun ob => Psi_tab n l at_of (get ob)) (Est v R3)) with (sk := sk) (sc := sc1) (f := f0) (hw := hw); auto.
        + intros o o' f1 a1 S P x E1 Nx. apply (P x); auto. apply (get_same _ _ _ S Nx). exact E1.
        + apply F.
        + apply ReaderFacts4.dget_In in R2. apply (in_map snd) in R2. exact R2.
      - intros _ _ h h' f0 a _ _ [R1 R2] P (hw & v & Q1 & Q2 & Q3) x E1 Nx. apply P; auto.
        + exists hw, v. split; [|auto]. rewrite <- Q1. symmetry. apply R2.
        + apply (get_same _ _ _ R2 Nx). exact E1.
      - apply (start_GS E known _ _ Hh Hp Hs).
      - apply Forall_forall. auto.
      - assert (sc1 = sc0) by congruence. subst sc1. assert (sc' = sc) by congruence. subst sc'. exists h', a. auto.
    Qed.
    (** the headers in the end *)
    Lemma saved_header s0 s versions ks s' f k sc h : saved E known s0 s versions ks s' f k sc -> clean_history E known s0 -> In h (headers s') -> h_raw h <> [] ->
      exists o, header_read E known (h_raw h) o /\ hstep o (h_obj h).
    Proof.
      intros (_ & _ & Hs & _ & H & _) Hc Hh Hr. pose proof (clean_hd E known _ Hc) as C.
      pose proof (hl_trans _ _ _ (saves_hl E known _ _ Hs) (save_hl E known _ _ _ _ _ _ H)) as L.
      apply In_nth_error in Hh. destruct Hh as [i Hi]. destruct (hl_nth' _ _ _ _ L Hi) as (h0 & H1 & R1 & R2).
      unfold hds in C. rewrite Forall_forall in C. rewrite R1 in *. destruct (C h0 (nth_error_In _ _ H1)) as [[Q _]|(o & Q1 & Q2)]; [congruence|].
      exists o. split; [exact Q1|]. eapply hs_trans; [apply hs_step; exact Q2|exact R2].
    Qed.
  End S1.
End Tabs.

Lemma Lines_fun raw ls ls' : Lines py_eol raw ls -> Lines py_eol raw ls' -> ls = ls'.
Proof. intros A B. apply Lines_splitlines in A. apply Lines_splitlines in B. congruence. Qed.
Lemma rows_fun h ls a b : header_rows h ls a -> header_rows h ls b -> a = b.
Proof.
  intros (c1 & K1 & F1) (c2 & K2 & F2). rewrite (ReaderFacts2.Keeps_fun _ _ _ _ K1 K2) in *. clear K1.
  assert (Hs : Forall (starts h) c2) by (apply (ReaderFacts5.Keeps_incl _ _ _ K2)). clear K2. revert a b F1 F2.
  induction Hs as [|l ls' Hl Hs IH]; intros a b F1 F2; inversion F1; inversion F2; subst; [reflexivity|]. f_equal; [|apply IH; auto].
  match goal with H1 : word_row l ?x, H2 : word_row l ?y |- _ => destruct H1 as (t & A1 & A2), H2 as (t' & B1 & B2) end.
  apply starts_SP in Hl. apply (InterpFacts.content_strip _ _ Hl) in A1. apply (InterpFacts.content_strip _ _ Hl) in B1. subst.
  apply InterpFacts.fields_words in A2. apply InterpFacts.fields_words in B2. congruence.
Qed.

Lemma since_fun {A} (P : A -> Prop) l a b : since_last P l a -> since_last P l b -> a = b.
Proof.
  intros [[F1 ->]|(p & x & q & E1 & P1 & F1 & ->)] [[F2 ->]|(p' & x' & q' & E2 & P2 & F2 & ->)].
  - reflexivity.
  - exfalso. rewrite E2 in F1. apply Forall_app in F1. destruct F1 as [_ F1]. inversion F1. auto.
  - exfalso. rewrite E1 in F2. apply Forall_app in F2. destruct F2 as [_ F2]. inversion F2. auto.
  - rewrite E1 in E2. revert p' E2. clear E1. induction p as [|y p IH]; intros [|y' p'] E2; cbn in E2.
    + injection E2; intros -> ->. reflexivity.
    + exfalso. injection E2; intros E3 _. rewrite E3 in F1. apply Forall_app in F1. destruct F1 as [_ F1]. inversion F1. auto.
    + exfalso. injection E2; intros E3 _. rewrite <- E3 in F2. apply Forall_app in F2. destruct F2 as [_ F2]. inversion F2. auto.
    + injection E2; intros E3 _. apply (IH _ E3).
Qed.
Lemma label_row_fun l a b : In SP l -> label_row l a -> label_row l b -> a = b.
Proof.
  intros Hl (t & C1 & D1) (t' & C2 & D2). apply (InterpFacts.content_strip _ _ Hl) in C1. apply (InterpFacts.content_strip _ _ Hl) in C2. subst t t'.
  destruct D1 as [[N1 ->]|[N1 D1]], D2 as [[N2 ->]|[N2 D2]]; try congruence. apply DataFacts2.label_list_fun in D1. apply DataFacts2.label_list_fun in D2. congruence.
Qed.
Lemma names_fun ls a b : positioner_names ls a -> positioner_names ls b -> a = b.
Proof.
  intros (c1 & d1 & K1 & S1 & F1) (c2 & d2 & K2 & S2 & F2). rewrite (ReaderFacts2.Keeps_fun _ _ _ _ K1 K2) in *. rewrite (since_fun _ _ _ _ S1 S2) in *. clear K1 S1.
  assert (Hs : Forall (fun l => In SP l) d2).
  { assert (Hc : Forall (starts H_O) c2) by (apply (ReaderFacts5.Keeps_incl _ _ _ K2)). apply Forall_forall. intros l Hl. apply (starts_SP H_O). rewrite Forall_forall in Hc. apply Hc.
    destruct S2 as [[_ ->]|(p & x & q & -> & _ & _ & ->)]; [exact Hl|]. apply in_app_iff. right. exact Hl. }
  clear K2 S2. revert a b F1 F2. induction Hs as [|l ls' Hl Hs IH]; intros a b F1 F2; inversion F1; inversion F2; subst; [reflexivity|]. f_equal; [|apply IH; auto].
  eapply label_row_fun; eauto.
Qed.

Lemma last_nonempty j J (x : dict str) m n : cross_reference x j J -> last_pair j J m n -> dget m x = Some n /\ x <> [].
Proof. intros (_ & _ & _ & C) H. apply C in H. split; [exact H|]. intros ->. discriminate. Qed.
Lemma cross_keys x j J : cross_reference x j J -> (forall r c m, at_cell j r c m -> plain_name m) -> NoDup (keys x) /\ Forall plain_name (keys x).
Proof.
  intros (_ & N & _ & C) H. split; [exact N|]. apply Forall_forall. intros m Hm. apply PyFacts.has_In in Hm. unfold has in Hm. destruct (dget m x) as [v|] eqn:Ev; [|discriminate].
  apply C in Ev. destruct Ev as (r & c & A & _). eapply H; eauto.
Qed.
Lemma table_entry f k a n l at_of x d c : member f 0 (entry_name k) a -> l = xref_attrs d c -> table_in f a n l at_of x ->
  note_at f [entry_name k; n] d c /\ forall m v, dget m x = Some v -> exists at_, at_of m v = Ok at_ /\ text_at f [entry_name k; n; m] v at_.
Proof.
  intros M -> (g & A & B & C & D & F). split.
  - exists g. split; [econstructor; [exact M|]; econstructor; [exact B|]; constructor|]. split; [exact C|].
    inversion D as [|? ? D1 D2]; subst. inversion D2 as [|? ? D3 _]; subst. split; [exact D1|exact D3].
  - intros m v Hm. destruct (F m v Hm) as (at_ & F1 & (i & J1 & J2 & J3 & J4)). exists at_. split; [exact F1|]. exists (ascii v). split; [apply ascii_ok|].
    exists i. split; [econstructor; [exact M|]; econstructor; [exact B|]; econstructor; [exact J2|]; constructor|]. auto.
Qed.

Lemma last_cell_ex (j J : list (list str)) m : (forall r c x, at_cell j r c x -> exists n, at_cell J r c n) -> (exists r c, at_cell j r c m) -> exists n, last_pair j J m n.
Proof.
  intros H (r & c & Hc). destruct (H _ _ _ Hc) as (n & Hn).
  pose proof (fun v => TablesFacts.last_cell (A := str) (B := str) fst snd J j m v) as LC. cbn [fst snd] in LC.
  destruct (dget m (fold_left (fun d x => dset (fst (snd x)) (snd (snd x)) d) (TablesFacts.cells J 0 j) [])) as [v|] eqn:Ev.
  - pose proof (proj1 (LC v) eq_refl) as Ev1. destruct Ev1 as (r1 & c1 & d & t & A1 & A2 & A3 & A4 & A5). exists v. exists r1, c1. subst d t. split; [exact A1|]. split; [exact A2|].
    intros r' c' v' G1 G2. apply (A5 r' c' m v'); auto.
  - exfalso. rewrite (TablesFacts.fold_last (fun x => fst (snd x)) (fun x => snd (snd x))) in Ev.
    destruct (List.find _ _) as [x|] eqn:Ef; [discriminate|]. 
    pose proof (find_none _ _ Ef ((r, c), (m, n))) as Q. cbn [fst snd] in Q. rewrite seqb_refl in Q. discriminate Q.
    rewrite <- in_rev. apply TablesFacts.cells_in. exists r, c. auto.
Qed.

Section Final.
  Context (E : env) (known : list hid) (Hk : incl all_hids known).
  Context (s0 s s' : sdf) (versions : list (str * aval)) (ks : list skey) (f : h5) (k : skey) (sc : scan) (h : header) (ls : list str).
  Context (SV : saved E known s0 s versions ks s' f k sc) (Cl : clean_history E known s0).
  Context (Eh : nth_error (headers s') (s_hdr sc) = Some h) (Hl : Lines py_eol (h_raw h) ls).
  Lemma raw_some g rows : header_rows g ls rows -> rows <> [] -> h_raw h <> [].
  Proof.
    intros (cs & K & F) N Q. rewrite Q in Hl. apply Lines_splitlines in Hl. subst ls. apply N.
    change (splitlines []) with (@nil str) in K. inversion K; subst. inversion F. reflexivity.
  Qed.
  Lemma lines_some g rows : header_rows g ls rows -> g <> H_unrec -> g <> H_E -> rows <> [] -> hlines known g (splitlines (h_raw h)) <> [].
  Proof.
    intros R N1 N2 N Q. apply N. pose proof (rows_ok known Hk g (h_raw h) N1 N2) as R'. apply Lines_splitlines in Hl. rewrite <- Hl in R'. 
    pose proof (rows_fun _ _ _ _ R R') as X. rewrite X, Hl, Q. reflexivity.
  Qed.
  Lemma e_counters J j : header_rows H_J ls J -> header_rows H_j ls j -> J <> [] -> (forall r c m, at_cell j r c m -> plain_name m) -> (exists r c m, at_cell j r c m) ->
    note_at f [entry_name k; CX] "cross-reference SPEC counter mnemonics and names" "keys are SPEC counter mnemonics, values are SPEC counter names" /\
    (forall r c m, at_cell j r c m -> exists n, last_pair j J m n) /\
    forall m n, last_pair j J m n -> text_at f [entry_name k; CX; m] n [].
  Proof.
    intros RJ Rj NJ Pl (r0 & c0 & m0 & Hm0).
    assert (Nj : j <> []) by (intros Q; rewrite Q in Hm0; destruct Hm0 as (row & Q1 & _); destruct r0; discriminate Q1).
    destruct (saved_header E known _ _ _ _ _ _ _ _ h SV Cl (nth_error_In _ _ Eh) (raw_some _ _ RJ NJ)) as (o & Ho & St).
    destruct (C31_lemma E known Hk _ _ _ Ho Hl) as (J' & j' & _ & _ & R1 & R2 & _ & _ & _ & C & _).
    rewrite <- (rows_fun _ _ _ _ RJ R1), <- (rows_fun _ _ _ _ Rj R2) in C. destruct C as [(_ & _ & x & Ex & X)|[[C|C] _]]; [|congruence|congruence].
    destruct (header_reg E known (h_raw h) o (PP_counter H_J) CL (hlines known H_J (splitlines (h_raw h))) H_J Ho ltac:(left; eauto) eq_refl ltac:(discriminate) ltac:(discriminate) eq_refl
       (lines_some _ _ RJ ltac:(discriminate) ltac:(discriminate) NJ)) as (hw & v & W1 & W2 & W3 & _).
    destruct (saved_tab CX xref_counters cx_attrs isJ (fun ob => ob A_counter_xref) CL) with (E := E) (known := known) (s0 := s0) (s := s) (versions := versions) (ks := ks) (s' := s') (f := f) (k := k) (sc := sc) as (h' & a & B1 & B2 & B3); auto.
    { cbn [keys map fst xref_counters xref_attrs desc In]. intros [Q|[Q|[]]]; revert Q; apply seqb_neq; reflexivity. }
    { apply cx_tame. } { intros g Hg. apply est_cx. exact Hg. } { intros o1 o2 (_ & Q & _). exact Q. }
    assert (h' = h) by congruence. subst h'. destruct (cross_keys _ _ _ X Pl) as [K1 K2].
    assert (P : forall r c m, at_cell j r c m -> exists n, last_pair j J m n).
    { intros r c m Hc. apply last_cell_ex; [apply X|]. exists r, c; exact Hc. }
    destruct (P _ _ _ Hm0) as (n0 & Hn0). destruct (last_nonempty _ _ _ _ _ X Hn0) as [_ Nx].
    assert (Eo : h_obj h A_counter_xref = Some x) by (destruct St as (_ & [Q|[Q _]] & _); congruence).
    assert (T : table_in f a CX xref_counters cx_attrs x).
    { apply B3; auto. exists hw, v. split; [destruct St as (Q & _); rewrite Q; exact W1|]. split; [exact W2|]. apply W3. reflexivity. }
    destruct (table_entry f k a CX _ _ x _ _ B2 eq_refl T) as [T1 T2]. split; [exact T1|]. split; [exact P|].
    intros m n Hn. destruct (last_nonempty _ _ _ _ _ X Hn) as [Q _]. destruct (T2 m n Q) as (at_ & A1 & A2). unfold cx_attrs in A1. assert (at_ = []) by congruence. subst at_. exact A2.
  Qed.
  Lemma e_positioners O m : positioner_names ls O -> header_rows H_o ls m -> (forall r c x, at_cell m r c x -> plain_name x) -> (exists r c x, at_cell m r c x) ->
    note_at f [entry_name k; PX] "cross-reference SPEC positioner mnemonics and names" "keys are SPEC positioner mnemonics, values are SPEC positioner names" /\
    (forall r c x, at_cell m r c x -> exists n, last_pair m O x n) /\
    forall x n, last_pair m O x n -> exists c, ds_name n c /\ text_at f [entry_name k; PX; x] n [(L "mne", AText x); (L "field_name", AText c)].
  Proof.
    intros RO Rm Pl (r0 & c0 & m0 & Hm0).
    assert (Nm : m <> []) by (intros Q; rewrite Q in Hm0; destruct Hm0 as (row & Q1 & _); destruct r0; discriminate Q1).
    destruct (saved_header E known _ _ _ _ _ _ _ _ h SV Cl (nth_error_In _ _ Eh) (raw_some _ _ Rm Nm)) as (o & Ho & St).
    destruct (C31_lemma E known Hk _ _ _ Ho Hl) as (_ & _ & O' & m' & _ & _ & R1 & R2 & _ & _ & C).
    rewrite <- (rows_fun _ _ _ _ Rm R2), <- (names_fun _ _ _ RO R1) in C. destruct C as [(_ & x & Ex & X)|[C _]]; [|congruence].
    destruct (header_reg E known (h_raw h) o PP_posx PL (hlines known H_o (splitlines (h_raw h))) H_o Ho ltac:(right; auto) eq_refl ltac:(discriminate) ltac:(discriminate) eq_refl
       (lines_some _ _ Rm ltac:(discriminate) ltac:(discriminate) Nm)) as (hw & v & W1 & W2 & _ & W3).
    destruct (saved_tab PX xref_positioners px_attrs (fun g => g = H_o) (fun ob => ob A_positioner_xref) PL) with (E := E) (known := known) (s0 := s0) (s := s) (versions := versions) (ks := ks) (s' := s') (f := f) (k := k) (sc := sc) as (h' & a & B1 & B2 & B3); auto.
    { cbn [keys map fst xref_positioners xref_attrs desc In]. intros [Q|[Q|[]]]; revert Q; apply seqb_neq; reflexivity. }
    { apply px_tame. } { intros g ->. apply est_px. } { intros o1 o2 (_ & _ & Q). exact Q. }
    assert (h' = h) by congruence. subst h'. destruct (cross_keys _ _ _ X Pl) as [K1 K2].
    assert (P : forall r c y, at_cell m r c y -> exists n, last_pair m O y n).
    { intros r c y Hc. apply last_cell_ex; [apply X|]. exists r, c; exact Hc. }
    destruct (P _ _ _ Hm0) as (n0 & Hn0). destruct (last_nonempty _ _ _ _ _ X Hn0) as [_ Nx].
    assert (Eo : h_obj h A_positioner_xref = Some x) by (destruct St as (_ & _ & [Q|[Q _]]); congruence).
    assert (T : table_in f a PX xref_positioners px_attrs x).
    { apply B3; auto. exists hw, v. split; [destruct St as (Q & _); rewrite Q; exact W1|]. split; [exact W2|]. apply W3. reflexivity. }
    destruct (table_entry f k a PX _ _ x _ _ B2 eq_refl T) as [T1 T2]. split; [exact T1|]. split; [exact P|].
    intros y n Hn. destruct (last_nonempty _ _ _ _ _ X Hn) as [Q _]. destruct (T2 y n Q) as (at_ & A1 & A2). unfold px_attrs in A1.
    destruct (clean_name n) as [c|e] eqn:Ec; [|discriminate A1]. exists c. split; [apply ds_name_iff; exact Ec|].
    assert (at_ = [(L "mne", AText y); (L "field_name", AText c)]) by congruence. subst at_. exact A2.
  Qed.
End Final.
