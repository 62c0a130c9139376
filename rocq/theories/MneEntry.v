(** The mnemonics of the positioners of a scan in its entry *)
From Coq Require Import String Lia.
From Verif Require Import Py PyFacts NumFacts Utils SpecUtils Keys Geom Handlers Reader SpecText SpecHistory SpecInterp SpecTables SpecWriter NamesFacts
  H5 SpecH5 H5Facts FrameH5 H5Exact Writer DataWrite KeepFacts WriterFrame SaveFacts EntryData TableFacts FrameK WriterFrameK WriterFacts AgainFacts GrowFacts ClaimFacts
  FrameFacts StateFacts TextFacts HeaderFacts LinkFacts RegAll RegAll2 RegAll3 SpecEntry SpecXref MetaWrite MetaWrite2 MetaWrite5 MetaWrite6 EntryFacts XrefWrite HdrKeep HdrClaim XrefReg XrefEntry.
Import ListNotations.
Local Open Scope list_scope.

Section Body.
  Context (h : hid) (Psi : obj -> obj -> h5 -> nat -> Prop) (He : est2 h Psi).
  Context (Ps : forall o o' p p' f a, same_but True o o' -> hstep p p' -> Psi o' p' f a -> Psi o p f a).
  Lemma body_claim2 a sk sc ho f w sw : 0 < a -> plain_name sk -> is_ascii sk -> BInv a sk f -> NamesFacts.names_ok (s_obj sc) -> NamesFacts.names_ok ho ->
    s_obj sc A_h5 = Some sw -> In h (values sw) ->
    objs_body (mk_handle a (name_at [sk])) sc (mk_ws (s_obj sc) ho f) = (w, Ok tt) -> Psi (s_obj sc) ho (w_h5 w) a.
  Proof.
    intros Ha Hp Has I N1 N2 Hw Hin H. set (e := mk_handle a (name_at [sk])) in *. set (w0 := mk_ws (s_obj sc) ho f) in *.
    assert (W0 : BW a sk w0) by (split; [exact I|split; auto]).
    pose proof (entry_hat (PO a) a sk noK noI f Hp I) as Hh.
    assert (KS : forall A (m : WM A) (wa wb : wst) (r : res A), m wa = (wb, r) -> kp True m -> hg m -> same_but True (w_scan wa) (w_scan wb) /\ hstep (w_hdr wa) (w_hdr wb)).
    { intros A m wa wb r Hm K G. destruct (K wa) as [K1 _]. pose proof (G wa) as G1. rewrite Hm in K1, G1. split; [exact K1|exact G1]. }
    assert (WKK : forall o hs, WriterFrameK.wk (PO a) a sk noK noI (siter (fun h => writer_of (s_cmd sc) h e o) hs) (fun _ => True)).
    { intros o hs. apply (WriterFrameK.writers_ok (PO a) a sk noK noI); auto; [intros g n []|]. apply Forall_forall. intros; apply okw_none. }
    assert (KPI : forall o hs, kp True (siter (fun h => writer_of (s_cmd sc) h e o) hs)).
    { intros o hs. apply kp_iter. intros x. apply kp_writer. auto. }
    assert (HGI : forall o hs, hg (siter (fun h => writer_of (s_cmd sc) h e o) hs)).
    { intros o hs. apply hg_iter. intros x. apply hg_writer. }
    unfold objs_body in H. apply bind_ok in H. destruct H as (u1 & w1 & E1 & H).
    assert (K1 : WriterFrameK.wk (PO a) a sk noK noI (hdf (entry_fields e (s_S sc) (s_num sc) (s_cmd sc))) (fun _ => True)).
    { apply (WriterFrameK.wk_hdf (PO a) a sk noK noI). apply entry_fields_K; auto. }
    destruct (wk_step _ _ _ _ _ _ _ _ _ _ K1 W0 E1) as [W1 _].
    destruct (KS _ _ _ _ _ E1 (kp_hdf True _) (hg_hdf _)) as [S1 T1].
    apply bind_ok in H. destruct H as (hw & w1' & Er & H). apply rd_ok in Er. destruct Er as [-> _].
    apply bind_ok in H. destruct H as (u2 & w2 & E2 & H).
    destruct (wk_step _ _ _ _ _ _ _ _ _ _ (WKK Hdr (values hw)) W1 E2) as [W2 _].
    destruct (KS _ _ _ _ _ E2 (KPI Hdr _) (HGI Hdr _)) as [S2 T2].
    apply bind_ok in H. destruct H as (sw2 & w2' & Er & H). apply rd_ok in Er. destruct Er as [-> Er]. cbn [obj_of] in Er.
    assert (sw2 = sw).
    { change (w_scan w0) with (s_obj sc) in S1.
      rewrite (S2 A_h5), (S1 A_h5), Hw in Er by (intros [X|[X|[_ X]]]; discriminate). injection Er; auto. } subst sw2.
    destruct (in_split_last h (values sw) ltac:(decide equality) Hin) as (l1 & l2 & El & Nl). rewrite El in H.
    rewrite siter_app in H. apply bind_ok in H. destruct H as (u3 & w3 & E3 & H).
    destruct (wk_step _ _ _ _ _ _ _ _ _ _ (WKK Scn l1) W2 E3) as [W3 _].
    destruct (KS _ _ _ _ _ E3 (KPI Scn _) (HGI Scn _)) as [S3 T3].
    cbn [siter] in H. apply bind_ok in H. destruct H as (u4 & w4 & E4 & H).
    destruct (He (s_cmd sc) a sk w3 w4 u4 Ha Hp Has W3 E4) as (P & K & II & K0 & K2 & Ko & IK & Fin).
    assert (E4' : siter (fun h => writer_of (s_cmd sc) h e Scn) [h] w3 = (w4, Ok tt)) by (cbn [siter]; rewrite sbind_eq, E4; reflexivity).
    destruct (wk_step _ _ _ _ _ _ _ _ _ _ (WKK Scn [h]) W3 E4') as [[_ [M1 M2]] _].
    assert (W4 : WriterFrameK.WInv P a sk K II w4) by (split; [exact IK|auto]).
    assert (K5 : WriterFrameK.wk P a sk K II (siter (fun h => writer_of (s_cmd sc) h e Scn) l2) (fun _ => True)).
    { apply (WriterFrameK.writers_ok P a sk K II); auto.
      - eapply entry_hat; eauto.
      - apply Forall_forall. intros x Hx. apply Ko. intros ->. contradiction. }
    destruct (wk_step _ _ _ _ _ _ _ _ _ _ K5 W4 H) as [[J5 _] F5].
    eapply Ps; [| |apply Fin; [exact J5|exact F5]].
    - change (s_obj sc) with (w_scan w0). eapply same_trans; [exact S1|]. eapply same_trans; eauto.
    - change ho with (w_hdr w0). eapply hs_trans; [exact T1|]. eapply hs_trans; eauto.
  Qed.
End Body.

(** for cross references that are not empty *)
Definition Psi_m (o ho : obj) (f : h5) (a : nat) : Prop :=
  forall d x, o A_positioner = Some d -> ho A_positioner_xref = Some x -> x <> [] -> positioners_in2 (Some x) f a d.
Lemma est_m : est2 H_P Psi_m.
Proof.
  intros cmd a sk w w' u Ha Hp Has W H. destruct (est_P2 cmd a sk w w' u Ha Hp Has W H) as (P & K & II & A & B & C & D & F).
  exists P, K, II. do 4 (split; [auto|]). intros f I G d x Hd Hx _. destruct (F f I G d Hd) as [X _]. rewrite Hx in X. exact X.
Qed.
Lemma px_same o o' x : hstep o o' -> x <> [] -> (o A_positioner_xref = Some x <-> o' A_positioner_xref = Some x).
Proof. intros (_ & _ & H) Nx. destruct H as [Q|[Q1 Q2]]; [rewrite Q; tauto|]. rewrite Q1, Q2. split; intros X; [discriminate|congruence]. Qed.
Lemma Psi_m_same o o' p p' f a : same_but True o o' -> hstep p p' -> Psi_m o' p' f a -> Psi_m o p f a.
Proof.
  intros S H P d x Hd Hx Nx. apply (P d x); [rewrite (psi_same A_positioner o o'); auto; discriminate| |exact Nx]. apply (px_same _ _ _ H Nx). exact Hx.
Qed.
Definition Phi_m (sc : scan) (h : header) (f : h5) (a : nat) : Prop := registered H_P sc -> Psi_m (s_obj sc) (h_obj h) f a.
Lemma hs_back o o' x : hstep o o' -> x <> [] -> o' A_positioner_xref = Some x -> o A_positioner_xref = Some x.
Proof. intros H N Q. apply (px_same _ _ _ H N). exact Q. Qed.

Section S1.
  Context (E : env) (known : list hid) (Hk : incl all_hids known).
  Lemma saved_mne s0 s versions ks s' f k sc d h x : saved E known s0 s versions ks s' f k sc -> attr_is sc A_positioner d -> d <> [] ->
    nth_error (headers s') (s_hdr sc) = Some h -> h_obj h A_positioner_xref = Some x -> x <> [] ->
    exists a, member f 0 (entry_name k) a /\ positioners_in2 (Some x) f a d.
  Proof.
    intros SV Hc Nc Eh Hx Nx. pose proof SV as (Hh & Hp & Hs & Hkk & H & Hin & sc0 & Hg & Hd).
    destruct (save_hclaim E known (fun _ => True) Phi_m) with (versions := versions) (ks := ks) (s := s) (s' := s') (f := f) (k := k) as (sc1 & sc' & h' & a & B1 & B2 & B2' & B3 & B4 & B5); auto.
    - intros sc1 h1 f0 f1 a Ha G P R d1 x1 Q1 Q2 Q3. eapply positioners_grow2; [exact Ha|exact G|]. apply (P R d1 x1 Q1 Q2 Q3).
    - intros a sk sc1 h1 f0 w Ha Hpl Has F N1 N2 _ B (sw & W1 & W2).
      apply (body_claim2 H_P Psi_m est_m Psi_m_same) with (sk := sk) (f := f0) (sw := sw); auto. apply F.
    - intros sc1 sc2 h1 h2 f0 a Dn (A1 & A2 & A3 & A4 & A5 & A6) [R1 R2] P (sw & W1 & W2). destruct (A6 Dn) as (_ & _ & S). apply (same_weak _ True) in S; [|auto].
      assert (R : registered H_P sc1) by (exists sw; split; [rewrite <- W1; symmetry; apply S; intros [X|[X|[_ X]]]; discriminate|exact W2]).
      intros d1 x1 Q1 Q2 Q3. apply (P R d1 x1); [rewrite <- Q1; symmetry; apply S; apply may_not; discriminate|eapply hs_back; eauto|exact Q3].
    - apply (start_GS E known _ _ Hh Hp Hs).
    - apply Forall_forall. auto.
    - assert (sc1 = sc0) by congruence. subst sc1. assert (sc' = sc) by congruence. subst sc'. assert (h' = h) by congruence. subst h'.
      exists a. split; [exact B4|]. apply B5; auto. eapply reg_P; eauto.
  Qed.
End S1.
Lemma clean_some x : x <> [] -> exists c, clean_name x = Ok c.
Proof. destruct x as [|c x]; [congruence|]. intros _. unfold clean_name. cbn [map]. eauto. Qed.
(** the place of a cell in reading order depends on the lengths of the rows *)
Lemma cell_place {A B} : forall (O : list (list A)) (m : list (list B)) r c n x, map (@List.length A) O = map (@List.length B) m -> at_cell O r c n -> at_cell m r c x ->
  exists i, nth_error (List.concat O) i = Some n /\ nth_error (List.concat m) i = Some x.
Proof.
  induction O as [|o O IH]; intros [|y m] r c n x Hl (ro & A1 & A2) (rm & B1 & B2); try discriminate Hl; [destruct r; discriminate A1|].
  injection Hl as L1 L2. cbn [List.concat]. destruct r as [|r].
  - cbn in A1, B1. injection A1 as ->. injection B1 as ->. exists c. rewrite !nth_error_app1; [auto|apply nth_error_Some; congruence|apply nth_error_Some; congruence].
  - cbn in A1, B1. destruct (IH m r c n x L2) as (i & I1 & I2); [exists ro; auto|exists rm; auto|]. exists (List.length o + i).
    split; [|rewrite L1]; rewrite nth_error_app2 by lia; replace (_ + i - _) with i by lia; auto.
Qed.

Section Final.
  Context (E : env) (known : list hid) (Hk : incl all_hids known).
  Context (s0 s s' : sdf) (versions : list (str * aval)) (ks : list skey) (f : h5) (k : skey) (sc : scan) (h : header) (d : list (str * fl)) (x : dict str).
  Context (SV : saved E known s0 s versions ks s' f k sc) (Hc : attr_is sc A_positioner d) (Eh : nth_error (headers s') (s_hdr sc) = Some h).
  Context (Hx : h_obj h A_positioner_xref = Some x) (Nx : x <> []).
  Definition mne_attrs (n mne : str) : list (str * aval) := [(L "spec_name", AText n); (L "spec_mne", AText mne)].
  Lemma e_mne pre n v post p : d = pre ++ (n, v) :: post -> ds_name n p -> (forall y, In y (map fst post) -> ~ ds_name y p) ->
    exists mne, nth_error (keys x) (List.length pre) = Some mne /\
      text_at f [entry_name k; L "positioners"; p; L "name"] p (mne_attrs n mne) /\
      number_at f [entry_name k; L "positioners"; p; L "value"] (NF v) (mne_attrs n mne).
  Proof.
    intros Ed Np Nl. destruct (saved_mne E known Hk _ _ _ _ _ _ _ _ d h x SV Hc ltac:(rewrite Ed; destruct pre; discriminate) Eh Hx Nx) as (a & M & g & A & B & C & D & F).
    assert (T : forall ps j, leads f g ps j -> at_path f (entry_name k :: L "positioners" :: ps) j) by (intros ps j X; econstructor; [exact M|]; econstructor; [exact B|exact X]).
    destruct (F pre n v post p Ed) as (pg & F1 & F2 & F3 & F4 & (j1 & J1 & J2 & J3 & J4) & (j2 & I1 & I2 & I3 & I4)); [apply ds_name_iff; auto| |].
    { intros y Hy X. apply (Nl y Hy). apply ds_name_iff. exact X. }
    specialize (F4 x eq_refl). unfold p_attrs in J4, I4. destruct (nth_error (keys x) (List.length pre)) as [mne|] eqn:Em; [|apply nth_error_None in Em; lia].
    exists mne. split; [reflexivity|]. split.
    - exists (ascii p). split; [apply ascii_ok|]. exists j1. split; [apply T; econstructor; [exact F2|]; econstructor; [exact J2|constructor]|auto].
    - exists j2. split; [apply T; econstructor; [exact F2|]; econstructor; [exact I2|constructor]|auto].
  Qed.
  Lemma e_enough : (forall n v, In (n, v) d -> n <> []) -> List.length d <= List.length x.
  Proof.
    intros Hn. assert (X : d = [] \/ exists pre y, d = pre ++ [y]).
    { clear. induction d as [|y l IH] using rev_ind; [auto|right; eauto]. }
    destruct X as [X|(pre & [n v] & El)]; [rewrite X; cbn; lia|].
    destruct (clean_some n) as (p & Hp); [apply (Hn n v); rewrite El; apply in_app_iff; right; left; reflexivity|].
    destruct (e_mne pre n v [] p) as (mne & Q & _); [exact El|apply ds_name_iff; exact Hp|intros z []|].
    assert (Lt : List.length pre < List.length (keys x)) by (apply nth_error_Some; congruence). unfold keys in Lt. rewrite map_length in Lt.
    rewrite El, app_length. cbn [List.length]. lia.
  Qed.
End Final.

Section Cells.
  Context (E : env) (known : list hid) (Hk : incl all_hids known).
  Context (s0 s s' : sdf) (versions : list (str * aval)) (ks : list skey) (f : h5) (k : skey) (sc : scan) (h : header) (ls : list str).
  Context (SV : saved E known s0 s versions ks s' f k sc) (Cl : clean_history E known s0).
  Context (Eh : nth_error (headers s') (s_hdr sc) = Some h) (Hl : Lines py_eol (h_raw h) ls).
  (** the cross reference of the header *)
  Lemma header_px O m : positioner_names ls O -> header_rows H_o ls m -> (exists r c y, at_cell m r c y) ->
    exists x, h_obj h A_positioner_xref = Some x /\ x <> [] /\ cross_reference x m O.
  Proof.
    intros RO Rm (r0 & c0 & m0 & Hm0).
    assert (Nm : m <> []) by (intros Q; rewrite Q in Hm0; destruct Hm0 as (row & Q1 & _); destruct r0; discriminate Q1).
    destruct (saved_header E known _ _ _ _ _ _ _ _ h SV Cl (nth_error_In _ _ Eh) (raw_some h ls Hl _ _ Rm Nm)) as (o & Ho & St).
    destruct (C31_lemma E known Hk _ _ _ Ho Hl) as (_ & _ & O' & m' & _ & _ & R1 & R2 & _ & _ & C).
    rewrite <- (rows_fun _ _ _ _ Rm R2), <- (names_fun _ _ _ RO R1) in C. destruct C as [(_ & x & Ex & X)|[C _]]; [|congruence].
    destruct (last_cell_ex m O m0) as (n0 & Hn0); [apply X|eauto|]. destruct (last_nonempty _ _ _ _ _ X Hn0) as [_ Nx].
    exists x. split; [|auto]. destruct St as (_ & _ & [Q|[Q _]]); congruence.
  Qed.
  Lemma e_cells O m d : positioner_names ls O -> header_rows H_o ls m -> attr_is sc A_positioner d ->
    map (@List.length str) m = map (@List.length str) O -> NoDup (List.concat m) -> map fst d = List.concat O ->
    forall r c n v y p, at_cell O r c n -> at_cell m r c y -> NoDup (map fst d) -> last_named d n v p ->
      text_at f [entry_name k; L "positioners"; p; L "name"] p (mne_attrs n y) /\
      number_at f [entry_name k; L "positioners"; p; L "value"] (NF v) (mne_attrs n y).
  Proof.
    intros RO Rm Hd Sh ND Ek r c n v y p HO Hm NDd (pre & post & Ed & Np & Nl).
    destruct (header_px O m RO Rm ltac:(eauto)) as (x & Hx & Nx & (_ & _ & Ord & _)). specialize (Ord ND).
    destruct (e_mne E known Hk _ _ _ _ _ _ _ _ h d x SV Hd Eh Hx Nx pre n v post p Ed Np Nl) as (mne & Q1 & Q2 & Q3).
    destruct (cell_place O m r c n y (eq_sym Sh) HO Hm) as (i & I1 & I2). rewrite Ord in Q1.
    assert (Ei : i = List.length pre).
    { rewrite <- Ek in I1. rewrite NoDup_nth_error in NDd. apply NDd; [apply nth_error_Some; congruence|]. rewrite I1, Ed, map_app, nth_error_app2; rewrite map_length; [|lia].
      rewrite Nat.sub_diag. reflexivity. }
    subst i. assert (mne = y) by congruence. subst mne. auto.
  Qed.
End Cells.
