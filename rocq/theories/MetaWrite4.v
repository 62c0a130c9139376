(** The first fields of an entry: title, number and command of the scan *)
From Coq Require Import String Lia.
From Verif Require Import Py PyFacts NumFacts Utils SpecUtils Keys Time Geom Handlers Reader SpecWriter NamesFacts
  H5 SpecH5 H5Facts FrameH5 H5Exact Writer DataWrite KeepFacts SaveFacts EntryData FrameK WriterFrame WriterFrameK GrowFacts ClaimFacts MetaWrite MetaWrite2.
Import ListNotations.
Local Open Scope list_scope.

Definition K4 (p : list str) : Prop := In p [[ED]; [L "title"]; [L "scan_number"]; [L "command"]].
Lemma K4_0 : ~ K4 []. Proof. unfold K4. simpl. intuition discriminate. Qed.
Lemma K4_2 g n : K4 [g; n] -> Uq g. Proof. unfold K4. simpl. intuition discriminate. Qed.
Lemma K4_ok h : okw K4 h.
Proof. unfold okw, K4. destruct h; simpl; intuition discriminate. Qed.

Definition Phi_entry (sc : scan) (f : h5) (a : nat) : Prop :=
  holds f a ED (HTexts [L "SPEC scan"]) [desc "SPEC data file scan"] /\
  holds f a (L "title") (HTexts [ascii (s_S sc)]) [] /\
  holds f a (L "command") (HTexts [ascii (s_cmd sc)]) [] /\
  forall n r t, split_scan_number_string (s_num sc) = Ok (n :: r :: t) ->
    holds f a (L "scan_number") (HArr [1] [NI n]) [(L "spec_name", t_ "SCAN_N")] /\
    ((0 < r)%Z -> holds f a (L "scan_number") (HArr [1] [NI n]) [(L "repeat", ANum (NI r))]) /\
    ((r <= 0)%Z -> exists j, a < j /\ member f a (L "scan_number") j /\ no_attribute f j (L "repeat")).

Lemma Phi_entry_grow sc f f' a : 1 <= a -> grow f f' -> Phi_entry sc f a -> Phi_entry sc f' a.
Proof.
  intros Ha G (A & B & C & D). split; [|split; [|split]].
  - eapply holds_grow; eauto. simpl. intros [X|[]]. revert X. apply seqb_neq. reflexivity.
  - eapply holds_grow; eauto.
  - eapply holds_grow; eauto.
  - intros n r t Hs. destruct (D n r t Hs) as (D1 & D2 & D3). split; [|split].
    + eapply holds_grow; eauto. simpl. intros [X|[]]. revert X. apply seqb_neq. reflexivity.
    + intros Hr. eapply holds_grow; eauto. simpl. intros [X|[]]. revert X. apply seqb_neq. reflexivity.
    + intros Hr. destruct (D3 Hr) as (j & J1 & J2 & J3). exists j. split; [auto|]. split; [eapply grow_member; eauto|].
      eapply grow_no_attribute; eauto; [lia|]. apply seqb_neq. reflexivity.
Qed.

(** a dataset that is not there yet *)
Lemma ddel_fresh {V} n (d : dict V) : has n d = false -> ddel n d = d.
Proof.
  induction d as [|[k v] d IH]; cbn [ddel]; auto. unfold has. cbn [dget]. destruct (seqb n k) eqn:E; [discriminate|]. intros H.
  fold (@has V n d) in H. rewrite IH; auto.
Qed.

(** the node of the number *)
Definition num_node (n r : Z) : node :=
  let nd := with_attrs (Dset (HArr [1] [NI n]) []) [(L "spec_name", t_ "SCAN_N")] in
  if (0 <? r)%Z then with_attrs nd [(L "repeat", ANum (NI r))] else nd.

Record started (a : nat) (S cmd : str) (nd : node) (f : h5) : Prop := mk_started {
  st_len : List.length f = a + 5;
  st_a : exists at_, nth_error f a = Some (Group [(ED, a + 1); (L "title", a + 2); (L "scan_number", a + 3); (L "command", a + 4)] at_);
  st_d : nth_error f (a + 1) = Some (Dset (HTexts [L "SPEC scan"]) [desc "SPEC data file scan"]);
  st_t : nth_error f (a + 2) = Some (Dset (HTexts [ascii S]) []);
  st_n : nth_error f (a + 3) = Some nd;
  st_c : nth_error f (a + 4) = Some (Dset (HTexts [ascii cmd]) []) }.

Lemma new_ds e n d v ms at_ f : h_id e < List.length f -> plainb n = true -> to_hval d = Ok v ->
  nth_error f (h_id e) = Some (Group ms at_) -> NoDup (keys ms) -> has n ms = false ->
  exists f', write_dataset e n d [] f = (f', Ok (mk_handle (List.length f) (sub_name (h_name e) n))) /\ List.length f' = S (List.length f) /\
    nth_error f' (h_id e) = Some (Group (ms ++ [(n, List.length f)]) at_) /\ nth_error f' (List.length f) = Some (Dset v []) /\
    (forall j, j < List.length f -> j <> h_id e -> nth_error f' j = nth_error f j).
Proof.
  intros Hl Hn Hv Hg ND Hh. apply plainb_ok in Hn. rewrite (write_dataset_eq e n d [] v ms at_ f Hn Hv ND Hg).
  rewrite (ddel_fresh n ms Hh). eexists. split; [reflexivity|]. split; [apply made_length|].
  pose proof (made_nth (h_id e) n ms at_ (with_attrs (Dset v []) []) f _ Hg) as M. split; [|split].
  - rewrite M, Nat.eqb_refl. reflexivity.
  - rewrite M. destruct (Nat.eqb_spec (List.length f) (h_id e)); [lia|]. rewrite Nat.eqb_refl. reflexivity.
  - intros j Hj Ne. rewrite M. destruct (Nat.eqb_spec j (h_id e)); [lia|]. destruct (Nat.eqb_spec j (List.length f)); [lia|]. reflexivity.
Qed.
Lemma unit_of_eq {S A} (m : St S A) f f' x : m f = (f', Ok x) -> unit_of m f = (f', Ok tt).
Proof. intros H. unfold unit_of. rewrite sbind_eq, H. reflexivity. Qed.
Lemma new_attrs o l nd f : nth_error f (h_id o) = Some nd ->
  exists f', addAttributes o l f = (f', Ok tt) /\ List.length f' = List.length f /\ nth_error f' (h_id o) = Some (with_attrs nd l) /\
    (forall j, j <> h_id o -> nth_error f' j = nth_error f j).
Proof.
  intros H. rewrite (addAttributes_eq o l nd f H). eexists. split; [reflexivity|]. split; [apply put_length|].
  split; [rewrite (put_nth_error _ _ _ _ H), Nat.eqb_refl; reflexivity|]. intros j Hj. rewrite (put_nth_error _ _ _ _ H).
  destruct (Nat.eqb_spec j (h_id o)); [contradiction|reflexivity].
Qed.

Lemma entry_started a sk S num cmd f f' u : fresh a sk f -> entry_fields (mk_handle a (name_at [sk])) S num cmd f = (f', Ok u) ->
  exists n r t, split_scan_number_string num = Ok (n :: r :: t) /\ started a S cmd (num_node n r) f'.
Proof.
  intros [_ Fl Fa Fd] H. set (e := mk_handle a (name_at [sk])) in *. unfold entry_fields in H.
  change (nth_error f (h_id e) = Some (Group [(ED, Datatypes.S a)] [(NXC, AText (L "NXentry"))])) in Fa.
  destruct (new_attrs e [(L "default", t_ "data")] _ f Fa) as (f1 & E1 & L1 & A1 & O1). rewrite sbind_eq, E1 in H. cbv iota beta in H.
  cbn [with_attrs] in A1. set (at1 := fold_left _ _ _) in A1.
  assert (D1 : nth_error f1 (a + 1) = Some (Dset (HTexts [L "SPEC scan"]) [desc "SPEC data file scan"])).
  { rewrite O1 by (cbn [e h_id]; lia). replace (a + 1) with (Datatypes.S a) by lia. exact Fd. }
  clearbody at1. replace (Datatypes.S a) with (a + 1) in A1 by lia. assert (L1' : List.length f1 = a + 2) by lia. clear Fl Fa Fd E1 O1 L1 f.
  destruct (new_ds e (L "title") (DText S) (HTexts [ascii S]) _ _ f1 ltac:(cbn [e h_id]; lia) eq_refl eq_refl A1 ltac:(nodup) eq_refl) as (f2 & E2 & L2 & A2 & T2 & O2).
  rewrite sbind_eq, (unit_of_eq _ _ _ _ E2) in H. cbv iota beta in H.
  assert (D2 : nth_error f2 (a + 1) = Some (Dset (HTexts [L "SPEC scan"]) [desc "SPEC data file scan"])) by (rewrite O2 by (cbn [e h_id]; lia); exact D1).
  rewrite L1' in *. clear E2 O2 A1 D1 L1' f1. cbn [app] in A2.
  rewrite sbind_eq in H. unfold slift in H. destruct (split_scan_number_string num) as [p|x]; [|discriminate].
  destruct p as [|n [|r t]]; try discriminate. exists n, r, t. split; [reflexivity|].
  destruct (new_ds e (L "scan_number") (DNum (NI n)) (HArr [1] [NI n]) _ _ f2 ltac:(cbn [e h_id]; lia) eq_refl eq_refl A2 ltac:(nodup) eq_refl) as (f3 & E3 & L3 & A3 & N3 & O3).
  rewrite sbind_eq, E3 in H. cbv iota beta in H.
  assert (D3 : nth_error f3 (a + 1) = Some (Dset (HTexts [L "SPEC scan"]) [desc "SPEC data file scan"])) by (rewrite O3 by (cbn [e h_id]; lia); exact D2).
  assert (T3 : nth_error f3 (a + 2) = Some (Dset (HTexts [ascii S]) [])) by (rewrite O3 by (cbn [e h_id]; lia); exact T2).
  rewrite L2 in *. replace (Datatypes.S (a + 2)) with (a + 3) in * by lia. clear E3 O3 A2 D2 T2 L2 f2. cbn [app] in A3.
  set (ds := mk_handle (a + 3) (sub_name (h_name e) (L "scan_number"))) in *.
  destruct (new_attrs ds [(L "spec_name", t_ "SCAN_N")] _ f3 N3) as (f4 & E4 & L4 & N4 & O4). cbn [ds h_id] in N4, O4.
  rewrite sbind_eq, E4 in H. cbv iota beta in H.
  rewrite sbind_eq in H. match type of H with (let (_, _) := ?m in _) = _ => assert (X : exists f5, m = (f5, Ok tt) /\ List.length f5 = List.length f4 /\
     nth_error f5 (a + 3) = Some (num_node n r) /\ (forall j, j <> a + 3 -> nth_error f5 j = nth_error f4 j)) end.
  { unfold num_node. destruct (0 <? r)%Z.
    - destruct (new_attrs ds [(L "repeat", ANum (NI r))] _ f4 N4) as (f5 & E5 & L5 & N5 & O5). exists f5. auto.
    - exists f4. auto. }
  destruct X as (f5 & E5 & L5 & N5 & O5). rewrite E5 in H. cbv iota beta in H.
  cbn [e h_id] in A3. assert (A5 : nth_error f5 (h_id e) = Some (Group [(ED, a + 1); (L "title", a + 2); (L "scan_number", a + 3)] at1)).
  { cbn [e h_id]. rewrite O5, O4 by lia. exact A3. }
  assert (D5 : nth_error f5 (a + 1) = Some (Dset (HTexts [L "SPEC scan"]) [desc "SPEC data file scan"])) by (rewrite O5, O4 by lia; exact D3).
  assert (T5 : nth_error f5 (a + 2) = Some (Dset (HTexts [ascii S]) [])) by (rewrite O5, O4 by lia; exact T3).
  assert (L5' : List.length f5 = a + 4) by lia. clear A3 D3 T3 N3 L3 E4 L4 N4 O4 E5 L5 O5 f3 f4.
  destruct (new_ds e (L "command") (DText cmd) (HTexts [ascii cmd]) _ _ f5 ltac:(cbn [e h_id]; lia) eq_refl eq_refl A5 ltac:(nodup) eq_refl) as (f6 & E6 & L6 & A6 & C6 & O6).
  rewrite (unit_of_eq _ _ _ _ E6) in H. injection H; intros _ <-. cbn [e h_id] in O6. rewrite L5' in *.
  constructor; [lia| | | | |].
  - exists at1. exact A6.
  - rewrite O6 by lia. exact D5.
  - rewrite O6 by lia. exact T5.
  - rewrite O6 by lia. exact N5.
  - exact C6.
Qed.

Lemma started_up a sk S cmd nd f : 0 < a -> BInv a sk f -> started a S cmd nd f -> FrameK.Inv (PP a (a + 1) (a + 5)) a sk K4 noI f.
Proof.
  intros Ha I [Sl (at_ & Sa) Sd St Sn Sc]. apply upgrade; auto; [lia|lia| |intros j g []].
  intros i n j Hi Nr (ms & at1 & A1 & A2) Hj. left. assert (i < List.length f) by (apply nth_error_Some; congruence).
  assert (i = a) by lia. subst i. split; [auto|]. rewrite Sa in A1. inversion A1; subst. unfold K4.
  simpl in A2. destruct A2 as [A2|[A2|[A2|[A2|[]]]]]; inversion A2; subst; simpl; auto.
Qed.
Lemma started_claim a sc n r t f f' : started a (s_S sc) (s_cmd sc) (num_node n r) f -> split_scan_number_string (s_num sc) = Ok (n :: r :: t) ->
  FrameK.Fr (PP a (a + 1) (a + 5)) a K4 noI f f' -> Phi_entry sc f' a.
Proof.
  intros [Sl (at_ & Sa) Sd St Sn Sc] Hs [G1 G2 G3 G4].
  assert (M : forall m j, K4 [m] -> dget m [(ED, a + 1); (L "title", a + 2); (L "scan_number", a + 3); (L "command", a + 4)] = Some j -> member f' a m j).
  { intros m j Km Hm. apply G3; [auto|]. eexists; eexists. split; [exact Sa|exact Hm]. }
  assert (N : forall j, a < j < a + 5 -> nth_error f' j = nth_error f j) by (intros j Hj; apply G2; right; lia).
  assert (Mn : member f' a (L "scan_number") (a + 3)) by (apply M; [unfold K4; simpl; auto|reflexivity]).
  assert (Nn : nth_error f' (a + 3) = Some (num_node n r)) by (rewrite N by lia; exact Sn).
  split; [|split; [|split]].
  - exists (a + 1). split; [lia|]. split; [apply M; [unfold K4; simpl; auto|reflexivity]|]. rewrite <- (N (a + 1)) in Sd by lia.
    split; [eexists; exact Sd|]. repeat constructor. eexists. split; [exact Sd|reflexivity].
  - exists (a + 2). split; [lia|]. split; [apply M; [unfold K4; simpl; auto|reflexivity]|]. rewrite <- (N (a + 2)) in St by lia.
    split; [eexists; exact St|]. constructor.
  - exists (a + 4). split; [lia|]. split; [apply M; [unfold K4; simpl; auto 6|reflexivity]|]. rewrite <- (N (a + 4)) in Sc by lia.
    split; [eexists; exact Sc|]. constructor.
  - intros n' r' t' Hs'. rewrite Hs in Hs'. injection Hs'; intros <- <- <-. split; [|split].
    + exists (a + 3). split; [lia|]. split; [exact Mn|]. unfold num_node in Nn. destruct (0 <? r)%Z; cbn [with_attrs fold_left fst snd] in Nn;
        (split; [eexists; exact Nn|]); repeat constructor; (eexists; split; [exact Nn|reflexivity]).
    + intros Hr. exists (a + 3). split; [lia|]. split; [exact Mn|]. unfold num_node in Nn. destruct (Z.ltb_spec 0 r); [|lia]. cbn [with_attrs fold_left fst snd] in Nn.
      split; [eexists; exact Nn|]. repeat constructor. eexists. split; [exact Nn|reflexivity].
    + intros Hr. exists (a + 3). split; [lia|]. split; [exact Mn|]. unfold num_node in Nn. destruct (Z.ltb_spec 0 r); [lia|]. cbn [with_attrs fold_left fst snd] in Nn.
      eexists. split; [exact Nn|reflexivity].
Qed.

Lemma entry_body a sk sc ho f w : 0 < a -> plain_name sk -> is_ascii sk -> fresh a sk f -> names_ok (s_obj sc) -> names_ok ho ->
  objs_body (mk_handle a (name_at [sk])) sc (mk_ws (s_obj sc) ho f) = (w, Ok tt) -> Phi_entry sc (w_h5 w) a.
Proof.
  intros Ha Hp Has Fr N1 N2 H. set (e := mk_handle a (name_at [sk])) in *. set (w0 := mk_ws (s_obj sc) ho f) in *.
  pose proof (fs_inv _ _ _ Fr) as I.
  assert (W0 : BW a sk w0) by (split; [exact I|split; auto]).
  pose proof (entry_hat (PO a) a sk noK noI f Hp I) as Hh.
  unfold objs_body in H. rewrite sbind_eq in H.
  destruct (hdf (entry_fields e (s_S sc) (s_num sc) (s_cmd sc)) w0) as [w1 [u1|x1]] eqn:E1; [|discriminate].
  assert (K1 : WriterFrameK.wk (PO a) a sk noK noI (hdf (entry_fields e (s_S sc) (s_num sc) (s_cmd sc))) (fun _ => True)).
  { apply (WriterFrameK.wk_hdf (PO a) a sk noK noI). apply entry_fields_K; auto. }
  destruct (wk_step _ _ _ _ _ _ _ _ _ _ K1 W0 E1) as [[I1 M1] _].
  unfold hdf in E1. destruct (entry_fields e (s_S sc) (s_num sc) (s_cmd sc) (w_h5 w0)) as [f1 r1] eqn:Ee.
  assert (w1 = mk_ws (s_obj sc) ho f1 /\ r1 = Ok u1) as [-> ->] by (split; [|congruence]; injection E1; auto). clear E1.
  destruct (entry_started a sk _ _ _ _ _ _ Fr Ee) as (n & r & t & Hs & St).
  eapply started_claim; [exact St|exact Hs|].
  assert (IU : FrameK.Inv (PP a (a + 1) (a + 5)) a sk K4 noI f1) by (eapply started_up; eauto).
  assert (W1 : WriterFrameK.WInv (PP a (a + 1) (a + 5)) a sk K4 noI (mk_ws (s_obj sc) ho f1)) by (split; [exact IU|exact M1]).
  assert (WKK : forall o hs, WriterFrameK.wk (PP a (a + 1) (a + 5)) a sk K4 noI (siter (fun h => writer_of (s_cmd sc) h e o) hs) (fun _ => True)).
  { intros o hs. apply (WriterFrameK.writers_ok _ a sk K4 noI); auto; [apply K4_0|apply K4_2|eapply entry_hat; eauto|].
    apply Forall_forall. intros; apply K4_ok. }
  rewrite sbind_eq in H. destruct (rd Hdr A_h5 _) as [w1' [hw|x]] eqn:Er; [|discriminate].
  assert (w1' = mk_ws (s_obj sc) ho f1) by (unfold rd in Er; congruence). subst w1'. clear Er.
  rewrite sbind_eq in H. destruct (siter (fun h => writer_of (s_cmd sc) h e Hdr) (values hw) _) as [w2 [u2|x2]] eqn:E2; [|discriminate].
  destruct (wk_step _ _ _ _ _ _ _ _ _ _ (WKK Hdr (values hw)) W1 E2) as [W2 F2].
  rewrite sbind_eq in H. destruct (rd Scn A_h5 w2) as [w2' [sw2|x]] eqn:Er; [|discriminate].
  assert (w2' = w2) by (unfold rd in Er; congruence). subst w2'. clear Er.
  destruct (wk_step _ _ _ _ _ _ _ _ _ _ (WKK Scn (values sw2)) W2 H) as [_ F3]. exact (FrameK.Fr_trans _ a sk K4 noI _ _ _ F2 F3).
Qed.

Lemma saved_entry E known versions ks s s' f : Forall good_key ks -> GS s -> save E known versions ks s = (s', f, None) -> forall k, In k ks ->
  exists sc0 sc' a, getScan k s = Ok (Some sc0) /\ dget (s_num sc0) (scans s') = Some sc' /\ s_done sc' = true /\
    member f 0 (entry_name k) a /\ Phi_entry sc' f a.
Proof.
  apply (save_claim E known Phi_entry).
  - intros. eapply Phi_entry_grow; eauto.
  - intros. eapply entry_body; eauto.
  - intros sc sc' f0 a Hd (A1 & A2 & A3 & A4 & A5 & A6) H. destruct (A6 Hd) as (_ & _ & S). unfold Phi_entry in *. 
    replace (s_S sc') with (s_S sc) by congruence. replace (s_num sc') with (s_num sc) by congruence. replace (s_cmd sc') with (s_cmd sc) by congruence. exact H.
Qed.
