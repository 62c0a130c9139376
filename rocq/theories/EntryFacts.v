(** From the entry of a saved file to its paths *)
From Coq Require Import String Lia.
From Verif Require Import Py PyFacts NumFacts Utils SpecUtils Keys Time Geom Handlers Reader SpecHistory SpecInterp SpecWriter SpecEntry SpecTime TimeFacts UtilsFacts NamesFacts
  H5 SpecH5 H5Facts FrameH5 H5Exact Writer DataWrite KeepFacts SaveFacts EntryData FrameK WriterFrame WriterFrameK GrowFacts ClaimFacts
  WriterFacts TableFacts MetaWrite MetaWrite2 MetaWrite3 MetaWrite4 MetaWrite5 MetaWrite6 RegAll RegAll2 RegAll3.
Import ListNotations.
Local Open Scope list_scope.

Lemma combine_cat {A B} (a a' : list A) (b b' : list B) : List.length a = List.length b -> combine (a ++ a') (b ++ b') = combine a b ++ combine a' b'.
Proof. revert b; induction a as [|x a IH]; intros [|y b] H; try discriminate; cbn; f_equal; auto. Qed.
Lemma ascii_ok s : ascii_of s (ascii s).
Proof.
  induction s as [|c s IH]; [constructor|]. unfold ascii. cbn [List.filter]. fold (ascii s). destruct (N.ltb_spec c 128); [apply asc_keep|apply asc_drop]; auto.
Qed.
Lemma ascii_id s : Forall (fun c => (c < 128)%N) s -> ascii s = s.
Proof.
  induction 1 as [|c s H _ IH]; [reflexivity|]. unfold ascii. cbn [List.filter]. fold (ascii s). destruct (N.ltb_spec c 128); [|lia]. f_equal. exact IH.
Qed.

Lemma holds_field f sk a n v l : member f 0 sk a -> holds f a n v l -> field_at f [sk; n] v l.
Proof. intros M (j & A & B & C & D). exists j. split; [|auto]. econstructor; [exact M|]. econstructor; [exact B|]. constructor. Qed.
Lemma holds_text f sk a n t l : member f 0 sk a -> holds f a n (HTexts [ascii t]) l -> text_at f [sk; n] t l.
Proof. intros M H. exists (ascii t). split; [apply ascii_ok|]. eapply holds_field; eauto. Qed.

Section Bridge.
  Context (E : env) (known : list hid).
  Lemma saved_writer h (Psi : obj -> h5 -> nat -> Prop) s0 s versions ks s' f k sc :
    est h Psi -> h <> H_data -> (forall o o' f a, same_but True o o' -> Psi o' f a -> Psi o f a) ->
    (forall o f f' a, 1 <= a -> grow f f' -> Psi o f a -> Psi o f' a) ->
    saved E known s0 s versions ks s' f k sc -> (s_done sc = true -> registered h sc) ->
    exists a, member f 0 (entry_name k) a /\ Psi (s_obj sc) f a.
  Proof.
    intros He Nd Ps Pm (Hh & Hp & Hs & Hk & H & Hin & sc0 & Hg & Hd) Hr.
    destruct (saved_claim E known h Psi He Ps Pm versions ks s s' f Hk (start_GS E known _ _ Hh Hp Hs) H k Hin) as (sc1 & sc' & a & B1 & B2 & B3 & B4 & B5).
    assert (sc1 = sc0) by congruence. subst sc1. assert (sc' = sc) by congruence. subst sc'.
    exists a. split; [exact B4|]. destruct (Hr B3) as (sw & W1 & W2). apply (B5 sw W1 W2).
  Qed.
  Lemma saved_done s0 s versions ks s' f k sc : saved E known s0 s versions ks s' f k sc -> exists n, dget n (scans s') = Some sc.
  Proof. intros (Hh & Hp & Hs & Hk & H & Hin & sc0 & Hg & Hd). eauto. Qed.
  Lemma saved_first s0 s versions ks s' f k sc : saved E known s0 s versions ks s' f k sc -> exists a, member f 0 (entry_name k) a /\ Phi_entry sc f a.
  Proof.
    intros (Hh & Hp & Hs & Hk & H & Hin & sc0 & Hg & Hd).
    destruct (saved_entry E known versions ks s s' f Hk (start_GS E known _ _ Hh Hp Hs) H k Hin) as (sc1 & sc' & a & B1 & B2 & B3 & B4 & B5).
    assert (sc1 = sc0) by congruence. subst sc1. assert (sc' = sc) by congruence. subst sc'. exists a. auto.
  Qed.
End Bridge.

Lemma psi_same (x : attr) o o' : x <> A_counter_xref -> x <> A_positioner_xref -> x <> A_L -> same_but True o o' -> o' x = o x.
Proof. intros A B C S. apply S. apply may_not; auto. Qed.
Ltac ps := let S := fresh "S" in let H := fresh "H" in intros o o' f0 a0 S H;
  match goal with |- ?P o f0 a0 => unfold P in *; intros;
    apply H; auto; (rewrite (psi_same _ o o'); [assumption|discriminate|discriminate|discriminate|exact S]) end.
Ltac tgt := simpl; repeat (let X := fresh in intros [X|X]; [revert X; apply seqb_neq; reflexivity|revert X]); intros [].
Ltac pm := let G := fresh "G" in let H := fresh "H" in let Ha := fresh "Ha" in intros o f0 f1 a0 Ha G H;
  match goal with |- ?P o f1 a0 => unfold P in *; intros; eapply holds_grow; [exact Ha|tgt|exact G|apply H; auto] end.

Section Saved.
  Context (E : env) (known : list hid) (Hk : incl all_hids known).
  Context (s0 s s' : sdf) (versions : list (str * aval)) (ks : list skey) (f : h5) (k : skey) (sc : scan).
  Context (SV : saved E known s0 s versions ks s' f k sc).
  Notation at_ n := [entry_name k; L n].

  Lemma e_title : text_at f (at_ "title") (s_S sc) [].
  Proof. destruct (saved_first _ _ _ _ _ _ _ _ _ _ SV) as (a & M & (A & B & C & D)). eapply holds_text; eauto. Qed.
  Lemma e_command : text_at f (at_ "command") (s_cmd sc) [].
  Proof. destruct (saved_first _ _ _ _ _ _ _ _ _ _ SV) as (a & M & (A & B & C & D)). eapply holds_text; eauto. Qed.
  Lemma e_descr : text_at f (at_ "experiment_description") (L "SPEC scan") [att "description" "SPEC data file scan"].
  Proof. destruct (saved_first _ _ _ _ _ _ _ _ _ _ SV) as (a & M & (A & B & C & D)). exists (L "SPEC scan"). split; [apply (ascii_ok (L "SPEC scan"))|]. eapply holds_field; eauto. Qed.
  Lemma e_number n r t : split_scan_number_string (s_num sc) = Ok (n :: r :: t) ->
    number_at f (at_ "scan_number") (NI n) [att "spec_name" "SCAN_N"] /\
    ((0 < r)%Z -> number_at f (at_ "scan_number") (NI n) [(L "repeat", ANum (NI r))]) /\
    ((r <= 0)%Z -> lacks f (at_ "scan_number") (L "repeat")).
  Proof.
    intros Hs. destruct (saved_first _ _ _ _ _ _ _ _ _ _ SV) as (a & M & (A & B & C & D)). destruct (D n r t Hs) as (D1 & D2 & D3). split; [|split].
    - eapply holds_field; eauto.
    - intros Hr. eapply holds_field; eauto.
    - intros Hr. destruct (D3 Hr) as (j & J1 & J2 & (nd & J3 & J4)). exists j. split; [econstructor; [exact M|]; econstructor; [exact J2|]; constructor|].
      intros (v & nd' & X1 & X2). rewrite J3 in X1. injection X1; intros <-. rewrite J4 in X2. discriminate.
  Qed.

  Lemma e_date ls l d y m dd h mi se : lines_of (s_raw sc) ls -> In l ls -> SpecKeys.control H_D l -> attr_is sc A_date d ->
    calendar y m dd -> clock h mi se -> spec_date d y m dd h mi se \/ spock_date d y m dd h mi se ->
    text_at f (at_ "date") (iso y m dd h mi se) [].
  Proof.
    intros Hl Hin Hc Hd C1 C2 Sd. destruct (saved_done _ _ _ _ _ _ _ _ _ _ SV) as (n & Hn).
    destruct (saved_writer E known H_D Psi_D s0 s versions ks s' f k sc est_D) as (a & M & P).
    - discriminate.
    - intros o o' f0 a0 S H d0 t0 H0 H1. apply (H d0 t0); auto. rewrite (psi_same A_date o o'); auto; discriminate.
    - intros o f0 f1 a0 Ha G H d0 t0 H0 H1. eapply holds_grow; [exact Ha| |exact G|apply (H d0 t0); auto]. simpl. auto.
    - exact SV.
    - intros D. destruct SV as (Hh & Hp & Hs & _ & H & _). eapply (line_reg E known Hk); eauto.
    - eapply holds_text; [exact M|]. apply (P d); [exact Hd|]. destruct Sd as [Sd|Sd]; [apply C37_spec_lemma|apply C37_spock_lemma]; auto.
  Qed.
  Lemma e_comments c : attr_is sc A_comments c -> c <> [] -> text_at f (at_ "comments") (join [LF] c) [].
  Proof.
    intros Hc Nc. destruct (saved_done _ _ _ _ _ _ _ _ _ _ SV) as (n & Hn).
    destruct (saved_writer E known H_C Psi_C s0 s versions ks s' f k sc est_C) as (a & M & P); [discriminate|ps| |exact SV| |].
    - intros o f0 f1 a0 Ha G H c0 H0. eapply holds_grow; [exact Ha| |exact G|apply (H c0); auto]. simpl. auto.
    - intros D. destruct SV as (Hh & Hp & Hs & _ & H & _). eapply reg_C; eauto.
    - eapply holds_text; [exact M|]. apply P. exact Hc.
  Qed.
  Lemma e_M v x : attr_is sc A_M v -> v <> [] -> py_float v = Ok x ->
    number_at f (at_ "M") (NF x) [att "units" "counts"; att "description" "SPEC scan with constant monitor count"].
  Proof.
    intros Hc Nc Hx. destruct (saved_done _ _ _ _ _ _ _ _ _ _ SV) as (n & Hn).
    destruct (saved_writer E known H_M Psi_M s0 s versions ks s' f k sc est_M) as (a & M & P); [discriminate| | |exact SV| |].
    - intros o o' f0 a0 S H m0 x0 H0 H1. apply (H m0 x0); auto. rewrite (psi_same A_M o o'); auto; discriminate.
    - intros o f0 f1 a0 Ha G H m0 x0 H0 H1. eapply holds_grow; [exact Ha|tgt|exact G|apply (H m0 x0); auto].
    - intros D. destruct SV as (Hh & Hp & Hs & _ & H & _). eapply reg_M; eauto.
    - eapply holds_field; [exact M|]. apply (P v); auto.
  Qed.
  Lemma e_T v x : attr_is sc A_T v -> v <> [] -> py_float v = Ok x ->
    number_at f (at_ "T") (NF x) [att "units" "s"; att "description" "SPEC scan with constant counting time"].
  Proof.
    intros Hc Nc Hx. destruct (saved_done _ _ _ _ _ _ _ _ _ _ SV) as (n & Hn).
    destruct (saved_writer E known H_T Psi_T s0 s versions ks s' f k sc est_T) as (a & M & P); [discriminate| | |exact SV| |].
    - intros o o' f0 a0 S H m0 x0 H0 H1. apply (H m0 x0); auto. rewrite (psi_same A_T o o'); auto; discriminate.
    - intros o f0 f1 a0 Ha G H m0 x0 H0 H1. eapply holds_grow; [exact Ha|tgt|exact G|apply (H m0 x0); auto].
    - intros D. destruct SV as (Hh & Hp & Hs & _ & H & _). eapply reg_T; eauto.
    - eapply holds_field; [exact M|]. apply (P v); auto.
  Qed.
  Lemma e_Q q : attr_is sc A_Q (Some q) -> field_at f (at_ "Q") (HArr [List.length q] (map NF q)) [att "description" "hkl at start of scan"].
  Proof.
    intros Hc. destruct (saved_done _ _ _ _ _ _ _ _ _ _ SV) as (n & Hn).
    destruct (saved_writer E known H_Q Psi_Q s0 s versions ks s' f k sc est_Q) as (a & M & P); [discriminate|ps|pm|exact SV| |].
    - intros D. destruct SV as (Hh & Hp & Hs & _ & H & _). eapply reg_Q; eauto.
    - eapply holds_field; [exact M|]. apply (P q); auto.
  Qed.
  Lemma e_TEMP x : attr_is sc A_TEMP_SP x -> number_at f (at_ "TEMP_SP") (NF x) [att "description" "temperature set point"].
  Proof.
    intros Hc. destruct (saved_done _ _ _ _ _ _ _ _ _ _ SV) as (n & Hn).
    destruct (saved_writer E known H_X Psi_TEMP s0 s versions ks s' f k sc est_TEMP) as (a & M & P); [discriminate|ps|pm|exact SV| |].
    - intros D. destruct SV as (Hh & Hp & Hs & _ & H & _). eapply reg_X; eauto.
    - eapply holds_field; [exact M|]. apply (P x); auto.
  Qed.
  Lemma e_DEGC x : attr_is sc A_DEGC_SP x -> number_at f (at_ "DEGC_SP") (NF x) [att "units" "C"; att "description" "temperature set point (C)"].
  Proof.
    intros Hc. destruct (saved_done _ _ _ _ _ _ _ _ _ _ SV) as (n & Hn).
    destruct (saved_writer E known H_X Psi_DEGC s0 s versions ks s' f k sc est_DEGC) as (a & M & P); [discriminate|ps|pm|exact SV| |].
    - intros D. destruct SV as (Hh & Hp & Hs & _ & H & _). eapply reg_X'; eauto.
    - eapply holds_field; [exact M|]. apply (P x); auto.
  Qed.

  (** a dictionary in a group *)
  Lemma dict_paths sk a n cls l d : member f 0 sk a -> dict_in f a n cls l d -> exists g, at_path f [sk; n] g /\ nx_group f g cls /\
    Forall (fun kv => attribute f g (fst kv) (snd kv)) l /\
    forall x v m hv, last_named d x v m -> to_hval v = Ok hv -> field_at f [sk; n; m] hv [(L "spec_name", AText x)].
  Proof.
    intros M (g & A & B & C & D & F). exists g. split; [econstructor; [exact M|]; econstructor; [exact B|]; constructor|]. split; [auto|]. split; [auto|].
    intros x v m hv (pre & post & Ed & Nm & Nl) Hv.
    destruct (F pre x v post m hv Ed) as (j & J1 & J2 & J3 & J4); [apply ds_name_iff; auto| |auto|].
    - intros y Hy X. apply (Nl y Hy). apply ds_name_iff. exact X.
    - exists j. split; [|auto]. econstructor; [exact M|]. econstructor; [exact B|]. econstructor; [exact J2|]. constructor.
  Qed.
  Lemma last_map {V W} (g : V -> W) d x v m : last_named d x v m -> last_named (map (fun kv => (fst kv, g (snd kv))) d) x (g v) m.
  Proof.
    intros (pre & post & -> & N1 & N2). exists (map (fun kv => (fst kv, g (snd kv))) pre), (map (fun kv => (fst kv, g (snd kv))) post).
    rewrite map_app. split; [reflexivity|]. split; [auto|]. intros y Hy. apply N2. rewrite map_map in Hy. exact Hy.
  Qed.
  Lemma e_MD d : attr_is sc A_MD d -> d <> [] -> group_at f (at_ "bluesky_metadata") "NXcollection" /\
    forall x v m, last_named d x v m -> text_at f [entry_name k; L "bluesky_metadata"; m] v [(L "spec_name", AText x)].
  Proof.
    intros Hc Nc. destruct (saved_done _ _ _ _ _ _ _ _ _ _ SV) as (n & Hn).
    destruct (saved_writer E known H_MD Psi_MD s0 s versions ks s' f k sc est_MD) as (a & M & P); [discriminate| | |exact SV| |].
    - intros o o' f0 a0 S H d0 H0 H1. apply (H d0); auto. rewrite (psi_same A_MD o o'); auto; discriminate.
    - intros o f0 f1 a0 Ha G H d0 H0 H1. eapply dict_in_grow; [exact Ha| |exact G|apply (H d0); auto]. tgt.
    - intros D. destruct SV as (Hh & Hp & Hs & _ & H & _). eapply reg_MD; eauto.
    - destruct (dict_paths _ _ _ _ _ _ M (P d Hc Nc)) as (g & G1 & G2 & _ & G4). split; [exists g; auto|].
      intros x v m Hl. exists (ascii v). split; [apply ascii_ok|]. apply (G4 x (DText v) m (HTexts [ascii v])); [|reflexivity]. apply (last_map DText). exact Hl.
  Qed.
  (** groups that are linked into the instrument *)
  Lemma e_linked a n : member f 0 (entry_name k) a -> in_instrument f a n -> same_object f [entry_name k; L "instrument"; n] [entry_name k; n].
  Proof.
    intros M (g & i & A & B & C & D & F). exists g. split.
    - econstructor; [exact M|]. econstructor; [exact D|]. econstructor; [exact F|]. constructor.
    - econstructor; [exact M|]. econstructor; [exact C|]. constructor.
  Qed.
  Lemma e_V d : attr_is sc A_metadata d -> d <> [] -> group_at f (at_ "metadata") "NXnote" /\
    same_object f [entry_name k; L "instrument"; L "metadata"] (at_ "metadata") /\
    forall x v m, last_named d x v m -> value_at f [entry_name k; L "metadata"; m] v [(L "spec_name", AText x)].
  Proof.
    intros Hc Nc. destruct (saved_done _ _ _ _ _ _ _ _ _ _ SV) as (n & Hn).
    destruct (saved_writer E known H_V Psi_V s0 s versions ks s' f k sc est_V) as (a & M & P); [discriminate| | |exact SV| |].
    - intros o o' f0 a0 S H d0 H0 H1. apply (H d0); auto. rewrite (psi_same A_metadata o o'); auto; discriminate.
    - intros o f0 f1 a0 Ha G H d0 H0 H1. destruct (H d0 H0 H1) as [X Y]. split; [|eapply in_instrument_grow; eauto]. eapply dict_in_grow; [exact Ha| |exact G|exact X]. tgt.
    - intros D. destruct SV as (Hh & Hp & Hs & _ & H & _). eapply reg_V; eauto.
    - destruct (P d Hc Nc) as [P1 P2]. destruct (dict_paths _ _ _ _ _ _ M P1) as (g & G1 & G2 & _ & G4). split; [exists g; auto|]. split; [eapply e_linked; eauto|].
      intros x v m Hl. destruct v as [y|t]; cbn [value_at].
      + apply (G4 x (DNum (NF y)) m (HArr [1] [NF y])); [|reflexivity]. apply (last_map md_data _ _ (MdF y)). exact Hl.
      + exists (ascii t). split; [apply ascii_ok|]. apply (G4 x (DText t) m (HTexts [ascii t])); [|reflexivity]. apply (last_map md_data _ _ (MdS t)). exact Hl.
  Qed.
  Lemma e_P d : attr_is sc A_positioner d -> d <> [] -> group_at f (at_ "positioners") "NXnote" /\
    same_object f [entry_name k; L "instrument"; L "positioners"] (at_ "positioners") /\
    forall x v m, last_named d x v m -> group_at f [entry_name k; L "positioners"; m] "NXpositioner" /\
      text_at f [entry_name k; L "positioners"; m; L "name"] m [(L "spec_name", AText x)] /\
      number_at f [entry_name k; L "positioners"; m; L "value"] (NF v) [(L "spec_name", AText x)].
  Proof.
    intros Hc Nc. destruct (saved_done _ _ _ _ _ _ _ _ _ _ SV) as (n & Hn).
    destruct (saved_writer E known H_P Psi_P s0 s versions ks s' f k sc est_P) as (a & M & P); [discriminate| | |exact SV| |].
    - intros o o' f0 a0 S H d0 H0. apply (H d0); auto. rewrite (psi_same A_positioner o o'); auto; discriminate.
    - intros o f0 f1 a0 Ha G H d0 H0. destruct (H d0 H0) as [X Y]. split; [eapply positioners_grow; eauto|eapply in_instrument_grow; eauto].
    - intros D. destruct SV as (Hh & Hp & Hs & _ & H & _). eapply reg_P; eauto.
    - destruct (P d Hc) as [(g & A & B & C & D & F) P2].
      assert (T : forall ps j, leads f g ps j -> at_path f (entry_name k :: L "positioners" :: ps) j) by (intros ps j X; econstructor; [exact M|]; econstructor; [exact B|exact X]).
      split; [exists g; split; [apply T; constructor|auto]|]. split; [eapply e_linked; eauto|].
      intros x v m (pre & post & Ed & Nm & Nl).
      destruct (F pre x v post m Ed) as (pg & F1 & F2 & F3 & (j1 & J1 & J2 & J3 & J4) & (j2 & I1 & I2 & I3 & I4)); [apply ds_name_iff; auto| |].
      { intros y Hy X. apply (Nl y Hy). apply ds_name_iff. exact X. }
      split; [exists pg; split; [apply T; econstructor; [exact F2|constructor]|auto]|]. split.
      + exists (ascii m). split; [apply ascii_ok|]. exists j1. split; [apply T; econstructor; [exact F2|]; econstructor; [exact J2|constructor]|auto].
      + exists j2. split; [apply T; econstructor; [exact F2|]; econstructor; [exact I2|constructor]|auto].
  Qed.
  (** the lines that are not recognized *)
  Lemma nth_enum {A} (l : list A) i x : nth_error l i = Some x -> exists pre post, enum l = pre ++ (i, x) :: post /\ List.length pre = i /\ forall jy, In jy post -> i < fst jy.
  Proof.
    intros H. destruct (nth_error_split l i H) as (l1 & l2 & -> & Hl). unfold enum. rewrite app_length, seq_app, combine_cat.
    2:{ rewrite seq_length. reflexivity. }
    cbn [List.length seq combine Nat.add]. rewrite Hl. eexists. eexists. split; [reflexivity|]. split.
    - rewrite combine_length, seq_length. lia.
    - intros [j y] Hj. apply in_combine_l in Hj. apply in_seq in Hj. cbn [fst]. lia.
  Qed.
  Lemma u_name i : clean_name (L "u" ++ str_of_nat i) = Ok (L "u" ++ str_of_nat i).
  Proof.
    apply C33_id_lemma. split; [discriminate|]. split.
    - apply Forall_app. split; [repeat constructor|]. eapply Forall_impl; [|apply str_of_nat_digits]. intros c [H1 H2].
      assert (H : In c [48;49;50;51;52;53;54;55;56;57]%N) by (simpl; lia). simpl in H. repeat (destruct H as [<-|H]; [reflexivity|]). destruct H.
    - intros c t H. injection H; intros _ <-. reflexivity.
  Qed.
  Lemma e_unrec us : attr_is sc A_unrec us -> us <> [] -> exists m : nat,
    group_at f [entry_name k; L "unrecognized_" ++ str_of_nat m] "NXnote" /\
    forall i l, nth_error us i = Some l -> text_at f [entry_name k; L "unrecognized_" ++ str_of_nat m; L "u" ++ str_of_nat i] l [].
  Proof.
    intros Hc Nc. destruct (saved_done _ _ _ _ _ _ _ _ _ _ SV) as (n & Hn).
    destruct (saved_writer E known H_unrec Psi_unrec s0 s versions ks s' f k sc est_unrec) as (a & M & P); [discriminate| | |exact SV| |].
    - intros o o' f0 a0 S H d0 H0. apply (H d0); auto. rewrite (psi_same A_unrec o o'); auto; discriminate.
    - intros o f0 f1 a0 Ha G H d0 H0. destruct (H d0 H0) as (i & Hi). exists i. eapply dict_in_grow; [exact Ha| |exact G|exact Hi]. tgt.
    - intros D. destruct SV as (Hh & Hp & Hs & _ & H & _). eapply reg_unrec; eauto.
    - destruct (P us Hc) as (m & Hm). exists m. destruct (dict_paths _ _ _ _ _ _ M Hm) as (g & G1 & G2 & _ & G4). split; [exists g; auto|].
      intros i l Hl. exists (ascii l). split; [apply ascii_ok|].
      destruct (G4 (L "u" ++ str_of_nat i) (DText l) (L "u" ++ str_of_nat i) (HTexts [ascii l])) as (j & J1 & J2 & _); [|reflexivity|exists j; auto].
      destruct (nth_enum us i l Hl) as (pre & post & Ee & _ & Hp). rewrite Ee, map_app. cbn [map]. eexists. eexists. split; [reflexivity|].
      split; [apply ds_name_iff, u_name|]. intros y Hy X. rewrite map_map in Hy. apply in_map_iff in Hy. destruct Hy as (jy & <- & Hy). cbn [fst] in X.
      apply ds_name_iff in X. rewrite u_name in X. injection X; intros X1. apply str_of_nat_inj in X1. specialize (Hp jy Hy). lia.
  Qed.
End Saved.
