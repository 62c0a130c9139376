(** The values of the MCA lines of a scan in its entry *)
From Coq Require Import String Lia.
From Verif Require Import Py PyFacts NumFacts Utils SpecUtils Keys Geom Handlers Reader SpecText SpecHistory SpecInterp SpecWriter SpecMca NamesFacts
  H5 SpecH5 H5Facts FrameH5 H5Exact Writer DataWrite KeepFacts WriterFrame SaveFacts EntryData TableFacts FrameK WriterFrameK WriterFacts AgainFacts GrowFacts ClaimFacts
  RegAll RegAll2 RegAll3 SpecEntry MetaWrite MetaWrite2 MetaWrite5 MetaWrite6 EntryFacts McaWrite RegMca.
Import ListNotations.
Local Open Scope list_scope.

(** dataset [n] of the group MCA of the entry [a] *)
Definition mca_holds (f : h5) (a : nat) (n : str) (v : num) (l : attrs_t) : Prop :=
  exists g j, a < g /\ a < j /\ member f a MCAn g /\ member f g n j /\ dataset f j (HArr [1] [v]) /\ Forall (fun kv => attribute f j (fst kv) (snd kv)) l.
Lemma mca_holds_grow f f' a n v l : 1 <= a -> ~ In TGT (keys l) -> grow f f' -> mca_holds f a n v l -> mca_holds f' a n v l.
Proof.
  intros Ha Nt G (g & j & A1 & A2 & B1 & B2 & C & D). exists g, j. do 2 (split; [auto|]).
  split; [eapply grow_member; eauto|]. split; [eapply grow_member; eauto; lia|]. split; [eapply grow_dataset; eauto; lia|].
  rewrite Forall_forall in *. intros kv H. eapply grow_attribute; [exact G|lia| |apply D; auto]. intros X. apply Nt. rewrite <- X. apply (in_map fst). auto.
Qed.
Lemma md_holds a sk n v l g j f : 0 < a -> NoDup (keys l) -> BInv a sk f -> MD a n (with_attrs (Dset (HArr [1] [v]) []) l) g j f -> mca_holds f a n v l.
Proof.
  intros Ha ND I [A B C D]. pose proof (mem_gt a sk Ha f _ _ I A) as Hg. exists g, j. split; [exact Hg|]. split.
  - destruct (FrameK.inv_link _ _ _ _ _ f I g n j) as [Q1 Q2]; [unfold PO; lia|apply member_link; auto|].
    destruct (Nat.lt_ge_cases a j); [auto|]. assert (PI : PO a j) by (unfold PO; lia). destruct (Q2 PI) as [[_ []]|(x & [] & _)].
  - do 2 (split; [auto|]). split; [eexists; exact C|]. apply Forall_forall. intros kv Hin. exists (with_attrs (Dset (HArr [1] [v]) []) l). split; [exact C|].
    apply (attrs_get l ND (HArr [1] [v]) [] kv Hin).
Qed.
Lemma item_attrs m h n v l : mca_item m h n v l -> NoDup (keys l) /\ ~ In TGT (keys l).
Proof. intros [| |]; (split; [repeat constructor; simpl; intuition discriminate|simpl; intuition discriminate]). Qed.

Lemma md_iter cmd a sk o n nd g j h : 0 < a -> plain_name sk -> is_ascii sk -> is_ds nd -> In n (mca_names h) -> forall hs w w' u, ~ In h hs -> BW a sk w ->
  MD a n nd g j (w_h5 w) -> siter (fun h => writer_of cmd h (mk_handle a (name_at [sk])) o) hs w = (w', Ok u) -> BW a sk w' /\ MD a n nd g j (w_h5 w').
Proof.
  intros Ha Hp Has Hd Hn. induction hs as [|h' hs IH]; intros w w' u Nh W M H; cbn [siter] in H.
  - unfold sret in H. assert (w' = w) by congruence. subst. auto.
  - apply bind_ok in H. destruct H as (u1 & w1 & H1 & H). assert (Nh' : h' <> h) by (intros ->; apply Nh; left; reflexivity).
    assert (W1 : BW a sk w1).
    { refine (proj1 (wk_step (PO a) a sk noK noI _ (fun _ => True) w w1 (Ok u1) _ W H1)). pose proof W as [I _].
      apply (WriterFrameK.writer_of_ok (PO a) a sk noK noI); auto; [intros ? ? []|apply (entry_hat _ a sk noK noI _ Hp I)|apply okw_none]. }
    apply (IH w1 w' u); auto; [intros X; apply Nh; right; exact X|].
    assert (Dh : {In h' [H_CALIB; H_CHANN; H_CTIME]} + {~ In h' [H_CALIB; H_CHANN; H_CTIME]}) by (apply in_dec; decide equality). destruct Dh as [Hi|Hi].
    + apply (mca_writer a sk Ha Hp Has cmd h' o w w1 u1 Hi W H1); [exact Hd| |exact M]. apply (names_disjoint h h'); auto.
    + apply (md_writer a sk Ha Hp Has n nd g j cmd h' o w w1 u1); auto.
Qed.

Section Body.
  Context (h : hid) (Hh : In h [H_CALIB; H_CHANN; H_CTIME]).
  Lemma body_mca a sk sc ho f w sw m n v l : 0 < a -> plain_name sk -> is_ascii sk -> BInv a sk f -> NamesFacts.names_ok (s_obj sc) -> NamesFacts.names_ok ho ->
    s_obj sc A_h5 = Some sw -> In h (values sw) -> s_obj sc A_MCA = Some m -> mca_item m h n v l ->
    objs_body (mk_handle a (name_at [sk])) sc (mk_ws (s_obj sc) ho f) = (w, Ok tt) -> mca_holds (w_h5 w) a n v l.
  Proof.
    intros Ha Hp Has I N1 N2 Hw Hin Hm It H. set (e := mk_handle a (name_at [sk])) in *. set (w0 := mk_ws (s_obj sc) ho f) in *.
    assert (W0 : BW a sk w0) by (split; [exact I|split; auto]).
    pose proof (entry_hat (PO a) a sk noK noI f Hp I) as Hhat.
    assert (KS : forall A (m : WM A) (wa wb : wst) (r : res A), m wa = (wb, r) -> kp True m -> same_but True (w_scan wa) (w_scan wb)).
    { intros A m0 wa wb r Hm0 K. destruct (K wa) as [K1 _]. rewrite Hm0 in K1. exact K1. }
    assert (WKK : forall o hs, WriterFrameK.wk (PO a) a sk noK noI (siter (fun h => writer_of (s_cmd sc) h e o) hs) (fun _ => True)).
    { intros o hs. apply (WriterFrameK.writers_ok (PO a) a sk noK noI); auto; [intros g x []|]. apply Forall_forall. intros; apply okw_none. }
    assert (KPI : forall o hs, kp True (siter (fun h => writer_of (s_cmd sc) h e o) hs)).
    { intros o hs. apply kp_iter. intros x. apply kp_writer. auto. }
    unfold objs_body in H. apply bind_ok in H. destruct H as (u1 & w1 & E1 & H).
    assert (K1 : WriterFrameK.wk (PO a) a sk noK noI (hdf (entry_fields e (s_S sc) (s_num sc) (s_cmd sc))) (fun _ => True)).
    { apply (WriterFrameK.wk_hdf (PO a) a sk noK noI). apply entry_fields_K; auto. }
    destruct (wk_step _ _ _ _ _ _ _ _ _ _ K1 W0 E1) as [W1 _].
    pose proof (KS _ _ _ _ _ E1 (kp_hdf True _)) as S1.
    apply bind_ok in H. destruct H as (hw & w1' & Er & H). apply rd_ok in Er. destruct Er as [-> _].
    apply bind_ok in H. destruct H as (u2 & w2 & E2 & H).
    destruct (wk_step _ _ _ _ _ _ _ _ _ _ (WKK Hdr (values hw)) W1 E2) as [W2 _].
    pose proof (KS _ _ _ _ _ E2 (KPI Hdr _)) as S2.
    apply bind_ok in H. destruct H as (sw2 & w2' & Er & H). apply rd_ok in Er. destruct Er as [-> Er]. cbn [obj_of] in Er.
    assert (sw2 = sw).
    { change (w_scan w0) with (s_obj sc) in S1.
      rewrite (S2 A_h5), (S1 A_h5), Hw in Er by (intros [X|[X|[_ X]]]; discriminate). injection Er; auto. } subst sw2.
    destruct (in_split_last h (values sw) ltac:(decide equality) Hin) as (l1 & l2 & El & Nl). rewrite El in H.
    rewrite siter_app in H. apply bind_ok in H. destruct H as (u3 & w3 & E3 & H).
    destruct (wk_step _ _ _ _ _ _ _ _ _ _ (WKK Scn l1) W2 E3) as [W3 _].
    pose proof (KS _ _ _ _ _ E3 (KPI Scn _)) as S3.
    cbn [siter] in H. apply bind_ok in H. destruct H as (u4 & w4 & E4 & H).
    assert (E4' : siter (fun h => writer_of (s_cmd sc) h e Scn) [h] w3 = (w4, Ok tt)) by (cbn [siter]; rewrite sbind_eq, E4; reflexivity).
    destruct (wk_step _ _ _ _ _ _ _ _ _ _ (WKK Scn [h]) W3 E4') as [W4 _].
    destruct (item_name _ _ _ _ _ It) as [Nn _].
    destruct (mca_writer a sk Ha Hp Has (s_cmd sc) h Scn w3 w4 u4 Hh W3 E4) as [Est _].
    destruct (Est m n v l) as (g & j & M4); [|exact It|].
    { cbn [obj_of]. change (w_scan w0) with (s_obj sc) in S1. rewrite (S3 A_MCA), (S2 A_MCA), (S1 A_MCA) by (intros [X|[X|[_ X]]]; discriminate). exact Hm. }
    destruct (md_iter (s_cmd sc) a sk Scn n _ g j h Ha Hp Has ltac:(apply is_ds_n) Nn l2 w4 w tt Nl W4 M4 H) as [[I5 _] M5].
    eapply md_holds; [exact Ha|apply (item_attrs _ _ _ _ _ It)|exact I5|exact M5].
  Qed.
End Body.

Definition mca_claim (sc : scan) (f : h5) (a : nat) : Prop := forall h sw m n v l, In h [H_CALIB; H_CHANN; H_CTIME] -> s_obj sc A_h5 = Some sw -> In h (values sw) ->
  s_obj sc A_MCA = Some m -> mca_item m h n v l -> mca_holds f a n v l.

Section Saved.
  Context (E : env) (known : list hid).
  Lemma saved_mca s0 s versions ks s' f k sc h m n v l : saved E known s0 s versions ks s' f k sc -> attr_is sc A_MCA m -> mca_item m h n v l ->
    field_at f [entry_name k; MCAn; n] (HArr [1] [v]) l.
  Proof.
    intros SV Hm It. pose proof SV as (Hh & Hp & Hs & Hk & H & Hin & sc0 & Hg & Hd).
    destruct (save_claim E known mca_claim) with (versions := versions) (ks := ks) (s := s) (s' := s') (f := f) (k := k) as (sc1 & sc' & a & B1 & B2 & B3 & B4 & B5); auto.
    - intros sc1 f0 f' a Ha G P h1 sw m1 n1 v1 l1 Q1 Q2 Q3 Q4 Q5. eapply mca_holds_grow; [exact Ha|apply (item_attrs _ _ _ _ _ Q5)|exact G|]. eapply P; eauto.
    - intros a sk sc1 ho f0 w Ha Hpl Has Hf N1 N2 Hb h1 sw m1 n1 v1 l1 Q1 Q2 Q3 Q4 Q5.
      eapply (body_mca h1 Q1 a sk sc1 ho f0 w sw m1); [exact Ha|exact Hpl|exact Has|apply Hf|exact N1|exact N2|exact Q2|exact Q3|exact Q4|exact Q5|exact Hb].
    - intros sc1 sc' f0 a Hdn (A1 & A2 & A3 & A4 & A5 & A6) P h1 sw m1 n1 v1 l1 Q1 Q2 Q3 Q4 Q5. destruct (A6 Hdn) as (_ & _ & S). apply (same_weak _ True) in S; [|auto].
      apply (P h1 sw m1 n1 v1 l1); auto; [rewrite <- (S A_h5)|rewrite <- (S A_MCA)]; auto; intros [X|[X|[_ X]]]; discriminate.
    - apply (start_GS E known _ _ Hh Hp Hs).
    - assert (sc1 = sc0) by congruence. subst sc1. assert (sc' = sc) by congruence. subst sc'.
      destruct (item_name _ _ _ _ _ It) as [_ Hi]. destruct (mca_reg h Hi E known _ _ _ _ _ _ _ _ _ Hh Hs H Hd) as (sw & W1 & W2).
      { eapply item_wants; eauto. }
      destruct (B5 h sw m n v l Hi W1 W2 Hm It) as (g & j & X1 & X2 & X3 & X4 & X5 & X6). exists j. split; [|auto].
      econstructor; [exact B4|]. econstructor; [exact X3|]. econstructor; [exact X4|]. constructor.
  Qed.
  Section One.
    Context (s0 s : sdf) (versions : list (str * aval)) (ks : list skey) (s' : sdf) (f : h5) (k : skey) (sc : scan) (SV : saved E known s0 s versions ks s' f k sc).
    Lemma e_calib d c v : detector sc "CALIB" (MCalib d) -> In c ["a"; "b"; "c"]%string -> dget (L c) d = Some v ->
      number_at f [entry_name k; L "MCA"; L ("calib_" ++ c)] v [].
    Proof.
      intros (m & Hm & Dm) Hc Dv. assert (X : L ("calib_" ++ c) = calib_name (L c)) by (unfold calib_name; destruct Hc as [<-|[<-|[<-|[]]]]; reflexivity).
      rewrite X. unfold number_at. change (L "MCA") with MCAn. apply (saved_mca _ _ _ _ _ _ _ _ H_CALIB m _ _ _ SV Hm). eapply it_calib; [exact Dm| |exact Dv]. apply in_map. exact Hc.
    Qed.
    Lemma e_chann n v : In n ["number_saved"; "first_saved"; "last_saved"; "reduction_coef"]%string -> detector sc n (MNum v) ->
      number_at f [entry_name k; L "MCA"; L n] v [].
    Proof.
      intros Hc (m & Hm & Dm). unfold number_at. change (L "MCA") with MCAn. apply (saved_mca _ _ _ _ _ _ _ _ H_CHANN m _ _ _ SV Hm). apply it_chann; [apply in_map; exact Hc|].
      unfold num_of. rewrite Dm. reflexivity.
    Qed.
    Lemma e_ctime n v : In n ["preset_time"; "elapsed_live_time"; "elapsed_real_time"]%string -> detector sc n (MNum v) ->
      number_at f [entry_name k; L "MCA"; L n] v [att "units" "s"].
    Proof.
      intros Hc (m & Hm & Dm). unfold number_at. change (L "MCA") with MCAn. change [att "units" "s"] with [(L "units", t_ "s")].
      apply (saved_mca _ _ _ _ _ _ _ _ H_CTIME m _ _ _ SV Hm). apply it_ctime; [apply in_map; exact Hc|].
      unfold num_of. rewrite Dm. reflexivity.
    Qed.
  End One.
End Saved.
