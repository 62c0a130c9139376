(** From what the writers of a header make to what is in the file that is saved *)
From Coq Require Import String Lia.
From Verif Require Import Py PyFacts Utils SpecUtils Keys Geom Handlers Reader StateFacts SpecHistory SpecInterp SpecWriter NamesFacts
  H5 SpecH5 H5Facts FrameH5 H5Exact Writer DataWrite KeepFacts WriterFrame SaveFacts EntryData FrameK WriterFrameK AgainFacts GrowFacts ClaimFacts
  MetaWrite MetaWrite2 XrefWrite HdrKeep.
Import ListNotations.
Local Open Scope list_scope.

Section Body.
  Context (h : hid) (Psi : obj -> h5 -> nat -> Prop) (He : est_of Hdr h Psi).
  Context (Ps : forall o o' f a, hstep o o' -> Psi o' f a -> Psi o f a).
  Lemma rest_writers P a sk K II f0 cmd e o hs : e = mk_handle a (name_at [sk]) -> plain_name sk -> is_ascii sk ->
    (forall cmd' h' o' w1 w2 u', WriterFrameK.WInv P a sk K II w1 -> FrameK.Fr P a K II f0 (w_h5 w1) ->
         writer_of cmd' h' (mk_handle a (name_at [sk])) o' w1 = (w2, Ok u') ->
         FrameK.Inv P a sk K II (w_h5 w2) /\ FrameK.Fr P a K II (w_h5 w1) (w_h5 w2)) ->
    forall w w' u, BW a sk w -> FrameK.Inv P a sk K II (w_h5 w) -> FrameK.Fr P a K II f0 (w_h5 w) -> siter (fun h => writer_of cmd h e o) hs w = (w', Ok u) ->
    BW a sk w' /\ FrameK.Inv P a sk K II (w_h5 w') /\ FrameK.Fr P a K II f0 (w_h5 w').
  Proof.
    intros -> Hp Has Ht. induction hs as [|h1 hs IH]; intros w w' u W I F H; cbn [siter] in H.
    - unfold sret in H. assert (w' = w) by congruence. subst w'. auto.
    - apply bind_ok in H. destruct H as (u1 & w1 & H1 & H).
      pose proof (base_writer_of _ _ _ _ _ _ _ _ Hp Has W H1) as W1.
      destruct (Ht cmd h1 o w w1 u1 ltac:(split; [exact I|apply W]) F H1) as [I1 F1].
      apply (IH w1 w' u W1 I1); [|exact H]. eapply FrameK.Fr_trans; [exact sk|exact F|exact F1].
  Qed.
  Lemma hdr_body a sk sc ho f w hw : 0 < a -> plain_name sk -> is_ascii sk -> BInv a sk f -> names_ok (s_obj sc) -> names_ok ho ->
    ho A_h5 = Some hw -> In h (values hw) ->
    objs_body (mk_handle a (name_at [sk])) sc (mk_ws (s_obj sc) ho f) = (w, Ok tt) -> Psi ho (w_h5 w) a.
  Proof.
    intros Ha Hp Has I N1 N2 Hw Hin H. set (e := mk_handle a (name_at [sk])) in *. set (w0 := mk_ws (s_obj sc) ho f) in *.
    assert (W0 : BW a sk w0) by (split; [exact I|split; auto]).
    pose proof (entry_hat (PO a) a sk noK noI f Hp I) as Hh.
    assert (KS : forall A (m : WM A) (wa wb : wst) (r : res A), m wa = (wb, r) -> hg m -> hstep (w_hdr wa) (w_hdr wb)).
    { intros A m wa wb r Hm K. pose proof (K wa) as K1. rewrite Hm in K1. exact K1. }
    unfold objs_body in H. apply bind_ok in H. destruct H as (u1 & w1 & E1 & H).
    assert (K1 : WriterFrameK.wk (PO a) a sk noK noI (hdf (entry_fields e (s_S sc) (s_num sc) (s_cmd sc))) (fun _ => True)).
    { apply (WriterFrameK.wk_hdf (PO a) a sk noK noI). apply entry_fields_K; auto. }
    destruct (wk_step _ _ _ _ _ _ _ _ _ _ K1 W0 E1) as [W1 _].
    pose proof (KS _ _ _ _ _ E1 (hg_hdf _)) as S1.
    apply bind_ok in H. destruct H as (hw1 & w1' & Er & H). apply rd_ok in Er. destruct Er as [-> Er]. cbn [obj_of] in Er.
    assert (hw1 = hw). { destruct S1 as [S1 _]. change (w_hdr w0) with ho in S1. rewrite S1, Hw in Er. injection Er; auto. } subst hw1.
    apply bind_ok in H. destruct H as (u2 & w2 & E2 & H).
    destruct (in_split _ _ Hin) as (l1 & l2 & El). rewrite El in E2. rewrite siter_app in E2.
    apply bind_ok in E2. destruct E2 as (u3 & w3 & E3 & E2).
    assert (W3 : BW a sk w3).
    { refine (proj1 (wk_step (PO a) a sk noK noI _ (fun _ => True) w1 w3 _ _ W1 E3)).
      pose proof W1 as [I1 _].
      apply (WriterFrameK.writers_ok (PO a) a sk noK noI); auto; [intros g n []|]. apply Forall_forall. intros; apply okw_none. }
    assert (S3 : hstep (w_hdr w1) (w_hdr w3)) by (eapply KS; [exact E3|]; apply hg_iter; intros; apply hg_writer).
    cbn [siter] in E2. apply bind_ok in E2. destruct E2 as (u4 & w4 & E4 & E2).
    pose proof (base_writer_of _ _ _ _ _ _ _ _ Hp Has W3 E4) as W4.
    destruct (He (s_cmd sc) a sk w3 w4 u4 Ha Hp Has W3 E4) as (P & K & II & IK & Ht & Fin).
    destruct (rest_writers P a sk K II (w_h5 w4) (s_cmd sc) e Hdr l2 eq_refl Hp Has Ht w4 w2 u2 W4 IK (FrameK.Fr_refl _ _ _ _ _) E2) as (W2 & I2 & F2).
    apply bind_ok in H. destruct H as (sw & w5 & Er2 & H). apply rd_ok in Er2. destruct Er2 as [-> _].
    destruct (rest_writers P a sk K II (w_h5 w4) (s_cmd sc) e Scn (values sw) eq_refl Hp Has Ht w2 w tt W2 I2 F2 H) as (W6 & I6 & F6).
    eapply Ps; [|apply Fin; [exact I6|exact F6]]. change ho with (w_hdr w0). eapply hs_trans; [exact S1|exact S3].
  Qed.
End Body.

Section Claim.
  Context (E : env) (known : list hid) (HP : header -> Prop) (Phi : scan -> header -> h5 -> nat -> Prop).
  Context (Hs_ : forall h h', HP h -> hrel h h' -> HP h').
  Context (Gr : forall sc h f f' a, 1 <= a -> grow f f' -> Phi sc h f a -> Phi sc h f' a).
  Context (St : forall a sk sc h f w, 0 < a -> plain_name sk -> is_ascii sk -> fresh a sk f -> names_ok (s_obj sc) -> names_ok (h_obj h) -> HP h ->
    objs_body (mk_handle a (name_at [sk])) sc (mk_ws (s_obj sc) (h_obj h) f) = (w, Ok tt) -> Phi sc h (w_h5 w) a).
  Context (Lt : forall sc sc' h h' f a, s_done sc = true -> later_scan sc sc' -> hrel h h' -> Phi sc h f a -> Phi sc' h' f a).
  Definition HI (s : sdf) : Prop := Forall HP (headers s).
  Lemma HI_later s s' : HI s -> hlater s s' -> HI s'.
  Proof. unfold HI, hlater. intros H F. induction F as [|x y l l' R F IH]; [constructor|]. inversion H; subst. constructor; eauto. Qed.

  Lemma save_key_hclaim first k s f s' f' ms0 at0 : good_key k -> GS s -> HI s -> ok5 f -> nth_error f 0 = Some (Group ms0 at0) ->
    save_key E known first k s f = (s', f', None) ->
    exists sc0 s1 sc h, getScan k s = Ok (Some sc0) /\ interpret E known (s_num sc0) s = (s1, None) /\
      dget (s_num sc0) (scans s1) = Some sc /\ s_done sc = true /\ nth_error (headers s1) (s_hdr sc) = Some h /\ later s1 s' /\ hlater s1 s' /\ Phi sc h f' (List.length f).
  Proof.
    intros Hk Hs HH W E0 H. destruct (good_key_plain k Hk) as [Hp Has].
    destruct f as [|n0 t]; [discriminate E0|]. inversion E0; subst n0. clear E0.
    set (f := Group ms0 at0 :: t) in *. set (sk := entry_name k) in *. set (a := List.length f).
    assert (Hlen : a = S (List.length t)) by reflexivity. assert (Ha : 0 < a) by lia.
    unfold save_key in H. rewrite sbind_eq in H. fold (entry_name k) in H. fold sk in H. unfold f in H at 1.
    rewrite (makeGroup_root sk (L "NXentry") ms0 at0 t Hp) in H. rewrite <- Hlen in H.
    destruct (has sk ms0) eqn:Hh; [discriminate H|].
    destruct (fresh_start a sk ms0 at0 t _ Ha Hp Hlen Hh W eq_refl) as (f2 & x2 & E2 & F2). unfold ED in E2.
    cbn [fst snd] in H. rewrite sbind_eq in H. rewrite E2 in H. unfold sret in H.
    set (e := mk_handle a (name_at [sk])) in *.
    destruct (getScan k s) as [[sc0|]|x1]; [|discriminate H|discriminate H].
    destruct (save_scan E known e (s_num sc0) s f2) as [[s3 f3] r3] eqn:Es.
    destruct r3 as [x3|]; [discriminate H|].
    destruct (save_scan_later E known _ _ _ _ _ _ _ Es) as [L3 SL].
    destruct (SL eq_refl) as (s1 & sc & h & w & Ei & Eg & Ed & En & Eo & Ef & Eg' & L13). clear SL.
    assert (H13 : hlater s1 s3).
    { clear - Es Ei Eg En. unfold save_scan in Es. rewrite Ei, Eg, En in Es.
      destruct (save_objs e sc (mk_ws (s_obj sc) (h_obj h) f2)) as [w r0] eqn:E0.
      pose proof (hg_save_objs e sc (mk_ws (s_obj sc) (h_obj h) f2)) as K1. rewrite E0 in K1. cbn [fst w_hdr] in K1.
      assert (Q : s3 = set_headers (set_nth (s_hdr sc) (mk_header (h_raw h) (w_hdr w)) (headers s1)) (set_scans (dset (s_num sc0) (with_obj (w_scan w) sc) (scans s1)) s1)) by congruence.
      rewrite Q. unfold hlater. cbn [set_headers headers]. eapply set_nth_self; [apply hrel_refl|exact En|]. split; [reflexivity|exact K1]. }
    pose proof (interpret_GS E known _ _ _ _ Hs Ei) as G1.
    pose proof (HI_later _ _ HH (interpret_hl E known _ _ _ _ Ei)) as HH1.
    destruct (save_objs_split e sc _ _ Eo) as (w1 & g & B1 & B2 & B3).
    assert (P1 : Phi sc h (w_h5 w1) a).
    { eapply St; [exact Ha|exact Hp|exact Has|exact F2| | | |exact B1].
      - apply (GS_scan s1 _ sc G1 Eg). - apply (GS_header s1 _ h G1 En). - unfold HI in HH1. rewrite Forall_forall in HH1. apply HH1. apply (nth_error_In _ _ En). }
    assert (P3 : Phi sc h f3 a).
    { eapply Gr; [lia| |exact P1]. rewrite Ef, B3. eapply gk_grow; [apply final_links_gk|exact B2]. }
    assert (GK : forall r, (sbind (if first then addAttributes root [(L "default", AText sk)] else sret tt) (fun _ => ensure_data e)) f3 = r ->
       grow f3 (fst r)).
    { intros [f5 r5] Hr. cbn [fst]. refine (gk_grow _ (fun _ => True) _ _ _ _ Hr). eapply gk_bind with (Q := fun _ => True).
      - destruct first; [apply addAttributes_gk; right; reflexivity|apply gk_ret; auto].
      - intros _ _. apply ensure_data_gk. }
    change (L "S" ++ key_str k) with sk in H. unfold sret in GK.
    match type of H with (let (_, _) := ?X in _) = _ => specialize (GK X eq_refl); destruct X as [f5 [u5|x5]] end; [|discriminate H].
    cbn [fst] in GK. assert (s3 = s' /\ f5 = f') as [-> ->] by (split; congruence).
    exists sc0, s1, sc, h. do 5 (split; [auto|]). split; [exact L13|]. split; [exact H13|]. eapply Gr; [lia|exact GK|exact P3].
  Qed.

  Lemma save_keys_hclaim ks : forall first s f s' f' , Forall good_key ks -> GS s -> HI s -> ok5 f -> is_group f 0 ->
    save_keys E known first ks s f = (s', f', None) -> forall k, In k ks ->
    exists sc0 s1 sc h a, getScan k s = Ok (Some sc0) /\ later s s1 /\ dget (s_num sc0) (scans s1) = Some sc /\ s_done sc = true /\ nth_error (headers s1) (s_hdr sc) = Some h /\
      later s1 s' /\ hlater s1 s' /\ member f' 0 (entry_name k) a /\ Phi sc h f' a.
  Proof.
    induction ks as [|k0 ks IH]; intros first s f s' f' Hk Hs HH W [ms [at_ R0]] H k Hin; [destruct Hin|].
    cbn [save_keys] in H. inversion Hk as [|? ? Hk1 Hk2]; subst.
    destruct (save_key E known first k0 s f) as [[s2 f2] r2] eqn:E1.
    destruct (save_key_spec E known first k0 s f s2 f2 r2 ms at_ Hk1 Hs W R0 E1) as [G1 [SO SL SW SR]].
    destruct r2 as [x2|]; [discriminate H|].
    destruct (SR ms at_ R0) as [(Hh & _ & X)|(Hh & C1 & (at' & R1 & A1 & A1') & D1)]; [discriminate X|].
    assert (Gr2 : is_group f2 0) by (eexists; eexists; exact R1).
    pose proof (save_key_later E known _ _ _ _ _ _ _ E1) as L02. pose proof (save_key_hl E known _ _ _ _ _ _ _ E1) as M02.
    destruct (save_keys_spec E known ks false s2 f2 s' f' None Hk2 G1 SW Gr2 H) as (G2 & (done & [KO KL KW KP KE KD KR]) & _ & DF).
    pose proof (nx_group_lt _ _ _ C1) as La. assert (L0 : 0 < List.length f) by (apply nth_error_Some; congruence).
    assert (Here : exists sc0 s1 sc h a, getScan k0 s = Ok (Some sc0) /\ later s s1 /\ dget (s_num sc0) (scans s1) = Some sc /\ s_done sc = true /\ nth_error (headers s1) (s_hdr sc) = Some h /\
      later s1 s' /\ hlater s1 s' /\ member f' 0 (entry_name k0) a /\ Phi sc h f' a).
    { destruct (save_key_hclaim first k0 s f s2 f2 ms at_ Hk1 Hs HH W R0 E1) as (sc0 & s1 & sc & h & B1 & B2 & B3 & B3' & B4 & B5 & B5' & B6).
      exists sc0, s1, sc, h, (List.length f). split; [auto|]. split; [eapply interpret_later; eauto|]. do 3 (split; [auto|]).
      split; [eapply later_st_trans; [exact B5|]; eapply save_keys_later; exact H|].
      split; [eapply hl_trans; [exact B5'|]; eapply save_keys_hl; exact H|]. split.
      - destruct (KR _ _ R1) as (at2 & R2 & _). eexists; eexists. split; [exact R2|]. rewrite <- app_assoc. rewrite dget_app.
        unfold has in Hh. destruct (dget (entry_name k0) ms); [discriminate|]. cbn [app dget]. rewrite seqb_refl. reflexivity.
      - eapply Gr; [lia| |exact B6]. apply grow_same; [lia|]. intros i Hi. apply KO. lia. }
    destruct Hin as [<-|Hin]; [exact Here|].
    destruct (IH false s2 f2 s' f' Hk2 G1 (HI_later _ _ HH M02) SW Gr2 H k Hin) as (sc0 & s1 & sc & h & a & B1 & B2 & B3 & B3' & B4 & B5 & B5' & B6 & B7).
    pose proof (getScan_later k s s2 L02) as GL. rewrite B1 in GL.
    destruct (getScan k s) as [[sc00|]|x]; try contradiction.
    exists sc00, s1, sc, h, a. rewrite GL. split; [auto|]. split; [eapply later_st_trans; eauto|]. auto 10.
  Qed.

  Lemma save_hclaim versions ks s s' f : Forall good_key ks -> GS s -> HI s -> save E known versions ks s = (s', f, None) -> forall k, In k ks ->
    exists sc0 sc' h' a, getScan k s = Ok (Some sc0) /\ dget (s_num sc0) (scans s') = Some sc' /\ s_done sc' = true /\ nth_error (headers s') (s_hdr sc') = Some h' /\
      member f 0 (entry_name k) a /\ Phi sc' h' f a.
  Proof.
    intros Hk Hs HH H k Hin. unfold save in H. destruct (root_attributes versions s) as [l|x] eqn:El; [|discriminate H].
    destruct (addAttributes root l new_file) as [f0 r0] eqn:E0. destruct (save_start versions s l f0 r0 El E0) as [-> [at0 ->]].
    pose proof (ok5_start at0) as W0.
    destruct (save_keys_hclaim ks true s _ s' f Hk Hs HH W0 ltac:(exists [], at0; reflexivity) H k Hin) as (sc0 & s1 & sc & h & a & B1 & B2 & B3 & B3' & B4 & B5 & B5' & B6 & B7).
    destruct (later_dget _ _ B5 _ _ B3) as (sc' & D' & LS). destruct (hl_nth _ _ _ _ B5' B4) as (h' & H1 & H2).
    exists sc0, sc', h', a. do 2 (split; [auto|]). split; [destruct LS as (_ & _ & _ & _ & _ & Q); apply (Q B3')|]. split; [destruct LS as (_ & _ & _ & _ & Q & _); rewrite Q; exact H1|]. split; [auto|]. eapply Lt; eauto.
  Qed.
End Claim.
