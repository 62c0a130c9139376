(** From what the writers of one scan make to what is in the file that is saved *)
From Coq Require Import String Lia.
From Verif Require Import Py PyFacts Utils SpecUtils Keys Geom Handlers Reader StateFacts SpecHistory SpecInterp SpecWriter NamesFacts
  H5 SpecH5 H5Facts FrameH5 H5Exact Writer DataWrite KeepFacts WriterFrame SaveFacts EntryData FrameK WriterFrameK GrowFacts.
Import ListNotations.
Local Open Scope list_scope.

Definition BInv (a : nat) (sk : str) : h5 -> Prop := FrameK.Inv (PO a) a sk (fun _ => False) (fun _ _ => False).
Definition ED : str := L "experiment_description".
(** the entry when its first fields are to be written *)
Record fresh (a : nat) (sk : str) (f : h5) : Prop := mk_fresh {
  fs_inv : BInv a sk f;
  fs_len : List.length f = S (S a);
  fs_a : nth_error f a = Some (Group [(ED, S a)] [(NXC, AText (L "NXentry"))]);
  fs_d : nth_error f (S a) = Some (Dset (HTexts [L "SPEC scan"]) [desc "SPEC data file scan"]) }.

Lemma fresh_start a sk ms at_ t e : 0 < a -> plain_name sk -> a = S (List.length t) -> has sk ms = false -> ok5 (Group ms at_ :: t) ->
  e = mk_handle a (name_at [sk]) ->
  exists f2 x, makeDataset e ED (DText (L "SPEC scan")) [desc "SPEC data file scan"]
    (Group (ms ++ [(sk, a)]) at_ :: t ++ [Group [] [(NXC, AText (L "NXentry"))]]) = (f2, Ok x) /\ fresh a sk f2.
Proof.
  intros Ha Hp Ea Hs W ->. set (f1 := Group (ms ++ [(sk, a)]) at_ :: t ++ [Group [] [(NXC, AText (L "NXentry"))]]).
  pose proof (new_inv a sk Ha ms at_ t (L "NXentry") Ea Hs W) as I0. fold f1 in I0.
  assert (L1 : List.length f1 = S a) by (unfold f1; cbn [List.length]; rewrite app_length; simpl; lia).
  assert (Na : nth_error f1 a = Some (Group [] [(NXC, AText (L "NXentry"))])).
  { unfold f1. rewrite Ea. cbn [nth_error]. rewrite nth_snoc, Nat.eqb_refl. reflexivity. }
  assert (NL : forall i n j, ~ PO a i -> ~ link f1 i n j).
  { intros i n j NP (m & x & A & B). unfold PO in NP. assert (i = a) by (assert (i < List.length f1) by (apply nth_error_Some; congruence); lia).
    subst i. rewrite Na in A. inversion A; subst. destruct B. }
  assert (I1 : BInv a sk f1).
  { destruct I0 as [q1 q2 q3 q4 q5 q6 q7 q8]. constructor; [exact q1|exact q2|exact q3|exact q4|exact q5|exact q6|exact q7| | | |].
    - intros i n j NP Lk. destruct (NL _ _ _ NP Lk).
    - intros i n j g NP Lk. destruct (NL _ _ _ NP Lk).
    - intros j g H. destruct H.
    - intros i n j NP Lk. destruct (NL _ _ _ NP Lk). }
  assert (E2 : makeDataset (mk_handle a (name_at [sk])) ED (DText (L "SPEC scan")) [desc "SPEC data file scan"] f1 =
    (made a ED [] [(NXC, AText (L "NXentry"))] (Dset (HTexts [L "SPEC scan"]) [desc "SPEC data file scan"]) f1,
     Ok (mk_handle (S a) (sub_name (name_at [sk]) ED)))).
  { rewrite (makeDataset_eq _ ED _ _ (HTexts [L "SPEC scan"]) [] [(NXC, AText (L "NXentry"))]); [|apply plainb_ok; reflexivity|reflexivity|exact Na].
    cbn [h_id h_name]. rewrite L1. reflexivity. }
  eexists; eexists. split; [exact E2|].
  assert (Hh : FrameK.hat (PO a) a sk (fun _ _ => False) [] (mk_handle a (name_at [sk]))).
  { split; [|split; [auto|split; [reflexivity|constructor; auto]]]. apply FrameK.pos_a; [apply PO_a; auto|auto]. }
  destruct (FrameK.makeDataset_keeps (PO a) a sk (fun _ => False) (fun _ _ => False) [] (mk_handle a (name_at [sk])) ED
              (DText (L "SPEC scan")) [desc "SPEC data file scan"] Hh) with (f := f1) as [I2 _].
  { split; [reflexivity|]. split; auto. }
  { exact I1. }
  rewrite E2 in I2. cbn [fst] in I2. constructor.
  - exact I2.
  - rewrite made_length. lia.
  - rewrite (made_nth _ _ _ _ _ _ _ Na), Nat.eqb_refl, L1. reflexivity.
  - rewrite (made_nth _ _ _ _ _ _ _ Na), L1. destruct (Nat.eqb_spec (S a) a); [lia|]. rewrite Nat.eqb_refl. reflexivity.
Qed.

(** the writers of a scan without the links at the end *)
Definition objs_body (e : handle) (sc : scan) : WM unit :=
  hdf (entry_fields e (s_S sc) (s_num sc) (s_cmd sc)) >>>
  let* hw := rd Hdr A_h5 in
  siter (fun h => writer_of (s_cmd sc) h e Hdr) (values hw) >>>
  let* sw := rd Scn A_h5 in
  siter (fun h => writer_of (s_cmd sc) h e Scn) (values sw).
Lemma save_objs_split e sc w w' : save_objs e sc w = (w', Ok tt) ->
  exists w1 f2, objs_body e sc w = (w1, Ok tt) /\ final_links e (w_h5 w1) = (f2, Ok tt) /\ w_h5 w' = f2.
Proof.
  unfold save_objs, objs_body. rewrite !sbind_eq. destruct (hdf _ w) as [w1 [[]|x]]; [|discriminate].
  rewrite !sbind_eq. destruct (rd Hdr A_h5 w1) as [w2 [hw|x]]; [|discriminate]. rewrite !sbind_eq.
  destruct (siter _ (values hw) w2) as [w3 [[]|x]]; [|discriminate]. rewrite !sbind_eq.
  destruct (rd Scn A_h5 w3) as [w4 [sw|x]]; [|discriminate]. rewrite !sbind_eq.
  destruct (siter _ (values sw) w4) as [w5 [[]|x]]; [|discriminate]. unfold hdf.
  destruct (final_links e (w_h5 w5)) as [f2 [[]|x]] eqn:Ef; [|discriminate]. intros H. exists w5, f2. split; [auto|split; [auto|]].
  assert (w' = mk_ws (w_scan w5) (w_hdr w5) f2) by congruence. subst w'. reflexivity.
Qed.

Section Claim.
  Context (E : env) (known : list hid) (Phi : scan -> h5 -> nat -> Prop).
  Context (Gr : forall sc f f' a, 1 <= a -> grow f f' -> Phi sc f a -> Phi sc f' a).
  Context (St : forall a sk sc ho f w, 0 < a -> plain_name sk -> is_ascii sk -> fresh a sk f -> names_ok (s_obj sc) -> names_ok ho ->
    objs_body (mk_handle a (name_at [sk])) sc (mk_ws (s_obj sc) ho f) = (w, Ok tt) -> Phi sc (w_h5 w) a).
  Context (Lt : forall sc sc' f a, s_done sc = true -> later_scan sc sc' -> Phi sc f a -> Phi sc' f a).

  Lemma save_key_claim first k s f s' f' ms0 at0 : good_key k -> GS s -> ok5 f -> nth_error f 0 = Some (Group ms0 at0) ->
    save_key E known first k s f = (s', f', None) ->
    exists sc0 s1 sc, getScan k s = Ok (Some sc0) /\ interpret E known (s_num sc0) s = (s1, None) /\
      dget (s_num sc0) (scans s1) = Some sc /\ s_done sc = true /\ later s1 s' /\ Phi sc f' (List.length f).
  Proof.
    intros Hk Hs W E0 H. destruct (good_key_plain k Hk) as [Hp Has].
    destruct f as [|n0 t]; [discriminate E0|]. inversion E0; subst n0. clear E0.
    set (f := Group ms0 at0 :: t) in *. set (sk := entry_name k) in *. set (a := List.length f).
    assert (Hlen : a = S (List.length t)) by reflexivity. assert (Ha : 0 < a) by lia.
    unfold save_key in H. rewrite sbind_eq in H. fold (entry_name k) in H. fold sk in H. unfold f in H at 1.
    rewrite (makeGroup_root sk (L "NXentry") ms0 at0 t Hp) in H. rewrite <- Hlen in H.
    destruct (has sk ms0) eqn:Hh; [discriminate H|].
    destruct (fresh_start a sk ms0 at0 t _ Ha Hp Hlen Hh W eq_refl) as (f2 & x2 & E2 & F2). unfold ED in E2.
    cbn [fst snd] in H. rewrite sbind_eq in H. rewrite E2 in H. unfold sret in H.
    set (e := mk_handle a (name_at [sk])) in *.
    destruct (getScan k s) as [[sc0|]|x1]; [|discriminate H|discriminate H].
    destruct (save_scan E known e (s_num sc0) s f2) as [[s3 f3] r3] eqn:Es.
    destruct r3 as [x3|]; [discriminate H|].
    destruct (save_scan_later E known _ _ _ _ _ _ _ Es) as [L3 SL].
    destruct (SL eq_refl) as (s1 & sc & h & w & Ei & Eg & Ed & En & Eo & Ef & Eg' & L13). clear SL.
    pose proof (interpret_GS E known _ _ _ _ Hs Ei) as G1.
    destruct (save_objs_split e sc _ _ Eo) as (w1 & g & B1 & B2 & B3).
    assert (P1 : Phi sc (w_h5 w1) a).
    { eapply St; [exact Ha|exact Hp|exact Has|exact F2| | |exact B1].
      - apply (GS_scan s1 _ sc G1 Eg). - apply (GS_header s1 _ h G1 En). }
    assert (P3 : Phi sc f3 a).
    { eapply Gr; [lia| |exact P1]. rewrite Ef, B3. eapply gk_grow; [apply final_links_gk|exact B2]. }
    assert (GK : forall r, (sbind (if first then addAttributes root [(L "default", AText sk)] else sret tt) (fun _ => ensure_data e)) f3 = r ->
       grow f3 (fst r)).
    { intros [f5 r5] Hr. cbn [fst]. refine (gk_grow _ (fun _ => True) _ _ _ _ Hr). eapply gk_bind with (Q := fun _ => True).
      - destruct first; [apply addAttributes_gk; right; reflexivity|apply gk_ret; auto].
      - intros _ _. apply ensure_data_gk. }
    change (L "S" ++ key_str k) with sk in H. unfold sret in GK.
    match type of H with (let (_, _) := ?X in _) = _ => specialize (GK X eq_refl); destruct X as [f5 [u5|x5]] end; [|discriminate H].
    cbn [fst] in GK. assert (s3 = s' /\ f5 = f') as [-> ->] by (split; congruence).
    exists sc0, s1, sc. do 4 (split; [auto|]). split; [exact L13|]. eapply Gr; [lia|exact GK|exact P3].
  Qed.

  Lemma save_keys_claim ks : forall first s f s' f' , Forall good_key ks -> GS s -> ok5 f -> is_group f 0 ->
    save_keys E known first ks s f = (s', f', None) -> forall k, In k ks ->
    exists sc0 s1 sc a, getScan k s = Ok (Some sc0) /\ later s s1 /\ dget (s_num sc0) (scans s1) = Some sc /\ s_done sc = true /\ later s1 s' /\
      member f' 0 (entry_name k) a /\ Phi sc f' a.
  Proof.
    induction ks as [|k0 ks IH]; intros first s f s' f' Hk Hs W [ms [at_ R0]] H k Hin; [destruct Hin|].
    cbn [save_keys] in H. inversion Hk as [|? ? Hk1 Hk2]; subst.
    destruct (save_key E known first k0 s f) as [[s2 f2] r2] eqn:E1.
    destruct (save_key_spec E known first k0 s f s2 f2 r2 ms at_ Hk1 Hs W R0 E1) as [G1 [SO SL SW SR]].
    destruct r2 as [x2|]; [discriminate H|].
    destruct (SR ms at_ R0) as [(Hh & _ & X)|(Hh & C1 & (at' & R1 & A1 & A1') & D1)]; [discriminate X|].
    assert (Gr2 : is_group f2 0) by (eexists; eexists; exact R1).
    pose proof (save_key_later E known _ _ _ _ _ _ _ E1) as L02.
    destruct (save_keys_spec E known ks false s2 f2 s' f' None Hk2 G1 SW Gr2 H) as (G2 & (done & [KO KL KW KP KE KD KR]) & _ & DF).
    pose proof (nx_group_lt _ _ _ C1) as La. assert (L0 : 0 < List.length f) by (apply nth_error_Some; congruence).
    assert (Here : exists sc0 s1 sc a, getScan k0 s = Ok (Some sc0) /\ later s s1 /\ dget (s_num sc0) (scans s1) = Some sc /\ s_done sc = true /\ later s1 s' /\
      member f' 0 (entry_name k0) a /\ Phi sc f' a).
    { destruct (save_key_claim first k0 s f s2 f2 ms at_ Hk1 Hs W R0 E1) as (sc0 & s1 & sc & B1 & B2 & B3 & B4 & B5 & B6).
      exists sc0, s1, sc, (List.length f). split; [auto|]. split; [eapply interpret_later; eauto|]. do 2 (split; [auto|]).
      split; [eapply later_st_trans; [exact B5|]; eapply save_keys_later; exact H|]. split.
      - destruct (KR _ _ R1) as (at2 & R2 & _). eexists; eexists. split; [exact R2|]. rewrite <- app_assoc. rewrite dget_app.
        unfold has in Hh. destruct (dget (entry_name k0) ms); [discriminate|]. cbn [app dget]. rewrite seqb_refl. reflexivity.
      - eapply Gr; [lia| |exact B6]. apply grow_same; [lia|]. intros i Hi. apply KO. lia. }
    destruct Hin as [<-|Hin]; [exact Here|].
    destruct (IH false s2 f2 s' f' Hk2 G1 SW Gr2 H k Hin) as (sc0 & s1 & sc & a & B1 & B2 & B3 & B4 & B5 & B6 & B7).
    pose proof (getScan_later k s s2 L02) as GL. rewrite B1 in GL.
    destruct (getScan k s) as [[sc00|]|x]; try contradiction.
    exists sc00, s1, sc, a. rewrite GL. split; [auto|]. split; [eapply later_st_trans; eauto|]. auto.
  Qed.

  Lemma save_claim versions ks s s' f : Forall good_key ks -> GS s -> save E known versions ks s = (s', f, None) -> forall k, In k ks ->
    exists sc0 sc' a, getScan k s = Ok (Some sc0) /\ dget (s_num sc0) (scans s') = Some sc' /\ s_done sc' = true /\
      member f 0 (entry_name k) a /\ Phi sc' f a.
  Proof.
    intros Hk Hs H k Hin. unfold save in H. destruct (root_attributes versions s) as [l|x] eqn:El; [|discriminate H].
    destruct (addAttributes root l new_file) as [f0 r0] eqn:E0. destruct (save_start versions s l f0 r0 El E0) as [-> [at0 ->]].
    pose proof (ok5_start at0) as W0.
    destruct (save_keys_claim ks true s _ s' f Hk Hs W0 ltac:(exists [], at0; reflexivity) H k Hin) as (sc0 & s1 & sc & a & B1 & B2 & B3 & B4 & B5 & B6 & B7).
    destruct (later_dget _ _ B5 _ _ B3) as (sc' & D' & LS). exists sc0, sc', a. do 2 (split; [auto|]).
    split; [apply LS; exact B4|]. split; [auto|]. eapply Lt; eauto.
  Qed.
End Claim.
