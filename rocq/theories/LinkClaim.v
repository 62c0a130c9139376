(** The links at the end of an entry are in the file that is saved *)
From Coq Require Import String Lia.
From Verif Require Import Py PyFacts Utils SpecUtils Keys Geom Handlers Reader StateFacts SpecHistory SpecInterp SpecWriter SpecEntry NamesFacts
  H5 SpecH5 H5Facts FrameH5 H5Exact Writer DataWrite KeepFacts WriterFrame SaveFacts EntryData FrameK WriterFrameK GrowFacts ClaimFacts WriterFacts MetaWrite MetaWrite2 EndLinks.
Import ListNotations.
Local Open Scope list_scope.

Lemma objs_body_BInv a sk sc ho f w : 0 < a -> plain_name sk -> is_ascii sk -> BInv a sk f -> names_ok (s_obj sc) -> names_ok ho ->
  objs_body (mk_handle a (name_at [sk])) sc (mk_ws (s_obj sc) ho f) = (w, Ok tt) -> BInv a sk (w_h5 w).
Proof.
  intros Ha Hp Has I N1 N2 H. set (e := mk_handle a (name_at [sk])) in *. set (w0 := mk_ws (s_obj sc) ho f) in *.
  assert (W0 : BW a sk w0) by (split; [exact I|split; auto]).
  pose proof (entry_hat (PO a) a sk noK noI f Hp I) as Hh.
  assert (WKK : forall o hs, WriterFrameK.wk (PO a) a sk noK noI (siter (fun h => writer_of (s_cmd sc) h e o) hs) (fun _ => True)).
  { intros o hs. apply (WriterFrameK.writers_ok (PO a) a sk noK noI); auto; [intros g n []|]. apply Forall_forall. intros; apply okw_none. }
  unfold objs_body in H. apply bind_ok in H. destruct H as (u1 & w1 & E1 & H).
  assert (K1 : WriterFrameK.wk (PO a) a sk noK noI (hdf (entry_fields e (s_S sc) (s_num sc) (s_cmd sc))) (fun _ => True)).
  { apply (WriterFrameK.wk_hdf (PO a) a sk noK noI). apply entry_fields_K; auto. }
  destruct (wk_step _ _ _ _ _ _ _ _ _ _ K1 W0 E1) as [W1 _].
  apply bind_ok in H. destruct H as (hw & w1' & Er & H). apply rd_ok in Er. destruct Er as [-> _].
  apply bind_ok in H. destruct H as (u2 & w2 & E2 & H).
  destruct (wk_step _ _ _ _ _ _ _ _ _ _ (WKK Hdr (values hw)) W1 E2) as [W2 _].
  apply bind_ok in H. destruct H as (sw & w2' & Er & H). apply rd_ok in Er. destruct Er as [-> _].
  destruct (wk_step _ _ _ _ _ _ _ _ _ _ (WKK Scn (values sw)) W2 H) as [[J _] _]. exact J.
Qed.

Lemma ensure_R a sk (Hsk : plain_name sk) f f' u : 1 <= a -> ensure_data (mk_handle a (name_at [sk])) f = (f', Ok u) -> R a sk f f'.
Proof.
  intros Ha H. unfold ensure_data in H. apply bind_ok in H. destruct H as (b & f1 & E1 & H). unfold hin in E1. assert (f1 = f) by congruence. subst f1. clear E1.
  destruct b; [unfold sret in H; assert (f' = f) by congruence; subst f'; apply R_refl|].
  apply bind_ok in H. destruct H as (g & f1 & E1 & H).
  assert (X : R a sk f f1 /\ h_id g < List.length f1 /\ is_group f1 (h_id g)).
  { destruct (nth_error f a) as [[ms at_|x at_]|] eqn:En.
    - rewrite (makeGroup_eq (mk_handle a (name_at [sk])) (L "data") (L "NXdata") _ ms at_ f) in E1; [|apply plainb_ok; reflexivity|exact En].
      destruct (has (L "data") ms) eqn:Hh; [discriminate|]. cbn [h_id h_name] in E1.
      match type of E1 with (?F, Ok ?G) = _ => assert (Y : f1 = F /\ g = G) by (split; congruence) end. destruct Y as [-> ->]. cbn [h_id].
      split; [apply R_made; [exact En|exact Hh|simpl; tauto]|]. split; [rewrite made_length; lia|]. eexists; eexists. rewrite (made_nth _ _ _ _ _ _ _ En).
      assert (a < List.length f) by (apply nth_error_Some; congruence). destruct (Nat.eqb_spec (List.length f) a); [lia|]. rewrite Nat.eqb_refl. reflexivity.
    - exfalso. unfold makeGroup, create_at in E1. change (parts (L "data")) with [L "data"] in E1. cbn [rev app] in E1. change (start (h_id (mk_handle a (name_at [sk]))) (L "data")) with a in E1. cbn [dig] in E1.
      rewrite !sbind_eq in E1. unfold free in E1. rewrite En in E1. discriminate.
    - exfalso. unfold makeGroup, create_at in E1. change (parts (L "data")) with [L "data"] in E1. cbn [rev app] in E1. change (start (h_id (mk_handle a (name_at [sk]))) (L "data")) with a in E1. cbn [dig] in E1.
      rewrite !sbind_eq in E1. unfold free in E1. rewrite En in E1. discriminate. }
  destruct X as (R1 & G1 & G2). clear E1. cbv zeta in H.
  assert (DS : forall fa fb n (x : handle) l, plain_name n -> In n NEWS -> is_group fa (h_id g) -> makeDataset g n (DNums [NI 0; NI 1]) l fa = (fb, Ok x) -> R a sk fa fb /\ is_group fb (h_id g)).
  { intros fa fb n x l Hn Nn (ms & at_ & En) E. rewrite (makeDataset_eq g n (DNums [NI 0; NI 1]) l (HArr [2] [NI 0; NI 1]) ms at_ fa Hn eq_refl En) in E. destruct (has n ms) eqn:Hh; [discriminate|].
    match type of E with (?F, _) = _ => assert (Y : fb = F) by congruence end. subst fb. split; [apply R_made; auto|].
    eexists; eexists. rewrite (made_nth _ _ _ _ _ _ _ En), Nat.eqb_refl. reflexivity. }
  apply bind_ok in H. destruct H as (x1 & f2 & E2 & H). destruct (DS f1 f2 (L "no_x_data") x1 _ ltac:(apply plainb_ok; reflexivity) ltac:(simpl; tauto) G2 E2) as [R2 G3].
  unfold unit_of in H. apply bind_ok in H. destruct H as (x2 & f3 & E3 & H). unfold sret in H. assert (f' = f3) by congruence. subst f'.
  destruct (DS f2 f3 (L "no_y_data") x2 _ ltac:(apply plainb_ok; reflexivity) ltac:(simpl; tauto) G3 E3) as [R3 _]. eapply R_trans; [exact R1|]. eapply R_trans; [exact R2|exact R3].
Qed.
Lemma root_R a sk l f f' u : addAttributes root l f = (f', Ok u) -> R a sk f f'.
Proof.
  intros H. destruct f as [|n0 t].
  - unfold addAttributes in H. destruct l as [|kv l]; cbn [siter] in H; [unfold sret in H; assert (f' = []) by congruence; subst f'; apply R_refl|discriminate H].
  - rewrite (addAttributes_eq root l n0) in H by reflexivity. match type of H with (?F, _) = _ => assert (Y : f' = F) by congruence end. subst f'.
    apply R_same; [rewrite put_length; lia|]. intros i Hi. apply put_other. cbn [root h_id]. lia.
Qed.

(** the links of the entry [a] *)
Definition ended (sk : str) (f : h5) (a : nat) : Prop := plain_name sk /\ 1 <= a /\ exists f0, BInv a sk f0 /\ R a sk f0 f /\ links_ok a sk f.
Lemma ended_R sk f f' a : R a sk f f' -> ended sk f a -> ended sk f' a.
Proof.
  intros X (A & B & f0 & I0 & R0 & L0). split; [exact A|]. split; [exact B|]. exists f0. split; [exact I0|]. split; [eapply R_trans; [exact R0|exact X]|].
  apply (ok_R a sk B f0 I0 f f'); [apply (len_R a sk _ _ R0)|exact R0|exact X|exact L0].
Qed.
Section Claim.
  Context (E : env) (known : list hid).
  Lemma save_key_links first k s f s' f' ms0 at0 : good_key k -> GS s -> ok5 f -> nth_error f 0 = Some (Group ms0 at0) ->
    save_key E known first k s f = (s', f', None) -> ended (entry_name k) f' (List.length f).
  Proof.
    intros Hk Hs W E0 H. destruct (good_key_plain k Hk) as [Hp Has].
    destruct f as [|n0 t]; [discriminate E0|]. inversion E0; subst n0. clear E0.
    set (f := Group ms0 at0 :: t) in *. set (sk := entry_name k) in *. set (a := List.length f).
    assert (Hlen : a = S (List.length t)) by reflexivity. assert (Ha : 0 < a) by lia.
    unfold save_key in H. rewrite sbind_eq in H. fold (entry_name k) in H. fold sk in H. unfold f in H at 1.
    rewrite (makeGroup_root sk (L "NXentry") ms0 at0 t Hp) in H. rewrite <- Hlen in H.
    destruct (has sk ms0) eqn:Hh; [discriminate H|].
    destruct (fresh_start a sk ms0 at0 t _ Ha Hp Hlen Hh W eq_refl) as (f2 & x2 & E2 & F2). unfold ED in E2.
    cbn [fst snd] in H. rewrite sbind_eq in H. rewrite E2 in H. unfold sret in H.
    set (e := mk_handle a (name_at [sk])) in *.
    destruct (getScan k s) as [[sc0|]|x1]; [|discriminate H|discriminate H].
    destruct (save_scan E known e (s_num sc0) s f2) as [[s3 f3] r3] eqn:Es.
    destruct r3 as [x3|]; [discriminate H|].
    destruct (save_scan_later E known _ _ _ _ _ _ _ Es) as [L3 SL].
    destruct (SL eq_refl) as (s1 & sc & h & w & Ei & Eg & Ed & En & Eo & Ef & Eg' & L13). clear SL.
    pose proof (interpret_GS E known _ _ _ _ Hs Ei) as G1.
    destruct (save_objs_split e sc _ _ Eo) as (w1 & g & B1 & B2 & B3).
    assert (I1 : BInv a sk (w_h5 w1)).
    { eapply objs_body_BInv; [exact Ha|exact Hp|exact Has|apply F2| | |exact B1].
      - apply (GS_scan s1 _ sc G1 Eg). - apply (GS_header s1 _ h G1 En). }
    assert (P3 : ended sk f3 a).
    { destruct (final_ok a sk Ha Hp (w_h5 w1) I1 g tt B2) as [Rg Lg]. split; [exact Hp|]. split; [lia|]. exists (w_h5 w1). split; [exact I1|]. rewrite Ef, B3. split; [exact Rg|exact Lg]. }
    change (L "S" ++ key_str k) with sk in H.
    match type of H with (let (_, _) := ?X in _) = _ => destruct X as [f5 [u5|x5]] eqn:EX end; [|discriminate H].
    assert (f5 = f') by congruence. subst f5. clear H. apply bind_ok in EX. destruct EX as (u1 & f4 & X1 & X2).
    eapply ended_R; [|exact P3]. eapply R_trans; [|eapply ensure_R; [exact Hp|lia|exact X2]].
    destruct first; [eapply root_R; exact X1|]. unfold sret in X1. assert (f4 = f3) by congruence. subst f4. apply R_refl.
  Qed.
  Lemma save_keys_links ks : forall first s f s' f' , Forall good_key ks -> GS s -> ok5 f -> is_group f 0 ->
    save_keys E known first ks s f = (s', f', None) -> forall k, In k ks ->
    exists a, member f' 0 (entry_name k) a /\ ended (entry_name k) f' a.
  Proof.
    induction ks as [|k0 ks IH]; intros first s f s' f' Hk Hs W [ms [at_ R0]] H k Hin; [destruct Hin|].
    cbn [save_keys] in H. inversion Hk as [|? ? Hk1 Hk2]; subst.
    destruct (save_key E known first k0 s f) as [[s2 f2] r2] eqn:E1.
    destruct (save_key_spec E known first k0 s f s2 f2 r2 ms at_ Hk1 Hs W R0 E1) as [G1 [SO SL SW SR]].
    destruct r2 as [x2|]; [discriminate H|].
    destruct (SR ms at_ R0) as [(Hh & _ & X)|(Hh & C1 & (at' & R1 & A1 & A1') & D1)]; [discriminate X|].
    assert (Gr2 : is_group f2 0) by (eexists; eexists; exact R1).
    destruct (save_keys_spec E known ks false s2 f2 s' f' None Hk2 G1 SW Gr2 H) as (G2 & (done & [KO KL KW KP KE KD KR]) & _ & DF).
    destruct Hin as [<-|Hin]; [|exact (IH false s2 f2 s' f' Hk2 G1 SW Gr2 H k Hin)].
    pose proof (save_key_links first k0 s f s2 f2 ms at_ Hk1 Hs W R0 E1) as B6.
    exists (List.length f). split.
    - destruct (KR _ _ R1) as (at2 & R2 & _). eexists; eexists. split; [exact R2|]. rewrite <- app_assoc. rewrite dget_app.
      unfold has in Hh. destruct (dget (entry_name k0) ms); [discriminate|]. cbn [app dget]. rewrite seqb_refl. reflexivity.
    - eapply ended_R; [|exact B6]. apply R_same; [lia|]. intros i Hi. apply KO. lia.
  Qed.
  Lemma saved_links s0 s versions ks s' f k sc : saved E known s0 s versions ks s' f k sc -> exists a, member f 0 (entry_name k) a /\ ended (entry_name k) f a.
  Proof.
    intros (Hh & Hp & Hs & Hk & H & Hin & _). pose proof (start_GS E known _ _ Hh Hp Hs) as G. unfold save in H.
    destruct (root_attributes versions s) as [l|x] eqn:El; [|discriminate H].
    destruct (addAttributes root l new_file) as [f0 r0] eqn:E0. destruct (save_start versions s l f0 r0 El E0) as [-> [at0 ->]].
    exact (save_keys_links ks true s _ s' f Hk G (ok5_start at0) ltac:(exists [], at0; reflexivity) H k Hin).
  Qed.
End Claim.
