(** Saving changes almost nothing of the scans *)
From Coq Require Import String Lia.
From Verif Require Import Py PyFacts Utils Keys Handlers Reader SpecInterp InterpFacts SpecHistory SpecWriter
  H5 SpecH5 H5Facts FrameH5 Writer DataWrite KeepFacts SaveFacts TableFacts AgainFacts EntryData.
Import ListNotations.
Local Open Scope list_scope.

Lemma not_mesh cmd : one_dim cmd -> ~ mesh_cmd cmd.
Proof. intros H (st & rest & E & Hs). apply one_dim_iff in H. destruct (H _ _ E). destruct Hs; auto. Qed.

Section Same.
  Context (E : env) (known : list hid).
  Definition scan_same (a b : scan) : Prop :=
    s_raw b = s_raw a /\ s_S b = s_S a /\ s_num b = s_num a /\ s_cmd b = s_cmd a /\ s_hdr b = s_hdr a /\ s_lazy b = s_lazy a /\ s_done b = s_done a /\
    same_but (mesh_cmd (s_cmd a)) (s_obj a) (s_obj b).
  Lemma scan_same_refl a : scan_same a a.
  Proof. unfold scan_same. do 7 (split; [auto|]). apply same_refl. Qed.
  Lemma scan_same_trans a b c : scan_same a b -> scan_same b c -> scan_same a c.
  Proof.
    intros (A1 & A2 & A3 & A4 & A5 & A6 & A7 & A8) (B1 & B2 & B3 & B4 & B5 & B6 & B7 & B8). unfold scan_same. do 7 (split; [congruence|]).
    rewrite A4 in B8. eapply same_trans; eauto.
  Qed.
  Definition ssame (s s' : sdf) : Prop := Forall2 (fun a b => fst a = fst b /\ scan_same (snd a) (snd b)) (scans s) (scans s').
  Lemma ssame_refl s : ssame s s.
  Proof. unfold ssame. induction (scans s); constructor; auto. split; [auto|apply scan_same_refl]. Qed.
  Lemma ssame_trans a b c : ssame a b -> ssame b c -> ssame a c.
  Proof.
    unfold ssame. generalize (scans a) (scans b) (scans c). intros x y z H. revert z. induction H as [|p q x y [H1 H2] H IH]; intros z Hz; inversion Hz as [|? r ? z' [H3 H4] H5]; subst; constructor; [|auto].
    split; [congruence|eapply scan_same_trans; eauto].
  Qed.
  Lemma ssame_done s s' : ssame s s' -> all_done s -> all_done s'.
  Proof.
    unfold ssame, all_done. generalize (scans s) (scans s'). intros x y H. induction H as [|p q x y [H1 H2] H IH]; intros D; constructor; inversion D; subst; auto.
    destruct H2 as (_ & _ & _ & _ & _ & _ & X & _). congruence.
  Qed.
  Lemma save_scan_same e name s f : all_done s -> ssame s (fst (fst (save_scan E known e name s f))).
  Proof.
    intros D. unfold save_scan. rewrite (interpret_all_done E known s name D). destruct (dget name (scans s)) as [sc|] eqn:Eg; [|apply ssame_refl].
    destruct (nth_error (headers s) (s_hdr sc)) as [h|] eqn:Eh; [|apply ssame_refl].
    destruct (kp_save_objs (mesh_cmd (s_cmd sc)) e sc (fun X => X) (mk_ws (s_obj sc) (h_obj h) f)) as [G1 _].
    destruct (save_objs e sc (mk_ws (s_obj sc) (h_obj h) f)) as [w r]. cbn [fst snd w_scan w_hdr] in *.
    unfold ssame. cbn [scans set_scans set_headers]. eapply dset_self; [exact Eg| |].
    - apply Forall_forall. intros kv _. apply scan_same_refl.
    - unfold scan_same, with_obj. cbn. do 7 (split; [auto|]). exact G1.
  Qed.
  Lemma save_key_same first k s f : all_done s -> ssame s (fst (fst (save_key E known first k s f))).
  Proof.
    intros D. unfold save_key. destruct (sbind _ _ f) as [f1 [e|x]]; [|apply ssame_refl].
    destruct (getScan k s) as [[sc|]|x] eqn:Eg; try apply ssame_refl.
    pose proof (save_scan_same e (s_num sc) s f1 D) as G.
    destruct (save_scan E known e (s_num sc) s f1) as [[s3 f3] [x|]]; [exact G|].
    destruct (sbind _ _ f3) as [f5 [u|x]]; exact G.
  Qed.
  Lemma save_keys_same ks : forall first s f, all_done s -> ssame s (fst (fst (save_keys E known first ks s f))).
  Proof.
    induction ks as [|k ks IH]; intros first s f D; cbn [save_keys]; [apply ssame_refl|].
    pose proof (save_key_same first k s f D) as G. destruct (save_key E known first k s f) as [[s3 f3] [x|]]; [exact G|]. cbn [fst] in G.
    eapply ssame_trans; [exact G|]. apply IH. eapply ssame_done; eauto.
  Qed.
  Lemma save_same v ks s : all_done s -> ssame s (fst (fst (save E known v ks s))).
  Proof.
    intros D. unfold save. destruct (root_attributes v s) as [l|x]; [|apply ssame_refl].
    destruct (addAttributes root l new_file) as [f [u|x]]; [|apply ssame_refl]. apply save_keys_same; auto.
  Qed.
  Lemma F2_get (x y : dict scan) : Forall2 (fun a b => fst a = fst b /\ scan_same (snd a) (snd b)) x y -> keys y = keys x /\
    forall n sc, dget n x = Some sc -> exists sc', dget n y = Some sc' /\ scan_same sc sc'.
  Proof.
    induction 1 as [|[k a] [k' b] x y [H1 H2] H [IH1 IH2]]; [split; [reflexivity|discriminate]|]. cbn [fst snd] in *. subst k'. split.
    - unfold keys in *. cbn [map fst]. congruence.
    - intros n sc. cbn [dget]. destruct (seqb n k); [|auto]. intros X. injection X; intros <-. eauto.
  Qed.
  Lemma save_unchanged v ks s s' f r : all_interpreted s -> save E known v ks s = (s', f, r) ->
    keys (scans s') = keys (scans s) /\
    forall n sc, dget n (scans s) = Some sc -> exists sc', dget n (scans s') = Some sc' /\ s_raw sc' = s_raw sc /\ s_num sc' = s_num sc /\ s_cmd sc' = s_cmd sc /\
      forall a, a <> A_counter_xref -> a <> A_positioner_xref -> (a = A_L -> one_dim (s_cmd sc)) -> s_obj sc' a = s_obj sc a.
  Proof.
    intros D H. pose proof (save_same v ks s D) as S0. rewrite H in S0. cbn [fst] in S0. destruct (F2_get _ _ S0) as [K G]. split; [exact K|].
    intros n sc Hn. destruct (G n sc Hn) as (sc' & Hn' & (A1 & A2 & A3 & A4 & A5 & A6 & A7 & A8)). exists sc'. do 4 (split; [auto|]).
    intros a N1 N2 N3. apply A8. intros [X|[X|[X1 X2]]]; auto. apply (not_mesh _ (N3 X2) X1).
  Qed.
  Lemma save_no_trace v ks s v2 ks2 : all_interpreted s -> Forall (flat_scan s) ks ->
    let r := save E known v2 ks2 s in let r2 := save E known v2 ks2 (fst (fst (save E known v ks s))) in
    snd r2 = snd r /\ snd (fst r2) = snd (fst r).
  Proof.
    intros D H. apply save_leaves_no_trace; [exact D|]. eapply Forall_impl; [|exact H]. intros k Hk sc0 sc A B. apply not_mesh. exact (Hk sc0 sc A B).
  Qed.
End Same.
