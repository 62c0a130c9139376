(** What a single writer of a scan leaves in the entry, whatever the other writers do *)
From Coq Require Import String Lia.
From Verif Require Import Py PyFacts Utils SpecUtils Keys Geom Handlers Reader SpecWriter NamesFacts
  H5 SpecH5 H5Facts FrameH5 H5Exact Writer DataWrite KeepFacts SaveFacts EntryData FrameK WriterFrameK GrowFacts ClaimFacts.
Import ListNotations.
Local Open Scope list_scope.

Notation noK := (fun _ : list str => False). Notation noI := (fun (_ : nat) (_ : str) => False).

(** objects [R] of the entry may be protected if links to them from other ones are at the paths [K] only *)
Lemma upgrade_set a sk K II (R : nat -> Prop) f : 0 < a -> BInv a sk f -> (forall j, R j -> a < j < List.length f) ->
  (forall i n j, a <= i -> ~ R i -> link f i n j -> R j -> (i = a /\ K [n]) \/ exists g, II i g /\ K [g; n]) ->
  (forall j g, II j g -> Uq g /\ a < j /\ ~ R j /\ member f a g j) ->
  FrameK.Inv (fun i => i < a \/ R i) a sk K II f.
Proof.
  intros Ha [W B Rt P0 Pa Lt Al Lk Uu _ Mc] HR HL HI. constructor; auto.
  - intros [X|X]; [lia|]. specialize (HR a X). lia.
  - intros j [X|X]; [apply Lt; exact X|]. apply HR; auto.
  - intros i n j NP H. assert (NPi : ~ PO a i) by (intros X; apply NP; left; exact X).
    destruct (Lk i n j NPi H) as [N K1]. split; [auto|]. intros [X|X].
    + exfalso. destruct (K1 X) as [[_ []]|(g & [] & _)].
    + unfold PO in NPi. apply (HL i n j); auto; try lia.
  - intros i n j g NP H. apply (Uu i n j g); auto.
  - intros j g H. destruct (HI j g H) as (A & X & Y & Z). split; [auto|]. split; [intros [V|V]; [lia|auto]|]. split; [lia|auto].
  - intros i n j NP H. apply (Mc i n j). intros X; apply NP; left; exact X. exact H.
Qed.
(** the objects from [b] to [c] *)
Lemma upgrade a sk K II b c f : 0 < a -> BInv a sk f -> a < b -> b <= c <= List.length f ->
  (forall i n j, a <= i -> ~ (b <= i < c) -> link f i n j -> b <= j < c -> (i = a /\ K [n]) \/ exists g, II i g /\ K [g; n]) ->
  (forall j g, II j g -> Uq g /\ a < j /\ ~ (b <= j < c) /\ member f a g j) ->
  FrameK.Inv (PP a b c) a sk K II f.
Proof. intros Ha I Hab Hc HL HI. apply (upgrade_set a sk K II (fun j => b <= j < c)); auto. intros; lia. Qed.
Lemma entry_hat P a sk K II f : plain_name sk -> FrameK.Inv P a sk K II f -> FrameK.hat P a sk II [] (mk_handle a (name_at [sk])).
Proof.
  intros Hp I. split; [|split; [auto|split; [reflexivity|constructor; auto]]].
  apply FrameK.pos_a; [apply (FrameK.inv_Pa _ _ _ _ _ f I)|]. eapply FrameK.Ia; eauto.
Qed.

Definition BW (a : nat) (sk : str) : wst -> Prop := WriterFrameK.WInv (PO a) a sk noK noI.
Lemma okw_none h : okw noK h.
Proof. unfold okw. destruct h; intuition. Qed.

(** writer [h] makes [Psi] true and nothing of the other writers makes it false again *)
Definition est (h : hid) (Psi : obj -> h5 -> nat -> Prop) : Prop :=
  forall cmd a sk w w' u, 0 < a -> plain_name sk -> is_ascii sk -> BW a sk w ->
    writer_of cmd h (mk_handle a (name_at [sk])) Scn w = (w', Ok u) ->
    exists P K II, ~ K [] /\ (forall g n, K [g; n] -> Uq g) /\ (forall h', h' <> h -> okw K h') /\
      FrameK.Inv P a sk K II (w_h5 w') /\ forall f, FrameK.Inv P a sk K II f -> FrameK.Fr P a K II (w_h5 w') f -> Psi (w_scan w) f a.

Lemma in_split_last {A} (x : A) l : (forall y z : A, {y = z} + {y <> z}) -> In x l -> exists l1 l2, l = l1 ++ x :: l2 /\ ~ In x l2.
Proof.
  intros dec. induction l as [|y l IH]; intros H; [destruct H|]. destruct (in_dec dec x l) as [I|N].
  - destruct (IH I) as (l1 & l2 & -> & N2). exists (y :: l1), l2. auto.
  - destruct H as [->|H]; [|contradiction]. exists [], l. auto.
Qed.

(** a step that keeps the frame *)
Lemma wk_step {A} P a sk K II (m : WM A) Q w w' r : WriterFrameK.wk P a sk K II m Q -> WriterFrameK.WInv P a sk K II w -> m w = (w', r) ->
  WriterFrameK.WInv P a sk K II w' /\ FrameK.Fr P a K II (w_h5 w) (w_h5 w').
Proof. intros Hk W E. destruct (Hk w W) as (X & Y & _). rewrite E in X, Y. auto. Qed.

Lemma entry_fields_K P a sk K II e S num cmd : ~ K [] -> FrameK.hat P a sk II [] e -> ~ K [L "title"] -> ~ K [L "scan_number"] -> ~ K [L "command"] ->
  FrameK.hk P a sk K II (entry_fields e S num cmd) (fun _ => True).
Proof.
  intros K0 He N1 N2 N3.
  assert (WD : forall n d, plainb n = true -> ~ K [n] -> ~ Uq n -> FrameK.hk P a sk K II (write_dataset e n d []) (fun o => FrameK.hat P a sk II [n] o)).
  { intros n d Hn N U. apply plainb_ok in Hn. rewrite <- (parts_plain n Hn). apply (FrameK.write_dataset_keeps P a sk K II K0 []); [auto|].
    split; [apply plain_rel; auto|]. rewrite parts_plain by auto. split; [split; auto|]. intros g Hg X. inversion X; subst; auto. }
  assert (U : forall n, In n [L "title"; L "scan_number"; L "command"] -> ~ Uq n).
  { intros n Hn X. unfold Uq in X. simpl in Hn, X. repeat (destruct Hn as [<-|Hn]; [repeat (destruct X as [X|X]; [discriminate X|]); destruct X|]). destruct Hn. }
  unfold entry_fields. eapply FrameK.hk_bind; [apply FrameK.addAttributes_keeps; apply He|]. intros _ _.
  eapply FrameK.hk_bind; [unfold unit_of; eapply FrameK.hk_unit; apply WD; [reflexivity|auto|apply U; simpl; auto]|]. intros _ _.
  eapply FrameK.hk_bind; [apply FrameK.hk_lift with (Q := fun _ => True); auto|]. intros p _.
  destruct p as [|n [|r p]]; try apply FrameK.hk_raise.
  eapply FrameK.hk_bind; [apply WD; [reflexivity|auto|apply U; simpl; auto]|]. intros ds Hd.
  eapply FrameK.hk_bind; [apply FrameK.addAttributes_keeps; apply Hd|]. intros _ _.
  eapply FrameK.hk_bind with (Q := fun _ => True).
  { destruct (0 <? r)%Z; [apply FrameK.addAttributes_keeps; apply Hd|apply FrameK.hk_ret; auto]. }
  intros _ _. unfold unit_of. eapply FrameK.hk_unit; apply WD; [reflexivity|auto|apply U; simpl; auto].
Qed.

Section Body.
  Context (h : hid) (Psi : obj -> h5 -> nat -> Prop) (He : est h Psi) (Nd : h <> H_data).
  Context (Ps : forall o o' f a, same_but True o o' -> Psi o' f a -> Psi o f a).
  Lemma body_claim a sk sc ho f w sw : 0 < a -> plain_name sk -> is_ascii sk -> BInv a sk f -> names_ok (s_obj sc) -> names_ok ho ->
    s_obj sc A_h5 = Some sw -> In h (values sw) ->
    objs_body (mk_handle a (name_at [sk])) sc (mk_ws (s_obj sc) ho f) = (w, Ok tt) -> Psi (s_obj sc) (w_h5 w) a.
  Proof.
    intros Ha Hp Has I N1 N2 Hw Hin H. set (e := mk_handle a (name_at [sk])) in *. set (w0 := mk_ws (s_obj sc) ho f) in *.
    assert (W0 : BW a sk w0) by (split; [exact I|split; auto]).
    pose proof (entry_hat (PO a) a sk noK noI f Hp I) as Hh.
    assert (KS : forall A (m : WM A) (wa wb : wst) (r : res A), m wa = (wb, r) -> kp True m -> same_but True (w_scan wa) (w_scan wb)).
    { intros A m wa wb r Hm K. destruct (K wa) as [K1 _]. rewrite Hm in K1. exact K1. }
    assert (WKK : forall o hs, WriterFrameK.wk (PO a) a sk noK noI (siter (fun h => writer_of (s_cmd sc) h e o) hs) (fun _ => True)).
    { intros o hs. apply (WriterFrameK.writers_ok (PO a) a sk noK noI); auto; [intros g n []|]. apply Forall_forall. intros; apply okw_none. }
    assert (KPI : forall o hs, kp True (siter (fun h => writer_of (s_cmd sc) h e o) hs)).
    { intros o hs. apply kp_iter. intros x. apply kp_writer. auto. }
    unfold objs_body in H. rewrite sbind_eq in H.
    destruct (hdf (entry_fields e (s_S sc) (s_num sc) (s_cmd sc)) w0) as [w1 [u1|x1]] eqn:E1; [|discriminate].
    assert (K1 : WriterFrameK.wk (PO a) a sk noK noI (hdf (entry_fields e (s_S sc) (s_num sc) (s_cmd sc))) (fun _ => True)).
    { apply (WriterFrameK.wk_hdf (PO a) a sk noK noI). apply entry_fields_K; auto. }
    destruct (wk_step _ _ _ _ _ _ _ _ _ _ K1 W0 E1) as [W1 _].
    pose proof (KS _ _ _ _ _ E1 (kp_hdf True _)) as S1.
    rewrite sbind_eq in H. destruct (rd Hdr A_h5 w1) as [w1' [hw|x]] eqn:Er; [|discriminate].
    assert (w1' = w1) by (unfold rd in Er; congruence). subst w1'. clear Er.
    rewrite sbind_eq in H. destruct (siter (fun h => writer_of (s_cmd sc) h e Hdr) (values hw) w1) as [w2 [u2|x2]] eqn:E2; [|discriminate].
    destruct (wk_step _ _ _ _ _ _ _ _ _ _ (WKK Hdr (values hw)) W1 E2) as [W2 _].
    pose proof (KS _ _ _ _ _ E2 (KPI Hdr _)) as S2.
    rewrite sbind_eq in H. destruct (rd Scn A_h5 w2) as [w2' [sw2|x]] eqn:Er; [|discriminate].
    assert (sw2 = sw /\ w2' = w2) as [-> ->].
    { unfold rd, obj_of in Er. change (w_scan w0) with (s_obj sc) in S1.
      rewrite (S2 A_h5), (S1 A_h5), Hw in Er by (intros [X|[X|[_ X]]]; discriminate). injection Er; auto. }
    clear Er.
    destruct (in_split_last h (values sw) ltac:(decide equality) Hin) as (l1 & l2 & El & Nl). rewrite El in H.
    rewrite siter_app, sbind_eq in H.
    destruct (siter (fun h => writer_of (s_cmd sc) h e Scn) l1 w2) as [w3 [u3|x3]] eqn:E3; [|discriminate].
    destruct (wk_step _ _ _ _ _ _ _ _ _ _ (WKK Scn l1) W2 E3) as [W3 _].
    pose proof (KS _ _ _ _ _ E3 (KPI Scn _)) as S3.
    cbn [siter] in H. rewrite sbind_eq in H.
    destruct (writer_of (s_cmd sc) h e Scn w3) as [w4 [u4|x4]] eqn:E4; [|discriminate].
    destruct (He (s_cmd sc) a sk w3 w4 u4 Ha Hp Has W3 E4) as (P & K & II & K0 & K2 & Ko & IK & Fin).
    assert (E4' : siter (fun h => writer_of (s_cmd sc) h e Scn) [h] w3 = (w4, Ok tt)) by (cbn [siter]; rewrite sbind_eq, E4; reflexivity).
    destruct (wk_step _ _ _ _ _ _ _ _ _ _ (WKK Scn [h]) W3 E4') as [[_ [M1 M2]] _].
    assert (W4 : WriterFrameK.WInv P a sk K II w4) by (split; [exact IK|auto]).
    assert (K5 : WriterFrameK.wk P a sk K II (siter (fun h => writer_of (s_cmd sc) h e Scn) l2) (fun _ => True)).
    { apply (WriterFrameK.writers_ok P a sk K II); auto.
      - eapply entry_hat; eauto.
      - apply Forall_forall. intros x Hx. apply Ko. intros ->. contradiction. }
    destruct (wk_step _ _ _ _ _ _ _ _ _ _ K5 W4 H) as [[J5 _] F5].
    eapply Ps; [|apply Fin; [exact J5|exact F5]]. change (s_obj sc) with (w_scan w0). eapply same_trans; [exact S1|]. eapply same_trans; eauto.
  Qed.
End Body.

(** the claim of writer [h] in the form for the file that is saved *)
Definition writer_claim (h : hid) (Psi : obj -> h5 -> nat -> Prop) (sc : scan) (f : h5) (a : nat) : Prop :=
  forall sw, s_obj sc A_h5 = Some sw -> In h (values sw) -> Psi (s_obj sc) f a.
Section Saved.
  Context (E : env) (known : list hid) (h : hid) (Psi : obj -> h5 -> nat -> Prop) (He : est h Psi) (Nd : h <> H_data).
  Context (Ps : forall o o' f a, same_but True o o' -> Psi o' f a -> Psi o f a).
  Context (Pm : forall o f f' a, 1 <= a -> grow f f' -> Psi o f a -> Psi o f' a).
  Lemma same_sym M o o' : same_but M o o' -> same_but M o' o.
  Proof. intros S x N. symmetry. auto. Qed.
  Lemma same_weak (M M' : Prop) o o' : (M -> M') -> same_but M o o' -> same_but M' o o'.
  Proof. intros H S x N. apply S. intros [X|[X|[X Y]]]; apply N; unfold may_change; auto. Qed.
  Lemma saved_claim versions ks s s' f : Forall good_key ks -> GS s -> save E known versions ks s = (s', f, None) -> forall k, In k ks ->
    exists sc0 sc' a, getScan k s = Ok (Some sc0) /\ dget (s_num sc0) (scans s') = Some sc' /\ s_done sc' = true /\
      member f 0 (entry_name k) a /\ writer_claim h Psi sc' f a.
  Proof.
    apply (save_claim E known (writer_claim h Psi)).
    - intros sc f0 f' a Ha G H sw Hw Hin. eapply Pm; eauto.
    - intros a sk sc ho f0 w Ha Hp Has Hf N1 N2 H sw Hw Hin. eapply body_claim; eauto. apply Hf.
    - intros sc sc' f0 a Hd (A1 & A2 & A3 & A4 & A5 & A6) H sw Hw Hin. destruct (A6 Hd) as (_ & _ & S).
      apply (same_weak _ True) in S; [|auto]. eapply Ps; [apply same_sym; exact S|]. apply (H sw); auto.
      rewrite <- (S A_h5); auto. intros [X|[X|[_ X]]]; discriminate.
  Qed.
End Saved.
