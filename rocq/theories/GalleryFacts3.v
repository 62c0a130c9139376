(** What a run of the gallery may change (C81, C84). *)
From Coq Require Import String Lia.
From Verif Require Import Py PyFacts NumFacts Time Utils Keys Handlers Reader Cli Writer Plot Gallery SpecText SpecLookup SpecHistory SpecCli SpecGallery CliFacts CliFacts2 ReaderFacts ReaderFacts2 ReaderFacts4 ReaderFacts5
  GalleryFacts.
Import ListNotations.
Local Open Scope list_scope.

(** ** numbers have no slash *)
Lemma slash_strip s : In SL s -> In SL (strip_by num_space s).
Proof.
  intros H. unfold strip_by. destruct (lstrip_by_split num_space s) as (a & Ha & Fa & _). rewrite Ha in H. apply in_app_or in H. destruct H as [H|H].
  - exfalso. rewrite forallb_forall in Fa. specialize (Fa _ H). vm_compute in Fa. discriminate.
  - destruct (rstrip_by_split num_space (lstrip_by num_space s)) as (b & Hb & Fb & _). rewrite Hb in H. apply in_app_or in H. destruct H as [H|H]; [exact H|].
    exfalso. rewrite forallb_forall in Fb. specialize (Fb _ H). vm_compute in Fb. discriminate.
Qed.
Lemma slash_drop s : forall b t, drop_us b s = Some t -> In SL s -> In SL t.
Proof.
  induction s as [|c s IH]; intros b t H Hi; [destruct Hi|]. cbn [drop_us] in H. destruct (N.eqb_spec c 95) as [->|Hc].
  - destruct (b && _); [|discriminate]. destruct Hi as [Q|Hi]; [discriminate Q|]. exact (IH _ _ H Hi).
  - destruct (drop_us (is_dec c) s) as [r|] eqn:Er; [|discriminate]. injection H as <-. destruct Hi as [->|Hi]; [left; reflexivity|right; exact (IH _ _ Er Hi)].
Qed.
Lemma slash_sign s : In SL s -> In SL (snd (sign_of s)).
Proof.
  destruct s as [|c s]; [intros []|]. cbn [sign_of]. intros [->|H]; [left; reflexivity|].
  destruct (c =? 43)%N; [exact H|]. destruct (c =? 45)%N; [exact H|]. right. exact H.
Qed.
Lemma slash_run s : In SL s -> In SL (snd (digit_run s)).
Proof.
  induction s as [|c s IH]; [intros []|]. cbn [digit_run]. intros [->|H].
  - vm_compute. left. reflexivity.
  - destruct (digval c); [|right; exact H]. destruct (digit_run s) as [ds r]. exact (IH H).
Qed.
Lemma slash_exp s : In SL s -> parse_exp s = None.
Proof.
  destruct s as [|c s]; [intros []|]. intros [->|H]; [reflexivity|]. cbn [parse_exp]. destruct ((c =? 101) || (c =? 69))%N; [|reflexivity].
  pose proof (slash_sign s H) as Q. destruct (sign_of s) as [neg b]. cbn [snd] in Q. apply slash_run in Q. destruct (digit_run b) as [ds r]. cbn [snd] in Q. destruct ds; [reflexivity|].
  destruct r; [destruct Q|reflexivity].
Qed.
Lemma slash_dec neg s : In SL s -> parse_dec neg s = None.
Proof.
  intros H. unfold parse_dec. apply slash_run in H. destruct (digit_run s) as [ip r]. cbn [snd] in H.
  assert (Q : In SL (snd (match r with c :: t => if (c =? 46)%N then digit_run t else ([], r) | [] => ([], r) end))).
  { destruct r as [|c t]; [exact H|]. destruct (N.eqb_spec c 46) as [->|]; [|exact H]. destruct H as [H|H]; [discriminate H|]. exact (slash_run _ H). }
  destruct (match r with c :: t => if (c =? 46)%N then digit_run t else ([], r) | [] => ([], r) end) as [fp r2]. cbn [snd] in Q. rewrite (slash_exp _ Q). destruct (ip ++ fp); reflexivity.
Qed.
Lemma number_no_slash s x : py_float s = Ok x -> ~ In SL s.
Proof.
  intros H Hi. unfold py_float in H. apply slash_strip in Hi. destruct (drop_us false (strip_by num_space s)) as [s1|] eqn:Ed; [|discriminate].
  apply (slash_drop _ _ _ Ed) in Hi. apply slash_sign in Hi. destruct (sign_of s1) as [neg b]. cbn [snd] in Hi.
  assert (Hl : In SL (lower b)) by (unfold lower; apply in_map_iff; exists SL; split; [reflexivity|exact Hi]).
  cbv zeta in H. assert (N : forall w, ~ In SL w -> seqb (lower b) w = false) by (intros w Hw; apply seqb_neq; intros Q; rewrite Q in Hl; exact (Hw Hl)).
  rewrite !N in H; [|cbn; intuition discriminate..]. cbn [orb] in H. rewrite (slash_dec _ _ Hi) in H. discriminate.
Qed.
Lemma plot_name_no_slash n : ~ In SL n -> ~ In SL (plot_name n).
Proof.
  intros H Q. unfold plot_name in Q. apply in_map_iff in Q. destruct Q as (c & Hc & Hi).
  assert (c = SL) by (destruct (N.eqb_spec c 32); [discriminate Hc|exact Hc]). subst c.
  apply in_app_or in Hi. destruct Hi as [Hi|Hi]; [cbn in Hi; intuition discriminate|]. apply in_app_or in Hi. destruct Hi as [Hi|Hi]; [apply repeat_spec in Hi; discriminate|].
  apply in_app_or in Hi. destruct Hi as [Hi|Hi]; [exact (H Hi)|cbn in Hi; intuition discriminate].
Qed.

(** ** names of directories *)
Lemma pjoin_plain d x : plain_path d -> ~ In SL x -> pjoin d x = d ++ SL :: x.
Proof.
  intros (t & c & -> & Hc) Hx. unfold pjoin. replace (prefixb [H5.SLASH] x) with false.
  - destruct (t ++ [c]) as [|y z] eqn:Ey; [destruct t; discriminate|]. rewrite <- Ey. replace (suffixb [H5.SLASH] (t ++ [c])) with false; [reflexivity|].
    unfold suffixb. rewrite rev_unit. cbn [rev app prefixb]. destruct (N.eqb_spec H5.SLASH c) as [Q|]; [exfalso; exact (Hc (eq_sym Q))|reflexivity].
  - destruct x as [|y x]; [reflexivity|]. cbn [prefixb]. destruct (N.eqb_spec H5.SLASH y) as [<-|]; [|reflexivity]. exfalso. apply Hx. left. reflexivity.
Qed.
Lemma plain_app d x : x <> [] -> ~ In SL x -> plain_path (d ++ SL :: x).
Proof.
  intros Hx Hs. destruct x as [|c x _] using rev_ind; [congruence|]. exists (d ++ SL :: x), c. split; [rewrite <- app_assoc; reflexivity|]. intros ->. apply Hs. apply in_or_app. right. left. reflexivity.
Qed.
Lemma basename_spec p : file_name p (basename p).
Proof.
  unfold basename. pose proof (split_c_Forall H5.SLASH p) as F. pose proof (join_split H5.SLASH p) as J. pose proof (split_c_ne H5.SLASH p) as Hne.
  destruct (split_c H5.SLASH p) as [|x l _] using rev_ind; [congruence|]. rewrite rev_unit. apply Forall_app in F. destruct F as [_ F]. apply Forall_inv in F. split; [exact F|].
  destruct l as [|y l]; [left; cbn in J; symmetry; exact J|right].
  assert (G : forall (l : list str) y z, exists d, join [H5.SLASH] ((y :: l) ++ [z]) = d ++ SL :: z).
  { clear. intros l. induction l as [|w l IH]; intros y z; [exists y; reflexivity|]. destruct (IH w z) as [d Hd]. exists (y ++ SL :: d). cbn [app] in *. cbn [join]. cbn [join] in Hd.
    destruct (l ++ [z]) as [|a b] eqn:E; [destruct l; discriminate|]. rewrite Hd. rewrite <- app_assoc. reflexivity. }
  destruct (G l y x) as [d Hd]. exists d. rewrite <- J. exact Hd.
Qed.
Lemma root_ok p : root_name p (fst (splitext (basename p))).
Proof. exists (basename p), (snd (splitext (basename p))). split; [apply basename_spec|apply splitext_spec]. Qed.
Lemma root_no_slash p r : root_name p r -> ~ In SL r.
Proof.
  intros (b & ext & [Hb _] & [(dir & dots & stem & e & H1 & H2 & _)|(H1 & _)]); [|subst; exact Hb].
  intros Q. apply Hb. rewrite H1. rewrite H2 in Q. apply in_app_or in Q. apply in_or_app. destruct Q as [Q|Q]; [auto|]. right. apply in_app_or in Q. apply in_or_app. destruct Q as [Q|Q]; [auto|]. right. apply in_or_app. auto.
Qed.
