(** The cache of the gallery (C51, C52). *)
From Coq Require Import String Lia.
From Verif Require Import Py PyFacts Time Utils Keys Handlers Reader Cli Writer Plot Gallery SpecText SpecCli SpecGallery.
Import ListNotations.
Local Open Scope list_scope.

(** ** programs *)
Lemma gbind_inv {A B} (m : GM A) (k : A -> GM B) s t s' r : gbind m k s = (t, (s', Ok r)) ->
  exists t1 s1 a t2, m s = (t1, (s1, Ok a)) /\ k a s1 = (t2, (s', Ok r)) /\ t = t1 ++ t2.
Proof.
  unfold gbind. destruct (m s) as [t1 [s1 [a|e]]]; [|intros H; inversion H]. destruct (k a s1) as [t2 [s2 [b|e]]] eqn:Ek; intros H; inversion H; subst.
  exists t1, s1, a, t2. auto.
Qed.
Lemma gbind_get {B} (k : gfs -> GM B) s : gbind get_fs k s = k (g_fs s) s.
Proof. unfold gbind, get_fs. destruct (k (g_fs s) s) as [t r]. reflexivity. Qed.
Lemma gbind_lift {A B} (r : res A) (k : A -> GM B) s : gbind (glift r) k s = match r with Ok a => k a s | Raise e => ([], (s, Raise e)) end.
Proof. unfold gbind, glift. destruct r as [a|e]; [|reflexivity]. destruct (k a s) as [t q]. reflexivity. Qed.
Lemma gbind_ret {A B} (a : A) (k : A -> GM B) s : gbind (gret a) k s = k a s.
Proof. unfold gbind, gret. destruct (k a s) as [t q]. reflexivity. Qed.

(** ** the last report *)
Lemma lr_other name h x mz : (forall mz', x <> (name, mz', true)) -> last_report name (h ++ [x]) mz -> last_report name h mz.
Proof.
  intros Hx H. inversion H as [h0 Hn|h1 h2 mz0 Hn Q]; subst.
  - apply Never. intros mz Hin. apply (Hn mz). apply in_or_app. auto.
  - destruct h2 as [|y h2] using rev_ind.
    + apply app_inj_tail in Q. destruct Q as [_ Q]. exfalso. exact (Hx _ (eq_sym Q)).
    + rewrite app_comm_cons, app_assoc in Q. apply app_inj_tail in Q. destruct Q as [Q _]. rewrite <- Q. apply Last. intros mz' Hin. apply (Hn mz'). apply in_or_app. auto.
Qed.
Lemma lr_other2 name h x mz : (forall mz', x <> (name, mz', true)) -> last_report name h mz -> last_report name (h ++ [x]) mz.
Proof.
  intros Hx H. inversion H as [h0 Hn|h1 h2 mz0 Hn Q]; subst.
  - apply Never. intros mz Hin. apply in_app_or in Hin. destruct Hin as [Hin|[Hin|[]]]; [exact (Hn mz Hin)|exact (Hx mz Hin)].
  - rewrite <- app_assoc. cbn [app]. apply Last. intros mz' Hin. apply in_app_or in Hin. destruct Hin as [Hin|[Hin|[]]]; [exact (Hn mz' Hin)|exact (Hx mz' Hin)].
Qed.
Lemma lr_same name h mz mz' : last_report name (h ++ [(name, mz, true)]) mz' -> mz' = mz.
Proof.
  intros H. inversion H as [h0 Hn|h1 h2 mz0 Hn Q]; subst.
  - exfalso. apply (Hn mz). apply in_or_app. right. left. reflexivity.
  - destruct h2 as [|y h2] using rev_ind.
    + apply app_inj_tail in Q. destruct Q as [_ Q]. injection Q. auto.
    + exfalso. rewrite app_comm_cons, app_assoc in Q. apply app_inj_tail in Q. destruct Q as [_ Q]. subst. apply (Hn mz). apply in_or_app. right. left. reflexivity.
Qed.
Lemma report_dec name (x : seen) : (exists mz, x = (name, mz, true)) \/ forall mz, x <> (name, mz, true).
Proof.
  destruct x as [[n mz] [|]]; [|right; intros mz' Q; discriminate Q].
  destruct (list_eq_dec N.eq_dec n name) as [->|Hn]; [left; exists mz; reflexivity|right]. intros mz' Q. injection Q. intros _ Q'. exact (Hn Q').
Qed.
Lemma lr_unique name h a b : last_report name h a -> last_report name h b -> a = b.
Proof.
  revert a b. induction h as [|x h IH] using rev_ind; intros a b Ha Hb.
  - inversion Ha as [h0 Hn|h1 h2 mz0 Hn Q]; [|destruct h1; discriminate]. inversion Hb as [h0' Hn'|h1' h2' mz0' Hn' Q']; [|destruct h1'; discriminate]. reflexivity.
  - destruct (report_dec name x) as [[mz ->]|Hx].
    + apply lr_same in Ha. apply lr_same in Hb. congruence.
    + apply IH; eapply lr_other; eauto.
Qed.

Section Cache.
  Variables (now : nat -> Z) (size_of : body -> Z) (plotDir : str).
  Notation cache_file := (cache_name plotDir).

  Lemma cache_not_dir : cache_file <> plotDir.
  Proof.
    unfold cache_name, pjoin. replace (prefixb [H5.SLASH] CACHE_FILE) with false by reflexivity. destruct plotDir as [|c t]; [discriminate|].
    generalize (c :: t). intros d. destruct (suffixb [H5.SLASH] d); intros Q; apply (f_equal (@List.length N)) in Q; rewrite app_length in Q; unfold CACHE_FILE in Q; cbn in Q; lia.
  Qed.

  (** what a check does *)
  Lemma check_eq f sel tick name c m z : cache_read plotDir f = Ok c -> on_disk f name m z ->
    was_file_updated now size_of plotDir name (mk_g f sel tick) =
      let old := cache_get name c in
      if negb (m =? fst old)%Z && negb (z =? snd old)%Z
      then let b := BCache (dset name (m, z) c) in let f1 := dset cache_file (FFile BPart (now tick) 0%Z) f in
           let f2 := dset cache_file (FFile b (now tick) (size_of b)) f1 in
           ([f1; f2], (mk_g f2 sel (S tick), Ok (true, (m, z))))
      else ([], (mk_g f sel tick, Ok (false, old))).
  Proof.
    intros Hc (b & Hd). unfold was_file_updated. rewrite gbind_get. cbn [g_fs]. rewrite Hc, gbind_lift.
    assert (Hs : stat (path_of f name) = Ok (m, z)) by (unfold path_of; rewrite Hd; destruct b; reflexivity).
    rewrite Hs, gbind_lift. cbv zeta. destruct (negb (m =? fst (cache_get name c))%Z && negb (z =? snd (cache_get name c))%Z); reflexivity.
  Qed.
  Lemma cache_written f t s c : fexists f plotDir = true -> cache_read plotDir (dset cache_file (FFile (BCache c) t s) f) = Ok c.
  Proof.
    intros H. unfold cache_read. replace (fexists _ plotDir) with true.
    - cbn [negb]. rewrite dget_dset_same. reflexivity.
    - symmetry. unfold fexists, has in *. rewrite dget_dset_other; [exact H|]. intros Q. exact (cache_not_dir (eq_sym Q)).
  Qed.
  Lemma read_same f f' : (dget plotDir f' = None <-> dget plotDir f = None) -> dget cache_file f' = dget cache_file f -> cache_read plotDir f' = cache_read plotDir f.
  Proof.
    intros H1 H2. unfold cache_read, fexists, has. rewrite H2. destruct (dget plotDir f') eqn:E1, (dget plotDir f) eqn:E2; auto.
    - pose proof (proj2 H1 eq_refl); congruence.
    - pose proof (proj1 H1 eq_refl); congruence.
  Qed.

  Lemma checks_inv f0 h f : fexists f0 plotDir = true -> dget cache_file f0 = None -> checks now size_of plotDir f0 h f ->
    fexists f plotDir = true /\ exists c, cache_read plotDir f = Ok c /\ forall name, last_report name h (cache_get name c).
  Proof.
    intros H0 H1 H. induction H as [|h f name m z b f' H IH Hd Hc|h f name e H IH Hn1 Hn2|h f name H IH Hn1 Hn2].
    - split; [exact H0|]. exists []. split.
      + unfold cache_read. rewrite H0, H1. reflexivity.
      + intros name. apply Never. intros mz [].
    - destruct IH as (I1 & c & I2 & I3). destruct Hc as (sel & tick & tr & st & e & Hw & <-). rewrite (check_eq _ _ _ _ _ _ _ I2 Hd) in Hw. cbv zeta in Hw.
      destruct (negb (m =? fst (cache_get name c))%Z && negb (z =? snd (cache_get name c))%Z).
      + injection Hw as <- <- <- <-. cbn [g_fs]. split.
        * unfold fexists, has in *. rewrite !dget_dset_other; [exact I1| |]; intros Q; exact (cache_not_dir (eq_sym Q)).
        * exists (dset name (m, z) c). split.
          { apply cache_written. unfold fexists, has in *. rewrite dget_dset_other; [exact I1|]. intros Q; exact (cache_not_dir (eq_sym Q)). }
          intros n. unfold cache_get. destruct (list_eq_dec N.eq_dec n name) as [->|Hn].
          { rewrite dget_dset_same. apply Last. intros mz' []. }
          { rewrite dget_dset_other by exact Hn. apply lr_other2; [|exact (I3 n)]. intros mz' Q. injection Q. intros _ Q'. exact (Hn (eq_sym Q')). }
      + injection Hw as <- <- <- <-. cbn [g_fs]. split; [exact I1|]. exists c. split; [exact I2|].
        intros n. apply lr_other2; [intros mz' Q; discriminate Q|exact (I3 n)].
    - destruct IH as (I1 & c & I2 & I3). split.
      + unfold fexists, has in *. rewrite dget_dset_other; auto.
      + exists c. split; [|exact I3]. rewrite <- I2. apply read_same; rewrite dget_dset_other; auto; tauto.
    - destruct IH as (I1 & c & I2 & I3). split.
      + unfold fexists, has in *. rewrite dget_ddel_other; auto.
      + exists c. split; [|exact I3]. rewrite <- I2. apply read_same; rewrite dget_ddel_other; auto; tauto.
  Qed.

  Lemma C52_lemma f0 h f name m z mz b f' : fexists f0 plotDir = true -> dget cache_file f0 = None -> checks now size_of plotDir f0 h f ->
    on_disk f name m z -> last_report name h mz -> check now size_of plotDir f name b f' -> (b = true <-> m <> fst mz /\ z <> snd mz).
  Proof.
    intros H0 H1 H Hd Hl (sel & tick & tr & st & e & Hw & Hf). destruct (checks_inv _ _ _ H0 H1 H) as (_ & c & I2 & I3).
    rewrite (check_eq _ _ _ _ _ _ _ I2 Hd) in Hw. cbv zeta in Hw. rewrite (lr_unique _ _ _ _ (I3 name) Hl) in Hw.
    destruct (Z.eqb_spec m (fst mz)) as [E1|E1]; cbn [negb andb] in Hw.
    - injection Hw as _ _ <- _. split; [discriminate|]. intros [Q _]. congruence.
    - destruct (Z.eqb_spec z (snd mz)) as [E2|E2]; cbn [negb andb] in Hw.
      + injection Hw as _ _ <- _. split; [discriminate|]. intros [_ Q]. congruence.
      + injection Hw as _ _ <- _. split; auto.
  Qed.
  Lemma C51_lemma f0 h f name m z : fexists f0 plotDir = true -> dget cache_file f0 = None -> checks now size_of plotDir f0 h f ->
    on_disk f name m z -> exists b f', check now size_of plotDir f name b f'.
  Proof.
    intros H0 H1 H Hd. destruct (checks_inv _ _ _ H0 H1 H) as (_ & c & I2 & I3).
    pose proof (check_eq f sel_init 0 name c m z I2 Hd) as Q. cbv zeta in Q.
    destruct (negb (m =? fst (cache_get name c))%Z && negb (z =? snd (cache_get name c))%Z); eexists _, _, sel_init, 0, _, _, _; (split; [exact Q|reflexivity]).
  Qed.
End Cache.
