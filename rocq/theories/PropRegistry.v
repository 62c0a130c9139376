(** C47: plugin registration. *)
From Coq Require Import String Lia.
From Verif Require Import Py PyFacts Keys SpecInterp SpecRegistry MetaLineFacts.
Import ListNotations.
Local Open Scope list_scope.

Lemma first_uses_in l k : first_uses l k -> forall x, In x l <-> In x k.
Proof.
  induction 1 as [|l k x H IH Hx|l k x H IH Hx]; intros y; [tauto| |]; rewrite in_app_iff; cbn [In].
  - rewrite <- IH. split; [intros [Q|[->|[]]]; auto|auto].
  - rewrite in_app_iff, IH. cbn [In]. tauto.
Qed.
Lemma first_uses_add l k x : first_uses l k -> first_uses (l ++ [x]) (add_lazy k x).
Proof.
  intros H. unfold add_lazy. destruct (mem x k) eqn:E.
  - apply mem_In in E. apply FU_old; auto. apply (first_uses_in _ _ H); auto.
  - apply FU_new; auto. rewrite (first_uses_in _ _ H). intros Q. apply mem_In in Q. congruence.
Qed.
Lemma first_uses_all xs l k : first_uses l k -> first_uses (l ++ xs) (fold_left add_lazy xs k).
Proof.
  revert l k; induction xs as [|x xs IH]; intros l k H; [rewrite app_nil_r; exact H|]. cbn [fold_left].
  replace (l ++ x :: xs) with ((l ++ [x]) ++ xs) by (rewrite <- app_assoc; reflexivity). apply IH. apply first_uses_add; auto.
Qed.
Lemma has_keys {V} k (d : dict V) : has k d = true <-> In k (keys d).
Proof.
  unfold has. destruct (dget k d) as [v|] eqn:E.
  - split; [intros _|auto]. apply dget_In in E. apply in_map_iff. exists (k, v). auto.
  - apply dget_none in E. split; [discriminate|tauto].
Qed.
Lemma C47_lemma ps : let r := enroll_all ps in
  r_plugins r = ps /\ first_uses (map pl_key ps) (keys (r_known r)) /\
  (forall k p, dget k (r_known r) = Some p <-> last_with (fun p k => pl_key p = k) k ps p) /\
  first_uses (concat (map pl_attrs ps)) (r_lazy r).
Proof.
  cbv zeta. unfold enroll_all. induction ps as [|p ps IH] using rev_ind.
  - split; [reflexivity|]. split; [constructor|]. split; [|constructor]. intros k p. split; [discriminate|]. intros (pre & post & E & _). destruct pre; discriminate.
  - rewrite fold_left_app. cbn [fold_left]. destruct IH as (H1 & H2 & H3 & H4). set (r := fold_left enroll ps reg_empty) in *. unfold enroll. cbn [r_plugins r_known r_lazy].
    split; [rewrite H1; reflexivity|]. split; [|split].
    + rewrite map_app, keys_dset. cbn [map]. destruct (has (pl_key p) (r_known r)) eqn:E.
      * apply FU_old; auto. apply (first_uses_in _ _ H2). apply has_keys; auto.
      * apply FU_new; auto. rewrite (first_uses_in _ _ H2). intros Q. apply has_keys in Q. congruence.
    + intros k q. rewrite last_snoc. destruct (str_eq_dec k (pl_key p)) as [->|Hn].
      * rewrite dget_dset_same. split; [intros Q; injection Q as <-; auto|intros [[_ ->]|[Q _]]; [reflexivity|congruence]].
      * rewrite dget_dset_other by auto. rewrite H3. split; [intros Q; right; split; auto|intros [[Q _]|[_ Q]]; [congruence|auto]].
    + rewrite map_app, concat_app. cbn [map concat]. rewrite app_nil_r. apply first_uses_all; auto.
Qed.

Theorem C47_registration : forall ps, let r := enroll_all ps in
  r_plugins r = ps /\ first_uses (map pl_key ps) (keys (r_known r)) /\
  (forall k p, dget k (r_known r) = Some p <-> last_with (fun p k => pl_key p = k) k ps p) /\
  first_uses (concat (map pl_attrs ps)) (r_lazy r).
Proof. exact C47_lemma. Qed.
Print Assumptions C47_registration.
Definition some_plugins : list plugin := [mk_plugin 0 (L "#A") [L "a"; L "b"]; mk_plugin 1 (L "#B") [L "b"; L "c"]; mk_plugin 2 (L "#A") [L "d"]].
Example C47_applies : keys (r_known (enroll_all some_plugins)) = [L "#A"; L "#B"] /\ option_map pl_id (dget (L "#A") (r_known (enroll_all some_plugins))) = Some 2 /\
  r_lazy (enroll_all some_plugins) = [L "a"; L "b"; L "c"; L "d"].
Proof. repeat split; vm_compute; reflexivity. Qed.
