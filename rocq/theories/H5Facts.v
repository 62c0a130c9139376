(** Facts about the HDF5 operations. *)
From Coq Require Import String Lia Permutation.
From Verif Require Import Py PyFacts Utils SpecUtils UtilsFacts H5 SpecH5.
Import ListNotations.
Local Open Scope list_scope.

(* ---- lists ---- *)
Lemma put_length {A} n (x : A) l : List.length (put_nth n x l) = List.length l.
Proof. revert n; induction l as [|y l IH]; destruct n; simpl; auto. Qed.
Lemma put_same {A} n (x : A) l : n < List.length l -> nth_error (put_nth n x l) n = Some x.
Proof. revert n; induction l as [|y l IH]; destruct n; simpl; intros H; auto; try lia. apply IH; lia. Qed.
Lemma put_other {A} n m (x : A) l : n <> m -> nth_error (put_nth n x l) m = nth_error l m.
Proof. revert n m; induction l as [|y l IH]; destruct n, m; simpl; intros H; auto; try congruence. Qed.
Lemma put_nth_error {A} n (x y : A) l : nth_error l n = Some y ->
  forall m, nth_error (put_nth n x l) m = if Nat.eqb m n then Some x else nth_error l m.
Proof.
  intros H m. destruct (Nat.eqb_spec m n) as [->|N].
  - apply put_same. apply nth_error_Some. congruence.
  - apply put_other. auto.
Qed.
Lemma nth_snoc {A} (l : list A) x m : nth_error (l ++ [x]) m =
  if Nat.eqb m (List.length l) then Some x else nth_error l m.
Proof.
  destruct (Nat.eqb_spec m (List.length l)) as [->|N].
  - rewrite nth_error_app2, Nat.sub_diag by lia. reflexivity.
  - destruct (Nat.lt_ge_cases m (List.length l)).
    + apply nth_error_app1; auto.
    + rewrite nth_error_app2 by lia. destruct (m - List.length l) eqn:E; [lia|].
      simpl. destruct n; symmetry; apply nth_error_None; lia.
Qed.
Lemma In_ddel {V} k x (d : dict V) : In x (ddel k d) -> In x d.
Proof.
  induction d as [|[k' v'] d IH]; simpl; auto.
  destruct (seqb k k'); simpl; intros H; tauto.
Qed.
Lemma In_dget {V} k (v : V) d : NoDup (keys d) -> In (k, v) d -> dget k d = Some v.
Proof.
  induction d as [|[k' v'] d IH]; simpl; intros N H; [tauto|].
  apply NoDup_cons_iff in N. destruct N as [N1 N2]. destruct H as [H|H].
  - inversion H; subst. rewrite seqb_refl; auto.
  - destruct (seqb k k') eqn:E; auto. apply seqb_eq in E; subst.
    exfalso; apply N1. apply (in_map fst) in H. exact H.
Qed.
Lemma dget_ddel_sub {V} k k' (d : dict V) v : NoDup (keys d) -> dget k (ddel k' d) = Some v -> dget k d = Some v.
Proof.
  intros ND. destruct (str_eq_dec k k') as [->|N].
  - rewrite dget_ddel_same by auto. discriminate.
  - rewrite dget_ddel_other by auto. auto.
Qed.
Lemma NoDup_ddel {V} k (d : dict V) : NoDup (keys d) -> NoDup (keys (ddel k d)).
Proof.
  induction d as [|[k' v'] d IH]; simpl; auto; intros N.
  apply NoDup_cons_iff in N. destruct N as [N1 N2]. destruct (seqb k k'); simpl; auto.
  apply NoDup_cons_iff; split; auto. intros H. apply N1. unfold keys in *. rewrite in_map_iff in *.
  destruct H as [x [H1 H2]]. exists x; split; auto. eapply In_ddel; eauto.
Qed.
Lemma NoDup_snoc_key {V} k (v : V) d : NoDup (keys d) -> has k d = false -> NoDup (keys (d ++ [(k, v)])).
Proof.
  intros N H. apply has_not_In in H. unfold keys. rewrite map_app. simpl.
  apply (Permutation.Permutation_NoDup (l := k :: map fst d)); [apply Permutation.Permutation_cons_append|].
  constructor; auto.
Qed.

(* ---- paths ---- *)
Lemma parts_good p : Forall plain_name (parts p).
Proof.
  unfold parts. pose proof (split_c_Forall SLASH p) as H.
  apply Forall_forall. intros x Hx. apply filter_In in Hx. destruct Hx as [H1 H2].
  rewrite Forall_forall in H. specialize (H _ H1).
  apply negb_true_iff, orb_false_iff in H2. destruct H2 as [A B]. apply seqb_neq in A, B.
  repeat split; auto.
Qed.
Lemma plain_filter n : plain_name n -> negb (seqb n [] || seqb n (L ".")) = true.
Proof.
  intros [A [B _]]. apply negb_true_iff, orb_false_iff. split; apply seqb_neq; auto.
Qed.
Lemma parts_plain n : plain_name n -> parts n = [n].
Proof.
  intros H. unfold parts. rewrite split_c_none by apply H. simpl. rewrite (plain_filter n H). reflexivity.
Qed.
Lemma parts_slash n p : plain_name n -> parts (n ++ SLASH :: p) = n :: parts p.
Proof.
  intros H. unfold parts. rewrite split_c_app by apply H. simpl. rewrite (plain_filter n H). reflexivity.
Qed.
Lemma parts_abs p : parts (SLASH :: p) = parts p.
Proof. reflexivity. Qed.
Lemma parts_join ps : Forall plain_name ps -> parts (join [SLASH] ps) = ps.
Proof.
  induction ps as [|n ps IH]; [reflexivity|]. intros H.
  destruct ps as [|m ps].
  - simpl. apply parts_plain. apply (Forall_inv H).
  - change (join [SLASH] (n :: m :: ps)) with (n ++ SLASH :: join [SLASH] (m :: ps)).
    rewrite parts_slash by apply (Forall_inv H). rewrite IH by apply (Forall_inv_tail H). reflexivity.
Qed.
(** the name of an object at a path *)
Definition name_at (ps : list str) : str := [SLASH] ++ join [SLASH] ps.
Lemma parts_name_at ps : Forall plain_name ps -> parts (name_at ps) = ps.
Proof. intros H. unfold name_at. change ([SLASH] ++ join [SLASH] ps) with (SLASH :: join [SLASH] ps).
  rewrite parts_abs. apply parts_join; auto. Qed.
Lemma sub_name_at ps p : Forall plain_name ps -> prefixb [SLASH] p = false ->
  sub_name (name_at ps) p = name_at (ps ++ parts p).
Proof. intros H R. unfold sub_name. rewrite R. rewrite parts_name_at by auto. reflexivity. Qed.

(** ASCII *)
Definition is_ascii (s : str) : Prop := Forall (fun c => (c < 128)%N) s.
Lemma ascii_id s : is_ascii s -> ascii s = s.
Proof.
  induction s as [|c s IH]; simpl; auto. intros H.
  pose proof (Forall_inv H) as Hc. apply Forall_inv_tail in H. simpl in Hc.
  apply N.ltb_lt in Hc. rewrite Hc. f_equal; auto.
Qed.
Lemma ascii_app a b : ascii (a ++ b) = ascii a ++ ascii b.
Proof. apply filter_app. Qed.
Lemma is_ascii_app a b : is_ascii a -> is_ascii b -> is_ascii (a ++ b).
Proof. intros; apply Forall_app; auto. Qed.
Lemma is_ascii_name_at ps : Forall is_ascii ps -> is_ascii (name_at ps).
Proof.
  intros H. apply is_ascii_app; [repeat constructor|].
  induction ps as [|n ps IH]; [constructor|].
  destruct ps as [|m ps]; [simpl; apply (Forall_inv H)|].
  change (join [SLASH] (n :: m :: ps)) with (n ++ [SLASH] ++ join [SLASH] (m :: ps)).
  apply is_ascii_app; [apply (Forall_inv H)|]. apply is_ascii_app; [repeat constructor|].
  apply IH. apply (Forall_inv_tail H).
Qed.

Lemma plain_rel n : plain_name n -> prefixb [SLASH] n = false.
Proof.
  intros [A [_ B]]. destruct n as [|c n]; [congruence|]. simpl.
  destruct (47 =? c)%N eqn:E; [|apply andb_false_iff; left; exact E].
  apply N.eqb_eq in E. exfalso; apply B; left; auto.
Qed.
Lemma valid_plain n : valid_name n -> plain_name n.
Proof.
  intros [A [B _]]. repeat split; auto.
  - intros ->. pose proof (Forall_inv B) as H. discriminate H.
  - intros H. rewrite Forall_forall in B. specialize (B _ H). discriminate B.
Qed.
Lemma clean_valid s t : clean_name s = Ok t -> valid_name t.
Proof.
  intros H. destruct s as [|c s]; [discriminate H|].
  destruct (C33_lemma (c :: s)) as [t' [u [p [H1 [H2 _]]]]]; [discriminate|]. congruence.
Qed.
Lemma clean_plain s t : clean_name s = Ok t -> plain_name t.
Proof. intros H; apply valid_plain; eapply clean_valid; eauto. Qed.

(** a decision procedure for constant names *)
Definition plainb (n : str) : bool := negb (seqb n [] || seqb n (L ".") || mem [47%N] (map (fun c => [c]) n)).
Lemma plainb_ok n : plainb n = true -> plain_name n.
Proof.
  unfold plainb. rewrite negb_true_iff, !orb_false_iff. intros [[A B] C].
  apply seqb_neq in A, B. repeat split; auto. intros H.
  assert (M : mem [47%N] (map (fun c => [c]) n) = true) by (apply mem_In, in_map_iff; eauto).
  congruence.
Qed.

(* ---- what an operation leaves as it was ---- *)
(** links lead to objects *)
Definition bounded (f : h5) : Prop := forall i ms at_ n j, nth_error f i = Some (Group ms at_) -> In (n, j) ms -> j < List.length f.
Definition wf (f : h5) : Prop := forall i ms a, nth_error f i = Some (Group ms a) -> NoDup (keys ms).
Definition node_attrs (nd : node) : dict aval := match nd with Group _ a => a | Dset _ a => a end.

Lemma has_false_dget {V} k (d : dict V) : has k d = false -> dget k d = None.
Proof. unfold has. destruct (dget k d); congruence. Qed.
Lemma has_true_dget {V} k (d : dict V) : has k d = true -> exists v, dget k d = Some v.
Proof. unfold has. destruct (dget k d); [eauto|congruence]. Qed.

Lemma walk_leads ps i f j : walk ps i f = Some j <-> leads f i ps j.
Proof.
  revert i. induction ps as [|n ps IH]; simpl; intros i.
  - split; [intros H; inversion H; subst; constructor|intros H; inversion H; auto].
  - split.
    + destruct (nth_error f i) as [[ms a|]|] eqn:E; try discriminate.
      destruct (dget n ms) as [k|] eqn:D; [|discriminate]. intros H.
      econstructor; [exists ms, a; eauto|]. apply IH; auto.
    + intros H. inversion H as [|? ? k ? ? [ms [a [E D]]] K]; subst.
      rewrite E, D. apply IH; auto.
Qed.
