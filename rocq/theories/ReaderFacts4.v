(** C09-C13: look-up. *)
From Coq Require Import String Lia Permutation Sorted QArith.
From Verif Require Import Uni Py PyFacts NumFacts Time TimeFacts Utils UtilsFacts Keys Handlers Reader SpecText SpecReader SpecNum SpecHistory SpecLookup
  TextFacts KeyFacts OrderFacts ReaderFacts ReaderFacts2 ReaderFacts3.
Import ListNotations.
Local Open Scope nat_scope.
Local Open Scope list_scope.

(* ------------------------------------------------------------------ *)
(** * int and float of the same text *)

Lemma us_drop s : forall after ds, us_digits after s = Some ds ->
  exists s', drop_us after s = Some s' /\ digit_run s' = (ds, []) /\ (after = false -> s' <> []).
Proof.
  induction s as [|c t IH]; intros after ds H; simpl in H.
  - destruct after; [|discriminate]. inversion H; subst. exists []. simpl. repeat split; auto; discriminate.
  - destruct (digval c) as [d|] eqn:Ed.
    + destruct (us_digits true t) as [ds'|] eqn:Eu; [|discriminate]. inversion H; subst.
      destruct (IH true ds' Eu) as (s' & H1 & H2 & _). exists (c :: s').
      assert (Hc : (c =? 95)%N = false). { destruct (c =? 95)%N eqn:Q; auto. apply N.eqb_eq in Q; subst. vm_compute in Ed. discriminate. }
      cbn [drop_us digit_run]. rewrite Hc, Ed. unfold is_dec at 1. rewrite Ed, H1, H2. repeat split; auto; discriminate.
    + destruct ((c =? 95)%N && after) eqn:Ec; [|discriminate]. apply andb_true_iff in Ec. destruct Ec as [Ec ->].
      destruct (IH false ds H) as (s' & H1 & H2 & H3). exists s'. cbn [drop_us]. rewrite Ec.
      assert (Hd : match t with d :: _ => is_dec d | [] => false end = true).
      { destruct t as [|x t]; simpl in H; [discriminate|]. unfold is_dec. destruct (digval x); auto. rewrite andb_false_r in H. discriminate. }
      rewrite Hd. simpl. rewrite H1. repeat split; auto; discriminate.
Qed.
Lemma digval_lower c d : digval c = Some d -> lower_c c <> 105%N /\ lower_c c <> 110%N.
Proof.
  intros H. unfold lower_c, in_range; simpl. destruct ((65 <=? c)%N && (c <=? 90)%N) eqn:E.
  - split; intros Q; [assert (c = 73%N) by lia|assert (c = 78%N) by lia]; subst; vm_compute in H; discriminate.
  - split; intros ->; vm_compute in H; discriminate.
Qed.
Lemma digit_run_head s d ds : digit_run s = (d :: ds, []) -> exists c t, s = c :: t /\ digval c = Some d.
Proof.
  destruct s as [|c t]; simpl; [discriminate|]. destruct (digval c) as [x|] eqn:E; [|discriminate].
  destruct (digit_run t). intros H; inversion H; subst. eauto.
Qed.
Lemma py_int_float s z : py_int s = Ok z -> py_float s = Ok (fl_of_Z z).
Proof.
  unfold py_int, py_float. set (b := strip_by num_space s). clearbody b. intros H.
  destruct (sign_of b) as [neg u] eqn:Es. destruct (us_digits false u) as [ds|] eqn:Eu; [|discriminate]. inversion H; subst z; clear H.
  destruct (us_drop u false ds Eu) as (u' & D1 & D2 & D3). specialize (D3 eq_refl).
  assert (Hds : exists d ds', ds = d :: ds').
  { destruct u as [|c u]; simpl in Eu; [discriminate|]. destruct (digval c); [destruct (us_digits true u); inversion Eu; eauto|].
    rewrite andb_false_r in Eu; discriminate. }
  destruct Hds as (d & ds' & ->). destruct (digit_run_head _ _ _ D2) as (c & t & -> & Hc).
  assert (Hsign : (c =? 43)%N = false /\ (c =? 45)%N = false).
  { split; [destruct (c =? 43)%N eqn:Q|destruct (c =? 45)%N eqn:Q]; auto; apply N.eqb_eq in Q; subst; vm_compute in Hc; discriminate. }
  destruct Hsign as [S1 S2].
  assert (SD : exists b', drop_us false b = Some b' /\ sign_of b' = (neg, c :: t)).
  { destruct b as [|x b]; simpl in Es; [inversion Es; subst; discriminate|].
    destruct (x =? 43)%N eqn:E1; [|destruct (x =? 45)%N eqn:E2]; inversion Es; subst.
    - apply N.eqb_eq in E1; subst x. exists (43%N :: c :: t). cbn [drop_us]. change ((43 =? 95)%N) with false. cbv iota.
      change (is_dec 43) with false. rewrite D1. split; reflexivity.
    - apply N.eqb_eq in E2; subst x. exists (45%N :: c :: t). cbn [drop_us]. change ((45 =? 95)%N) with false. cbv iota.
      change (is_dec 45) with false. rewrite D1. split; reflexivity.
    - exists (c :: t). split; [exact D1|]. simpl. rewrite S1, S2. auto. }
  destruct SD as (b' & -> & ->).
  assert (NL : lower (c :: t) <> L "inf" /\ lower (c :: t) <> L "infinity" /\ lower (c :: t) <> L "nan").
  { destruct (digval_lower c d Hc) as [N1 N2]. unfold lower. cbn [map]. repeat split; intros Q; injection Q; intros; congruence. }
  destruct NL as (N1 & N2 & N3). apply seqb_neq in N1. apply seqb_neq in N2. apply seqb_neq in N3. rewrite N1, N2, N3. cbn [orb].
  unfold parse_dec. rewrite D2. rewrite app_nil_r. reflexivity.
Qed.

(* ------------------------------------------------------------------ *)
(** * Sorting keys *)

Section SortKeys.
  Context {A K : Type} (f : A -> res K) (leb : K -> K -> bool) (R : K -> Prop).
  Hypothesis total : forall x y, R x -> R y -> leb x y = true \/ leb y x = true.
  Hypothesis trans : forall x y z, R x -> R y -> R z -> leb x y = true -> leb y z = true -> leb x z = true.

  Lemma mapM_combine ks zs : mapM f ks = Ok zs -> Forall (fun zk => f (snd zk) = Ok (fst zk)) (combine zs ks) /\ map snd (combine zs ks) = ks.
  Proof.
    intros H. apply mapM_ok in H. induction H; simpl; [auto|]. destruct IHForall2 as [H1 H2]. split; [constructor; auto|]. congruence.
  Qed.
  Lemma before_combine (ks : list A) (zs : list K) a b : List.length zs = List.length ks -> before ks a b ->
    exists x y, before (combine zs ks) (x, a) (y, b).
  Proof.
    intros Hl (p & q & r & ->). rewrite app_length in Hl. simpl in Hl. rewrite app_length in Hl. simpl in Hl.
    assert (exists z1 x z2 y z3, zs = z1 ++ x :: z2 ++ y :: z3 /\ List.length z1 = List.length p /\ List.length z2 = List.length q) as (z1 & x & z2 & y & z3 & -> & L1 & L2).
    { exists (firstn (List.length p) zs). destruct (skipn (List.length p) zs) as [|x r1] eqn:E1.
      { apply (f_equal (@List.length K)) in E1. rewrite skipn_length in E1. simpl in E1. lia. }
      assert (Z1 : zs = firstn (List.length p) zs ++ x :: r1) by (rewrite <- E1, firstn_skipn; auto).
      assert (LL : List.length r1 = List.length q + S (List.length r)).
      { apply (f_equal (@List.length K)) in E1. rewrite skipn_length in E1. simpl in E1. lia. }
      destruct (skipn (List.length q) r1) as [|y r2] eqn:E2.
      { apply (f_equal (@List.length K)) in E2. rewrite skipn_length in E2. simpl in E2. lia. }
      exists x, (firstn (List.length q) r1), y, r2. rewrite <- E2, firstn_skipn. split; auto.
      rewrite !firstn_length. split; lia. }
    exists x, y, (combine z1 p), (combine z2 q), (combine z3 r).
    assert (CA : forall (a1 a2 : list K) (b1 b2 : list A), List.length a1 = List.length b1 -> combine (a1 ++ a2) (b1 ++ b2) = combine a1 b1 ++ combine a2 b2).
    { clear. induction a1 as [|u a1 IH]; destruct b1; simpl; intros; try discriminate; auto. f_equal; auto. }
    rewrite CA by auto. simpl. rewrite CA by auto. auto.
  Qed.

  Lemma sort_keys ks zs : mapM f ks = Ok zs -> Forall R zs ->
    let l := sort_by leb (combine zs ks) in
    Permutation l ks /\
    StronglySorted (fun a b => exists x y, f a = Ok x /\ f b = Ok y /\ leb x y = true) l /\
    (forall a b x y, before ks a b -> f a = Ok x -> f b = Ok y -> leb x y = true -> leb y x = true -> before l a b).
  Proof.
    intros H HR l. destruct (mapM_combine ks zs H) as [HF Hs]. unfold l, sort_by. clear l.
    remember (combine zs ks) as L0 eqn:EL0. set (le2 := fun a b : K * A => leb (fst a) (fst b)).
    assert (HRL : Forall (fun zk => R (fst zk)) L0).
    { rewrite Forall_forall in *. intros [z k] Hin. simpl. rewrite EL0 in Hin. apply in_combine_l in Hin. auto. }
    pose proof (isort_perm le2 L0) as P. split; [|split].
    - apply Permutation_map with (f := snd) in P. rewrite Hs in P. auto.
    - assert (S1 : StronglySorted (fun a b => le2 a b = true) (isort le2 L0)).
      { apply (isort_sorted_on le2 (fun zk => R (fst zk))); unfold le2; auto; intros; eauto. }
      assert (F1 : Forall (fun zk => f (snd zk) = Ok (fst zk)) (isort le2 L0)).
      { rewrite Forall_forall in *. intros z Hz. apply HF. eapply Permutation_in; eauto. }
      revert S1 F1. generalize (isort le2 L0) as m. induction 1 as [|x m Hm IHm Hx]; intros F1; simpl; [constructor|].
      inversion F1; subst. constructor; auto. rewrite Forall_map. rewrite Forall_forall in *. intros y Hy.
      exists (fst x), (fst y). repeat split; auto. apply (Hx y Hy).
    - intros a b x y Hb Ha Hbb Hxy Hyx.
      destruct (before_combine ks zs a b (mapM_length _ _ _ H) Hb) as (x' & y' & Hb').
      rewrite <- EL0 in Hb'. assert (Q : x' = x /\ y' = y).
      { destruct Hb' as (p & q & r & Hp). rewrite Hp in HF. rewrite Forall_app in HF. destruct HF as [_ HF]. inversion HF as [|? ? Q1 Q2]; subst.
        rewrite Forall_app in Q2. destruct Q2 as [_ Q2]. inversion Q2; subst. simpl in *. split; congruence. }
      destruct Q; subst x' y'. apply (isort_stable_on le2 (fun zk => R (fst zk))) in Hb'; auto.
      + apply (before_map snd) in Hb'. exact Hb'.
      + unfold le2; intros; auto.
      + unfold le2; intros; eauto.
  Qed.
End SortKeys.

Lemma StronglySorted_impl {A} (P Q : A -> A -> Prop) l : (forall a b, P a b -> Q a b) -> StronglySorted P l -> StronglySorted Q l.
Proof. intros H S1; induction S1 as [|x l S2 IH F]; constructor; auto. eapply Forall_impl; [|exact F]. auto. Qed.

Lemma fl_of_Z_le x y : num_le (fl_of_Z x) (fl_of_Z y) <-> (x <= y)%Z.
Proof.
  rewrite <- fl_leb_num. unfold fl_of_Z. cbn [fl_leb]. rewrite Z.leb_le. simpl. unfold p10. simpl. lia.
Qed.

Lemma mapM_total_list {A B} (f : A -> res B) l : Forall (fun x => exists y, f x = Ok y) l -> exists ys, mapM f l = Ok ys.
Proof. induction 1 as [|x l [y Hy] _ [ys IH]]; simpl; [eauto|]. rewrite Hy, IH. simpl. eauto. Qed.
Lemma mapM_fail {A B} (f : A -> res B) e l : Forall (fun x => (exists y, f x = Ok y) \/ f x = Raise e) l ->
  (exists ys, mapM f l = Ok ys) \/ mapM f l = Raise e.
Proof.
  induction 1 as [|x l [[y Hy]|Hy] _ IH]; simpl; [eauto| |rewrite Hy; auto].
  rewrite Hy. simpl. destruct IH as [[ys ->]| ->]; simpl; eauto.
Qed.
Lemma py_float_total s : (exists f, py_float s = Ok f) \/ py_float s = Raise ValueError.
Proof.
  unfold py_float. destruct (drop_us false (strip_by num_space s)) as [l|]; auto. destruct (sign_of l) as [neg b].
  destruct (seqb (lower b) (L "inf") || seqb (lower b) (L "infinity")); [eauto|]. destruct (seqb (lower b) (L "nan")); [eauto|].
  destruct (parse_dec neg b); simpl; eauto.
Qed.
Lemma py_int_total s : (exists f, py_int s = Ok f) \/ py_int s = Raise ValueError.
Proof. unfold py_int. destruct (sign_of (strip_by num_space s)) as [neg b]. destruct (us_digits false b); eauto. Qed.

Lemma C10_lemma s l : no_nan s -> getScanNumbers s = Ok l ->
  Permutation l (keys (scans s)) /\
  StronglySorted (fun a b => exists x y, py_float a = Ok x /\ py_float b = Ok y /\ num_le x y) l /\
  (forall a b x y, before (keys (scans s)) a b -> py_float a = Ok x -> py_float b = Ok y -> num_eq x y -> before l a b).
Proof.
  intros Hn H. unfold getScanNumbers in H. destruct (mapM py_int (keys (scans s))) as [zs|e] eqn:E1.
  - inversion H; subst l; clear H.
    destruct (sort_keys py_int Z.leb (fun _ => True) (fun x y _ _ => ltac:(destruct (Z.le_ge_cases x y); [left|right]; apply Z.leb_le; auto))
      (fun x y z _ _ _ H1 H2 => ltac:(apply Z.leb_le in H1, H2; apply Z.leb_le; lia)) (keys (scans s)) zs E1) as (P & S1 & St).
    { apply Forall_forall; auto. }
    split; auto. split.
    + eapply StronglySorted_impl; [|exact S1]. intros a b (x & y & Hx & Hy & Hxy). exists (fl_of_Z x), (fl_of_Z y).
      split; [apply py_int_float; auto|]. split; [apply py_int_float; auto|]. apply fl_of_Z_le. apply Z.leb_le; auto.
    + intros a b x y Hb Ha Hbb [H1 H2].
      assert (I : forall k, In k (keys (scans s)) -> exists z, py_int k = Ok z).
      { intros k Hin. apply mapM_ok in E1. clear -E1 Hin. induction E1; simpl in Hin; [tauto|]. destruct Hin as [<-|Hin]; eauto. }
      assert (Hin : In a (keys (scans s)) /\ In b (keys (scans s))).
      { destruct Hb as (p & q & r & ->). split; apply in_or_app; right; simpl; auto. right. apply in_or_app; simpl; auto. }
      destruct (I a) as [za Hza]; [tauto|]. destruct (I b) as [zb Hzb]; [tauto|].
      pose proof (py_int_float _ _ Hza) as Fa. pose proof (py_int_float _ _ Hzb) as Fb.
      assert (x = fl_of_Z za) by congruence. assert (y = fl_of_Z zb) by congruence. subst x y.
      apply (fl_of_Z_le za zb) in H1. apply (fl_of_Z_le zb za) in H2. apply (St a b za zb Hb Hza Hzb); apply Z.leb_le; auto.
  - destruct (mapM_fail py_int ValueError (keys (scans s))) as [[ys Q]|Q].
    { apply Forall_forall; intros; apply py_int_total. }
    { congruence. }
    assert (e = ValueError) by congruence. subst e. apply bind_ok in H. destruct H as (fs & Hf & H). inversion H; subst l; clear H.
    destruct (sort_keys py_float fl_leb (fun f => is_nan f = false)) with (ks := keys (scans s)) (zs := fs) as (P & S1 & St); auto.
    + intros x y Hx Hy. rewrite !fl_leb_num. apply num_le_total; auto.
    + intros x y z _ _ _. rewrite !fl_leb_num. apply num_le_trans.
    + unfold no_nan in Hn. apply mapM_ok in Hf. clear -Hn Hf. induction Hf; constructor; inversion Hn; subst; auto.
      destruct y; auto. congruence.
    + split; auto. split.
      * eapply StronglySorted_impl; [|exact S1]. intros a b (x & y & Hx & Hy & Hxy). exists x, y. repeat split; auto. apply fl_leb_num; auto.
      * intros a b x y Hb Ha Hbb [H1 H2]. apply (St a b x y Hb Ha Hbb); apply fl_leb_num; auto.
Qed.
Lemma C10_total s : (numeric s -> exists l, getScanNumbers s = Ok l) /\ (~ numeric s -> getScanNumbers s = Raise ValueError).
Proof.
  unfold getScanNumbers. destruct (mapM_fail py_int ValueError (keys (scans s))) as [[ys Q]|Q].
  { apply Forall_forall; intros; apply py_int_total. }
  - rewrite Q. split; [eauto|]. intros Hn. exfalso. apply Hn. unfold numeric. apply mapM_ok in Q. clear -Q.
    induction Q; constructor; auto. eexists. apply py_int_float; eauto.
  - rewrite Q. split.
    + intros Hn. destruct (mapM_total_list py_float _ Hn) as [fs ->]. simpl. eauto.
    + intros Hn. destruct (mapM_fail py_float ValueError (keys (scans s))) as [[fs Qf]|Qf].
      { apply Forall_forall; intros; apply py_float_total. }
      * exfalso. apply Hn. unfold numeric. apply mapM_ok in Qf. clear -Qf. induction Qf; constructor; eauto.
      * rewrite Qf. reflexivity.
Qed.

(* ------------------------------------------------------------------ *)
(** * C09 *)

Lemma int_ge_1 m e : num_le (fl_of_Z 1) (FDec m e) <-> exists z, int_of_fl (FDec m e) = Ok z /\ (1 <= z)%Z.
Proof.
  rewrite <- fl_leb_num. unfold fl_of_Z, fl_leb, int_of_fl, p10. rewrite Z.leb_le.
  destruct (0 <=? e)%Z eqn:He.
  - apply Z.leb_le in He. rewrite Z.min_l by lia. replace (0 - 0)%Z with 0%Z by lia. replace (e - 0)%Z with e by lia. simpl (10 ^ 0)%Z.
    split; [intros H; eexists; split; [reflexivity|lia]|intros (z & Hz & H); inversion Hz; lia].
  - apply Z.leb_gt in He. rewrite Z.min_r by lia. replace (0 - e)%Z with (- e)%Z by lia. replace (e - e)%Z with 0%Z by lia. simpl (10 ^ 0)%Z.
    assert (P : (0 < 10 ^ (- e))%Z) by (apply Z.pow_pos_nonneg; lia).
    set (p := (10 ^ (- e))%Z) in *. rewrite !Z.mul_1_r, ?Z.mul_1_l.
    split.
    + intros H. eexists; split; [reflexivity|]. rewrite Z.quot_div_nonneg by lia. apply Z.div_le_lower_bound; lia.
    + intros (z & Hz & H). inversion Hz; subst z. destruct (Z.le_gt_cases p m) as [|Hlt]; auto. exfalso.
      destruct (Z.le_gt_cases 0 m).
      * rewrite Z.quot_small in H by lia. lia.
      * assert (m ÷ p <= 0)%Z by (rewrite <- (Z.opp_involutive m), Z.quot_opp_l by lia; pose proof (Z.quot_pos (- m) p); lia). lia.
Qed.
Lemma C09_lemma k f s : key_float k = Ok f -> num_le (fl_of_Z 1) f -> f <> FInf false ->
  getScan k s = Ok (dget (key_str k) (scans s)).
Proof.
  intros H1 H2 H3. unfold getScan. rewrite H1. cbn [bind]. destruct f as [m e|[|]|]; try (simpl in H2; tauto); try congruence.
  apply int_ge_1 in H2. destruct H2 as (z & -> & Hz). cbn [bind]. destruct (z <? 1)%Z eqn:E; auto. lia.
Qed.
Lemma C09_low_lemma z s l : (z < 1)%Z -> getScanNumbers s = Ok l ->
  getScan (KInt z) s = match l with [] => Ok None | _ => do n <- index z l; Ok (dget n (scans s)) end.
Proof.
  intros H1 H2. unfold getScan. cbn [key_float bind int_of_fl fl_of_Z]. change (0 <=? 0)%Z with true. cbv iota. cbn [bind].
  unfold p10. change (10 ^ 0)%Z with 1%Z. rewrite Z.mul_1_r. destruct (z <? 1)%Z eqn:E; [|lia]. rewrite H2. cbn [bind key_int].
  destruct l; auto.
Qed.
Lemma dget_In {V} k (d : dict V) v : dget k d = Some v -> In (k, v) d.
Proof.
  induction d as [|[k' v'] d IH]; simpl; [discriminate|]. destruct (seqb k k') eqn:E; [|auto].
  apply seqb_eq in E; subst. intros H; inversion H; subst; auto.
Qed.
Lemma getScan_In k s sc : getScan k s = Ok (Some sc) -> exists n, In (n, sc) (scans s).
Proof.
  unfold getScan. intros H. apply bind_ok in H. destruct H as (f & _ & H). apply bind_ok in H. destruct H as (z & _ & H).
  destruct (z <? 1)%Z.
  - apply bind_ok in H. destruct H as (l & _ & H). destruct l as [|x l]; [discriminate|].
    apply bind_ok in H. destruct H as (i & _ & H). apply bind_ok in H. destruct H as (n & _ & H). inversion H. exists n. apply dget_In; auto.
  - inversion H. exists (key_str k). apply dget_In; auto.
Qed.
Lemma index_low {A} (z : Z) (l : list A) x : (z < 0)%Z -> index z l = Ok x <-> nth_error (rev l) (Z.to_nat (- z - 1)) = Some x.
Proof.
  intros Hz. unfold index. destruct (z <? 0)%Z eqn:E; [|lia]. destruct (z + Z.of_nat (List.length l) <? 0)%Z eqn:E2.
  - split; [discriminate|]. intros H. exfalso. assert (nth_error (rev l) (Z.to_nat (- z - 1)) <> None) by congruence.
    apply nth_error_Some in H0. rewrite rev_length in H0. lia.
  - assert (Q : Z.to_nat (z + Z.of_nat (List.length l)) = List.length l - S (Z.to_nat (- z - 1))) by lia.
    rewrite Q. destruct (Nat.le_gt_cases (List.length l) (Z.to_nat (- z - 1))) as [H|H]; [lia|].
    assert (R : nth_error (rev l) (Z.to_nat (- z - 1)) = nth_error l (List.length l - S (Z.to_nat (- z - 1)))).
    { clear -H. revert H. generalize (Z.to_nat (- z - 1)) as n. intros n Hn.
      destruct (nth_error l (List.length l - S n)) as [v|] eqn:N.
      - pose proof (nth_error_nth _ _ v N) as N2. rewrite <- N2. rewrite <- rev_nth by auto. apply nth_error_nth'. rewrite rev_length; auto.
      - apply nth_error_None in N. lia. }
    rewrite R. destruct (nth_error l _); simpl; split; intros H1; inversion H1; auto.
Qed.

(* ------------------------------------------------------------------ *)
(** * C11 *)

Lemma bind_ok_iff {A B} (m : res A) (f : A -> res B) y : bind m f = Ok y <-> exists x, m = Ok x /\ f x = Ok y.
Proof. split; [apply bind_ok|]. intros (x & -> & H). auto. Qed.
Lemma time_of sc t : (do d <- date_of sc; strptime d) = Ok t <-> scan_time sc t.
Proof.
  rewrite bind_ok_iff. unfold scan_time, date_of. split; intros (d & H1 & H2); exists d.
  - destruct (s_obj sc A_date); inversion H1; subst; auto.
  - rewrite H1. auto.
Qed.
Lemma C11_lemma s l : getScanNumbersChronological s = Ok l ->
  exists scs, l = map s_num scs /\ Permutation scs (values (scans s)) /\
  StronglySorted (fun a b => exists x y, scan_time a x /\ scan_time b y /\ time_le x y) scs /\
  (forall a b x, before (values (scans s)) a b -> scan_time a x -> scan_time b x -> before scs a b).
Proof.
  unfold getScanNumbersChronological. intros H. apply bind_ok in H. destruct H as (ts & Hts & H). inversion H; subst l; clear H.
  destruct (sort_keys (fun sc => do d <- date_of sc; strptime d) tm_leb (fun _ => True)
     (fun x y _ _ => tm_leb_total x y) (fun x y z _ _ _ => tm_leb_trans x y z) (values (scans s)) ts Hts) as (P & S1 & St).
  { apply Forall_forall; auto. }
  eexists. split; [reflexivity|]. split; [exact P|]. split.
  - eapply StronglySorted_impl; [|exact S1]. intros a b (x & y & Hx & Hy & Hxy). exists x, y.
    rewrite time_of in Hx, Hy. rewrite tm_leb_time in Hxy. auto.
  - intros a b x Hb Hx Hy. apply (St a b x x Hb); try (apply time_of; auto); apply tm_leb_time; right; auto.
Qed.
Lemma strptime_total d : (exists t, strptime d = Ok t) \/ strptime d = Raise ValueError.
Proof. unfold strptime. destruct (parse_spec d); simpl; eauto. Qed.
Lemma C11_total s : Forall (fun sc => s_obj sc A_date <> None) (values (scans s)) ->
  (Forall (fun sc => exists t, scan_time sc t) (values (scans s)) -> exists l, getScanNumbersChronological s = Ok l) /\
  (Exists (fun sc => ~ exists t, scan_time sc t) (values (scans s)) -> getScanNumbersChronological s = Raise ValueError).
Proof.
  intros Hd. unfold getScanNumbersChronological.
  destruct (mapM_fail (fun sc => do d <- date_of sc; strptime d) ValueError (values (scans s))) as [[ys Q]|Q].
  { eapply Forall_impl; [|exact Hd]. cbv beta. intros sc H. unfold date_of. destruct (s_obj sc A_date) as [d|]; [|congruence].
    cbn [of_opt bind]. apply strptime_total. }
  - rewrite Q. cbn [bind]. split; [eauto|]. intros HE. exfalso. apply Exists_exists in HE. destruct HE as (sc & Hin & HE). apply HE.
    apply mapM_ok in Q. clear -Q Hin. induction Q; simpl in Hin; [tauto|]. destruct Hin as [<-|Hin]; auto. exists y. apply time_of; auto.
  - rewrite Q. cbn [bind]. split; [|auto]. intros HF. exfalso.
    destruct (mapM_total_list (fun sc => do d <- date_of sc; strptime d) (values (scans s))) as [ys Q']; [|congruence].
    eapply Forall_impl; [|exact HF]. cbv beta. intros sc [t Ht]. exists t. apply time_of; auto.
Qed.

(* ------------------------------------------------------------------ *)
(** * C13 *)

Lemma Forall2_mono {A B} (P Q : A -> B -> Prop) l m : (forall a b, P a b -> Q a b) -> Forall2 P l m -> Forall2 Q l m.
Proof. intros H F; induction F; constructor; auto. Qed.
Lemma C13_lemma ks s out : ks <> [] -> getScanCommands ks s = Ok out ->
  exists parts, out = List.concat parts /\
    Forall2 (fun k p => (exists sc, getScan k s = Ok (Some sc) /\ p = [L "#S " ++ key_str k ++ L " " ++ s_cmd sc]) \/
                        (getScan k s = Ok None /\ p = [])) ks parts.
Proof.
  intros Hk H. unfold getScanCommands in H. destruct ks as [|k0 ks]; [congruence|]. cbn [bind] in H. apply bind_ok in H.
  destruct H as (parts & Hp & H). inversion H; subst out. exists parts. split; auto. apply mapM_ok in Hp.
  eapply Forall2_mono; [|exact Hp]. cbv beta. intros k p Q. apply bind_ok in Q. destruct Q as (r & Hr & Q). inversion Q; subst p.
  destruct r as [sc|]; [left|right; auto]. exists sc; auto.
Qed.
Lemma C13_none_lemma s l : getScanNumbers s = Ok l -> getScanCommands [] s = match l with [] => Ok [] | _ => getScanCommands (map KStr l) s end.
Proof. intros H. unfold getScanCommands. rewrite H. cbn [bind]. destruct l; reflexivity. Qed.

Lemma mapM_each {A B} (f : A -> res B) l k x : mapM f l = Ok k -> In x l -> exists y, f x = Ok y.
Proof.
  revert k; induction l as [|a l IH]; intros k H Hx; [destruct Hx|]. cbn [mapM] in H. destruct (f a) as [b|] eqn:Ef; [|discriminate]. cbn [bind] in H.
  destruct (mapM f l) as [k'|]; [|discriminate]. destruct Hx as [<-|Hx]; eauto.
Qed.
Lemma read_dated E known s p s' : read E known p s = (s', None) -> forall name sc, dget name (scans s') = Some sc -> exists t, scan_time sc t.
Proof.
  intros Er name sc Hg. unfold read in Er. destruct (dissect p) as [secs|e]; [|discriminate].
  destruct (read_blocks E known secs s) as [s1 [e|]]; [discriminate|].
  set (s2 := match specFile s1 with Some _ => s1 | None => _ end) in *. clearbody s2.
  destruct (getLastScanNumber s2) as [k|] eqn:El; [|discriminate]. destruct (stat p) as [[m z]|]; [|discriminate]. injection Er as <-.
  cbn [set_stat set_last scans] in Hg. unfold getLastScanNumber in El. destruct (getScanNumbersChronological s2) as [ns|] eqn:Ec; [|discriminate].
  unfold getScanNumbersChronological in Ec. destruct (mapM _ (values (scans s2))) as [ts|] eqn:Em; [|discriminate].
  destruct (mapM_each _ _ _ sc Em) as [t Ht]; [|exists t; apply time_of; exact Ht].
  unfold values. apply in_map_iff. exists (name, sc). split; auto. apply dget_In; auto.
Qed.
