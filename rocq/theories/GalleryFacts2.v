(** Names of plots (C54). *)
From Coq Require Import String Lia.
From Verif Require Import Py PyFacts NumFacts Time Utils Keys Handlers Reader Cli Writer Plot Gallery SpecText SpecCli SpecGallery.
Import ListNotations.
Local Open Scope list_scope.

Lemma plot_name_eq n : ~ In 32%N n -> plot_name n = 115%N :: (repeat 48%N (5 - List.length n) ++ n) ++ L ".svg".
Proof.
  intros H. unfold plot_name. rewrite !map_app. change (map _ (L "s")) with [115%N]. change (map _ PLOT_TYPE) with (L ".svg"). cbn [app]. f_equal. rewrite <- app_assoc. f_equal.
  - induction (5 - List.length n) as [|k IH]; cbn [repeat map]; [reflexivity|]. rewrite IH. reflexivity.
  - f_equal. rewrite <- (map_id n) at 2. apply map_ext_in. intros c Hc. destruct (N.eqb_spec c 32) as [->|]; [contradiction|reflexivity].
Qed.
Lemma app_same_tail {A} (a b t : list A) : a ++ t = b ++ t -> a = b.
Proof. apply app_inv_tail. Qed.
Lemma zeros_apart i j a b : no_leading_zero a -> no_leading_zero b -> repeat 48%N i ++ a = repeat 48%N j ++ b -> i <= j -> a = b.
Proof.
  intros [Ha Ha'] [Hb Hb'] H Hij. replace j with (i + (j - i)) in H by lia. rewrite repeat_app, <- app_assoc in H. apply app_inv_head in H.
  destruct (j - i) as [|k]; [exact H|]. cbn [repeat app] in H. exfalso. pose proof (Ha' _ H) as Q. destruct k; cbn in Q; [exact (Hb Q)|discriminate].
Qed.
Lemma C54_distinct_lemma a b : ~ In 32%N a -> ~ In 32%N b -> no_leading_zero a -> no_leading_zero b -> plot_name a = plot_name b -> a = b.
Proof.
  intros Ha Hb Za Zb H. rewrite !plot_name_eq in H by assumption. injection H as H. apply app_inv_tail in H.
  destruct (Nat.le_gt_cases (5 - List.length a) (5 - List.length b)) as [Q|Q].
  - exact (zeros_apart _ _ _ _ Za Zb H Q).
  - symmetry. exact (zeros_apart _ _ _ _ Zb Za (eq_sym H) (Nat.lt_le_incl _ _ Q)).
Qed.
Lemma decimal_plain n : ~ In 32%N (str_of_N n) /\ no_leading_zero (str_of_N n).
Proof.
  destruct (str_of_N_spec n) as (H1 & H2 & H3 & H4). split.
  - intros Q. rewrite Forall_forall in H2. specialize (H2 _ Q). unfold ascii_digit in H2. lia.
  - split; [exact H1|]. intros t Q. destruct (H4 t) as [Q'|[-> _]]; [contradiction|reflexivity].
Qed.

Lemma dval_snoc s c : dval (s ++ [c]) = (10 * dval s + (c - 48))%N.
Proof. unfold dval. rewrite map_app. cbn [map]. apply num_snoc. Qed.
Lemma dval_zeros k s : dval (repeat 48%N k ++ s) = dval s.
Proof.
  induction s as [|c s IH] using rev_ind.
  - rewrite app_nil_r. induction k as [|k IH]; [reflexivity|]. cbn [repeat]; rewrite repeat_cons, dval_snoc, IH. reflexivity.
  - rewrite app_assoc, !dval_snoc, IH. reflexivity.
Qed.
Lemma lex_snoc a b x y : lex_before a b -> List.length a = List.length b -> lex_before (a ++ x) (b ++ y).
Proof.
  intros [(p & c & d & u & v & -> & -> & H)|(c & u & ->)] Hl.
  - left. exists p, c, d, (u ++ x), (v ++ y). rewrite <- !app_assoc. auto.
  - rewrite app_length in Hl. cbn in Hl. lia.
Qed.
Lemma dval_lex k : forall u v, List.length u = k -> List.length v = k -> Forall ascii_digit u -> Forall ascii_digit v ->
  (dval u = dval v -> u = v) /\ ((dval u < dval v)%N -> lex_before u v).
Proof.
  induction k as [|k IH]; intros u v Hu Hv Du Dv.
  - destruct u, v; cbn in Hu, Hv; try lia. split; auto. intros Q. exfalso. lia.
  - destruct u as [|c u _] using rev_ind; [discriminate|]. destruct v as [|d v _] using rev_ind; [discriminate|].
    rewrite app_length in Hu, Hv. cbn [List.length] in Hu, Hv. rewrite !dval_snoc. apply Forall_app in Du. destruct Du as [Du Dc]. apply Forall_app in Dv. destruct Dv as [Dv Dd].
    apply Forall_inv in Dc. apply Forall_inv in Dd. unfold ascii_digit in Dc, Dd.
    destruct (IH u v ltac:(lia) ltac:(lia) Du Dv) as [I1 I2]. split.
    + intros Q. assert (Q1 : dval u = dval v) by lia. assert (Q2 : c = d) by lia. rewrite (I1 Q1), Q2. reflexivity.
    + intros Q. destruct (N.lt_trichotomy (dval u) (dval v)) as [Q1|[Q1|Q1]].
      * apply lex_snoc; [auto|lia].
      * rewrite (I1 Q1). left. exists v, c, d, [], []. split; [reflexivity|]. split; [reflexivity|lia].
      * exfalso. lia.
Qed.
Lemma short n k : (n < 10 ^ N.of_nat k)%N -> 0 < k -> List.length (str_of_N n) <= k.
Proof.
  intros H Hk. destruct (str_of_N_spec n) as (H1 & H2 & H3 & H4). rewrite <- H3 in H. clear H3. revert H1 H2 H4 H. generalize (str_of_N n) as s. intros s Hne Hd Hz Hv.
  destruct s as [|c s]; [congruence|]. destruct (Nat.le_gt_cases (List.length (c :: s)) k) as [Q|Q]; [exact Q|exfalso].
  assert (Hc : (49 <= c)%N).
  { apply Forall_inv in Hd. unfold ascii_digit in Hd. destruct (N.eq_dec c 48) as [->|]; [|lia]. destruct (Hz s) as [Q'|[-> _]]; [congruence|]. cbn in Q. lia. }
  assert (B : forall t, (10 ^ N.of_nat (List.length t) <= dval (c :: t))%N).
  { intros t. induction t as [|x t IHt] using rev_ind.
    - unfold dval. cbn [map num_of_digits fold_left List.length]. unfold num_of_digits. cbn [fold_left]. change (10 ^ N.of_nat 0)%N with 1%N. lia.
    - rewrite app_comm_cons, dval_snoc, app_length. cbn [List.length]. replace (N.of_nat (List.length t + 1)) with (N.succ (N.of_nat (List.length t))) by lia. rewrite N.pow_succ_r'. lia. }
  pose proof (B s) as B1. assert (B2 : (10 ^ N.of_nat k <= 10 ^ N.of_nat (List.length s))%N) by (apply N.pow_le_mono_r; [lia|]; cbn in Q; lia). lia.
Qed.
Lemma C54_order_lemma a b : (a < b)%N -> (b < 100000)%N -> lex_before (plot_name (str_of_N a)) (plot_name (str_of_N b)).
Proof.
  intros H Hb. assert (La : List.length (str_of_N a) <= 5) by (apply short; [cbn; lia|lia]). assert (Lb : List.length (str_of_N b) <= 5) by (apply short; [cbn; lia|lia]).
  rewrite !plot_name_eq by apply decimal_plain. destruct (str_of_N_spec a) as (_ & Da & Va & _). destruct (str_of_N_spec b) as (_ & Db & Vb & _).
  assert (Z : forall k, Forall ascii_digit (repeat 48%N k)) by (intros k; apply Forall_forall; intros x Q; apply repeat_spec in Q; subst x; unfold ascii_digit; lia).
  assert (Q : lex_before (repeat 48%N (5 - List.length (str_of_N a)) ++ str_of_N a) (repeat 48%N (5 - List.length (str_of_N b)) ++ str_of_N b)).
  { apply (dval_lex 5).
    - rewrite app_length, repeat_length. lia.
    - rewrite app_length, repeat_length. lia.
    - apply Forall_app; auto.
    - apply Forall_app; auto.
    - rewrite !dval_zeros, Va, Vb. exact H. }
  apply (lex_snoc _ _ (L ".svg") (L ".svg")) in Q; [|rewrite !app_length, !repeat_length; lia].
  destruct Q as [(p & x & y & u & v & E1 & E2 & Hxy)|(c & u & E)].
  - left. exists (115%N :: p), x, y, u, v. rewrite E1, E2. auto.
  - right. exists c, u. rewrite E. reflexivity.
Qed.
