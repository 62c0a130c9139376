(** Lemmas about decimal notation: [str(n)], [int(s)], [float(s)]. *)
From Coq Require Import String Lia ZifyBool ZifyNat ZifyN.
From Verif Require Import Uni Py PyFacts.
Import ListNotations.
Local Open Scope list_scope.
Ltac Zify.zify_post_hook ::= Z.div_mod_to_equations.

Definition ascii_digit (c : N) : Prop := (48 <= c <= 57)%N.
Lemma digval_ascii c : ascii_digit c -> digval c = Some (c - 48)%N.
Proof.
  intros [H1 H2]. assert (H : In c [48;49;50;51;52;53;54;55;56;57]%N).
  { simpl. lia. }
  simpl in H. repeat (destruct H as [<-|H]; [reflexivity|]). destruct H.
Qed.
Lemma ascii_digit_num_space c : ascii_digit c -> num_space c = false.
Proof.
  intros [H1 H2]. assert (H : In c [48;49;50;51;52;53;54;55;56;57]%N) by (simpl; lia).
  simpl in H. repeat (destruct H as [<-|H]; [reflexivity|]). destruct H.
Qed.
Lemma ascii_digit_space c : ascii_digit c -> is_space c = false.
Proof.
  intros [H1 H2]. assert (H : In c [48;49;50;51;52;53;54;55;56;57]%N) by (simpl; lia).
  simpl in H. repeat (destruct H as [<-|H]; [reflexivity|]). destruct H.
Qed.
Lemma ascii_digit_eol c : ascii_digit c -> is_eol c = false.
Proof.
  intros [H1 H2]. assert (H : In c [48;49;50;51;52;53;54;55;56;57]%N) by (simpl; lia).
  simpl in H. repeat (destruct H as [<-|H]; [reflexivity|]). destruct H.
Qed.

Definition dval (s : str) : N := num_of_digits (map (fun c => (c - 48)%N) s).

Lemma num_of_digits_app a b :
  num_of_digits (a ++ b) = fold_left (fun acc d => (10 * acc + d)%N) b (num_of_digits a).
Proof. unfold num_of_digits. apply fold_left_app. Qed.
Lemma num_snoc a d : num_of_digits (a ++ [d]) = (10 * num_of_digits a + d)%N.
Proof. rewrite num_of_digits_app; reflexivity. Qed.

(** the digits printed: a non-empty list of ASCII digits with value [n], no leading zero *)
Lemma digits_aux_spec f n acc : (n < 2 ^ N.of_nat f)%N -> 0 < f ->
  exists ds, digits_aux f n acc = ds ++ acc /\ ds <> [] /\ Forall ascii_digit ds /\ dval ds = n /\
             (forall d, ds <> 48%N :: d \/ (d = [] /\ n = 0%N)).
Proof.
  revert n acc. induction f as [|f IH]; intros n acc Hn Hf; [lia|].
  cbn [digits_aux]. destruct (n <? 10)%N eqn:E.
  - exists [(48 + n mod 10)%N]. repeat split.
    + discriminate.
    + constructor; [unfold ascii_digit; lia|constructor].
    + unfold dval, num_of_digits; cbn [map fold_left]. rewrite N.mod_small by lia. lia.
    + intros d. destruct (N.eq_dec n 0) as [->|Hz].
      * destruct d; [right; auto|left; discriminate].
      * left. intros H. assert (Q : (48 + n mod 10 = 48)%N) by congruence. rewrite N.mod_small in Q by lia. lia.
  - assert (Hdiv : (n / 10 < 2 ^ N.of_nat f)%N).
    { apply N.div_lt_upper_bound; [lia|]. replace (N.of_nat (S f)) with (N.succ (N.of_nat f)) in Hn by lia.
      rewrite N.pow_succ_r' in Hn. lia. }
    assert (Hf0 : 0 < f).
    { destruct f; [simpl in Hn; lia|lia]. }
    destruct (IH (n / 10)%N ((48 + n mod 10)%N :: acc) Hdiv Hf0) as (ds & H1 & H2 & H3 & H4 & H5).
    exists (ds ++ [(48 + n mod 10)%N]). repeat split.
    + rewrite H1, <- app_assoc; auto.
    + destruct ds; discriminate.
    + apply Forall_app; split; auto. constructor; [unfold ascii_digit|constructor].
      pose proof (N.mod_lt n 10); lia.
    + unfold dval in *. rewrite map_app. cbn [map]. rewrite num_snoc, H4.
      pose proof (N.div_mod n 10). pose proof (N.mod_lt n 10). lia.
    + intros d. left. destruct ds as [|x ds]; [congruence|]. destruct (H5 ds) as [H|[-> H]].
      * intros Q. apply H. simpl in Q. inversion Q; subst; auto.
      * exfalso. apply (N.div_small_iff n 10) in H; lia.
Qed.
Lemma str_of_N_spec n : str_of_N n <> [] /\ Forall ascii_digit (str_of_N n) /\ dval (str_of_N n) = n /\
  (forall d, str_of_N n <> 48%N :: d \/ (d = [] /\ n = 0%N)).
Proof.
  unfold str_of_N.
  assert (Hf : (n < 2 ^ N.of_nat (S (N.to_nat (N.log2 n))))%N).
  { replace (N.of_nat (S (N.to_nat (N.log2 n)))) with (N.succ (N.log2 n)) by lia.
    destruct (N.eq_dec n 0) as [->|Hz]; [reflexivity|]. apply N.log2_spec; lia. }
  destruct (digits_aux_spec _ n [] Hf ltac:(lia)) as (ds & H1 & H2 & H3 & H4 & H5).
  rewrite H1, app_nil_r. auto.
Qed.
Lemma str_of_N_inj a b : str_of_N a = str_of_N b -> a = b.
Proof.
  intros H. destruct (str_of_N_spec a) as (_ & _ & Ha & _). destruct (str_of_N_spec b) as (_ & _ & Hb & _).
  congruence.
Qed.
Lemma str_of_N_digits n : Forall ascii_digit (str_of_N n).
Proof. apply str_of_N_spec. Qed.
Lemma str_of_N_ne n : str_of_N n <> [].
Proof. apply str_of_N_spec. Qed.

(* -- int() of digits -- *)
Lemma us_digits_ascii s a : Forall ascii_digit s -> s <> [] \/ a = true ->
  us_digits a s = Some (map (fun c => (c - 48)%N) s).
Proof.
  revert a; induction s as [|c s IH]; intros a H Ha; simpl.
  - destruct Ha as [Ha| ->]; congruence.
  - inversion H; subst. rewrite digval_ascii by auto. rewrite IH; auto.
Qed.
Lemma tight_digits s : Forall ascii_digit s -> tight_by num_space s.
Proof.
  intros H. split.
  - destruct H; auto. apply ascii_digit_num_space; auto.
  - apply Forall_rev in H. destruct H; auto. apply ascii_digit_num_space; auto.
Qed.
Lemma sign_of_digits s : Forall ascii_digit s -> sign_of s = (false, s).
Proof.
  intros H. destruct H as [|c s Hc H]; auto. simpl. unfold ascii_digit in Hc.
  destruct (c =? 43)%N eqn:?; [lia|]. destruct (c =? 45)%N eqn:?; [lia|]. auto.
Qed.
Lemma py_int_digits s : Forall ascii_digit s -> s <> [] -> py_int s = Ok (Z.of_N (dval s)).
Proof.
  intros H Hne. unfold py_int. rewrite strip_by_id by (apply tight_digits; auto).
  rewrite sign_of_digits by auto. rewrite us_digits_ascii by auto. reflexivity.
Qed.
Lemma py_int_str_of_N n : py_int (str_of_N n) = Ok (Z.of_N n).
Proof.
  destruct (str_of_N_spec n) as (Hne & Hd & Hv & _). rewrite py_int_digits by auto. rewrite Hv; auto.
Qed.
Lemma py_int_neg s : Forall ascii_digit s -> s <> [] -> py_int (45%N :: s) = Ok (- Z.of_N (dval s))%Z.
Proof.
  intros H Hne. unfold py_int. rewrite strip_by_id.
  - change (sign_of (45%N :: s)) with (true, s). cbv iota beta. rewrite us_digits_ascii by auto. reflexivity.
  - split; [reflexivity|]. destruct s as [|c s] using rev_ind; [congruence|].
    replace (45%N :: s ++ [c]) with ((45%N :: s) ++ [c]) by auto. rewrite rev_unit.
    apply Forall_app in H. destruct H as [_ H]; inversion H; subst. apply ascii_digit_num_space; auto.
Qed.
Lemma py_int_str_of_Z z : py_int (str_of_Z z) = Ok z.
Proof.
  destruct z as [|p|p].
  - reflexivity.
  - unfold str_of_Z. rewrite py_int_str_of_N. auto.
  - unfold str_of_Z. destruct (str_of_N_spec (Npos p)) as (Hne & Hd & Hv & _).
    rewrite py_int_neg by auto. rewrite Hv. reflexivity.
Qed.
Lemma str_of_Z_inj a b : str_of_Z a = str_of_Z b -> a = b.
Proof. intros H. pose proof (py_int_str_of_Z a) as A. rewrite H, py_int_str_of_Z in A. congruence. Qed.
Lemma str_of_Z_nonneg z : (0 <= z)%Z -> str_of_Z z = str_of_N (Z.to_N z).
Proof. destruct z; simpl; intros; try reflexivity; lia. Qed.
Lemma str_of_nat_digits n : Forall ascii_digit (str_of_nat n).
Proof. apply str_of_N_digits. Qed.
Lemma str_of_nat_inj a b : str_of_nat a = str_of_nat b -> a = b.
Proof. unfold str_of_nat. intros H. apply str_of_N_inj in H. lia. Qed.
Lemma str_of_nat_ne n : str_of_nat n <> [].
Proof. apply str_of_N_ne. Qed.
Lemma Forall_not_In {A} (P : A -> Prop) x l : Forall P l -> ~ P x -> ~ In x l.
Proof. intros H Hn Hin. rewrite Forall_forall in H. auto. Qed.
Lemma not_digit c : (c < 48)%N \/ (57 < c)%N -> ~ ascii_digit c.
Proof. unfold ascii_digit; lia. Qed.

(* -- float() of decimal notation -- *)
Lemma digit_run_ascii s t : Forall ascii_digit s -> (match t with [] => True | c :: _ => digval c = None end) ->
  digit_run (s ++ t) = (map (fun c => (c - 48)%N) s, t).
Proof.
  induction s as [|c s IH]; intros H Ht; simpl.
  - destruct t; auto. simpl. rewrite Ht; auto.
  - inversion H; subst. rewrite digval_ascii by auto. rewrite IH; auto.
Qed.
Lemma is_dec_ascii c : ascii_digit c -> is_dec c = true.
Proof. intros H. unfold is_dec. rewrite digval_ascii; auto. Qed.
Lemma drop_us_none b s : ~ In 95%N s -> drop_us b s = Some s.
Proof.
  revert b; induction s as [|c s IH]; intros b H; simpl; auto.
  destruct (c =? 95)%N eqn:E; [apply N.eqb_eq in E; simpl in H; tauto|].
  rewrite IH; auto. simpl in H; tauto.
Qed.
