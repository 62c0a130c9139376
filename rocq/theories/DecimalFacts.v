(** Decimal notation and the model of int() and float(). *)
From Coq Require Import String Lia.
From Verif Require Import Uni Py PyFacts NumFacts SpecText SpecReader SpecDecimal.
Import ListNotations.
Local Open Scope list_scope.

Lemma decimal_dval ds : decimal_value ds = dval ds.
Proof.
  unfold decimal_value, dval, num_of_digits. generalize 0%N. induction ds as [|c ds IH]; intros a; [reflexivity|]. cbn [map fold_left]. apply IH.
Qed.
Lemma digit_ascii ds : Forall digit ds -> Forall ascii_digit ds.
Proof. intros H. eapply Forall_impl; [|exact H]. intros c Hc. exact Hc. Qed.
Lemma sign_text_of sg neg ds : sign_text sg neg -> (forall c t, ds = c :: t -> c <> 43%N /\ c <> 45%N) -> sign_of (sg ++ ds) = (neg, ds).
Proof.
  intros [[-> ->]|[[-> ->]|[-> ->]]] H; [|reflexivity|reflexivity]. cbn [app]. destruct ds as [|c t]; [reflexivity|]. destruct (H _ _ eq_refl) as [H1 H2].
  cbn [sign_of]. destruct (c =? 43)%N eqn:Q; [apply N.eqb_eq in Q; congruence|]. destruct (c =? 45)%N eqn:Q'; [apply N.eqb_eq in Q'; congruence|]. reflexivity.
Qed.

(** characters of numbers *)
Definition numch (c : N) : Prop := digit c \/ In c [43; 45; 46; 101; 69]%N.
Lemma numch_list c : numch c -> In c [43; 45; 46; 101; 69; 48; 49; 50; 51; 52; 53; 54; 55; 56; 57]%N.
Proof. intros [[H1 H2]|H]; [cbn; lia|]. cbn in *. tauto. Qed.
Ltac each H := repeat (destruct H as [<-|H]; [reflexivity|]); destruct H.
Lemma numch_space c : numch c -> num_space c = false.
Proof. intros H. apply numch_list in H. cbn [In] in H. each H. Qed.
Lemma numch_not_us c : numch c -> c <> 95%N.
Proof. intros H ->. apply numch_list in H. cbn in H. lia. Qed.
Lemma numch_tight s : Forall numch s -> tight_by num_space s.
Proof.
  intros H. split; [destruct H; auto; apply numch_space; auto|]. apply Forall_rev in H. destruct H; auto. apply numch_space; auto.
Qed.
Lemma numch_no_us s : Forall numch s -> ~ In 95%N s.
Proof. intros H Q. rewrite Forall_forall in H. exact (numch_not_us _ (H _ Q) eq_refl). Qed.
Lemma digits_numch ds : Forall digit ds -> Forall numch ds.
Proof. intros H. eapply Forall_impl; [|exact H]. intros c Hc. left. exact Hc. Qed.
Lemma numch1 c : In c [43; 45; 46; 101; 69]%N -> Forall numch [c].
Proof. intros H. constructor; [right; exact H|constructor]. Qed.
Ltac n1 := first [apply Forall_nil | apply numch1; cbn; tauto].
Lemma sign_numch sg neg : sign_text sg neg -> Forall numch sg.
Proof. intros [[-> _]|[[-> _]|[-> _]]]; n1. Qed.
Lemma digit_not_sign c : digit c -> c <> 43%N /\ c <> 45%N.
Proof. unfold digit. lia. Qed.

Lemma py_int_text t z : int_text t z -> py_int t = Ok z.
Proof.
  intros (sg & neg & ds & Hs & Hne & Hd & -> & ->). unfold py_int. rewrite strip_by_id by (apply numch_tight; apply Forall_app; split; [eapply sign_numch; eauto|apply digits_numch; auto]).
  rewrite (sign_text_of _ _ _ Hs) by (intros c t ->; inversion Hd; apply digit_not_sign; auto). rewrite us_digits_ascii by (auto; apply digit_ascii; auto).
  rewrite decimal_dval. reflexivity.
Qed.

Lemma fixed_numch t m e : fixed_text t m e -> Forall numch t.
Proof.
  intros (sg & neg & ip & dot & fp & Hs & Hi & Hf & Hd & _ & -> & _). apply Forall_app. split; [eapply sign_numch; eauto|]. apply Forall_app. split; [apply digits_numch; auto|].
  apply Forall_app. split; [|apply digits_numch; auto]. destruct Hd as [->|[-> _]]; n1.
Qed.
Lemma int_numch t z : int_text t z -> Forall numch t.
Proof. intros (sg & neg & ds & Hs & _ & Hd & -> & _). apply Forall_app. split; [eapply sign_numch; eauto|apply digits_numch; auto]. Qed.
Lemma float_numch t m e : float_text t m e -> Forall numch t.
Proof.
  intros [H|(t0 & x & e0 & z & H0 & Hx & Ht & _)]; [eapply fixed_numch; eauto|]. destruct Ht as [->| ->].
  - apply Forall_app. split; [eapply fixed_numch; eauto|]. apply Forall_app. split; [|eapply int_numch; eauto]. n1.
  - apply Forall_app. split; [eapply fixed_numch; eauto|]. apply Forall_app. split; [|eapply int_numch; eauto]. n1.
Qed.

Definition no_digit_first (t : str) : Prop := match t with [] => True | c :: _ => digval c = None end.
(** the mantissa *)
Lemma parse_mant neg ip dot fp rest z : Forall digit ip -> Forall digit fp -> (dot = L "." \/ (dot = [] /\ fp = [])) -> ip ++ fp <> [] ->
  no_digit_first rest -> (forall t, rest <> 46%N :: t) -> parse_exp rest = Some z ->
  parse_dec neg (ip ++ dot ++ fp ++ rest) = Some (FDec (signed neg (decimal_value (ip ++ fp))) (z - Z.of_nat (List.length fp))).
Proof.
  intros Hi Hf Hd Hne Hr Hdot Hz. unfold parse_dec.
  rewrite digit_run_ascii; [|apply digit_ascii; auto|destruct Hd as [->|[-> ->]]; [reflexivity|exact Hr]].
  assert (M : match dot ++ fp ++ rest return list N * str with c :: t => if (c =? 46)%N return list N * str then digit_run t else (([] : list N), (dot ++ fp ++ rest : str)) | [] => (([] : list N), (dot ++ fp ++ rest : str)) end
              = (map (fun c => (c - 48)%N) fp, rest)).
  { destruct Hd as [->|[-> ->]]; cbn [app map].
    - change (L "." ++ fp ++ rest) with (46%N :: fp ++ rest). cbv iota. change (46 =? 46)%N with true. cbv iota. apply digit_run_ascii; [apply digit_ascii; auto|exact Hr].
    - destruct rest as [|c t]; [reflexivity|]. destruct (c =? 46)%N eqn:Q; [apply N.eqb_eq in Q; subst c; destruct (Hdot t eq_refl)|reflexivity]. }
  cbv iota beta. rewrite M. cbv iota beta. rewrite <- map_app. destruct (map (fun c => (c - 48)%N) (ip ++ fp)) as [|d ds] eqn:Em; [destruct (ip ++ fp); [congruence|discriminate]|].
  rewrite Hz. rewrite <- Em. unfold len. rewrite map_length. rewrite decimal_dval. reflexivity.
Qed.
Lemma lower_first c t b : b = c :: t -> numch c -> lower b <> L "inf" /\ lower b <> L "infinity" /\ lower b <> L "nan".
Proof.
  intros -> H. apply numch_list in H. assert (Q : lower_c c <> 105%N /\ lower_c c <> 110%N).
  { cbn [In] in H. repeat (destruct H as [<-|H]; [split; discriminate|]). destruct H. }
  change (lower (c :: t)) with (lower_c c :: lower t). split; [|split]; intros Q'.
  - change (L "inf") with (105%N :: L "nf") in Q'. injection Q' as Q' _. tauto.
  - change (L "infinity") with (105%N :: L "nfinity") in Q'. injection Q' as Q' _. tauto.
  - change (L "nan") with (110%N :: L "an") in Q'. injection Q' as Q' _. tauto.
Qed.
Lemma py_float_body sg neg b f : sign_text sg neg -> Forall numch b -> b <> [] -> (forall c t, b = c :: t -> c <> 43%N /\ c <> 45%N) -> parse_dec neg b = Some f -> py_float (sg ++ b) = Ok f.
Proof.
  intros Hs Hb Hne Hf Hp. unfold py_float. assert (Hn : Forall numch (sg ++ b)) by (apply Forall_app; split; [eapply sign_numch; eauto|auto]).
  rewrite strip_by_id by (apply numch_tight; auto). rewrite drop_us_none by (apply numch_no_us; auto). rewrite (sign_text_of _ _ _ Hs) by auto. cbv zeta iota.
  destruct b as [|c t] eqn:Eb; [congruence|]. rewrite <- Eb in *. destruct (lower_first c t b Eb) as (H1 & H2 & H3); [rewrite Eb in Hb; inversion Hb; auto|].
  destruct (seqb (lower b) (L "inf")) eqn:Q1; [apply seqb_eq in Q1; congruence|]. destruct (seqb (lower b) (L "infinity")) eqn:Q2; [apply seqb_eq in Q2; congruence|].
  destruct (seqb (lower b) (L "nan")) eqn:Q3; [apply seqb_eq in Q3; congruence|]. cbn [orb]. rewrite Hp. reflexivity.
Qed.
Lemma mant_first ip dot fp rest : Forall digit ip -> Forall digit fp -> (dot = L "." \/ (dot = [] /\ fp = [])) -> ip ++ fp <> [] ->
  forall c t, ip ++ dot ++ fp ++ rest = c :: t -> c <> 43%N /\ c <> 45%N.
Proof.
  intros Hi Hf Hd Hne c t Ec. destruct ip as [|x ip].
  - destruct Hd as [->|[-> ->]]; [|cbn in Hne; congruence]. cbn [app] in Ec. injection Ec as <- _. split; discriminate.
  - cbn [app] in Ec. injection Ec as <- _. inversion Hi. apply digit_not_sign; auto.
Qed.
Lemma mant_ne ip dot fp rest : (dot = L "." \/ (dot = [] /\ fp = [])) -> ip ++ fp <> [] -> ip ++ dot ++ fp ++ rest <> ([] : str).
Proof. intros Hd Hne Q. destruct ip; [|discriminate]. destruct Hd as [->|[-> ->]]; [discriminate|]. cbn in Hne. congruence. Qed.
Lemma py_float_text t m e : float_text t m e -> py_float t = Ok (FDec m e).
Proof.
  intros [(sg & neg & ip & dot & fp & Hs & Hi & Hf & Hd & Hne & -> & -> & ->)|(t0 & x & e0 & z & (sg & neg & ip & dot & fp & Hs & Hi & Hf & Hd & Hne & -> & -> & ->) & Hx & Ht & ->)].
  - replace (ip ++ dot ++ fp) with (ip ++ dot ++ fp ++ []) by (rewrite app_nil_r; reflexivity).
    apply (py_float_body sg neg); auto.
    + rewrite app_nil_r. apply Forall_app. split; [apply digits_numch; auto|]. apply Forall_app. split; [|apply digits_numch; auto]. destruct Hd as [->|[-> _]]; n1.
    + apply mant_ne; auto.
    + apply mant_first; auto.
    + rewrite (parse_mant neg ip dot fp [] 0); auto; [exact I|discriminate].
  - assert (Q : exists c, (c = 101%N \/ c = 69%N) /\ t = sg ++ (ip ++ dot ++ fp ++ c :: x)).
    { destruct Ht as [->| ->]; [exists 101%N|exists 69%N]; (split; [auto|]); rewrite <- !app_assoc; reflexivity. }
    destruct Q as (c & Hc & ->). apply (py_float_body sg neg); auto.
    + apply Forall_app. split; [apply digits_numch; auto|]. apply Forall_app. split; [destruct Hd as [->|[-> _]]; n1|].
      apply Forall_app. split; [apply digits_numch; auto|]. constructor; [right; destruct Hc as [->| ->]; cbn; tauto|eapply int_numch; eauto].
    + apply mant_ne; auto.
    + apply mant_first; auto.
    + rewrite (parse_mant neg ip dot fp (c :: x) z); auto; [f_equal; f_equal; lia|destruct Hc as [->| ->]; reflexivity|destruct Hc as [->| ->]; discriminate|].
      unfold parse_exp. replace ((c =? 101) || (c =? 69))%N with true by (destruct Hc as [->| ->]; reflexivity).
      destruct Hx as (sx & nx & dx & Hsx & Hnx & Hdx & -> & ->). rewrite (sign_text_of _ _ _ Hsx) by (intros y u ->; inversion Hdx; apply digit_not_sign; auto).
      pose proof (digit_run_ascii dx [] (digit_ascii _ Hdx) I) as Dr. rewrite app_nil_r in Dr. rewrite Dr.
      destruct (map (fun c => (c - 48)%N) dx) as [|d ds] eqn:Em; [destruct dx; [congruence|discriminate]|]. rewrite <- Em, decimal_dval. reflexivity.
Qed.
