From Coq Require Import String Lia ZifyBool ZifyNat ZifyN.
From Verif Require Import Uni Py PyFacts NumFacts Time SpecText SpecTime TextFacts.
Import ListNotations.
Local Open Scope list_scope.
Local Open Scope Z_scope.
Ltac Zify.zify_post_hook ::= Z.div_mod_to_equations.

(** case analysis over a bounded integer *)
Lemma in_seqZ lo n v : lo <= v < lo + Z.of_nat n -> In v (map (fun k => lo + Z.of_nat k) (seq 0 n)).
Proof.
  intros H. apply in_map_iff. exists (Z.to_nat (v - lo)). split; [lia|]. apply in_seq. lia.
Qed.
Ltac enum v lo n :=
  let H := fresh in
  assert (H : In v (map (fun k => lo + Z.of_nat k) (seq 0 n))) by (apply in_seqZ; lia);
  let r := eval vm_compute in (map (fun k => lo + Z.of_nat k) (seq 0 n)) in
  change (In v r) in H; simpl in H;
  repeat (destruct H as [<-|H]); [..|destruct H].

(* -- characters -- *)
Lemma space_values c : is_space c = true ->
  In c [9;10;11;12;13;28;29;30;31;32;133;160;5760;8192;8193;8194;8195;8196;8197;8198;8199;8200;8201;8202;8232;8233;8239;8287;12288]%N.
Proof.
  intros H. unfold is_space in H. apply in_ranges_In in H. destruct H as (r & Hr & Hc). simpl in Hr.
  repeat (destruct Hr as [<-|Hr]; [simpl in Hc; simpl; lia|]). destruct Hr.
Qed.
Lemma space_not_dec c : is_space c = true -> is_dec c = false.
Proof.
  intros H. apply space_values in H. simpl in H. repeat (destruct H as [<-|H]; [reflexivity|]). destruct H.
Qed.
Lemma digval_le c d : digval c = Some d -> (d <= 9)%N.
Proof.
  unfold digval. generalize decimal_zeros. induction l as [|z l IH]; simpl; [discriminate|].
  destruct ((z <=? c) && (c <? z + 10))%N eqn:E; auto. intros H; inversion H; subst. lia.
Qed.
Lemma dv_ch v : 0 <= v <= 9 -> dv (ch v) = v /\ is_dec (ch v) = true.
Proof. intros H. enum v 0 10%nat; split; reflexivity. Qed.

(** the first character of what follows a field is no digit *)
Definition nodig (t : str) : Prop := match t with [] => True | c :: _ => is_dec c = false end.
Lemma take_field_two two1 one v t : 0 <= v <= 99 -> two1 (ch (v / 10)) (ch (v mod 10)) = true ->
  take_field two1 one (two v ++ t) = Some (v, t).
Proof.
  intros H H2. unfold two. cbn [app take_field]. rewrite H2.
  destruct (dv_ch (v / 10)) as [-> _]; [lia|]. destruct (dv_ch (v mod 10)) as [-> _]; [lia|].
  f_equal. f_equal. lia.
Qed.
Lemma take_field_one two1 one v t : 0 <= v <= 9 -> one (ch v) = true -> nodig t ->
  (forall c1 c2, is_dec c2 = false -> two1 c1 c2 = false) ->
  take_field two1 one ([ch v] ++ t) = Some (v, t).
Proof.
  intros H H1 Ht H2. destruct (dv_ch v H) as [D _]. destruct t as [|c t]; cbn [app take_field].
  - rewrite H1, D; auto.
  - rewrite H2, H1, D; auto.
Qed.
Lemma asc_dec lo hi c : asc lo hi c = true -> (hi <= 9)%N -> is_dec c = true.
Proof. unfold asc; intros. apply is_dec_ascii. unfold ascii_digit. lia. Qed.
Ltac no_two := intros c1 c2 Hc; unfold two_d, two_H, two_M, two_S, two_m;
  repeat match goal with
  | |- context [asc ?a ?b c2] => let E := fresh "E" in destruct (asc a b c2) eqn:E; [apply asc_dec in E; [congruence|lia]|]
  end; rewrite ?Hc, ?andb_false_r; reflexivity.
Lemma take_field_ok two1 one lo hi v f t :
  (forall c1 c2, is_dec c2 = false -> two1 c1 c2 = false) ->
  (forall v, lo <= v <= hi -> v <= 99 -> two1 (ch (v / 10)) (ch (v mod 10)) = true) ->
  (forall v, lo <= v <= hi -> v <= 9 -> one (ch v) = true) ->
  lo <= v <= hi -> field v f -> nodig t -> take_field two1 one (f ++ t) = Some (v, t).
Proof.
  intros Hn H2 H1 Hv Hf Ht. destruct Hf as [H|H].
  - apply take_field_one; auto. apply H1; auto; lia.
  - apply take_field_two; auto. apply H2; auto; lia.
Qed.
Ltac small_enum := let u := fresh "u" in let Hv := fresh in intros u Hv ?; match type of Hv with ?lo <= _ <= ?hi =>
   let n := eval compute in (Z.to_nat (hi - lo + 1)) in enum u lo n; try reflexivity; try lia end.
Lemma take_mday_ok v f t : 1 <= v <= 31 -> field v f -> nodig t -> take_mday (f ++ t) = Some (v, t).
Proof. intros. apply (take_field_ok two_d (asc 1 9) 1 31); auto; [no_two|small_enum|small_enum]. Qed.
Lemma take_hour_ok v f t : 0 <= v <= 23 -> field v f -> nodig t -> take_hour (f ++ t) = Some (v, t).
Proof. intros. apply (take_field_ok two_H is_dec 0 23); auto; [no_two|small_enum|small_enum]. Qed.
Lemma take_min_ok v f t : 0 <= v <= 59 -> field v f -> nodig t -> take_min (f ++ t) = Some (v, t).
Proof. intros. apply (take_field_ok two_M is_dec 0 59); auto; [no_two|small_enum|small_enum]. Qed.
Lemma take_sec_ok v f t : 0 <= v <= 61 -> field v f -> nodig t -> take_sec (f ++ t) = Some (v, t).
Proof. intros. apply (take_field_ok two_S is_dec 0 61); auto; [no_two|small_enum|small_enum]. Qed.
Lemma take_mon_ok v f t : 1 <= v <= 12 -> field v f -> nodig t -> take_mon (f ++ t) = Some (v, t).
Proof. intros. apply (take_field_ok two_m (asc 1 9) 1 12); auto; [no_two|small_enum|small_enum]. Qed.

Lemma gap_take g t : gap g -> (match t with [] => True | c :: _ => is_space c = false end) -> take_ws (g ++ t) = Some t.
Proof.
  intros [Hne Hb] Ht. destruct g as [|c g]; [congruence|]. inversion Hb; subst. cbn [app take_ws]. rewrite H1.
  f_equal. apply lstrip_by_app; auto. apply blank_forallb; auto.
Qed.
Lemma gap_nodig g t : gap g -> nodig (g ++ t).
Proof. intros [Hne Hb]. destruct g as [|c g]; [congruence|]. inversion Hb; subst. simpl. apply space_not_dec; auto. Qed.
Definition nosp (t : str) : Prop := match t with [] => True | c :: _ => is_space c = false end.
Lemma field_nosp v f t : field v f -> nosp (f ++ t).
Proof.
  intros H. destruct H; simpl.
  - enum v 0 10%nat; reflexivity.
  - set (k := v / 10). assert (0 <= k <= 9) by lia. clearbody k. enum k 0 10%nat; reflexivity.
Qed.

(* -- names -- *)
Lemma lower3 w n : lower w = n -> List.length n = 3%nat -> exists a b c, w = [a; b; c].
Proof.
  intros <- H. unfold lower in H. rewrite map_length in H. destruct w as [|a [|b [|c [|d w]]]]; try discriminate. eauto.
Qed.
Lemma index_of_In x l i : In x l -> exists k, index_of x l i = Some k.
Proof.
  revert i; induction l as [|y l IH]; intros i; simpl; [tauto|]. intros [->|H].
  - rewrite seqb_refl; eauto.
  - destruct (seqb x y); eauto.
Qed.
Lemma index_of_nth x l i n : NoDup l -> nth_error l n = Some x -> index_of x l i = Some (i + Z.of_nat n).
Proof.
  revert i n; induction l as [|y l IH]; intros i n Hd Hn; [destruct n; discriminate|].
  inversion Hd; subst. destruct n as [|n]; simpl in *.
  - inversion Hn; subst. rewrite seqb_refl. f_equal; lia.
  - destruct (seqb x y) eqn:E.
    + apply seqb_eq in E; subst. exfalso. apply H1. eapply nth_error_In; eauto.
    + rewrite (IH (i + 1) n) by auto. f_equal; lia.
Qed.
Lemma take_day_ok w t : day_name w -> exists k, take_name day_names (w ++ t) = Some (k, t).
Proof.
  intros H. unfold day_name in H. assert (Hl : List.length (lower w) = 3%nat).
  { simpl in H. repeat (destruct H as [<-|H]; [reflexivity|]). destruct H. }
  destruct (lower3 w _ eq_refl Hl) as (a & b & c & ->). cbn [app take_name].
  destruct (index_of_In _ _ 0 H) as [k Hk]. exists k. unfold day_names. rewrite Hk; auto.
Qed.
Lemma nodup_months : NoDup month_names.
Proof.
  unfold month_names. repeat (constructor; [intros Q; vm_compute in Q;
    repeat match goal with H : _ \/ _ |- _ => destruct H as [H|H] end; try discriminate; try contradiction|]). constructor.
Qed.
Lemma take_month_ok m w t : month_name m w -> take_name month_names (w ++ t) = Some (m - 1, t).
Proof.
  intros [H1 H]. assert (Hl : List.length (lower w) = 3%nat).
  { assert (Hin : In (lower w) month_names) by (eapply nth_error_In; eauto). unfold month_names in Hin. simpl in Hin.
    repeat (destruct Hin as [<-|Hin]; [reflexivity|]). destruct Hin. }
  destruct (lower3 w _ eq_refl Hl) as (a & b & c & ->). cbn [app take_name].
  rewrite (index_of_nth _ month_names 0 (Z.to_nat (m - 1)) nodup_months H). f_equal. f_equal. lia.
Qed.
Lemma lower_letter c : (97 <= lower_c c <= 122)%N -> is_space c = false.
Proof.
  unfold lower_c, in_range; simpl. intros H.
  assert (~ In c [9;10;11;12;13;28;29;30;31;32;133;160;5760;8192;8193;8194;8195;8196;8197;8198;8199;8200;8201;8202;8232;8233;8239;8287;12288]%N).
  { destruct ((65 <=? c) && (c <=? 90))%N eqn:E; simpl; lia. }
  destruct (is_space c) eqn:E; auto. apply space_values in E. contradiction.
Qed.
Lemma month_name_nosp m w t : month_name m w -> nosp (w ++ t).
Proof.
  intros [_ H]. assert (Hin : In (lower w) month_names) by (eapply nth_error_In; eauto).
  assert (F : Forall (fun n => exists x r, n = x :: r /\ (97 <= x <= 122)%N) month_names).
  { unfold month_names. repeat (constructor; [vm_compute; do 2 eexists; split; [reflexivity|split; discriminate]|]). constructor. }
  rewrite Forall_forall in F. apply F in Hin. destruct Hin as (x & r & Hx & Hr).
  destruct w as [|c w]; [discriminate|]. cbn [lower map] in Hx. simpl. apply lower_letter.
  assert (lower_c c = x) by congruence. lia.
Qed.
Lemma month_name_range m w : month_name m w -> 1 <= m <= 12.
Proof.
  intros [H1 H]. apply nth_error_Some in H || (assert (Q : nth_error month_names (Z.to_nat (m - 1)) <> None) by (unfold month_names; congruence);
  apply nth_error_Some in Q; simpl in Q; lia).
Qed.
Lemma calendar_valid y m d : calendar y m d -> valid_date y m d = true /\ 1 <= d <= 31 /\ 1 <= m <= 12.
Proof.
  intros (Hy & n & Hn & Hd). unfold valid_date.
  assert (Hm : month_days y m = n /\ 1 <= m <= 12).
  { unfold month_days. destruct Hn as [[Hn ->]|[[Hn ->]|[(-> & Hl & ->)|(-> & Hl & ->)]]].
    - simpl in Hn. repeat (destruct Hn as [<-|Hn]; [split; [reflexivity|lia]|]). destruct Hn.
    - simpl in Hn. repeat (destruct Hn as [<-|Hn]; [split; [reflexivity|lia]|]). destruct Hn.
    - split; [|lia]. replace (2 =? 2) with true by auto. replace (leap y) with true; auto.
      symmetry. unfold leap. destruct Hl as [[H1 H2]|H1].
      + apply Z.mod_divide in H1; [|lia]. rewrite H1.
        destruct (y mod 100 =? 0) eqn:E; simpl; auto. exfalso; apply H2; apply Z.mod_divide; lia.
      + apply Z.mod_divide in H1; [|lia]. rewrite H1. apply orb_true_r.
    - split; [|lia]. replace (2 =? 2) with true by auto. replace (leap y) with false; auto.
      symmetry. unfold leap. apply orb_false_iff. split.
      + destruct (y mod 4 =? 0) eqn:E1; simpl; auto. destruct (y mod 100 =? 0) eqn:E2; simpl; auto.
        exfalso. apply Hl. left. split; [apply Z.mod_divide; lia|]. intros Q. apply Z.mod_divide in Q; lia.
      + destruct (y mod 400 =? 0) eqn:E; auto. exfalso. apply Hl. right. apply Z.mod_divide; lia. }
  destruct Hm as [Hm1 Hm2]. rewrite Hm1. split; [lia|]. split; auto.
  assert (n <= 31) by (destruct Hn as [[_ ->]|[[_ ->]|[(_ & _ & ->)|(_ & _ & ->)]]]; lia). lia.
Qed.
Lemma take_Y_ok y : 1 <= y <= 9999 -> take_Y (four y) = Some (y, []).
Proof.
  intros H. unfold four, take_Y.
  destruct (dv_ch (y / 1000)) as [D1 ->]; [lia|]. destruct (dv_ch (y / 100 mod 10)) as [D2 ->]; [lia|].
  destruct (dv_ch (y / 10 mod 10)) as [D3 ->]; [lia|]. destruct (dv_ch (y mod 10)) as [D4 ->]; [lia|].
  cbn [andb]. rewrite D1, D2, D3, D4. f_equal. f_equal. lia.
Qed.
Lemma two_digits_two v : 0 <= v <= 99 -> two_digits v = two v.
Proof. intros H. enum v 0 100%nat; reflexivity. Qed.
Lemma strftime_iso_ok y m d h mi se wd : 1 <= m <= 12 -> 1 <= d <= 31 -> clock h mi se ->
  strftime_iso (mk_tm y m d h mi se wd) = iso y m d h mi se.
Proof.
  intros Hm Hd (H1 & H2 & H3). unfold strftime_iso, iso. cbn [year mon mday hour minute sec].
  rewrite !two_digits_two by lia. auto.
Qed.
Lemma take_colon x : take_c 58%N (L ":" ++ x) = Some x. Proof. reflexivity. Qed.
Lemma take_slash x : take_c 47%N (L "/" ++ x) = Some x. Proof. reflexivity. Qed.
Lemma C37_parse_spec s y m d h mi se : calendar y m d -> clock h mi se -> spec_date s y m d h mi se ->
  exists wd, parse_spec s = Some (mk_tm y m d h mi se wd).
Proof.
  intros Hc Hk (wd & g1 & mo & g2 & fd & g3 & fh & fm & fs & g4 & -> & Hwd & Hmo & Hfd & Hfh & Hfm & Hfs & G1 & G2 & G3 & G4).
  destruct (calendar_valid _ _ _ Hc) as (V & Hd & Hm). destruct Hk as (Hh & Hmi & Hse). destruct Hc as (Hy & _).
  unfold parse_spec.
  destruct (take_day_ok wd (g1 ++ mo ++ g2 ++ fd ++ g3 ++ fh ++ L ":" ++ fm ++ L ":" ++ fs ++ g4 ++ four y) Hwd) as [k ->].
  rewrite gap_take; [|auto|eapply month_name_nosp; eauto].
  rewrite (take_month_ok m mo _ Hmo).
  rewrite gap_take; [|auto|eapply field_nosp; eauto].
  rewrite (take_mday_ok d fd); [|auto|auto|apply gap_nodig; auto].
  rewrite gap_take; [|auto|eapply field_nosp; eauto].
  rewrite (take_hour_ok h fh); [|auto|auto|reflexivity].
  rewrite take_colon.
  rewrite (take_min_ok mi fm); [|auto|auto|reflexivity].
  rewrite take_colon.
  rewrite (take_sec_ok se fs); [|auto|auto|apply gap_nodig; auto].
  assert (F4 : nosp (four y)).
  { unfold four, nosp. set (q := y / 1000). assert (0 <= q <= 9) by lia. clearbody q. enum q 0 10%nat; reflexivity. }
  rewrite gap_take; [|auto|exact F4]. rewrite take_Y_ok by auto.
  replace (m - 1 + 1) with m by lia. rewrite V. eauto.
Qed.
Lemma C37_spec_lemma s y m d h mi se : calendar y m d -> clock h mi se -> spec_date s y m d h mi se ->
  iso8601 s = Ok (iso y m d h mi se).
Proof.
  intros Hc Hk Hs. destruct (C37_parse_spec s y m d h mi se Hc Hk Hs) as [wd P]. unfold iso8601. rewrite P.
  destruct (calendar_valid _ _ _ Hc) as (V & Hd & Hm). rewrite strftime_iso_ok; auto.
Qed.
Lemma take_y_ok y t : 1969 <= y <= 2068 -> take_y (two (y mod 100) ++ t) = Some (y, t).
Proof.
  intros H. unfold two. set (v := y mod 100). assert (0 <= v <= 99) by (unfold v; lia).
  cbn [app take_y]. destruct (dv_ch (v / 10)) as [D1 ->]; [lia|]. destruct (dv_ch (v mod 10)) as [D2 ->]; [lia|].
  cbn [andb]. rewrite D1, D2. replace (10 * (v / 10) + v mod 10) with v by lia. unfold v in *.
  destruct (y mod 100 <=? 68) eqn:E; f_equal; f_equal; lia.
Qed.
Lemma digit_no_name c names t : asc 0 9 c = true -> Forall (fun n => exists x r, n = x :: r /\ (97 <= x)%N) names ->
  take_name names (c :: t) = None.
Proof.
  intros Hc Hn. unfold take_name. destruct t as [|b [|d t]]; auto.
  replace (index_of (lower [c; b; d]) names 0) with (@None Z); auto. symmetry.
  generalize 0. induction Hn as [|n names (x & r & -> & Hx) Hn IH]; intros i; cbn [index_of]; auto.
  unfold lower; cbn [map seqb]. unfold lower_c at 1, in_range. cbn [fst snd]. unfold asc in Hc.
  destruct ((65 <=? c) && (c <=? 90))%N eqn:E; [lia|].
  destruct (c =? x)%N eqn:E2; [lia|]. cbn [andb]. apply IH.
Qed.
Lemma C37_spock_lemma s y m d h mi se : calendar y m d -> clock h mi se -> spock_date s y m d h mi se ->
  iso8601 s = Ok (iso y m d h mi se).
Proof.
  intros Hc Hk (fmo & fd & g & fh & fm & fs & -> & Hy & Hfmo & Hfd & Hfh & Hfm & Hfs & G).
  destruct (calendar_valid _ _ _ Hc) as (V & Hd & Hm). destruct Hk as (Hh & Hmi & Hse).
  unfold iso8601.
  assert (P1 : forall t, parse_spec (fmo ++ t) = None).
  { intros t. unfold parse_spec. replace (take_name day_names (fmo ++ t)) with (@None (Z * str)); auto. symmetry.
    assert (X : exists c r, fmo ++ t = c :: r /\ asc 0 9 c = true).
    { destruct Hfmo as [Q|Q]; unfold two; simpl; do 2 eexists; (split; [reflexivity|]); unfold asc, ch; lia. }
    destruct X as (c & r & -> & Hc'). apply digit_no_name; auto.
    unfold day_names. repeat (constructor; [vm_compute; do 2 eexists; split; [reflexivity|discriminate]|]). constructor. }
  rewrite P1. unfold parse_spock.
  rewrite (take_mon_ok m fmo); [|auto|auto|reflexivity].
  rewrite take_slash.
  assert (D : exists c r, fd = c :: r /\ (c =? SP)%N = false).
  { destruct Hfd as [Q|Q]; unfold two; do 2 eexists; (split; [reflexivity|]); unfold ch, SP; lia. }
  destruct D as (c & r & Hfd' & HcSP). rewrite Hfd' at 1. cbn [app]. rewrite HcSP.
  rewrite (take_mday_ok d fd); [|auto|auto|reflexivity].
  rewrite take_slash.
  rewrite take_y_ok by auto.
  rewrite gap_take; [|auto|eapply field_nosp; eauto].
  rewrite (take_hour_ok h fh); [|auto|auto|reflexivity].
  rewrite take_colon.
  rewrite (take_min_ok mi fm); [|auto|auto|reflexivity].
  rewrite take_colon.
  rewrite <- (app_nil_r fs). rewrite (take_sec_ok se fs); [|auto|auto|reflexivity].
  rewrite V. rewrite strftime_iso_ok; auto. unfold clock; auto.
Qed.

(* -- soundness: what is accepted -- *)
Lemma dec_digit c : is_dec c = true -> digit (dv c) c /\ 0 <= dv c <= 9.
Proof.
  unfold is_dec, dv, digit. destruct (digval c) as [d|] eqn:E; [|discriminate]. intros _.
  pose proof (digval_le _ _ E). split; [exists d; auto|lia].
Qed.
Lemma asc_digit lo hi c : asc lo hi c = true -> (hi <= 9)%N ->
  digit (dv c) c /\ Z.of_N lo <= dv c <= Z.of_N hi.
Proof.
  unfold asc; intros H Hh. assert (A : ascii_digit c) by (unfold ascii_digit; lia).
  unfold digit, dv. rewrite (digval_ascii c A). split; [eauto|lia].
Qed.
Definition tf_sound two1 one lo hi :=
  (forall c1 c2, two1 c1 c2 = true -> digit (dv c1) c1 /\ digit (dv c2) c2 /\ lo <= 10 * dv c1 + dv c2 <= hi) /\
  (forall c, one c = true -> digit (dv c) c /\ lo <= dv c <= hi).
Lemma take_field_sound two1 one lo hi s v r : tf_sound two1 one lo hi -> take_field two1 one s = Some (v, r) ->
  exists f, s = f ++ r /\ gfield v f /\ lo <= v <= hi.
Proof.
  intros [H2 H1] H. destruct s as [|c1 [|c2 t]]; simpl in H; [discriminate| |].
  - destruct (one c1) eqn:E; [|discriminate]. inversion H; subst. exists [c1]. apply H1 in E. destruct E.
    split; auto. split; auto. constructor; auto.
  - destruct (two1 c1 c2) eqn:E.
    + inversion H; subst. apply H2 in E. destruct E as (E1 & E2 & E3). exists [c1; c2]. split; auto. split; auto.
      apply (gfield_two _ (dv c1) (dv c2)); auto.
    + destruct (one c1) eqn:E1; [|discriminate]. inversion H; subst. exists [c1]. apply H1 in E1. destruct E1.
      split; auto. split; auto. constructor; auto.
Qed.
Ltac tf := split; [intros c1 c2 Hc; unfold two_d, two_H, two_M, two_S, two_m in Hc;
    rewrite ?orb_true_iff, ?andb_true_iff in Hc;
    repeat match goal with
      | H : _ \/ _ |- _ => destruct H
      | H : _ /\ _ |- _ => destruct H
      | H : asc _ _ _ = true |- _ => apply asc_digit in H; [destruct H|lia]
      | H : is_dec _ = true |- _ => apply dec_digit in H; destruct H
    end; repeat split; auto; lia
  | intros c Hc; first [apply asc_digit in Hc; [destruct Hc; split; auto; lia|lia] | apply dec_digit in Hc; destruct Hc; split; auto; lia]].
Lemma mday_sound : tf_sound two_d (asc 1 9) 1 31. Proof. tf. Qed.
Lemma hour_sound : tf_sound two_H is_dec 0 23. Proof. tf. Qed.
Lemma min_sound : tf_sound two_M is_dec 0 59. Proof. tf. Qed.
Lemma sec_sound : tf_sound two_S is_dec 0 61. Proof. tf. Qed.
Lemma mon_sound : tf_sound two_m (asc 1 9) 1 12. Proof. tf. Qed.
Lemma take_ws_sound s r : take_ws s = Some r -> exists g, s = g ++ r /\ gap g.
Proof.
  destruct s as [|c t]; simpl; [discriminate|]. destruct (is_space c) eqn:E; [|discriminate].
  intros H; inversion H; subst. destruct (lstrip_by_split is_space t) as (a & Ha & Hb & _).
  exists (c :: a). split; [simpl; unfold lstrip; congruence|]. split; [discriminate|].
  constructor; auto. apply blank_forallb; auto.
Qed.
Lemma take_c_sound c s r : take_c c s = Some r -> s = [c] ++ r.
Proof.
  destruct s as [|x t]; simpl; [discriminate|]. destruct (x =? c)%N eqn:E; [|discriminate].
  apply N.eqb_eq in E. intros H; inversion H; subst; auto.
Qed.
Lemma index_of_sound x l i k : index_of x l i = Some k -> exists n, k = i + Z.of_nat n /\ nth_error l n = Some x.
Proof.
  revert i; induction l as [|y l IH]; intros i; simpl; [discriminate|].
  destruct (seqb x y) eqn:E.
  - apply seqb_eq in E; subst. intros H; inversion H; subst. exists 0%nat. split; [lia|auto].
  - intros H. apply IH in H. destruct H as (n & -> & Hn). exists (S n). split; [lia|auto].
Qed.
Lemma take_name_sound names s k r : take_name names s = Some (k, r) ->
  exists w, s = w ++ r /\ exists n, k = Z.of_nat n /\ nth_error names n = Some (lower w).
Proof.
  unfold take_name. destruct s as [|a [|b [|c t]]]; try discriminate.
  destruct (index_of _ _ _) eqn:E; [|discriminate]. intros H; inversion H; subst.
  apply index_of_sound in E. destruct E as (n & -> & Hn). exists [a; b; c]. split; auto. exists n. split; [lia|auto].
Qed.
Lemma valid_calendar y m d : valid_date y m d = true -> calendar y m d.
Proof.
  unfold valid_date. rewrite !andb_true_iff. intros [[[[[H1 H2] H3] H4] H5] H6]. split; [lia|].
  exists (month_days y m). split; [|lia]. unfold month_days. assert (Hm : 1 <= m <= 12) by lia.
  unfold month_length. destruct (m =? 2) eqn:E2.
  - assert (m = 2) by lia. subst. unfold leap.
    destruct ((y mod 4 =? 0) && negb (y mod 100 =? 0) || (y mod 400 =? 0)) eqn:E.
    + right; right; left. repeat split; auto. unfold leap_year. apply orb_true_iff in E. destruct E as [E|E].
      * apply andb_true_iff in E. destruct E as [Ea Eb]. left. split; [apply Z.mod_divide; lia|].
        intros Q. apply Z.mod_divide in Q; lia.
      * right. apply Z.mod_divide; lia.
    + right; right; right. repeat split; auto. intros [[Qa Qb]|Q].
      * apply Z.mod_divide in Qa; [|lia]. assert (y mod 100 <> 0) by (intros X; apply Qb; apply Z.mod_divide; lia). lia.
      * apply Z.mod_divide in Q; lia.
  - simpl. enum m 1 12%nat; simpl; auto 12; try discriminate.
Qed.
Lemma parse_spec_sound s t : parse_spec s = Some t ->
  calendar (year t) (mon t) (mday t) /\ clock (hour t) (minute t) (sec t) /\
  any_spec_date s (year t) (mon t) (mday t) (hour t) (minute t) (sec t).
Proof.
  unfold parse_spec. intros H.
  destruct (take_name day_names s) as [[wd s1]|] eqn:E1; [|discriminate].
  destruct (take_ws s1) as [s2|] eqn:E2; [|discriminate].
  destruct (take_name month_names s2) as [[mo s3]|] eqn:E3; [|discriminate].
  destruct (take_ws s3) as [s4|] eqn:E4; [|discriminate].
  destruct (take_mday s4) as [[d s5]|] eqn:E5; [|discriminate].
  destruct (take_ws s5) as [s6|] eqn:E6; [|discriminate].
  destruct (take_hour s6) as [[h s7]|] eqn:E7; [|discriminate].
  destruct (take_c 58%N s7) as [s8|] eqn:E8; [|discriminate].
  destruct (take_min s8) as [[mi s9]|] eqn:E9; [|discriminate].
  destruct (take_c 58%N s9) as [s10|] eqn:E10; [|discriminate].
  destruct (take_sec s10) as [[se s11]|] eqn:E11; [|discriminate].
  destruct (take_ws s11) as [s12|] eqn:E12; [|discriminate].
  destruct (take_Y s12) as [[y s13]|] eqn:E13; [|discriminate].
  destruct s13; [|discriminate]. destruct (valid_date y (mo + 1) d) eqn:V; [|discriminate].
  inversion H; subst t; clear H. cbn [year mon mday hour minute sec].
  apply take_name_sound in E1. destruct E1 as (w1 & -> & n1 & -> & N1).
  apply take_ws_sound in E2. destruct E2 as (g1 & -> & G1).
  apply take_name_sound in E3. destruct E3 as (w2 & -> & n2 & -> & N2).
  apply take_ws_sound in E4. destruct E4 as (g2 & -> & G2).
  apply (take_field_sound _ _ _ _ _ _ _ mday_sound) in E5. destruct E5 as (fd & -> & F1 & R1).
  apply take_ws_sound in E6. destruct E6 as (g3 & -> & G3).
  apply (take_field_sound _ _ _ _ _ _ _ hour_sound) in E7. destruct E7 as (fh & -> & F2 & R2).
  apply take_c_sound in E8. subst s7.
  apply (take_field_sound _ _ _ _ _ _ _ min_sound) in E9. destruct E9 as (fm & -> & F3 & R3).
  apply take_c_sound in E10. subst s9.
  apply (take_field_sound _ _ _ _ _ _ _ sec_sound) in E11. destruct E11 as (fs & -> & F4 & R4).
  apply take_ws_sound in E12. destruct E12 as (g4 & -> & G4).
  split; [apply valid_calendar; auto|]. split; [unfold clock; auto|].
  exists w1, g1, w2, g2, fd, g3, fh, fm, fs, g4, s12. split; [reflexivity|].
  assert (Y : gfour y s12).
  { unfold take_Y in E13. destruct s12 as [|a [|b [|c [|e [|? ?]]]]]; try discriminate.
    destruct (is_dec a && is_dec b && is_dec c && is_dec e) eqn:D; [|discriminate]. rewrite !andb_true_iff in D.
    destruct D as [[[D1 D2] D3] D4]. apply dec_digit in D1, D2, D3, D4.
    inversion E13; subst. exists (dv a), (dv b), (dv c), (dv e), a, b, c, e. intuition.
    destruct (is_dec a && is_dec b && is_dec c && is_dec e); discriminate. }
  assert (Dn : day_name w1) by (unfold day_name; eapply nth_error_In; eauto).
  assert (Mn : month_name (Z.of_nat n2 + 1) w2).
  { split; [lia|]. replace (Z.to_nat (Z.of_nat n2 + 1 - 1)) with n2 by lia. exact N2. }
  tauto.
Qed.
Lemma parse_spock_sound s t : parse_spock s = Some t ->
  calendar (year t) (mon t) (mday t) /\ clock (hour t) (minute t) (sec t) /\
  any_spock_date s (year t) (mon t) (mday t) (hour t) (minute t) (sec t).
Proof.
  unfold parse_spock. intros H.
  destruct (take_mon s) as [[mo s1]|] eqn:E1; [|discriminate].
  destruct (take_c 47%N s1) as [s2|] eqn:E2; [|discriminate].
  match type of H with (match ?x with _ => _ end) = _ => destruct x as [[d s3]|] eqn:E3; [|discriminate] end.
  destruct (take_c 47%N s3) as [s4|] eqn:E4; [|discriminate].
  destruct (take_y s4) as [[y s5]|] eqn:E5; [|discriminate].
  destruct (take_ws s5) as [s6|] eqn:E6; [|discriminate].
  destruct (take_hour s6) as [[h s7]|] eqn:E7; [|discriminate].
  destruct (take_c 58%N s7) as [s8|] eqn:E8; [|discriminate].
  destruct (take_min s8) as [[mi s9]|] eqn:E9; [|discriminate].
  destruct (take_c 58%N s9) as [s10|] eqn:E10; [|discriminate].
  destruct (take_sec s10) as [[se s11]|] eqn:E11; [|discriminate].
  destruct s11; [|discriminate]. destruct (valid_date y mo d) eqn:V; [|discriminate].
  inversion H; subst t; clear H. cbn [year mon mday hour minute sec].
  apply (take_field_sound _ _ _ _ _ _ _ mon_sound) in E1. destruct E1 as (fmo & -> & F0 & R0).
  apply take_c_sound in E2. subst s1.
  assert (D : exists pad fd, s2 = pad ++ fd ++ s3 /\ (pad = [] \/ pad = [SP]) /\ gfield d fd).
  { destruct s2 as [|c r]; [discriminate|]. destruct (c =? SP)%N eqn:Ec.
    - apply N.eqb_eq in Ec; subst. destruct r as [|x r]; [discriminate|]. destruct (asc 1 9 x) eqn:Ex; [|discriminate].
      inversion E3; subst. apply asc_digit in Ex; [|lia]. destruct Ex. exists [SP], [x]. repeat split; auto. constructor; auto.
    - apply (take_field_sound _ _ _ _ _ _ _ mday_sound) in E3. destruct E3 as (fd & -> & F1 & R1).
      exists [], fd. auto. }
  destruct D as (pad & fd & -> & Hp & F1).
  apply take_c_sound in E4. subst s3.
  assert (Y : exists fy, s4 = fy ++ s5 /\ gtwo_year y fy).
  { unfold take_y in E5. destruct s4 as [|a [|b r]]; try discriminate.
    destruct (is_dec a && is_dec b) eqn:Dd; [|discriminate]. apply andb_true_iff in Dd. destruct Dd as [D1 D2].
    apply dec_digit in D1, D2. inversion E5; subst. exists [a; b]. split; auto.
    exists (dv a), (dv b), a, b. intuition. }
  destruct Y as (fy & -> & Y).
  apply take_ws_sound in E6. destruct E6 as (g & -> & G).
  apply (take_field_sound _ _ _ _ _ _ _ hour_sound) in E7. destruct E7 as (fh & -> & F2 & R2).
  apply take_c_sound in E8. subst s7.
  apply (take_field_sound _ _ _ _ _ _ _ min_sound) in E9. destruct E9 as (fm & -> & F3 & R3).
  apply take_c_sound in E10. subst s9.
  apply (take_field_sound _ _ _ _ _ _ _ sec_sound) in E11. destruct E11 as (fs & -> & F4 & R4).
  split; [apply valid_calendar; auto|]. split; [unfold clock; auto|].
  exists fmo, pad, fd, fy, g, fh, fm, fs. split; [rewrite app_nil_r; reflexivity|]. tauto.
Qed.
Lemma calendar_range y m d : calendar y m d -> 1 <= m <= 12 /\ 1 <= d <= 31.
Proof. intros H; apply calendar_valid in H; tauto. Qed.
Lemma C37_only_lemma s : iso8601 s = Raise ValueError \/
  exists y m d h mi se, iso8601 s = Ok (iso y m d h mi se) /\ calendar y m d /\ clock h mi se /\
    (any_spec_date s y m d h mi se \/ any_spock_date s y m d h mi se).
Proof.
  unfold iso8601. destruct (parse_spec s) as [t|] eqn:E1.
  - right. apply parse_spec_sound in E1. destruct E1 as (C & K & S). destruct t as [y m d h mi se wd].
    cbn [year mon mday hour minute sec] in *. exists y, m, d, h, mi, se. split; [|auto].
    f_equal. destruct (calendar_range _ _ _ C). apply strftime_iso_ok; auto.
  - destruct (parse_spock s) as [t|] eqn:E2; [right|left; auto].
    apply parse_spock_sound in E2. destruct E2 as (C & K & S). destruct t as [y m d h mi se wd].
    cbn [year mon mday hour minute sec] in *. exists y, m, d, h, mi, se. split; [|auto].
    f_equal. destruct (calendar_range _ _ _ C). apply strftime_iso_ok; auto.
Qed.
