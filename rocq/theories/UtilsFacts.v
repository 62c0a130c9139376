From Coq Require Import String Lia.
From Verif Require Import Uni Py PyFacts NumFacts Utils SpecText SpecUtils TextFacts.
Import ListNotations.
Local Open Scope list_scope.

(* -- C33 -- *)
Lemma word_95 : is_word 95%N = true. Proof. reflexivity. Qed.
Lemma digit_95 : is_digit 95%N = false. Proof. reflexivity. Qed.
Lemma clean_char_word c : is_word (clean_char c) = true.
Proof.
  unfold clean_char. destruct (is_word c) eqn:E; simpl; auto.
  destruct (c =? 95)%N eqn:E2; auto. apply N.eqb_eq in E2; subst; auto.
Qed.
Lemma clean_char_id c : is_word c = true -> clean_char c = c.
Proof. unfold clean_char; intros ->; auto. Qed.
Lemma clean_char_bad c : is_word c = false -> clean_char c = 95%N.
Proof.
  unfold clean_char; intros H; rewrite H; simpl. destruct (c =? 95)%N eqn:E; auto. apply N.eqb_eq in E; auto.
Qed.
Lemma cleaned_map s : cleaned s (map clean_char s).
Proof.
  induction s as [|c s IH]; simpl; constructor; auto. unfold name_char.
  destruct (is_word c) eqn:E; [left; split; auto; apply clean_char_id; auto|].
  right; split; [congruence|apply clean_char_bad; auto].
Qed.
Lemma C33_empty_lemma : clean_name [] = Raise IndexError.
Proof. reflexivity. Qed.
Lemma C33_lemma s : s <> [] -> exists t u p, clean_name s = Ok t /\ valid_name t /\
  cleaned s u /\ t = p ++ u /\ (p = [] \/ (p = [95%N] /\ exists c r, u = c :: r /\ is_digit c = true)).
Proof.
  intros H. destruct s as [|c s]; [congruence|]. unfold clean_name. simpl map.
  exists (if is_digit (clean_char c) then 95%N :: clean_char c :: map clean_char s else clean_char c :: map clean_char s).
  exists (map clean_char (c :: s)), (if is_digit (clean_char c) then [95%N] else []).
  assert (W : Forall name_char (clean_char c :: map clean_char s)).
  { constructor; [apply clean_char_word|]. rewrite Forall_map, Forall_forall. intros; apply clean_char_word. }
  split; auto. destruct (is_digit (clean_char c)) eqn:E.
  - repeat split; auto; try discriminate.
    + constructor; auto. exact word_95.
    + intros x t Hx; inversion Hx; subst. exact digit_95.
    + apply cleaned_map.
    + right; split; auto. exists (clean_char c), (map clean_char s); auto.
  - repeat split; auto; try discriminate.
    + intros x t Hx; inversion Hx; subst; auto.
    + apply cleaned_map.
Qed.
Lemma C33_id_lemma s : valid_name s -> clean_name s = Ok s.
Proof.
  intros (Hne & Hf & Hd). destruct s as [|c s]; [congruence|]. unfold clean_name.
  assert (E : map clean_char (c :: s) = c :: s).
  { transitivity (map (fun x => x) (c :: s)); [|apply map_id]. apply map_ext_in. intros a Ha.
    rewrite Forall_forall in Hf. apply clean_char_id. apply Hf; auto. }
  rewrite E. rewrite (Hd c s); auto.
Qed.
Lemma C33_idem_lemma s t : clean_name s = Ok t -> clean_name t = Ok t.
Proof.
  intros H. destruct s as [|c s]; [discriminate|]. destruct (C33_lemma (c :: s)) as (t' & _ & _ & E & V & _); [discriminate|].
  assert (t' = t) by congruence; subst. apply C33_id_lemma; auto.
Qed.

(* -- C35 -- *)
Definition spaces (n : nat) : str := repeat SP n.

(** a label followed by two blanks *)
Fixpoint lab_ok (l : str) : bool :=
  match l with
  | [] => true
  | c :: t => negb ((c =? SP)%N && (match t with [] => true | d :: _ => (d =? SP)%N end)) && lab_ok t
  end.
Lemma lab_ok_cons c t : lab_ok (c :: t) =
  negb ((c =? SP)%N && (match t with [] => true | d :: _ => (d =? SP)%N end)) && lab_ok t.
Proof. reflexivity. Qed.
Lemma good_lab_ok l : good_label l -> lab_ok l = true /\ hd_is SP l = false /\ l <> [].
Proof.
  intros (Hne & H1 & H2 & _ & H3). split; [|split; auto].
  - clear H1. induction l as [|c t IH]; [congruence|]. rewrite lab_ok_cons.
    destruct (c =? SP)%N eqn:E; cbn [andb negb].
    + apply N.eqb_eq in E; subst. destruct t as [|d t].
      * exfalso. apply (H2 []); auto.
      * destruct (d =? SP)%N eqn:E2; cbn [andb negb]; [apply N.eqb_eq in E2; subst; exfalso; apply (H3 [] t); auto|].
        apply IH; [discriminate| |]; intros.
        -- intros Q. apply (H2 (SP :: t0)). rewrite Q; auto.
        -- intros Q. apply (H3 (SP :: a) b). rewrite Q; auto.
    + destruct t as [|d t]; auto. apply IH; [discriminate| |]; intros.
      * intros Q. apply (H2 (c :: t0)). rewrite Q; auto.
      * intros Q. apply (H3 (c :: a) b). rewrite Q; auto.
  - destruct l as [|c l]; auto. simpl. destruct (c =? SP)%N eqn:E; auto. apply N.eqb_eq in E; subst. exfalso; eapply H1; eauto.
Qed.
Lemma split2_lab_end l : lab_ok l = true -> split_2sp_aux false l = [l].
Proof.
  induction l as [|c t IH]; simpl; auto. intros H. apply andb_true_iff in H; destruct H as [H1 H2].
  destruct (c =? SP)%N; simpl in *.
  - destruct t as [|d t]; [discriminate|]. simpl hd_is. destruct (d =? SP)%N; [discriminate|]. rewrite IH; auto.
  - rewrite IH; auto.
Qed.
Lemma split2_lab_sep l t : lab_ok l = true -> split_2sp_aux false (l ++ SP :: SP :: t) = l :: split_2sp_aux true (SP :: t).
Proof.
  induction l as [|c l IH]; simpl app; intros H.
  - reflexivity.
  - simpl in H. apply andb_true_iff in H; destruct H as [H1 H2]. specialize (IH H2).
    cbn [split_2sp_aux]. simpl andb. destruct (c =? SP)%N eqn:E; simpl andb in *.
    + destruct l as [|d l]; [discriminate|]. simpl hd_is. destruct (d =? SP)%N eqn:E2; [discriminate|].
      cbn iota. rewrite IH. reflexivity.
    + rewrite IH. reflexivity.
Qed.
Lemma split2_sep_end n t : hd_is SP t = false -> split_2sp_aux true (spaces n ++ t) = split_2sp_aux false t.
Proof.
  intros Ht. induction n as [|n IH]; simpl; auto.
  destruct t as [|x t]; auto. simpl in Ht. simpl. rewrite Ht; auto.
Qed.
Lemma replace_tab s : replace [TAB] [SP; SP] s = List.concat (map (fun x => if (TAB =? x)%N then [SP; SP] else [x]) s).
Proof. apply replace_c. Qed.
Lemma replace_tab_app a b : replace [TAB] [SP; SP] (a ++ b) = replace [TAB] [SP; SP] a ++ replace [TAB] [SP; SP] b.
Proof. rewrite !replace_tab, map_app, concat_app; auto. Qed.
Lemma replace_tab_label l : ~ In TAB l -> replace [TAB] [SP; SP] l = l.
Proof. apply (replace_none TAB []). Qed.
Lemma replace_tab_sep s : good_sep s -> exists n, replace [TAB] [SP; SP] s = spaces (2 + n).
Proof.
  intros [H1 H2].
  assert (G : exists m, replace [TAB] [SP; SP] s = spaces m /\ List.length s <= m /\ (In TAB s -> 2 <= m)).
  { clear H2. rewrite replace_tab. induction H1 as [|c s Hc H IH]; cbn [map List.concat].
    - exists 0; repeat split; auto. intros [].
    - destruct IH as (m & -> & Hm & Ht). destruct Hc as [->| ->]; cbn [N.eqb TAB SP Pos.eqb].
      + exists (S m); simpl; repeat split; auto; [lia|]. intros [Q|Q]; [discriminate|]. specialize (Ht Q); lia.
      + exists (S (S m)); simpl; repeat split; auto; lia. }
  destruct G as (m & G & Hm & Ht). exists (m - 2).
  assert (2 <= m) by (destruct H2; auto; lia). replace (2 + (m - 2)) with m by lia. auto.
Qed.
Lemma C35_lemma first more : good_label first -> Forall (fun sl => good_sep (fst sl) /\ good_label (snd sl)) more ->
  split_column_labels (joined first more) = first :: map snd more.
Proof.
  unfold split_column_labels, split_2sp. intros Hf Hm. revert first Hf.
  induction Hm as [|[sep l] more [Hs Hl] Hm IH]; intros first Hf; simpl joined.
  - rewrite replace_tab_label by apply Hf. apply split2_lab_end. apply good_lab_ok; auto.
  - rewrite !replace_tab_app. rewrite (replace_tab_label first) by apply Hf.
    destruct (replace_tab_sep sep Hs) as [n ->]. change (spaces (2 + n)) with (SP :: SP :: spaces n).
    cbn [app]. rewrite split2_lab_sep by (apply good_lab_ok; auto). simpl snd. cbn [map snd]. f_equal.
    change (SP :: spaces n ++ replace [TAB] [SP; SP] (joined l more)) with
           (spaces (S n) ++ replace [TAB] [SP; SP] (joined l more)).
    simpl in Hl. rewrite split2_sep_end; [apply IH; auto|].
    assert (Q : exists r, replace [TAB] [SP; SP] (joined l more) = l ++ r).
    { destruct more as [|[s2 l2] more]; simpl joined.
      - exists []. rewrite app_nil_r. apply replace_tab_label; apply Hl.
      - rewrite replace_tab_app. rewrite (replace_tab_label l) by apply Hl. eauto. }
    destruct Q as [r ->]. destruct (good_lab_ok l Hl) as (_ & Hh & Hne). destruct l; [congruence|]. auto.
Qed.
Lemma cons_hd_In (P : str -> Prop) c l : (forall w ws, l = w :: ws -> P (c :: w)) -> (l = [] -> P [c]) ->
  Forall P l -> Forall P (cons_hd c l).
Proof. intros H1 H2 H. destruct H; simpl; constructor; auto. eapply H1; eauto. Qed.
Lemma C35_no_double_lemma text l : In l (split_column_labels text) -> ~ In TAB l /\ forall a b, l <> a ++ SP :: SP :: b.
Proof.
  unfold split_column_labels. set (s := replace [TAB] [SP; SP] text).
  assert (Hs : ~ In TAB s).
  { unfold s. rewrite replace_tab. intros H. apply in_concat in H. destruct H as (x & Hx & Ht).
    apply in_map_iff in Hx. destruct Hx as (y & Hy & _). destruct (TAB =? y)%N eqn:E; subst x; simpl in Ht.
    - destruct Ht as [Ht|[Ht|[]]]; discriminate.
    - destruct Ht as [Ht|[]]. subst. rewrite N.eqb_refl in E; discriminate. }
  clearbody s. unfold split_2sp.
  assert (G : forall b, (forall w ws, split_2sp_aux b s = w :: ws -> b = false -> hd_is SP w = true -> hd_is SP s = true) /\
     Forall (fun l => ~ In TAB l /\ forall a b, l <> a ++ SP :: SP :: b) (split_2sp_aux b s)).
  { clear text. induction s as [|x s IH]; intros b.
    - simpl. split; [intros w ws H; inversion H; discriminate|]. repeat constructor; auto. intros a c Q; destruct a; discriminate.
    - assert (Hs' : ~ In TAB s) by (simpl in Hs; tauto). specialize (IH Hs').
      cbn [split_2sp_aux]. destruct (b && (x =? SP)%N) eqn:E1.
      + split; [|apply IH]. intros w ws _ ->. discriminate.
      + destruct ((x =? SP)%N && hd_is SP s) eqn:E2.
        * split; [intros w ws H; inversion H; simpl; discriminate|]. constructor; [|apply IH].
          split; auto. intros a c Q; destruct a; discriminate.
        * split.
          -- intros w ws H Hb Hw. destruct (split_2sp_aux false s); simpl in H; inversion H; subst; auto.
          -- destruct (IH false) as [IH1 IH2]. apply cons_hd_In; auto.
             ++ intros w ws Hw. rewrite Hw in IH2. inversion IH2; subst. destruct H1 as [Hn Hd].
                split; [simpl in *; intros [Q|Q]; auto|].
                intros a c Q. destruct a as [|y a]; simpl in Q; inversion Q; subst.
                ** specialize (IH1 _ _ Hw eq_refl eq_refl). rewrite IH1 in E2. discriminate.
                ** eapply Hd; eauto.
             ++ intros Hw. split; [simpl in *; intros [Q|Q]; auto|]. intros a c Q.
                destruct a as [|? [|? ?]]; discriminate. }
  intros H. destruct (G false) as [_ F]. rewrite Forall_forall in F. auto.
Qed.

(* -- C36 -- *)
Lemma digits_no c s : Forall ascii_digit s -> ~ ascii_digit c -> ~ In c s.
Proof. apply Forall_not_In. Qed.
Lemma dot_not_digit : ~ ascii_digit 46%N. Proof. apply not_digit; lia. Qed.
Lemma rstrip_dot_digits s p : Forall ascii_digit s -> s <> [] ->
  rstrip_by (is_c 46%N) (p ++ s) = p ++ s.
Proof.
  intros H Hne. destruct s as [|c s] using rev_ind; [congruence|]. rewrite app_assoc.
  apply rstrip_by_id. apply Forall_app in H. destruct H as [_ H]. inversion H; subst.
  unfold is_c. apply N.eqb_neq. intros ->. apply dot_not_digit; auto.
Qed.
Lemma C36_pair n k : split_scan_number_string (str_of_N n ++ 46%N :: str_of_N k) = Ok [Z.of_N n; Z.of_N k].
Proof.
  unfold split_scan_number_string.
  replace (str_of_N n ++ 46%N :: str_of_N k) with ((str_of_N n ++ [46%N]) ++ str_of_N k) by (rewrite <- app_assoc; auto).
  rewrite rstrip_dot_digits by (try apply str_of_N_digits; apply str_of_N_ne).
  rewrite <- app_assoc. cbn [app]. rewrite split_c_app by (apply digits_no; [apply str_of_N_digits|apply dot_not_digit]).
  rewrite split_c_none by (apply digits_no; [apply str_of_N_digits|apply dot_not_digit]).
  cbn [mapM]. rewrite !py_int_str_of_N. reflexivity.
Qed.
Lemma C36_single n : split_scan_number_string (str_of_N n) = Ok [Z.of_N n; 0%Z].
Proof.
  unfold split_scan_number_string. change (str_of_N n) with ([] ++ str_of_N n) at 1.
  rewrite (rstrip_dot_digits (str_of_N n) []) by (try apply str_of_N_digits; apply str_of_N_ne).
  simpl app. rewrite split_c_none by (apply digits_no; [apply str_of_N_digits|apply dot_not_digit]).
  cbn [mapM]. rewrite !py_int_str_of_N. reflexivity.
Qed.
Lemma C36_trailing n : split_scan_number_string (str_of_N n ++ [46%N]) = Ok [Z.of_N n; 0%Z].
Proof.
  rewrite <- C36_single. unfold split_scan_number_string. f_equal. f_equal. f_equal.
  transitivity (str_of_N n).
  - destruct (str_of_N n) as [|c s] eqn:E using rev_ind; [exfalso; eapply str_of_N_ne; eauto|].
    rewrite <- app_assoc. simpl. apply rstrip_by_app; auto.
    pose proof (str_of_N_digits n) as D. rewrite E in D. apply Forall_app in D; destruct D as [_ D]; inversion D; subst.
    unfold is_c. apply N.eqb_neq. intros ->. apply dot_not_digit; auto.
  - symmetry. apply (rstrip_dot_digits (str_of_N n) []); [apply str_of_N_digits|apply str_of_N_ne].
Qed.
Lemma split_scan_total s : (exists ps, split_scan_number_string s = Ok ps) \/ split_scan_number_string s = Raise ValueError.
Proof.
  unfold split_scan_number_string.
  assert (G : forall l, (exists zs, mapM py_int l = Ok zs) \/ mapM py_int l = Raise ValueError).
  { induction l as [|x l IH]; simpl; eauto. unfold py_int at 1 3. destruct (sign_of _) as [ng b].
    destruct (us_digits false b); simpl; auto. destruct IH as [[zs ->]| ->]; simpl; eauto. }
  destruct (G (split_c 46%N (rstrip_by (is_c 46%N) s))) as [[zs ->]| ->]; simpl; auto. left; eauto.
Qed.
(** the parts of an accepted name *)
Lemma C36_parts s : (exists ps, split_scan_number_string s = Ok ps) <->
  exists dots parts, s = join [46%N] parts ++ repeat 46%N dots /\ parts <> [] /\
    Forall (fun p => ~ In 46%N p /\ exists z, py_int p = Ok z) parts.
Proof.
  assert (Hint : forall p z, py_int p = Ok z -> p <> []) by (intros p z H ->; discriminate).
  split.
  - intros [ps H]. unfold split_scan_number_string in H. apply bind_ok in H. destruct H as (zs & H & _).
    destruct (rstrip_by_split (is_c 46%N) s) as (b & Hs & Hb & _).
    exists (List.length b), (split_c 46%N (rstrip_by (is_c 46%N) s)). rewrite join_split. split.
    + rewrite Hs at 1. f_equal. clear -Hb. induction b as [|x b IH]; simpl in *; auto.
      apply andb_true_iff in Hb; destruct Hb as [Hx Hb]. apply N.eqb_eq in Hx. subst. f_equal; auto.
    + split; [apply split_c_ne|]. apply mapM_ok in H.
      pose proof (split_c_Forall 46%N (rstrip_by (is_c 46%N) s)) as F.
      revert F. induction H; intros F; inversion F; subst; constructor; eauto.
  - intros (dots & parts & -> & Hne & F).
    assert (R : rstrip_by (is_c 46%N) (join [46%N] parts ++ repeat 46%N dots) = join [46%N] parts).
    { assert (T : exists t c, join [46%N] parts = t ++ [c] /\ c <> 46%N).
      { clear -Hne F Hint. induction parts as [|p parts IH]; [congruence|]. inversion F; subst.
        destruct parts as [|q parts].
        - destruct H1 as [Hn [z Hz]]. apply Hint in Hz. simpl. destruct p as [|c p] using rev_ind; [congruence|].
          exists p, c. split; auto. intros ->. apply Hn. apply in_or_app; simpl; auto.
        - destruct IH as (t & c & Ht & Hc); auto; [discriminate|].
          exists (p ++ 46%N :: t), c. split; auto.
          change (join [46%N] (p :: q :: parts)) with (p ++ [46%N] ++ join [46%N] (q :: parts)).
          rewrite Ht. rewrite <- app_assoc. reflexivity. }
      destruct T as (t & c & -> & Hc). rewrite <- app_assoc. simpl. apply rstrip_by_app.
      - clear. induction dots; simpl; auto.
      - apply N.eqb_neq; auto. }
    unfold split_scan_number_string. rewrite R. rewrite split_join; auto.
    + assert (M : exists zs, mapM py_int parts = Ok zs).
      { clear -F. induction F as [|p parts [_ [z Hz]] F IH]; simpl; eauto. rewrite Hz. destruct IH as [zs ->]. simpl; eauto. }
      destruct M as [zs ->]. simpl. eauto.
    + eapply Forall_impl; [|exact F]. intros a Ha; apply Ha.
Qed.

(** names made by reading a file: n, or n.k with k >= 1 *)
Definition scan_name (n k : N) : str := if (k =? 0)%N then str_of_N n else str_of_N n ++ 46%N :: str_of_N k.
Lemma C36_names n k : split_scan_number_string (scan_name n k) = Ok [Z.of_N n; Z.of_N k].
Proof.
  unfold scan_name. destruct (k =? 0)%N eqn:E; [apply N.eqb_eq in E; subst; apply C36_single|apply C36_pair].
Qed.
Lemma C36_inj n k n' k' : split_scan_number_string (scan_name n k) = split_scan_number_string (scan_name n' k') ->
  n = n' /\ k = k'.
Proof. rewrite !C36_names. intros H; inversion H. split; lia. Qed.

(* -- C38 -- *)
Lemma C38_lemma {A} (nan : A) (d : array A) (sh : list nat) :
  let r := reshape_data nan d sh in
  shape r = sh /\ List.length (flat r) = fold_right Nat.mul 1 sh /\
  forall i, i < fold_right Nat.mul 1 sh ->
    nth_error (flat r) i = Some (match nth_error (flat d) i with Some x => x | None => nan end).
Proof.
  assert (P : forall l, prod l = fold_right Nat.mul 1 l).
  { intros l. unfold prod. assert (G : forall a, fold_left Nat.mul l a = a * fold_right Nat.mul 1 l).
    { induction l as [|x l IH]; simpl; intros a; [lia|]. rewrite IH. lia. }
    rewrite G; lia. }
  cbv zeta. unfold reshape_data. rewrite P. set (n := fold_right Nat.mul 1 sh). set (f := flat d).
  cbn [shape flat]. split; auto.
  assert (HS : forall m, skipn m (repeat nan n) = repeat nan (n - m)).
  { intros m. revert m. generalize n. induction n0 as [|k IH]; intros [|m]; simpl; auto. }
  destruct (Nat.eqb (List.length f) n) eqn:E1.
  - apply Nat.eqb_eq in E1. split; auto. intros i Hi. destruct (nth_error f i) eqn:E; auto.
    apply nth_error_None in E. lia.
  - destruct (Nat.ltb (List.length f) n) eqn:E2.
    + apply Nat.ltb_lt in E2. rewrite HS. split; [rewrite app_length, repeat_length; lia|]. intros i Hi.
      destruct (nth_error f i) eqn:E.
      * rewrite nth_error_app1 by (apply nth_error_Some; congruence). auto.
      * apply nth_error_None in E. rewrite nth_error_app2 by auto. apply nth_error_repeat. lia.
    + apply Nat.ltb_ge in E2. apply Nat.eqb_neq in E1. split; [rewrite firstn_length; lia|]. intros i Hi.
      destruct (nth_error f i) eqn:E.
      * rewrite <- E. clear -Hi. revert i Hi. generalize n. induction f as [|x f IH]; intros [|m] [|i] H; simpl; auto; try lia. apply IH; lia.
      * apply nth_error_None in E. lia.
Qed.

(* -- C39 -- *)
Lemma tight_tight_by s : tight s <-> tight_by is_space s.
Proof.
  unfold tight, tight_by. split.
  - intros [H1 H2]. split; [destruct s; auto; eapply H1; eauto|].
    destruct s as [|c s] using rev_ind; simpl; auto. rewrite rev_unit. eapply H2; eauto.
  - intros [H1 H2]. split; intros c t ->; auto. rewrite rev_unit in H2; auto.
Qed.
Lemma C39_lemma w u t v : ~ In SP w -> blank u -> tight t -> blank v ->
  strip_first_word (w ++ SP :: u ++ t ++ v) = t.
Proof.
  intros Hw Hu Ht Hv. unfold strip_first_word. rewrite find_c_app by auto. unfold pos_of.
  rewrite slice_from_nat. rewrite skipn_app, Nat.sub_diag, skipn_all. simpl skipn. cbn [app].
  change (SP :: u ++ t ++ v) with ((SP :: u) ++ t ++ v). apply strip_by_tight.
  - simpl. apply blank_forallb; auto.
  - apply blank_forallb; auto.
  - apply tight_tight_by; auto.
Qed.
Lemma slice_from_m1 {A} (l : list A) x : slice_from (-1) (l ++ [x]) = [x].
Proof.
  unfold slice_from, clamp. rewrite app_length. cbn [List.length].
  change ((-1 <? 0)%Z) with true. cbv iota zeta.
  replace ((-1 + Z.of_nat (List.length l + 1))%Z) with (Z.of_nat (List.length l)) by lia.
  destruct (Z.of_nat (List.length l) <? 0)%Z eqn:E; [lia|]. rewrite Nat2Z.id, Nat.min_l by lia.
  rewrite skipn_app, Nat.sub_diag, skipn_all. reflexivity.
Qed.
Lemma strip_first_word_none line : ~ In SP line ->
  strip_first_word line = match rev line with [] => [] | c :: _ => if is_space c then [] else [c] end.
Proof.
  intros H. unfold strip_first_word. apply find_c_none in H. rewrite H. unfold pos_of.
  destruct line as [|c line] using rev_ind; auto. rewrite rev_unit. clear IHline.
  rewrite slice_from_m1. unfold strip, strip_by; simpl. destruct (is_space c) eqn:Ec; simpl; auto.
  rewrite Ec; auto.
Qed.
