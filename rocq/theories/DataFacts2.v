(** C24, C25, C27, C28, C32: from the table to the statements. *)
From Coq Require Import String Lia.
From Verif Require Import Uni Py PyFacts NumFacts Keys Handlers Geom Reader SpecText SpecUtils SpecReader SpecNum SpecHistory SpecKeys SpecInterp SpecData
  TextFacts UtilsFacts KeyFacts ReaderFacts2 ReaderFacts4 ReaderFacts5 DispatchFacts FrameFacts StateFacts InterpFacts MonadFacts HandlerFacts PostFacts DataFacts.
Import ListNotations.
Local Open Scope list_scope.

(* ------------------------------------------------------------------ *)
(** * Labels of a text *)
Definition bt (c : N) : bool := ((c =? SP) || (c =? TAB))%N.
Lemma bt_true c : bt c = true <-> c = SP \/ c = TAB.
Proof. unfold bt. rewrite orb_true_iff, !N.eqb_eq. reflexivity. Qed.
Lemma blanks_split (t : str) : exists b r, t = b ++ r /\ Forall (fun c => c = SP \/ c = TAB) b /\ (r = [] \/ exists c r', r = c :: r' /\ bt c = false).
Proof.
  induction t as [|c t IH]; [exists [], []; auto|]. destruct (bt c) eqn:E.
  - destruct IH as (b & r & -> & Hb & Hr). exists (c :: b), r. split; auto. split; [constructor; auto; apply bt_true; auto|auto].
  - exists [], (c :: t). split; auto. split; auto. right. eauto.
Qed.
Lemma labels_exist n : forall t, List.length t < n -> (exists c t', t = c :: t' /\ bt c = false) -> (forall a c, t = a ++ [c] -> bt c = false) ->
  exists first more, t = joined first more /\ good_label first /\ Forall (fun p => good_sep (fst p) /\ good_label (snd p)) more.
Proof.
  induction n as [|n IH]; intros t Hn (c & t' & -> & Hc) He; [lia|].
  destruct (blanks_split t') as (b & r & -> & Hb & Hr).
  destruct Hr as [->|(c' & r' & -> & Hc')].
  { rewrite app_nil_r in *. destruct b as [|x b] using rev_ind.
    - exists [c], []. cbn. repeat split; auto; try discriminate.
      + intros t Q. injection Q as -> _. discriminate.
      + intros t Q. destruct t as [|? [|]]; try discriminate. injection Q as ->. discriminate.
      + intros [Q|[]]. subst. discriminate.
      + intros a b' Q. destruct a as [|? [|]]; discriminate.
    - exfalso. specialize (He (c :: b) x eq_refl). apply Forall_app in Hb. destruct Hb as [_ Hb]. inversion Hb as [|? ? Q]; subst.
      apply bt_true in Q. congruence. }
  destruct (IH (c' :: r')) as (first & more & E & Hf & Hm).
  { rewrite (app_comm_cons b) in Hn. rewrite app_length in Hn. simpl in *. lia. }
  { eauto. }
  { intros a x Q. apply (He (c :: b ++ a) x). rewrite Q. cbn. rewrite <- app_assoc. reflexivity. }
  assert (Hcs : c <> SP /\ c <> TAB) by (split; intros ->; discriminate).
  assert (Hl : good_label first) by auto. destruct Hf as (F1 & F2 & F3 & F4 & F5).
  assert (Hb1 : good_sep b \/ b = [] \/ b = [SP]).
  { destruct b as [|x [|y b]]; auto.
    - inversion Hb as [|? ? [->| ->] _]; subst; [auto|]. left. split; auto. left. left; auto.
    - left. split; auto. right. simpl. lia. }
  destruct Hb1 as [Hb1|[->| ->]].
  - exists [c], ((b, first) :: more). split; [cbn [joined]; rewrite E; reflexivity|]. split.
    + repeat split; try discriminate.
      * intros t Q. injection Q as -> _. destruct Hcs; auto.
      * intros t Q. destruct t as [|? [|]]; try discriminate. injection Q as ->. destruct Hcs; auto.
      * intros [Q|[]]. destruct Hcs; auto.
      * intros a b' Q. destruct a as [|? [|]]; discriminate.
    + constructor; auto.
  - exists (c :: first), more. split; [cbn [app]; rewrite E; destruct more as [|[? ?] ?]; reflexivity|]. split; [|auto]. repeat split; try discriminate.
    + intros t Q. injection Q as Q _. destruct Hcs; auto.
    + intros t Q. destruct t as [|y t]; [injection Q as Q1 Q2; contradiction|]. injection Q as -> Q. eapply F3; eauto.
    + intros [Q|Q]; [destruct Hcs; auto|auto].
    + intros [|y a] b' Q; [injection Q as Q _; destruct Hcs; auto|]. injection Q as -> Q. eapply F5; eauto.
  - exists (c :: SP :: first), more. split; [cbn [app]; rewrite E; destruct more as [|[? ?] ?]; reflexivity|]. split; [|auto]. repeat split; try discriminate.
    + intros t Q. injection Q as Q _. destruct Hcs; auto.
    + intros t Q. destruct t as [|y [|y' t]]; [discriminate|injection Q as Q1 Q2; contradiction|]. injection Q as -> <- Q. eapply F3; eauto.
    + intros [Q|[Q|Q]]; [destruct Hcs; auto|discriminate|auto].
    + intros [|y [|y' a]] b' Q; [injection Q as Q _; destruct Hcs; auto|injection Q as _ Q; destruct first as [|f first]; [congruence|injection Q as -> _; eapply F2; eauto]|].
      injection Q as -> <- Q. eapply F5; eauto.
Qed.
Lemma tight_labels t : tight t -> label_list t (Utils.split_column_labels t).
Proof.
  intros [T1 T2]. destruct t as [|c t]; [left; split; reflexivity|]. right.
  assert (S1 : forall c, is_space c = false -> bt c = false) by (intros x Hx; destruct (bt x) eqn:E; auto; apply bt_true in E; destruct E; subst; discriminate).
  destruct (labels_exist (S (List.length (c :: t))) (c :: t)) as (first & more & E & Hf & Hm); auto.
  - exists c, t. split; auto. apply S1. eapply T1; eauto.
  - intros a x Q. apply S1. eapply T2; eauto.
  - exists first, more. rewrite E at 2. rewrite C35_lemma; auto.
Qed.
Lemma label_list_fun t labs : label_list t labs -> labs = Utils.split_column_labels t.
Proof. intros [[-> ->]|(f & m & -> & Hf & Hm & ->)]; [reflexivity|]. rewrite C35_lemma; auto. Qed.
Lemma label_list_one t : List.length (Utils.split_column_labels t) = 1 -> tight t -> label_list t [t].
Proof.
  intros H T. destruct (tight_labels t T) as [[-> _]|(f & m & -> & Hf & Hm & E)]; [left; auto|]. right.
  exists f, m. split; auto. split; auto. split; auto. rewrite E in H. destruct m as [|[? ?] ?]; [reflexivity|discriminate].
Qed.

Lemma first_free_unused taken l c i : first_free taken l c i -> ~ In l taken -> c = l /\ i = 0.
Proof.
  intros (H1 & H2 & H3) Hn. destruct i as [|i].
  - destruct H1 as [[_ ->]|[Q _]]; [auto|lia].
  - exfalso. destruct (H3 0) as (x & [[_ ->]|[Q _]] & Hin); [lia|auto|lia].
Qed.
Lemma relabelled_id ls : forall taken lab, relabelled taken ls lab -> NoDup (taken ++ ls) -> lab = ls.
Proof.
  induction ls as [|l ls IH]; intros taken lab H Hn; inversion H as [|? ? ? c i cs Hf Hi Hr]; subst; [reflexivity|].
  destruct (first_free_unused _ _ _ _ Hf) as [-> _].
  - apply NoDup_remove_2 in Hn. intros Q. apply Hn. apply in_or_app; auto.
  - f_equal. eapply IH; [exact Hr|]. rewrite <- app_assoc. exact Hn.
Qed.
Lemma relabelled_hd ls lab : relabelled [] ls lab -> hd [] lab = hd [] ls.
Proof. intros H. inversion H as [|? ? ? c i cs Hf Hi Hr]; subst; [reflexivity|]. destruct (first_free_unused _ _ _ _ Hf) as [-> _]; auto. Qed.

(** failure needs a thousand clashes *)
Lemma cand_inj l i j : cand l i = cand l j -> i = j.
Proof.
  assert (Q : forall a b, l ++ a = l ++ b -> a = b) by (intros a b; apply app_inv_head).
  assert (Q0 : forall a, l = l ++ a -> a = []) by (intros a H; apply Q; rewrite app_nil_r; auto).
  destruct i as [|i], j as [|j]; cbn [cand]; intros H; auto.
  - apply Q0 in H. discriminate.
  - symmetry in H. apply Q0 in H. discriminate.
  - apply Q in H. apply app_inv_head in H. apply str_of_nat_inj in H. auto.
Qed.
Lemma clash_many l taken : (forall j, j < 1000 -> In (cand l j) taken) -> 1000 <= List.length taken.
Proof.
  intros H. pose (cs := map (cand l) (seq 0 1000)).
  assert (Hn : NoDup cs). { apply FinFun.Injective_map_NoDup; [intros x y; apply cand_inj|apply seq_NoDup]. }
  assert (Hi : incl cs taken). { intros x Hx. apply in_map_iff in Hx. destruct Hx as (j & <- & Hj). apply in_seq in Hj. apply H. lia. }
  pose proof (NoDup_incl_length Hn Hi) as K. unfold cs in K. rewrite map_length, seq_length in K. exact K.
Qed.
Lemma unique_labels_raise ls : forall taken ls' ks e, unique_labels taken ls = (ls', ks, Raise e) ->
  e = RuntimeError /\ 1000 < List.length taken + List.length ls.
Proof.
  induction ls as [|l ls IH]; intros taken ls' ks e H; cbn [unique_labels] in H; [discriminate|].
  destruct (unique_key l taken) as [k|e'] eqn:Ek.
  - destruct (unique_labels (taken ++ [k]) ls) as [[t' ks'] r] eqn:Eu. injection H as <- <- ->. apply IH in Eu. destruct Eu as [-> Q]. split; auto.
    rewrite app_length in Q. cbn [List.length] in *. lia.
  - injection H as _ _ ->. apply unique_from_raise in Ek. destruct Ek as [-> Hj]. split; auto.
    assert (1000 <= List.length taken) by (apply (clash_many l); intros j Hj'; apply Hj; lia). cbn [List.length]. lia.
Qed.

(* ------------------------------------------------------------------ *)
(** * Split rows *)
Lemma words_join (b line : str) : words (match rev b with [] => b | c :: _ => if (c =? SP)%N then b else b ++ [SP] end ++ line) = words b ++ words line.
Proof.
  destruct b as [|c b] using rev_ind; [reflexivity|]. rewrite rev_app_distr. cbn [rev app].
  assert (Q : words [SP] = []) by reflexivity.
  destruct (N.eqb_spec c SP) as [->|_].
  - rewrite <- app_assoc. cbn [app]. rewrite words_app_space by reflexivity. rewrite (words_app_space b SP []) by reflexivity.
    change (words []) with (@nil str). rewrite app_nil_r. reflexivity.
  - rewrite <- !app_assoc. rewrite (app_assoc b). cbn [app]. rewrite words_app_space by reflexivity. reflexivity.
Qed.
Definition wcount (lines : list str) : nat := List.length (List.concat (map words lines)).
Lemma all_fields_words lines ws : all_fields lines ws <-> ws = List.concat (map words lines).
Proof.
  split.
  - intros (wss & H & ->). f_equal. induction H as [|l ws lines wss H _ IH]; [reflexivity|]. cbn. apply fields_words in H. subst. reflexivity.
  - intros ->. exists (map words lines). split; auto. induction lines; cbn; constructor; auto. apply fields_words; auto.
Qed.
Lemma combine_rest n lines : forall b, Forall (fun l => is_at l = false) lines -> (List.length (words b) + wcount lines < n)%nat ->
  combine_nm (Z.of_nat n) (BStr b) lines = Ok [].
Proof.
  induction lines as [|l lines IH]; intros b Ha Hn; [reflexivity|]. inversion Ha as [|? ? A1 A2]; subst. unfold wcount in Hn. cbn [map List.concat] in Hn. rewrite app_length in Hn.
  cbn [combine_nm]. fold (is_at l). rewrite A1. cbv zeta. unfold len. rewrite words_join, app_length.
  assert (Q : (Z.of_nat (List.length (words b) + List.length (words l)) =? Z.of_nat n)%Z = false) by (apply Z.eqb_neq; lia). rewrite Q.
  apply IH; auto. rewrite words_join, app_length. unfold wcount. lia.
Qed.
Lemma combine_piece n piece : forall b lines, Forall (fun l => is_at l = false) piece -> Forall (fun l => ~ blank l) piece -> piece <> [] ->
  (List.length (words b) + wcount piece = n)%nat ->
  exists row, words row = words b ++ List.concat (map words piece) /\
    combine_nm (Z.of_nat n) (BStr b) (piece ++ lines) = bind (combine_nm (Z.of_nat n) (BStr []) lines) (fun dl => Ok (row :: dl)).
Proof.
  induction piece as [|l piece IH]; intros b lines Ha Hb Hne Hn; [congruence|]. apply Forall_cons_iff in Ha, Hb. destruct Ha as [A1 A2], Hb as [B1 B2].
  cbn [app combine_nm]. fold (is_at l). rewrite A1. cbv zeta. unfold len. rewrite words_join, app_length.
  unfold wcount in Hn. cbn [map List.concat] in Hn. rewrite app_length in Hn.
  destruct piece as [|l' piece].
  - cbn [map List.concat app List.length] in *. rewrite app_nil_r. replace (List.length (words b) + List.length (words l))%nat with n by lia.
    rewrite Z.eqb_refl. eexists. split; [|reflexivity]. apply words_join.
  - assert (Q : 0 < wcount (l' :: piece)).
    { apply Forall_cons_iff in B2. destruct B2 as [B3 _]. unfold wcount. cbn [map List.concat]. rewrite app_length. destruct (words l') eqn:Ew; [|simpl; lia].
      exfalso. apply B3. unfold blank. apply words_nil in Ew. rewrite forallb_forall in Ew. apply Forall_forall. exact Ew. }
    fold (wcount (l' :: piece)) in Hn.
    assert (Q' : (Z.of_nat (List.length (words b) + List.length (words l)) =? Z.of_nat n)%Z = false) by (apply Z.eqb_neq; lia). rewrite Q'.
    destruct (IH (match rev b with [] => b | c :: _ => if (c =? SP)%N then b else b ++ [SP] end ++ l) lines) as (row & R1 & R2); auto; [discriminate|rewrite words_join, app_length; lia|].
    exists row. rewrite R1, words_join, <- app_assoc. split; auto.
Qed.
Lemma put_pos n lines rows : put_together n lines rows -> 0 < n.
Proof. induction 1; auto. lia. Qed.
Lemma combine_put n lines rows : put_together n lines rows -> Forall (fun l => is_at l = false) lines ->
  exists rows', combine_nm (Z.of_nat n) (BStr []) lines = Ok rows' /\ Forall2 (fun a b => words a = words b) rows' rows.
Proof.
  induction 1 as [lines ws Hf Hl|piece lines row rows ws Hf Hl Hb Hr Hp IH]; intros Ha.
  - exists []. split; [|constructor]. apply combine_rest; auto. apply all_fields_words in Hf. subst ws. exact Hl.
  - apply Forall_app in Ha. destruct Ha as [A1 A2]. destruct (IH A2) as (rows' & R1 & R2). apply all_fields_words in Hf. apply fields_words in Hr.
    destruct piece as [|l piece].
    + (* no pieces: N = 0, and the rest cannot end *)
      exfalso. apply put_pos in Hp. rewrite Hf in Hl. cbn in Hl. lia.
    + destruct (combine_piece n (l :: piece) [] lines A1 Hb) as (row' & E1 & E2); [discriminate|unfold wcount; cbn [List.length]; rewrite <- Hf; auto|].
      exists (row' :: rows'). rewrite E2, R1. split; [reflexivity|]. constructor; auto. rewrite E1, <- Hf, Hr. reflexivity.
Qed.

Lemma tabulated_fields lab d rows rows' : Forall2 (fun a b => words a = words b) rows' rows -> tabulated lab d rows' -> tabulated lab d rows.
Proof.
  intros HF (kept & tbl & K & HT & HC).
  assert (G : exists kept', Keeps (is_row (List.length lab)) rows kept' /\ Forall2 (a_row (List.length lab)) kept' tbl).
  { clear HC. revert tbl HT. revert rows HF. induction K as [|x l k Hx K IH|x l k Hx K IH]; intros rows HF tbl HT.
    - inversion HF; subst. inversion HT; subst. exists []. split; constructor.
    - inversion HF as [|? y ? rows1 E HF']; subst. inversion HT as [|? v ? tbl1 R HT']; subst. destruct (IH _ HF' _ HT') as (kept' & K1 & K2).
      assert (R' : a_row (List.length lab) y v) by (apply a_row_words; apply a_row_words in R; rewrite <- E; auto).
      exists (y :: kept'). split; [apply Keeps_yes; auto; exists v; auto|constructor; auto].
    - inversion HF as [|? y ? rows1 E HF']; subst. destruct (IH _ HF' _ HT) as (kept' & K1 & K2). exists kept'. split; auto. apply Keeps_no; auto.
      intros (v & R). apply Hx. exists v. apply a_row_words. apply a_row_words in R. rewrite E. auto. }
  destruct G as (kept' & G1 & G2). exists kept', tbl. auto.
Qed.
Lemma tabulated_filter lab d rows (p : str -> bool) : (forall l, p l = false -> ~ is_row (List.length lab) l) -> tabulated lab d rows -> tabulated lab d (List.filter p rows).
Proof.
  intros Hp (kept & tbl & K & HT & HC). exists kept, tbl. split; [|auto]. clear HT HC. induction K as [|x l k Hx K IH|x l k Hx K IH]; cbn [List.filter]; [constructor| |].
  - destruct (p x) eqn:E; [apply Keeps_yes; auto|]. exfalso. apply (Hp _ E); auto.
  - destruct (p x) eqn:E; [apply Keeps_no; auto|auto].
Qed.

(* ------------------------------------------------------------------ *)
(** * The statements *)
Lemma dget_columns {V} ls (v : V) l : In l ls -> dget l (map (fun l => (l, v)) ls) = Some v.
Proof. induction ls as [|x ls IH]; intros []; cbn; [subst; rewrite seqb_refl; auto|]. destruct (seqb l x); auto. Qed.
Lemma keys_columns {V} ls (v : V) : keys (map (fun l => (l, v)) ls) = ls.
Proof. unfold keys. rewrite map_map. cbn. apply map_id. Qed.
Lemma has_keys {V} k (d : dict V) : has k d = mem k (keys d).
Proof. destruct (mem k (keys d)) eqn:Em; [apply has_In; apply mem_In; auto|apply has_not_In; intros Q; apply mem_In in Q; congruence]. Qed.
Lemma empty_keys ls dl : keys (empty_table ls dl) = if has_mca dl then (if mem mkey ls then ls else ls ++ [mkey]) else ls.
Proof.
  unfold empty_table. cbv zeta. destruct (has_mca dl); [|apply keys_columns]. rewrite keys_dset, has_keys, keys_columns. reflexivity.
Qed.
Lemma empty_col ls dl l : In l ls -> (has_mca dl = true -> l <> mkey) -> dget l (empty_table ls dl) = Some (Col []).
Proof.
  intros Hl Hm. unfold empty_table. cbv zeta. destruct (has_mca dl); [|apply dget_columns; auto]. rewrite dget_dset_other by auto. apply dget_columns; auto.
Qed.
Lemma empty_mca ls dl : has_mca dl = true -> dget mkey (empty_table ls dl) = Some (Mca []).
Proof. intros H. unfold empty_table. rewrite H. apply dget_dset_same. Qed.
Lemma has_mca_at dl : has_mca dl = true -> existsb is_at dl = true.
Proof.
  unfold has_mca. rewrite !existsb_exists. intros (x & Hx & H). exists x. split; auto. apply andb_true_iff in H. destruct H as [_ H].
  apply seqb_eq in H. unfold is_at. apply prefixb_spec. exists (skipn 2 x). rewrite <- H. symmetry. apply firstn_skipn.
Qed.

Lemma has_mca_spec dl : has_mca dl = true <-> exists l, In l dl /\ starts_with "@A" l /\ l <> L "@A".
Proof.
  assert (A : forall l, (2 <? List.length l)%nat && seqb (firstn 2 l) (L "@A") = true <-> starts_with "@A" l /\ l <> L "@A").
  { intros l. rewrite andb_true_iff, seqb_eq, Nat.ltb_lt. unfold starts_with. split.
    - intros [H1 H2]. split; [exists (skipn 2 l); rewrite <- H2; symmetry; apply firstn_skipn|]. intros ->. cbn in H1. lia.
    - intros [(t & ->) H2]. destruct t as [|c t]; [exfalso; apply H2; reflexivity|]. split; [cbn; lia|reflexivity]. }
  unfold has_mca. rewrite existsb_exists. split; intros (l & Hi & H); exists l; split; auto; apply A; auto.
Qed.
Lemma filled lab dl lines d : NoDup lab -> (existsb is_at lines = true -> has_mca dl = true) -> (has_mca dl = true -> ~ In mkey lab) ->
  foldM (fun d v => data_line lab (List.length lab) v d) lines (empty_table lab dl) = Ok d ->
  keys d = keys (empty_table lab dl) /\ tabulated lab d lines /\
  (has_mca dl = true -> (forall l key, In l lines -> is_at l = false -> ~ mca_line_of key l) -> exists m, dget mkey d = Some (Mca m) /\ spectra m lines).
Proof.
  intros Hn Ha Hm H. apply fill_spec in H; auto. destruct H as (H1 & (rows & tbl & R1 & R2 & R3) & H3). split; auto. split.
  - exists rows, tbl. split; auto. split; auto. intros j l Hj. destruct (R3 j l [] Hj) as (c & C1 & C2).
    { apply empty_col; [eapply nth_error_In; eauto|]. intros Q ->. apply (Hm Q). eapply nth_error_In; eauto. }
    exists c. auto.
  - intros Hh Hno. destruct (H3 (Hm Hh) [] (empty_mca _ _ Hh)) as (sps & S1 & S2). eexists. split; [exact S2|].
    intros key. destruct (spectra_fold lines sps S1 Hno key []) as (ml & sl & K1 & K2 & K3). exists ml, sl. split; auto. split; auto.
    rewrite K3. cbn [dget]. destruct sl; [left; auto|right; split; [discriminate|auto]].
Qed.

Lemma append_keys buf : forall d d', foldM append_val buf d = Ok d' -> keys d' = keys d.
Proof.
  induction buf as [|[k v] buf IH]; intros d d' H; cbn [foldM] in H; [injection H as <-; auto|].
  destruct (append_val d (k, v)) as [d1|e] eqn:Ea; [|discriminate]. cbn [bind] in H. unfold append_val in Ea. cbn [fst snd] in Ea.
  destruct (dget k d) as [[vs|]|] eqn:Eg; [|discriminate|discriminate]. injection Ea as <-. rewrite (IH _ _ H), keys_dset. unfold has. rewrite Eg. reflexivity.
Qed.
Lemma data_line_keys ls n line d d' : data_line ls n line d = Ok d' -> keys d' = keys d.
Proof.
  unfold data_line. destruct (prefixb (L "@A") line).
  - unfold mca_line. destruct (index 0 (words line)); [|discriminate]. cbn [bind]. cbv zeta. fold mkey. destruct (dget mkey d) as [[|m]|] eqn:Eg; try discriminate.
    cbn [bind]. destruct (if mem [46%N] (map (fun c : N => [c]) line) then _ else _); [|discriminate]. cbn [bind]. intros H. injection H as <-. rewrite keys_dset. unfold has. rewrite Eg. reflexivity.
  - destruct (interpret_data_row ls line) as [buf|[]]; try discriminate; [|intros H; injection H as <-; auto].
    destruct (Nat.eqb _ _); [apply append_keys|intros H; injection H as <-; auto].
Qed.

Lemma control_data_word l w : control H_data l -> ~ first_word_is l (L "@A" ++ w).
Proof.
  intros (a & v & rest & -> & Ha & Hv & (c & t & Ec & Hc) & Hb) Hf. apply first_word_words in Hf. destruct Hf as (ws & Hw).
  rewrite words_space_app in Hw by (apply forallb_forall; unfold blank in Ha; rewrite Forall_forall in Ha; exact Ha).
  rewrite words_app_space in Hw by reflexivity. destruct Hb as [(n & f & Hn & Hf)|Hb].
  - apply first_word_words in Hn. destruct Hn as (ws' & Hn). rewrite Hn in Hw. cbn [app] in Hw. injection Hw as Hw _. subst n.
    change (L "@A" ++ w) with (64%N :: 65%N :: w) in Hf. rewrite py_float_letter in Hf by (right; left; auto). discriminate.
  - rewrite Hb in Hw. change (words (key_of H_data)) with [L "scan_data"] in Hw. cbn [app] in Hw. injection Hw as Hw _. discriminate.
Qed.
Lemma control_data_at l : control H_data l -> is_at l = false.
Proof.
  intros Hc. destruct (is_at l) eqn:Ea; auto. exfalso. destruct (at_word _ Ea) as (x & ws & Hw).
  apply (control_data_word l x Hc). apply first_word_words. eauto.
Qed.
Lemma Keeps_Keeps {A} (P Q R : A -> Prop) l k k' : Keeps P l k -> Keeps Q k k' -> (forall x, In x l -> (R x <-> P x /\ Q x)) -> Keeps R l k'.
Proof.
  intros H. revert k'; induction H as [|x l k Hx H IH|x l k Hx H IH]; intros k' HQ HR.
  - inversion HQ; subst. constructor.
  - inversion HQ as [|? ? k1 Hq HQ'|? ? ? Hq HQ']; subst.
    + apply Keeps_yes; [apply HR; simpl; auto|]. apply IH; auto. intros y Hy. apply HR; simpl; auto.
    + apply Keeps_no; [intros Q1; apply HR in Q1; simpl; auto; tauto|]. apply IH; auto. intros y Hy. apply HR; simpl; auto.
  - apply Keeps_no; [intros Q1; apply HR in Q1; simpl; auto; tauto|]. apply IH; auto. intros y Hy. apply HR; simpl; auto.
Qed.

Lemma Keeps_In {A} (P : A -> Prop) l k x : Keeps P l k -> In x l -> P x -> In x k.
Proof. induction 1 as [|y l k Hy H IH|y l k Hy H IH]; intros [] Hp; subst; simpl; auto; contradiction. Qed.
Lemma Keeps_all {A} (P : A -> Prop) l : Forall P l -> Keeps P l l.
Proof. induction 1; constructor; auto. Qed.

Lemma put_words n lines rows : put_together n lines rows -> forall r w ws, In r rows -> words r = w :: ws -> exists l ws', In l lines /\ words l = w :: ws'.
Proof.
  induction 1 as [lines ws0 Hf Hl|piece lines row rows ws0 Hf Hl Hb Hr Hp IH]; intros r w ws [].
  - subst r. intros Hw. apply fields_words in Hr. apply all_fields_words in Hf. rewrite <- Hr, Hf in Hw. clear - Hw.
    induction piece as [|l piece IH]; cbn in Hw; [discriminate|]. destruct (words l) as [|w' ws'] eqn:El.
    + destruct (IH Hw) as (l' & ws' & H1 & H2). exists l', ws'. split; [right; auto|auto].
    + exists l, ws'. cbn in Hw. injection Hw as -> _. split; [left; auto|auto].
  - intros Hw. destruct (IH _ _ _ H Hw) as (l & ws' & H1 & H2). exists l, ws'. split; [apply in_or_app; auto|auto].
Qed.

Section Data2.
  Context (E : env) (known : list hid) (Hk : incl all_hids known).
  Lemma dlines_spec raw ls dl : lines_of raw ls -> Keeps data_line_of ls dl -> dl = dlines known raw.
  Proof.
    intros Hl Hd. apply lines_of_scan_lines in Hl. subst ls. eapply Keeps_fun; [exact Hd|]. apply dlines_keeps; auto.
  Qed.
  Lemma written_spec ls lab : written ls lab -> labels_written ls lab.
  Proof.
    intros [H|(pre & l & post & t & H1 & H2 & H3 & H4 & H5)]; [left; auto|]. right. exists l, t. split; [exists pre, post; auto|]. split; auto.
    destruct H4 as [T _]. destruct H5 as [->|[H5 H6]]; [left; apply tight_labels; auto|right]. split; auto. apply label_list_one; auto.
  Qed.

  Lemma lab_nodup lab0 lab : relabelled [] lab0 lab -> NoDup lab.
  Proof. intros H. apply (relabelled_nodup _ _ _ H). constructor. Qed.

  (** C24 *)
  Lemma C24_lemma s name sc s' sc' ls dl : first_interpret E known s name sc s' sc' -> lines_of (s_raw sc) ls -> Keeps data_line_of ls dl -> dl <> [] ->
    exists lab0 lab data, labels_written ls lab0 /\ relabelled [] lab0 lab /\ NoDup lab /\ List.length lab = List.length lab0 /\
      attr_is sc' A_L lab /\ attr_is sc' A_data data /\ (keys data = lab \/ (keys data = lab ++ [L "_mca_"] /\ ~ In (L "_mca_") lab)) /\
      (In (L "_mca_") (keys data) <-> In (L "_mca_") lab \/ exists l, In l dl /\ starts_with "@A" l /\ l <> L "@A").
  Proof.
    intros Hf Hl Hd Hne. pose proof (dlines_spec _ _ _ Hl Hd) as ->.
    destruct (data_lemma E known Hk _ _ _ _ _ Hf Hne) as (lab0 & lab & nl & lines & data & D1 & D2 & D3 & D4 & D5 & D6 & D7 & D8 & _).
    apply lines_of_scan_lines in Hl. subst ls. exists lab0, lab, data. split; [apply written_spec; auto|]. split; auto. split; [eapply lab_nodup; eauto|].
    split; [eapply relabelled_length; eauto|]. split; auto. split; auto.
    assert (K : keys data = keys (empty_table lab (dlines known (s_raw sc)))).
    { clear - D7. revert D7. generalize (empty_table lab (dlines known (s_raw sc))) as d. induction lines as [|l lines IH]; intros d H; cbn [foldM] in H; [injection H as <-; auto|].
      destruct (data_line _ _ l d) as [d1|] eqn:Ed; [|discriminate]. cbn [bind] in H. rewrite (IH _ H). eapply data_line_keys; eauto. }
    rewrite K, empty_keys. destruct (has_mca (dlines known (s_raw sc))) eqn:Ex.
    - apply has_mca_spec in Ex. destruct (mem mkey lab) eqn:Em.
      + apply mem_In in Em. split; [left; auto|]. split; [left; auto|intros _; exact Em].
      + assert (Hn : ~ In mkey lab) by (intros Q; apply mem_In in Q; congruence). split; [right; split; auto|]. split; [right; exact Ex|].
        intros _. apply in_or_app. right. left. reflexivity.
    - split; [left; auto|]. split; [left; auto|]. intros [Q|Q]; auto. apply has_mca_spec in Q. congruence.
  Qed.


  (** C25 and C28 *)
  Lemma C28_lemma s name sc s' sc' ls dl n : first_interpret E known s name sc s' sc' -> lines_of (s_raw sc) ls -> Keeps data_line_of ls dl -> dl <> [] ->
    attr_is sc' A_N (Some [n]) -> (forall l w, In l dl -> first_word_is l (L "@A" ++ w) -> starts_with "@A" l) ->
    (forall l, In l dl -> starts_with "@A" l -> l <> L "@A" /\ exists lab, attr_is sc' A_L lab /\ ~ In (L "_mca_") lab) ->
    exists lab data rows, attr_is sc' A_L lab /\ attr_is sc' A_data data /\
      Keeps (fun l => ~ starts_with "@A" l) dl rows /\ tabulated lab data rows /\ tabulated lab data dl /\
      (rows <> dl -> exists m, dget (L "_mca_") data = Some (Mca m) /\ spectra m dl).
  Proof.
    intros Hf Hl Hd Hne HN Hin Hm. pose proof (dlines_spec _ _ _ Hl Hd) as ->.
    destruct (data_lemma E known Hk _ _ _ _ _ Hf Hne) as (lab0 & lab & nl & lines & data & D1 & D2 & D3 & D4 & D5 & D6 & D7 & D8 & _).
    unfold attr_is in HN. rewrite D4 in HN. apply Some_inj, Some_inj in HN. subst nl. cbn [combine_split_NM_lines] in D6. injection D6 as <-.
    set (dl := dlines known (s_raw sc)) in *.
    assert (A1 : forall l, is_at l = true <-> starts_with "@A" l) by (intros l; symmetry; apply starts_with_prefixb).
    assert (A2 : existsb is_at dl = true -> has_mca dl = true).
    { intros H. apply existsb_exists in H. destruct H as (l & Hi & Ha). apply has_mca_spec. exists l. split; auto. apply A1 in Ha. split; auto. apply (Hm l); auto. }
    assert (A3 : has_mca dl = true -> ~ In mkey lab).
    { intros H. apply has_mca_spec in H. destruct H as (l & Hi & Ha & _). destruct (Hm l Hi Ha) as (_ & lab' & Q1 & Q2). unfold attr_is in Q1. rewrite D3 in Q1.
      apply Some_inj in Q1. subst lab'. exact Q2. }
    destruct (filled lab dl dl data (lab_nodup _ _ D2) A2 A3 D7) as (F1 & F2 & F3).
    exists lab, data, (List.filter (fun l => negb (is_at l)) dl). split; auto. split; auto. split; [|split; [|split; auto]].
    - apply Keeps_filter. intros l. rewrite negb_true_iff, <- not_true_iff_false, A1. reflexivity.
    - apply tabulated_filter; auto. intros l H. apply negb_false_iff in H. apply at_no_row; auto.
    - intros Hr. apply F3.
      + apply A2. destruct (existsb is_at dl) eqn:Ex; auto. exfalso. apply Hr. clear - Ex. induction dl as [|l dl IH]; auto. cbn in *. apply orb_false_iff in Ex. destruct Ex as [-> Ex]. cbn. f_equal. auto.
      + intros l key Hi Ha (w & Hw & _). apply Hin in Hw; auto. apply A1 in Hw. congruence.
  Qed.


  Lemma C28_lemma' s name sc s' sc' ls dl n : first_interpret E known s name sc s' sc' -> lines_of (s_raw sc) ls -> Keeps data_line_of ls dl -> dl <> [] ->
    attr_is sc' A_N (Some [n]) -> (forall l, In l dl -> control H_atA l -> starts_with "@A" l) ->
    ((exists l, In l dl /\ control H_atA l) -> forall lab, attr_is sc' A_L lab -> ~ In (L "_mca_") lab) ->
    exists lab data rows, attr_is sc' A_L lab /\ attr_is sc' A_data data /\
      Keeps (control H_data) ls rows /\ tabulated lab data rows /\
      ((exists l, In l dl /\ control H_atA l) -> exists m, dget (L "_mca_") data = Some (Mca m) /\ spectra m dl).
  Proof.
    intros Hf Hl Hd Hne HN Hin Hm. pose proof (dlines_spec _ _ _ Hl Hd) as Edl.
    assert (HD : forall l, In l dl -> data_line_of l) by (destruct (Keeps_incl _ _ _ Hd) as [_ K]; rewrite Forall_forall in K; exact K).
    assert (A0 : forall l, In l dl -> starts_with "@A" l <-> control H_atA l).
    { intros l Hi. split; auto. intros Hs. destruct (HD l Hi) as [Q|Q]; auto. exfalso. apply control_data_at in Q. apply starts_with_prefixb in Hs. unfold is_at in Q. congruence. }
    destruct (data_lemma E known Hk _ _ _ _ _ Hf) as (lab0 & lab' & nl & lines & data' & D1 & D2 & D3 & _); [rewrite <- Edl; auto|].
    destruct (C28_lemma _ _ _ _ _ _ _ _ Hf Hl Hd Hne HN) as (lab & data & rows & B1 & B2 & B3 & B4 & B5 & B6).
    { intros l w Hi Hw. apply Hin; auto. destruct (HD l Hi) as [Q|Q]; auto. exfalso. eapply control_data_word; eauto. }
    { intros l Hi Hs. apply A0 in Hs; auto. split.
      - intros ->. apply control_SP in Hs. cbn in Hs. decompose [or] Hs; try discriminate; auto.
      - exists lab'. split; auto. apply Hm; eauto. }
    exists lab, data, rows. split; auto. split; auto. split; [|split; auto].
    - eapply Keeps_Keeps; [exact Hd|exact B3|]. intros l Hl'. cbn. split; [intros Hc; split; [left; auto|]|intros [Q1 Q2]].
      + intros Hs. apply control_data_at in Hc. apply starts_with_prefixb in Hs. unfold is_at in Hc. congruence.
      + destruct Q1 as [Q1|Q1]; auto. exfalso. apply Q2. apply Hin; auto. eapply Keeps_In; eauto. right; auto.
    - intros (l & Hi & Hc). apply B6. intros ->. destruct (Keeps_incl _ _ _ B3) as [_ K]. rewrite Forall_forall in K. apply (K l Hi). apply Hin; auto.
  Qed.

  Lemma C25_lemma s name sc s' sc' ls dl n : first_interpret E known s name sc s' sc' -> lines_of (s_raw sc) ls -> Keeps data_line_of ls dl ->
    attr_is sc' A_N (Some [n]) -> (forall l, In l dl -> ~ control H_atA l) -> dl <> [] ->
    exists lab data, attr_is sc' A_L lab /\ attr_is sc' A_data data /\ keys data = lab /\ NoDup lab /\ tabulated lab data dl.
  Proof.
    intros Hf Hl Hd HN Hna Hne.
    destruct (C28_lemma' _ _ _ _ _ _ _ _ Hf Hl Hd Hne HN) as (lab & data & rows & B1 & B2 & B3 & B4 & _).
    { intros l Hi Hc. destruct (Hna l Hi Hc). }
    { intros (l & Hi & Hc). destruct (Hna l Hi Hc). }
    destruct (C24_lemma _ _ _ _ _ _ _ Hf Hl Hd Hne) as (lab0 & lab' & data' & _ & _ & C1 & _ & C2 & C3 & C4 & C5).
    unfold attr_is in *. rewrite B1 in C2. apply Some_inj in C2. subst lab'. rewrite B2 in C3. apply Some_inj in C3. subst data'.
    exists lab, data. split; auto. split; auto. split; [|split; auto].
    - destruct C4 as [C4|[C4 C6]]; auto. exfalso. destruct (proj1 C5) as [Q|(l & Hi & Hs & _)]; [rewrite C4; apply in_or_app; simpl; auto|auto|].
      destruct (Keeps_incl _ _ _ Hd) as [_ K]. rewrite Forall_forall in K. destruct (K l Hi) as [Q|Q]; [|destruct (Hna _ Hi Q)].
      apply control_data_at in Q. apply starts_with_prefixb in Hs. unfold is_at in Q. congruence.
    - replace dl with rows; auto. eapply Keeps_fun; [exact B3|]. destruct (Keeps_incl _ _ _ Hd) as [K1 K2]. rewrite Forall_forall in K2.
      eapply Keeps_Keeps; [exact Hd|apply (Keeps_all (fun _ => True)); apply Forall_forall; auto|]. intros l Hi. split; [intros Q; split; auto; left; auto|].
      intros [[Q|Q] _]; auto. exfalso. eapply Hna; [eapply Keeps_In; [exact Hd|exact Hi|right; exact Q]|exact Q].
  Qed.

  Lemma C27_lemma s name sc s' sc' ls dl n m rows : first_interpret E known s name sc s' sc' -> lines_of (s_raw sc) ls -> Keeps data_line_of ls dl ->
    attr_is sc' A_N (Some [Z.of_nat n; m]) -> (forall l, In l dl -> ~ control H_atA l) -> dl <> [] -> put_together n dl rows ->
    exists lab data, attr_is sc' A_L lab /\ attr_is sc' A_data data /\ keys data = lab /\ tabulated lab data rows.
  Proof.
    intros Hf Hl Hd HN Hna Hne Hp. pose proof (dlines_spec _ _ _ Hl Hd) as Edl. destruct (Keeps_incl _ _ _ Hd) as [K1 K2]. rewrite Forall_forall in K2.
    destruct (data_lemma E known Hk _ _ _ _ _ Hf) as (lab0 & lab & nl & lines & data & D1 & D2 & D3 & D4 & D5 & D6 & D7 & D8 & _); [rewrite <- Edl; auto|].
    rewrite <- Edl in *. unfold attr_is in *. rewrite D4 in HN. apply Some_inj, Some_inj in HN. subst nl. cbn [combine_split_NM_lines] in D6.
    assert (A1 : Forall (fun l => is_at l = false) dl).
    { apply Forall_forall. intros l Hi. destruct (K2 l Hi) as [Q|Q]; [apply control_data_at; auto|destruct (Hna _ Hi Q)]. }
    destruct (combine_put _ _ _ Hp A1) as (rows' & R1 & R2). rewrite R1 in D6. injection D6 as <-.
    assert (A2 : has_mca dl = false).
    { destruct (has_mca dl) eqn:Eh; auto. apply has_mca_at in Eh. apply existsb_exists in Eh. destruct Eh as (l & Hi & Ha). rewrite Forall_forall in A1. rewrite A1 in Ha; auto. }
    assert (A3 : existsb is_at rows' = false).
    { destruct (existsb is_at rows') eqn:Ex; auto. exfalso. apply existsb_exists in Ex. destruct Ex as (r & Hi & Ha). destruct (at_word _ Ha) as (x & ws & Hw).
      assert (H1 : exists r', In r' rows /\ words r' = (L "@A" ++ x) :: ws).
      { rewrite <- Hw. clear - R2 Hi. induction R2 as [|a b l l' E _ IH]; [destruct Hi|]. destruct Hi as [->|Hi]; [exists b; split; [left; auto|auto]|]. destruct (IH Hi) as (r' & Q1 & Q2). exists r'. split; [right; auto|auto]. }
      destruct H1 as (r' & Hr & Hw'). destruct (put_words _ _ _ Hp _ _ _ Hr Hw') as (l & ws' & Hl' & Hw2).
      destruct (K2 l Hl') as [Q|Q]; [|destruct (Hna _ Hl' Q)]. apply (control_data_word l x Q). apply first_word_words. eauto. }
    destruct (filled lab dl rows' data (lab_nodup _ _ D2)) as (F1 & F2 & F3); auto; [rewrite A3; discriminate|rewrite A2; discriminate|].
    exists lab, data. split; auto. split; auto. split; [rewrite F1, empty_keys, A2; auto|]. eapply tabulated_fields; eauto.
  Qed.
End Data2.
