(** C05-C07: the first read of a file. *)
From Coq Require Import String Lia Permutation Sorted.
From Verif Require Import Uni Py PyFacts NumFacts Time Utils UtilsFacts Keys Handlers Reader SpecText SpecReader TextFacts KeyFacts ReaderFacts.
Import ListNotations.
Local Open Scope list_scope.

Notation view := (list (str * (str * str * str * str * nat))).

Lemma scan_not_other b w : first_word_is b w -> w <> L "#S" -> ~ scan_section b.
Proof. unfold scan_section. rewrite !first_word_words. intros [ws H] Hn [ws' H']. rewrite H in H'. congruence. Qed.
Lemma header_not_other b w : first_word_is b w -> w <> L "#E" -> ~ header_section b.
Proof. unfold header_section. rewrite !first_word_words. intros [ws H] Hn [ws' H']. rewrite H in H'. congruence. Qed.
Lemma Keeps_app {A} (P : A -> Prop) a b k l : Keeps P a k -> Keeps P b l -> Keeps P (a ++ b) (k ++ l).
Proof. intros H; induction H; simpl; auto; intros; constructor; auto. Qed.
Lemma Keeps_fun {A} (P : A -> Prop) a k l : Keeps P a k -> Keeps P a l -> k = l.
Proof. intros H; revert l; induction H; intros m Hm; inversion Hm; subst; try tauto. f_equal; auto. auto. Qed.
Lemma Keeps_split {A} (P : A -> Prop) a b k : Keeps P (a ++ b) k -> exists k1 k2, k = k1 ++ k2 /\ Keeps P a k1 /\ Keeps P b k2.
Proof.
  revert k; induction a as [|x a IH]; simpl; intros k H.
  - exists [], k. split; auto. split; auto. constructor.
  - inversion H; subst.
    + destruct (IH _ H4) as (k1 & k2 & -> & ? & ?). exists (x :: k1), k2. repeat split; auto. constructor; auto.
    + destruct (IH _ H4) as (k1 & k2 & -> & ? & ?). exists k1, k2. repeat split; auto. apply Keeps_no; auto.
Qed.

Definition raws (v : view) := map (fun kv => i_raw (snd kv)) v.
Lemma block_raws b v h v' h' : block_step b v h v' h' -> exists k, raws v' = raws v ++ k /\ Keeps scan_section [b] k.
Proof.
  intros H; inversion H; subst.
  - exists []. rewrite app_nil_r. split; auto. constructor; [|constructor]. eapply scan_not_other; eauto; discriminate.
  - exists []. rewrite app_nil_r. split; auto. constructor; [|constructor]. eapply scan_not_other; eauto; discriminate.
  - exists []. rewrite app_nil_r. split; auto. constructor; [|constructor]. eapply scan_not_other; eauto; discriminate.
  - exists [b]. unfold raws. rewrite map_app. split; auto. apply Keeps_yes; [auto|constructor].
Qed.
Lemma blocks_raws bs v h v' h' : blocks_steps bs v h v' h' -> exists k, raws v' = raws v ++ k /\ Keeps scan_section bs k.
Proof.
  intros H; induction H as [|b bs v h v1 h1 v2 h2 H1 H2 IH].
  - exists []. rewrite app_nil_r. split; auto. constructor.
  - destruct IH as (k & Hk & Hkk). destruct (block_raws _ _ _ _ _ H1) as (k1 & Hk1 & Hkk1).
    exists (k1 ++ k). split; [rewrite Hk, Hk1, app_assoc; auto|]. apply (Keeps_app _ [b] bs); auto.
Qed.

Lemma C05_lemma E known name p s : incl all_hids known -> open_file E known name p = Ok s ->
  exists secs, dissect p = Ok secs /\
    Keeps scan_section secs (map s_raw (values (scans s))) /\
    NoDup (keys (scans s)) /\ map s_num (values (scans s)) = keys (scans s).
Proof.
  intros Hk H. destruct (open_first E known Hk name p s H) as (secs & Hd & _ & [I1 I2] & _ & B).
  exists secs. split; auto. apply blocks_raws in B. destruct B as (k & Hk1 & Hk2).
  unfold raws, vs in Hk1. rewrite raw_vd in Hk1. simpl in Hk1. rewrite Hk1. auto.
Qed.

(* ------------------------------------------------------------------ *)
(** * C06 *)

Definition rname (n : str) (k : nat) : str := match k with O => n | _ => dup_name n k end.
Lemma dval_decimal s : Forall ascii_digit s -> decimal_value s = dval s.
Proof.
  intros _. unfold decimal_value, dval, num_of_digits. generalize 0%N as a. induction s as [|c s IH]; simpl; intros; auto.
Qed.
Lemma numeral_str k : numeral (str_of_nat k) k.
Proof.
  unfold str_of_nat. destruct (str_of_N_spec (N.of_nat k)) as (H1 & H2 & H3 & H4).
  split; auto. split; [exact H2|]. split.
  - destruct (str_of_N (N.of_nat k)) as [|c t]; [congruence|]. simpl. intros ->. destruct (H4 t) as [Q|[-> _]]; congruence.
  - rewrite dval_decimal; auto.
Qed.
Lemma rname_repeat n k : repeat_name n k (rname n k).
Proof.
  destruct k as [|k]; [left; auto|]. right. split; [lia|]. exists (str_of_nat (S k)). split; [apply numeral_str|]. reflexivity.
Qed.
Lemma dot_split (a b c d : str) : ~ In 46%N a -> ~ In 46%N c -> a ++ 46%N :: b = c ++ 46%N :: d -> a = c /\ b = d.
Proof.
  revert c; induction a as [|x a IH]; intros [|y c]; simpl; intros Ha Hc H.
  - inversion H; auto.
  - inversion H; subst. tauto.
  - inversion H; subst. tauto.
  - inversion H; subst. destruct (IH c) as [-> ->]; auto.
Qed.
Lemma rname_inj n j m k : ~ In 46%N n -> ~ In 46%N m -> rname n j = rname m k -> n = m /\ j = k.
Proof.
  intros Hn Hm H. destruct j as [|j], k as [|k]; simpl in H; auto.
  - exfalso. apply Hn. subst n. unfold dup_name. apply in_or_app; simpl; auto.
  - exfalso. apply Hm. subst m. unfold dup_name. apply in_or_app; simpl; auto.
  - unfold dup_name in H. apply dot_split in H; auto. destruct H as [-> H]. apply str_of_nat_inj in H. auto.
Qed.
Notation cnt l n := (count_occ str_eq_dec l n).
Definition nameK (ns ks : list str) : Prop :=
  forall n j, ~ In 46%N n -> (In (rname n j) ks <-> j < cnt ns n).
Definition nameG (ns ks : list str) : Prop :=
  List.length ns = List.length ks /\
  forall i n, nth_error ns i = Some n -> nth_error ks i = Some (rname n (cnt (firstn i ns) n)).
Lemma cnt_app a b n : cnt (a ++ b) n = cnt a n + cnt b n.
Proof. induction a as [|x a IH]; simpl; auto. destruct (str_eq_dec x n); simpl; auto. Qed.
Lemma names_snoc ns ks n0 n : nameK ns ks -> nameG ns ks -> ~ In 46%N n0 -> named ks n0 n ->
  nameK (ns ++ [n0]) (ks ++ [n]) /\ nameG (ns ++ [n0]) (ks ++ [n]).
Proof.
  intros HK [HG1 HG2] Hd Hn.
  assert (Hc : n = rname n0 (cnt ns n0)).
  { destruct Hn as [[H ->]|(H & i & Hi & -> & Hni & Hall)].
    - specialize (HK n0 0 Hd). simpl in HK. destruct (cnt ns n0) eqn:Ec; auto. exfalso. apply H. apply HK. lia.
    - assert (i = cnt ns n0); [|subst; destruct (cnt ns n0); [lia|auto]].
      assert (Hge : cnt ns n0 <= i).
      { destruct (Nat.le_gt_cases (cnt ns n0) i); auto. exfalso. apply Hni.
        replace (dup_name n0 i) with (rname n0 i) by (destruct i; [lia|auto]). apply HK; auto. }
      assert (Hle : i - 1 < cnt ns n0).
      { destruct i as [|[|i]]; [lia|apply (HK n0 0 Hd); auto|]. apply (HK n0 (S i) Hd). simpl. apply Hall. lia. }
      lia. }
  subst n. split.
  - intros m j Hm. rewrite in_app_iff, cnt_app. specialize (HK m j Hm). cbn [In count_occ].
    destruct (str_eq_dec n0 m) as [->|Hne].
    + split.
      * intros [Q|[Q|[]]]; [apply HK in Q; lia|]. apply rname_inj in Q; auto. lia.
      * intros Q. destruct (Nat.eq_dec j (cnt ns m)) as [->|]; [auto|]. left. apply HK. lia.
    + rewrite Nat.add_0_r, <- HK. split; auto. intros [Q|[Q|[]]]; auto. apply rname_inj in Q; auto. tauto.
  - split; [rewrite !app_length; simpl; lia|]. intros i m Hm.
    destruct (Nat.lt_ge_cases i (List.length ns)) as [Hi|Hi].
    + rewrite nth_error_app1 in Hm by auto. rewrite nth_error_app1 by lia.
      rewrite firstn_app. replace (i - List.length ns) with 0 by lia. simpl. rewrite app_nil_r. apply HG2; auto.
    + rewrite nth_error_app2 in Hm by auto. destruct (i - List.length ns) as [|k] eqn:Ek; [|destruct k; discriminate].
      simpl in Hm. inversion Hm; subst m. rewrite nth_error_app2 by lia. replace (i - List.length ks) with 0 by lia.
      simpl. rewrite firstn_app, Ek. simpl. rewrite app_nil_r, firstn_all2 by lia. auto.
Qed.

Lemma second_words l n : second_word_is l n <-> exists w ws, words l = w :: n :: ws.
Proof.
  split.
  - intros [[Hn1 Hn2] (a & w & b & c & -> & Ha & [Hw1 Hw2] & Hb & Hb0 & Hc)]. exists w, (words c).
    rewrite words_space_app by (apply blank_forallb; auto). destruct b as [|x b]; [congruence|].
    inversion Hb; subst. rewrite <- app_comm_cons. rewrite words_word_space; auto; [|apply nospace_Forall; auto].
    rewrite words_space_app by (apply blank_forallb; auto). f_equal.
    destruct Hc as [->|(x1 & t & -> & Hx)].
    + rewrite app_nil_r, words_word; auto. apply nospace_Forall; auto.
    + rewrite words_word_space; auto; [|apply nospace_Forall; auto]. rewrite (words_lspace x1); auto.
  - intros (w & ws & H). apply words_cons in H. destruct H as (a & b & -> & Ha & Hw1 & Hw2 & H & Hb).
    apply words_cons in H. destruct H as (a2 & b2 & -> & Ha2 & Hn1 & Hn2 & _ & Hb2).
    split; [split; auto; apply nospace_Forall; auto|].
    exists a, w, a2, b2. split; auto. split; [apply blank_forallb; auto|]. split; [split; auto; apply nospace_Forall; auto|].
    split; [apply blank_forallb; auto|]. split.
    + intros ->. destruct n as [|c n]; [congruence|]. simpl in Hb. unfold nospace in Hn2. simpl in Hn2. rewrite Hb in Hn2. discriminate.
    + destruct b2; auto. right; eauto.
Qed.

Lemma strip_first_word_words w c rest : nospace w = true -> w <> [] -> words rest <> [] -> ~ In SP w ->
  c = SP -> words (strip_first_word (strip (w ++ c :: rest))) = words rest.
Proof.
  intros Hw Hne Hr Hsp ->.
  assert (S : exists r', strip (w ++ SP :: rest) = w ++ SP :: r' /\ words r' = words rest).
  { destruct (strip_by_split is_space rest) as (a & b & Hs & Ha & Hb & Ht). fold (strip rest) in *.
    assert (Hn : strip rest <> []). { intros Q. apply Hr. rewrite <- words_strip, Q. reflexivity. }
    exists (a ++ strip rest). split.
    - rewrite Hs at 1. pose proof (strip_by_tight is_space [] (w ++ SP :: a ++ strip rest) b) as T.
      simpl app in T. rewrite <- !app_assoc in T. simpl app in T. rewrite <- !app_assoc in T. apply T; auto.
      destruct Ht as [_ Ht2]. split.
      + destruct w as [|x w]; [congruence|]. simpl. unfold nospace in Hw. simpl in Hw. destruct (is_space x); auto; discriminate.
      + change (w ++ SP :: a ++ strip rest) with (w ++ (SP :: a) ++ strip rest). rewrite app_assoc, rev_app_distr.
        destruct (rev (strip rest)) as [|x r] eqn:Er; [|exact Ht2].
        exfalso. apply Hn. rewrite <- (rev_involutive (strip rest)), Er. auto.
    - rewrite words_space_app by auto. apply words_strip. }
  destruct S as (r' & -> & Hr'). unfold strip_first_word. rewrite find_c_app by auto.
  rewrite words_strip. cbn [pos_of]. rewrite slice_from_nat. rewrite skipn_app, skipn_all, Nat.sub_diag. simpl app. cbn [skipn].
  rewrite words_lspace by reflexivity. auto.
Qed.

(** number on the line = first word of the stored S *)
Lemma scan_number_line b l rest n0 t n : first_line b = Ok l -> l = L "#S" ++ SP :: rest ->
  words (strip_first_word (strip l)) = n0 :: t -> scan_number b n -> n0 = n.
Proof.
  intros HF Hl Hw (l' & ls & HL & HS). apply Lines_splitlines in HL.
  unfold first_line in HF. rewrite <- HL in HF. rewrite index_0 in HF. inversion HF; subst l'.
  apply second_words in HS. destruct HS as (w & ws & HS). subst l.
  assert (W : words (L "#S" ++ SP :: rest) = L "#S" :: words rest) by (apply words_word_space; try reflexivity; discriminate).
  rewrite W in HS. inversion HS as [[Hw0 Hr]].
  rewrite strip_first_word_words in Hw; [congruence|reflexivity|discriminate|rewrite Hr; discriminate| |reflexivity].
  simpl. intros [Q|[Q|[]]]; discriminate.
Qed.

Lemma blocks_names bs v h v' h' : blocks_steps bs v h v' h' -> forall ns0 secs ns,
  nameK ns0 (keys v) -> nameG ns0 (keys v) -> Keeps scan_section bs secs -> Forall2 scan_number secs ns ->
  Forall (fun n => ~ In 46%N n) ns ->
  nameK (ns0 ++ ns) (keys v') /\ nameG (ns0 ++ ns) (keys v').
Proof.
  intros H; induction H as [|b bs v h v1 h1 v2 h2 H1 H2 IH]; intros ns0 secs ns K G HKe HF Hd.
  - inversion HKe; subst. inversion HF; subst. rewrite app_nil_r; auto.
  - inversion H1; subst.
    + assert (~ scan_section b) by (eapply scan_not_other; eauto; discriminate).
      inversion HKe; subst; [tauto|]. eapply IH; eauto.
    + assert (~ scan_section b) by (eapply scan_not_other; eauto; discriminate).
      inversion HKe; subst; [tauto|]. eapply IH; eauto.
    + assert (~ scan_section b) by (eapply scan_not_other; eauto; discriminate).
      inversion HKe; subst; [tauto|]. eapply IH; eauto.
    + inversion HKe; subst; [|tauto]. inversion HF; subst. inversion Hd; subst.
      assert (n0 = y) by (eapply scan_number_line; eauto). subst n0.
      destruct (names_snoc ns0 (keys v) y n K G) as [K' G']; auto.
      assert (Hks : forall x, keys (v ++ [(n, x)]) = keys v ++ [n]) by (intros; unfold keys; rewrite map_app; auto).
      rewrite <- (Hks (b, strip_first_word (strip (L "#S" ++ SP :: rest)), n,
             strip_first_word (strip_first_word (strip (L "#S" ++ SP :: rest))), Datatypes.length (hdrs h) - 1)) in K', G'.
      edestruct IH as [K2 G2]; [exact K'|exact G'|eassumption|eassumption|eassumption|]. rewrite <- app_assoc in K2, G2. auto.
Qed.
Lemma count_cnt l n : occurs l n (cnt l n).
Proof.
  unfold occurs. induction l as [|x l IH]; simpl; [constructor|]. destruct (str_eq_dec x n); constructor; auto.
Qed.
Lemma count_unique {A} (P : A -> Prop) l j k : count P l j -> count P l k -> j = k.
Proof. intros H; revert k; induction H; intros k Hk; inversion Hk; subst; try tauto; auto. Qed.

Lemma nth_values {V} (d : dict V) i v : nth_error (values d) i = Some v -> exists k, nth_error d i = Some (k, v) /\ nth_error (keys d) i = Some k.
Proof.
  unfold values, keys. rewrite !nth_error_map. destruct (nth_error d i) as [[k w]|]; simpl; [|discriminate].
  intros H; inversion H; subst; eauto.
Qed.

Lemma C06_lemma E known name p s secs scansecs ns : incl all_hids known -> open_file E known name p = Ok s ->
  dissect p = Ok secs -> Keeps scan_section secs scansecs -> Forall2 scan_number scansecs ns ->
  Forall (fun n => ~ In 46%N n) ns ->
  forall i n k sec, nth_error ns i = Some n -> nth_error scansecs i = Some sec -> occurs (firstn i ns) n k ->
  exists nm sc, repeat_name n k nm /\ nth_error (keys (scans s)) i = Some nm /\
    dget nm (scans s) = Some sc /\ s_raw sc = sec /\ s_num sc = nm.
Proof.
  intros Hk H Hd HK HF Hdot i n k sec Hi Hsec Hoc.
  destruct (open_first E known Hk name p s H) as (secs' & Hd' & _ & [I1 I2] & _ & B).
  assert (secs' = secs) by congruence. subst secs'.
  pose proof (blocks_raws _ _ _ _ _ B) as (k' & Hk1 & Hk2). unfold raws, vs in Hk1. rewrite raw_vd in Hk1. simpl in Hk1.
  assert (Hke : k' = scansecs) by (eapply Keeps_fun; eauto). rewrite Hke in Hk1. clear Hke Hk2 k'.
  destruct (blocks_names _ _ _ _ _ B [] scansecs ns) as [_ [G1 G2]]; auto.
  - intros n1 j _. simpl. split; [tauto|lia].
  - split; auto. intros [|j] m Q; discriminate.
  - simpl in G1, G2. unfold vs in G2. rewrite keys_vd in G2. specialize (G2 i n Hi).
    assert (Hv : exists sc, nth_error (values (scans s)) i = Some sc /\ s_raw sc = sec).
    { rewrite <- Hk1, nth_error_map in Hsec. destruct (nth_error (values (scans s)) i) as [sc|]; simpl in Hsec; [|discriminate].
      inversion Hsec; eauto. }
    destruct Hv as (sc & Hv & Hr). destruct (nth_values _ _ _ Hv) as (nm & Hd1 & Hd2).
    exists nm, sc. rewrite Hd2 in G2. inversion G2; subst nm.
    split. { replace k with (cnt (firstn i ns) n); [apply rname_repeat|]. eapply count_unique; [apply count_cnt|exact Hoc]. }
    split; auto. split; [apply In_dget; auto; eapply nth_error_In; eauto|]. split; auto.
    rewrite I2, nth_error_map, Hv in Hd2. simpl in Hd2. congruence.
Qed.

(* ------------------------------------------------------------------ *)
(** * C07 *)

Lemma strip_ne_first b w : first_word_is b w -> strip b <> [].
Proof. rewrite first_word_words. intros [ws H] Q. rewrite <- words_strip, Q in H. discriminate. Qed.

(** stored headers [h] are the header sections seen so far, maybe after a made-up empty one *)
Definition hdr_ok (hs h : list str) : Prop := h = hs \/ h = [] :: hs.
Definition scan_hdrs (v : view) := map (fun kv => i_hdr (snd kv)) v.
Lemma last_hdrs hs h : hdr_ok hs h -> nth_error (hdrs h) (List.length (hdrs h) - 1) = Some (last hs []).
Proof.
  assert (L : forall (l : list str), l <> [] -> nth_error l (List.length l - 1) = Some (last l [])).
  { intros l Hl. destruct l as [|x l] using rev_ind; [congruence|]. rewrite app_length. simpl. rewrite nth_error_app2 by lia.
    rewrite last_last. replace (List.length l + 1 - 1 - List.length l) with 0 by lia. auto. }
  intros [->| ->].
  - destruct hs; [auto|]. unfold hdrs. apply L; discriminate.
  - unfold hdrs. rewrite L by discriminate. simpl. destruct hs; auto.
Qed.
Lemma hdr_ok_hdrs hs h : hdr_ok hs h -> hdr_ok hs (hdrs h).
Proof. intros [->| ->]; [destruct hs; unfold hdr_ok; auto|right; auto]. Qed.

Lemma blocks_hdrs bs v h v' h' : blocks_steps bs v h v' h' -> forall hs0 hs,
  hdr_ok hs0 h -> Keeps header_section bs hs -> NoDup (map strip (hs0 ++ hs)) ->
  hdr_ok (hs0 ++ hs) h' /\
  (exists h2, h' = h ++ h2 \/ (h = [] /\ h' = [] :: h2)) /\
  exists v2, v' = v ++ v2 /\
    forall pre sec post ss hb, bs = pre ++ sec :: post -> scan_section sec ->
      Keeps scan_section pre ss -> Keeps header_section pre hb ->
      exists nm i, nth_error v2 (List.length ss) = Some (nm, i) /\ i_raw i = sec /\
                   nth_error h' (i_hdr i) = Some (last (hs0 ++ hb) []).
Proof.
  intros H; induction H as [|b bs v h v1 h1 v2 h2 H1 H2 IH]; intros hs0 hs Ho HKe Hnd.
  - inversion HKe; subst. rewrite app_nil_r. split; auto. split; [exists []; left; rewrite app_nil_r; auto|].
    exists []. split; [rewrite app_nil_r; auto|]. intros pre sec post ss hb Hb. destruct pre; discriminate.
  - assert (STEP : exists k1 k2, hs = k1 ++ k2 /\ Keeps header_section [b] k1 /\ Keeps header_section bs k2) by (apply (Keeps_split _ [b] bs); auto).
    destruct STEP as (k1 & k2 & -> & HK1 & HK2).
    assert (ONE : hdr_ok (hs0 ++ k1) h1 /\ (exists g, h1 = h ++ g \/ (h = [] /\ h1 = [] :: g)) /\ exists vn, v1 = v ++ vn /\
       ((vn = [] /\ ~ scan_section b) \/ (scan_section b /\ k1 = [] /\ exists nm i, vn = [(nm, i)] /\ i_raw i = b /\
           nth_error h1 (i_hdr i) = Some (last hs0 [])))).
    { inversion H1; subst.
      - assert (~ header_section b) by (eapply header_not_other; eauto; discriminate).
        inversion HK1 as [|?? ? ? HKx|?? ? ? HKx]; subst; [tauto|]. inversion HKx; subst. rewrite app_nil_r. split; auto. split; [exists []; left; rewrite app_nil_r; auto|].
        exists []. rewrite app_nil_r. split; auto. left; split; auto. eapply scan_not_other; eauto; discriminate.
      - exfalso. inversion HK1 as [|?? ? ? HKx|?? ? ? HKx]; subst; [|tauto]. inversion HKx; subst.
        rewrite app_assoc, map_app in Hnd. rewrite (map_app _ hs0 [b]) in Hnd. simpl in Hnd.
        assert (Hnb : ~ In (strip b) (map strip hs0)).
        { rewrite <- app_assoc in Hnd. simpl in Hnd. apply NoDup_remove_2 in Hnd. intros Q; apply Hnd. apply in_or_app; auto. }
        destruct Ho as [->| ->]; auto. simpl in H0. destruct H0 as [Q|Q]; auto. symmetry in Q. revert Q. eapply strip_ne_first; eauto.
      - inversion HK1 as [|?? ? ? HKx|?? ? ? HKx]; subst; [|tauto]. inversion HKx; subst.
        split. { destruct Ho as [->| ->]; [left; auto|right; auto]. }
        split; [eauto|]. exists []. rewrite app_nil_r. split; auto. left; split; auto. eapply scan_not_other; eauto; discriminate.
      - assert (~ header_section b) by (eapply header_not_other; eauto; discriminate).
        inversion HK1 as [|?? ? ? HKx|?? ? ? HKx]; subst; [tauto|]. inversion HKx; subst. rewrite app_nil_r. split; [apply hdr_ok_hdrs; auto|].
        split. { destruct h as [|x h]; [exists []; right; auto|exists []; left; rewrite app_nil_r; auto]. }
        eexists. split; [reflexivity|]. right. split; auto. split; auto. do 2 eexists. split; [reflexivity|]. split; auto.
        cbn [i_hdr]. apply last_hdrs; auto. }
    destruct ONE as (O1 & (g & G1) & vn & -> & Cn).
    destruct (IH (hs0 ++ k1) k2 O1 HK2) as (O2 & (g2 & G2) & vm & -> & Cm); [rewrite <- app_assoc; auto|].
    rewrite app_assoc. split; auto. split.
    { destruct G2 as [->|[-> ->]].
      - destruct G1 as [->|[-> ->]]; [exists (g ++ g2); left; rewrite app_assoc; auto|exists (g ++ g2); right; auto].
      - destruct G1 as [G1|[_ G1]]; [|discriminate]. symmetry in G1. apply app_eq_nil in G1. destruct G1 as [-> _]. exists g2; auto. }
    exists (vn ++ vm). split; [rewrite app_assoc; auto|]. intros pre sec post ss hb Hb Hs Hss Hhb.
    destruct pre as [|x pre]; simpl in Hb; inversion Hb; subst.
    + inversion Hss; subst. inversion Hhb; subst. destruct Cn as [[_ Q]|(_ & _ & nm & i & -> & Hi1 & Hi2)]; [tauto|].
      exists nm, i. split; auto. split; auto. rewrite app_nil_r.
      destruct G2 as [->|[-> ->]]; [rewrite nth_error_app1; auto; apply nth_error_Some; congruence|].
      destruct (i_hdr i); discriminate.
    + destruct (Keeps_split _ [x] pre ss Hss) as (s1 & s2 & -> & Hs1 & Hs2).
      destruct (Keeps_split _ [x] pre hb Hhb) as (b1 & b2 & -> & Hb1 & Hb2).
      assert (b1 = k1) by (eapply Keeps_fun; eauto). subst b1.
      destruct (Cm pre sec post s2 b2 eq_refl Hs Hs2 Hb2) as (nm & i & Q1 & Q2 & Q3).
      exists nm, i. split; [|split; [auto|rewrite app_assoc; auto]].
      assert (List.length s1 = List.length vn).
      { destruct Cn as [[-> Q]|(Q & _ & nm' & i' & -> & _)]; inversion Hs1; subst; try tauto; inversion H5; subst; auto. }
      rewrite nth_error_app2 by (rewrite app_length; lia). rewrite app_length. replace (_ - _) with (List.length s2) by lia. auto.
Qed.

Lemma same_text_strip a b : same_text a b <-> strip a = strip b.
Proof.
  assert (P : forall a c, padded a c -> strip a = strip c).
  { intros x c (u & v & -> & Hu & Hv). apply blank_forallb in Hu. apply blank_forallb in Hv.
    destruct (strip_by_split is_space c) as (p & q & Hc & Hp & Hq & Ht). rewrite Hc at 1.
    unfold strip at 1. rewrite <- !app_assoc. rewrite (app_assoc u p). rewrite strip_by_tight; auto; rewrite forallb_app, ?Hu, ?Hp, ?Hq, ?Hv; auto. }
  split.
  - intros (c & H1 & H2). rewrite (P _ _ H1), (P _ _ H2). auto.
  - intros H. exists (strip a). split.
    + destruct (strip_by_split is_space a) as (p & q & Hc & Hp & Hq & Ht). exists p, q. split; auto. split; apply blank_forallb; auto.
    + rewrite H. destruct (strip_by_split is_space b) as (p & q & Hc & Hp & Hq & Ht). exists p, q. split; auto. split; apply blank_forallb; auto.
Qed.
Lemma distinct_texts l : ForallOrdPairs (fun a b => ~ same_text a b) l <-> NoDup (map strip l).
Proof.
  induction l as [|x l IH]; simpl.
  - split; constructor.
  - split; intros H; inversion H; subst; constructor; try tauto.
    + rewrite in_map_iff. intros (y & Hy & Hin). match goal with Q : Forall _ l |- _ => rewrite Forall_forall in Q; apply (Q y Hin) end.
      apply same_text_strip; auto.
    + rewrite Forall_forall. intros y Hin Q. apply same_text_strip in Q.
      match goal with N1 : ~ In _ _ |- _ => apply N1 end. rewrite Q. apply in_map; auto.
Qed.

Lemma last_of_last {A} (d : A) l x : last l d = x -> last_of d l x.
Proof.
  intros <-. destruct l as [|y l] using rev_ind; [left; auto|]. right. exists l. rewrite last_last. auto.
Qed.
Lemma C07_lemma E known name p s secs hs : incl all_hids known -> open_file E known name p = Ok s ->
  dissect p = Ok secs -> Keeps header_section secs hs -> ForallOrdPairs (fun a b => ~ same_text a b) hs ->
  forall before sec after ss hb, secs = before ++ sec :: after -> scan_section sec ->
    Keeps scan_section before ss -> Keeps header_section before hb ->
    exists sc h, nth_error (values (scans s)) (List.length ss) = Some sc /\ s_raw sc = sec /\
      nth_error (headers s) (s_hdr sc) = Some h /\ last_of [] hb (h_raw h).
Proof.
  intros Hk H Hd HK Hdis before sec after ss hb Hs Hsec Hss Hhb.
  destruct (open_first E known Hk name p s H) as (secs' & Hd' & _ & _ & _ & B).
  assert (Hq : secs' = secs) by congruence. rewrite Hq in B.
  destruct (blocks_hdrs _ _ _ _ _ B [] hs) as (_ & _ & v2 & Hv & C); [left; auto|auto|apply distinct_texts; auto|].
  simpl in Hv. destruct (C _ _ _ _ _ Hs Hsec Hss Hhb) as (nm & i & C1 & C2 & C3). simpl in C3.
  rewrite <- Hv in C1. unfold vs, vd in C1. rewrite nth_error_map in C1.
  destruct (nth_error (scans s) (List.length ss)) as [[k sc]|] eqn:En; simpl in C1; [|discriminate].
  inversion C1; subst nm i. unfold vh in C3. cbn [vkv snd info i_hdr i_raw] in *. rewrite nth_error_map in C3.
  destruct (nth_error (headers s) (s_hdr sc)) as [h|] eqn:Eh; simpl in C3; [|discriminate].
  exists sc, h. split. { unfold values. rewrite nth_error_map, En. auto. }
  split; auto. split; auto. apply last_of_last. injection C3 as C3. symmetry; exact C3.
Qed.

(* ------------------------------------------------------------------ *)
(** * C08: any history *)

Definition invF (s : sdf) : Prop := NoDup (keys (scans s)) /\ Forall (fun kv => fst kv = s_num (snd kv)) (scans s).
Lemma inv_invF s : inv s <-> invF s.
Proof.
  unfold inv, invF. split; intros [H1 H2]; (split; [auto|]).
  - clear H1. induction (scans s) as [|[k v] d IH]; constructor; simpl in *; inversion H2; auto.
  - clear H1. induction H2 as [|[k v] d Hx Hf IH]; simpl in *; auto. f_equal; auto.
Qed.
Lemma ddel_incl {V} k (d : dict V) : incl (ddel k d) d.
Proof. induction d as [|[k' v] d IH]; simpl; [apply incl_refl|]. destruct (seqb k k'); [apply incl_tl, incl_refl|]. intros x [<-|Hx]; simpl; auto. Qed.
Lemma inv_ddel k s l : inv s -> inv (set_last l (set_scans (ddel k (scans s)) s)).
Proof.
  rewrite !inv_invF. intros [H1 H2]. split; simpl; [apply NoDup_ddel; auto|].
  rewrite Forall_forall in *. intros x Hx. apply H2. eapply ddel_incl; eauto.
Qed.

Section Hist.
  Context (E : env) (known : list hid).

  (** what processing one section does to the headers, successful or not *)
  Inductive hdr_step (b : str) (h : list str) : list str -> Prop :=
  | HS_same : hdr_step b h h
  | HS_empty : h = [] -> hdr_step b h [[]]
  | HS_new : ~ In (strip b) (map strip h) -> hdr_step b h (h ++ [b]).

  Lemma run_on_scan_vh m name sc s s' sc' r : run_on_scan m name sc s = (s', sc', r) -> vh s' = vh s.
  Proof.
    unfold run_on_scan. destruct (m _) as [w r0]. intros H; inversion H; subst. unfold vh; simpl.
    destruct (peer w); auto. destruct (nth_error (headers s) (s_hdr sc)) eqn:En; auto. apply set_nth_raw; auto.
  Qed.
  Lemma date_scan_vh s s' r : date_scan E s = (s', r) -> vh s' = vh s.
  Proof.
    unfold date_scan. destruct (rev (scans s)) as [|[nm sc] t]; [intros H; inversion H; auto|].
    destruct (find_D _) as [[l|]|e]; try (intros H; inversion H; auto; fail).
    destruct (run_on_scan _ nm sc s) as [[s1 sc1] r1] eqn:Eo. intros H; inversion H; subst. eapply run_on_scan_vh; eauto.
  Qed.
  Lemma store_scan_vh part hdr s s' r : store_scan part hdr s = (s', r) -> vh s' = vh s /\ (inv s -> inv s').
  Proof.
    intros H. destruct (store_scan_spec part hdr s) as (s1 & r1 & Hs & [(-> & l & n0 & t & n & sc & _ & _ & Hn & -> & Hsc)|(-> & ->)]);
      rewrite Hs in H; inversion H; subst; auto. split; auto. intros I. apply inv_snoc; auto. eapply named_fresh; eauto.
  Qed.
  Lemma process_scan_vh b s s' r : process_scan b s = (s', r) -> vh s' = hdrs (vh s) /\ (inv s -> inv s').
  Proof.
    unfold process_scan. set (s1 := match headers s with [] => _ | _ => s end).
    assert (Hs1 : scans s1 = scans s /\ vh s1 = hdrs (vh s)).
    { unfold s1, vh. destruct (headers s) as [|h0 hs] eqn:Eh; [repeat split|]. rewrite Eh. repeat split. }
    destruct Hs1 as (V1 & V2). assert (I1 : inv s -> inv s1) by (unfold inv; rewrite V1; auto).
    rewrite <- V2. clearbody s1. clear V1 V2.
    destruct (last_scan s1) as [k|].
    - destruct (if existsb _ _ then _ else _) as [[|]|e]; try (intros H; inversion H; subst; auto; fail).
      destruct (last_raw k s1) as [rw|e]; [|intros H; inversion H; subst; auto].
      destruct (seqb (beginning b) (beginning rw)).
      + destruct k as [n| |]; try (intros H; inversion H; subst; auto; fail).
        destruct (has n (scans s1)); [|intros H; inversion H; subst; auto].
        intros H. apply store_scan_vh in H. destruct H as [H1 H2]. split; [exact H1|]. intros I. apply H2. apply inv_ddel; auto.
      + intros H. apply store_scan_vh in H. destruct H as [H1 H2]. auto.
    - intros H. apply store_scan_vh in H. destruct H as [H1 H2]. auto.
  Qed.
  Lemma hdrs_step b h : hdr_step b h (hdrs h).
  Proof. destruct h; [apply HS_empty; auto|apply HS_same]. Qed.
  Lemma read_block_vh b s s' r : read_block E known b s = (s', r) -> hdr_step b (vh s) (vh s') /\ (inv s -> inv s').
  Proof.
    unfold read_block. destruct b as [|c b0]; [intros H; inversion H; subst; split; [constructor|auto]|].
    set (b := c :: b0). destruct (bind _ _) as [[h|]|e]; try (intros H; inversion H; subst; split; [constructor|auto]; fail).
    destruct (negb (prefixb (L "#") (key_of h))); [intros H; inversion H; subst; split; [constructor|auto]|].
    destruct h; try (intros H; inversion H; subst; split; [constructor|auto]; fail).
    - intros H; inversion H; subst. destruct (process_file_view b s) as (S1 & S2 & _). unfold vh, inv. rewrite S1, S2.
      split; [constructor|auto].
    - intros H. apply process_epoch_spec in H. destruct H as (S1 & _ & _ & S4). split; [|unfold inv; rewrite S1; auto].
      destruct S4 as [[-> _]|[-> Q]]; [constructor|apply HS_new; auto].
    - destruct (process_scan b s) as [s1 [e|]] eqn:Ep.
      + intros H; inversion H; subst. apply process_scan_vh in Ep. destruct Ep as [-> I]. split; [apply hdrs_step|auto].
      + intros H. apply process_scan_vh in Ep. destruct Ep as [V I]. pose proof (date_scan_vh _ _ _ H) as V2. rewrite V2, V.
        split; [apply hdrs_step|]. intros I0. specialize (I I0). pose proof (date_scan_view E s1 s' r) as D.
        destruct D as [(D1 & _) _]; auto; [apply I|]. eapply inv_view; eauto.
  Qed.
  Inductive hdr_steps : list str -> list str -> list str -> Prop :=
  | HSS_stop bs h : hdr_steps bs h h
  | HSS_cons b bs h h1 h2 : hdr_step b h h1 -> hdr_steps bs h1 h2 -> hdr_steps (b :: bs) h h2.
  Lemma read_blocks_vh bs s s' r : read_blocks E known bs s = (s', r) -> hdr_steps bs (vh s) (vh s') /\ (inv s -> inv s').
  Proof.
    revert s; induction bs as [|b bs IH]; simpl; intros s H.
    - inversion H; subst; split; [constructor|auto].
    - destruct (read_block E known b s) as [s1 [e|]] eqn:Eb.
      + inversion H; subst. apply read_block_vh in Eb. destruct Eb as [B I]. split; auto. econstructor; [exact B|constructor].
      + apply read_block_vh in Eb. destruct Eb as [B I]. apply IH in H. destruct H as [H1 H2]. split; auto. econstructor; eauto.
  Qed.
  Lemma read_vh p s s' r : read E known p s = (s', r) ->
    (inv s -> inv s') /\ match dissect p with Ok secs => hdr_steps secs (vh s) (vh s') | Raise _ => vh s' = vh s end.
  Proof.
    unfold read. destruct (dissect p) as [secs|e]; [|intros H; inversion H; subst; auto].
    destruct (read_blocks E known secs s) as [s1 [e|]] eqn:Eb; apply read_blocks_vh in Eb; destruct Eb as [B I].
    - intros H; inversion H; subst; auto.
    - set (s2 := match specFile s1 with Some _ => s1 | None => _ end).
      assert (V : scans s2 = scans s1 /\ vh s2 = vh s1) by (unfold s2; destruct (specFile s1); auto). destruct V as [V1 V2].
      destruct (getLastScanNumber s2) as [k|].
      + destruct (stat p) as [[m z]|]; intros H; inversion H; subst; unfold inv, vh in *; simpl; rewrite V1, V2; auto.
      + intros H; inversion H; subst. unfold inv in *. rewrite V1, V2. auto.
  Qed.
  Lemma hdr_steps_nodup bs h h' : hdr_steps bs h h' -> NoDup (map strip h) -> NoDup (map strip h').
  Proof.
    intros H; induction H as [|b bs h h1 h2 H1 H2 IH]; auto. intros Hn. apply IH. inversion H1; subst; auto.
    - repeat constructor; auto.
    - rewrite map_app. apply NoDup_snoc; auto.
  Qed.
  Lemma interpret_view name s s' r : interpret E known name s = (s', r) -> vh s' = vh s /\ vs s' = vs s /\ last_scan s' = last_scan s.
  Proof.
    unfold interpret. destruct (dget name (scans s)) as [sc|] eqn:Eg; [|intros H; inversion H; auto].
    destruct (s_done sc) eqn:Ed; [intros H; inversion H; auto|].
    set (sc0 := with_flags false false sc) in *.
    destruct (run_on_scan _ name sc0 s) as [[s1 sc1] r1] eqn:Eo.
    assert (VV : vh s1 = vh s /\ vs s1 = vs s /\ last_scan s1 = last_scan s /\ dget name (scans s1) = Some sc1).
    { unfold run_on_scan in Eo. destruct (interpret_scan _ _ _ _) as [w r0]. inversion Eo; subst; clear Eo.
      split; [|split; [|split]]; auto.
      - unfold vh; simpl. destruct (peer w); auto. destruct (nth_error (headers s) (s_hdr sc)) eqn:En; auto. apply set_nth_raw; auto.
      - unfold vs; simpl. eapply vd_dset; eauto.
      - simpl. apply dget_dset_same. }
    destruct VV as (V1 & V2 & V3 & V4).
    destruct r1; intros H; inversion H; subst; auto.
    split; [exact V1|]. split; [|exact V3]. rewrite <- V2. unfold vs; simpl. eapply vd_dset; eauto.
  Qed.
End Hist.
