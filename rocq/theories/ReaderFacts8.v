(** C09-C19, C64: the statements about any history. *)
From Coq Require Import String Lia Permutation Sorted QArith.
From Verif Require Import Uni Py PyFacts NumFacts Time TimeFacts Utils UtilsFacts Keys Handlers Reader SpecText SpecUtils SpecReader SpecNum SpecHistory SpecLookup
  TextFacts KeyFacts OrderFacts ReaderFacts ReaderFacts2 ReaderFacts3 ReaderFacts4 ReaderFacts5 ReaderFacts6 ReaderFacts7.
Import ListNotations.
Local Open Scope nat_scope.
Local Open Scope list_scope.

Lemma hist_inv E known s : history E known s -> inv s.
Proof. intros H. apply history_inv in H. tauto. Qed.

Lemma index_In {A} z (l : list A) x : index z l = Ok x -> In x l.
Proof.
  unfold index. intros H. repeat match type of H with context [if ?b then _ else _] => destruct b end; try discriminate;
  destruct (nth_error l _) eqn:Q; inversion H; subst; eapply nth_error_In; eauto.
Qed.
Lemma sort_by_perm {K A} (leb : K -> K -> bool) (zs : list K) (ks : list A) : List.length zs = List.length ks -> Permutation (sort_by leb (combine zs ks)) ks.
Proof.
  intros H. unfold sort_by. transitivity (map snd (combine zs ks)); [apply Permutation_map; apply isort_perm|].
  revert ks H; induction zs as [|z zs IH]; intros [|k ks] H; simpl in *; auto; try discriminate.
Qed.
Lemma numbers_numeric s l : getScanNumbers s = Ok l -> numeric s.
Proof.
  intros H. destruct (mapM_fail py_float ValueError (keys (scans s))) as [[fs Q]|Q].
  { apply Forall_forall; intros; apply py_float_total. }
  - unfold numeric. apply mapM_ok in Q. clear -Q. induction Q; constructor; eauto.
  - exfalso. destruct (C10_total s) as [_ N0]. rewrite N0 in H; [discriminate|]. intros Hn. destruct (mapM_total_list py_float _ Hn) as [fs Q2]. congruence.
Qed.
Lemma numbers_perm s l : getScanNumbers s = Ok l -> Permutation l (keys (scans s)).
Proof.
  unfold getScanNumbers. destruct (mapM py_int (keys (scans s))) as [zs|e] eqn:Ez.
  - intros H; inversion H as [Hl']. apply sort_by_perm. apply mapM_length in Ez. auto.
  - destruct e; try discriminate. destruct (mapM py_float (keys (scans s))) as [fs|] eqn:Ef; [|discriminate]. intros H; inversion H as [Hl']. apply sort_by_perm. apply mapM_length in Ef. auto.
Qed.
Lemma C09_history E known s k f : history E known s -> key_float k = Ok f -> num_le (fl_of_Z 1) f -> f <> FInf false ->
  (forall sc, In sc (values (scans s)) -> s_num sc = key_str k -> getScan k s = Ok (Some sc)) /\
  (Forall (fun sc => s_num sc <> key_str k) (values (scans s)) -> getScan k s = Ok None).
Proof.
  intros H Hk H1 H2. apply hist_inv in H. rewrite (C09_lemma k f s) by auto. split.
  - intros sc Hin Hn. rewrite <- Hn. rewrite inv_dget; auto.
  - intros Hf. destruct (dget (key_str k) (scans s)) as [sc|] eqn:Eg; auto. exfalso. apply dget_In in Eg.
    destruct H as [_ I2]. rewrite Forall_forall in Hf.
    assert (Hin : In sc (values (scans s))) by (unfold values; apply in_map_iff; exists (key_str k, sc); auto).
    apply (Hf sc Hin). clear - I2 Eg. unfold keys, values in I2. induction (scans s) as [|[n x] d IH]; [contradiction|].
    simpl in *. inversion I2. destruct Eg as [Q|Q]; [inversion Q; subst; auto|auto].
Qed.
Lemma C09_held s k sc : getScan k s = Ok (Some sc) -> In sc (values (scans s)).
Proof.
  intros H. apply getScan_In in H. destruct H as [n H]. unfold values. apply in_map_iff. exists (n, sc). auto.
Qed.
Lemma C09_low E known s z l : history E known s -> (z < 1)%Z -> getScanNumbers s = Ok l -> l <> [] ->
  (forall n, index z l = Ok n -> exists sc, getScan (KInt z) s = Ok (Some sc) /\ In sc (values (scans s)) /\ s_num sc = n) /\
  (forall e, index z l = Raise e -> getScan (KInt z) s = Raise e).
Proof.
  intros H Hz Hl Hne. apply hist_inv in H. rewrite (C09_low_lemma z s l) by auto. destruct l as [|x l]; [congruence|]. split.
  - intros n Hn. rewrite Hn. cbn [bind].
    assert (Hin : In n (keys (scans s))).
    { assert (In n (x :: l)) by (eapply index_In; eauto).
      eapply Permutation_in; [apply numbers_perm; eauto|auto]. }
    destruct H as [I1 I2]. rewrite I2 in Hin. apply in_map_iff in Hin. destruct Hin as (sc & Hs & Hin). exists sc. rewrite <- Hs. rewrite inv_dget; [auto|split; auto|auto].
  - intros e He. rewrite He. auto.
Qed.

(** min and max *)
Lemma sorted_hd {A} (R : A -> A -> Prop) x l : StronglySorted R (x :: l) -> Forall (R x) l.
Proof. intros H; inversion H; auto. Qed.
Lemma sorted_last {A} (R : A -> A -> Prop) l x : StronglySorted R (l ++ [x]) -> Forall (fun y => R y x) l.
Proof.
  induction l as [|y l IH]; simpl; intros H; [constructor|]. inversion H as [|? ? H1 H2]; subst. constructor; auto.
  rewrite Forall_forall in H2. apply H2. apply in_or_app; right; simpl; auto.
Qed.
Lemma scans_nil s : keys (scans s) = [] -> scans s = [].
Proof. unfold keys. destruct (scans s); [auto|discriminate]. Qed.
Lemma nn_self s a : numeric s -> no_nan s -> In a (keys (scans s)) -> exists x, py_float a = Ok x /\ num_le x x.
Proof.
  unfold numeric, no_nan. rewrite !Forall_forall. intros H1 H2 Ha. destruct (H1 a Ha) as [x Hx]. exists x. split; auto.
  specialize (H2 a Ha). assert (is_nan x = false) by (destruct x; auto; congruence). destruct (num_le_total x x); auto.
Qed.
Lemma C12_min s k : no_nan s -> getMinScanNumber s = Ok k ->
  (scans s = [] /\ k = KInt 0) \/
  exists n x, k = KStr n /\ In n (keys (scans s)) /\ py_float n = Ok x /\ Forall (fun m => exists y, py_float m = Ok y /\ num_le x y) (keys (scans s)).
Proof.
  intros Hn H. unfold getMinScanNumber in H. apply bind_ok in H. destruct H as (l & Hl & H). destruct (C10_lemma s l Hn Hl) as (P & S & _).
  pose proof (numbers_numeric s l Hl) as Hnu.
  destruct l as [|a l]; inversion H; subst.
  - left. split; auto. apply scans_nil. apply Permutation_nil in P. auto.
  - right. assert (Ha : In a (keys (scans s))) by (eapply Permutation_in; [exact P|simpl; auto]).
    destruct (nn_self s a Hnu Hn Ha) as (x & Hx & Hxx). exists a, x. split; auto. split; auto. split; auto.
    apply Forall_forall. intros m Hm. eapply Permutation_in in Hm; [|apply Permutation_sym; exact P]. destruct Hm as [<-|Hm]; [eauto|].
    apply sorted_hd in S. rewrite Forall_forall in S. destruct (S m Hm) as (x' & y & Q1 & Q2 & Q3). assert (x' = x) by congruence. subst. eauto.
Qed.
Lemma C12_max s k : no_nan s -> getMaxScanNumber s = Ok k ->
  (scans s = [] /\ k = KInt 0) \/
  exists n x, k = KStr n /\ In n (keys (scans s)) /\ py_float n = Ok x /\ Forall (fun m => exists y, py_float m = Ok y /\ num_le y x) (keys (scans s)).
Proof.
  intros Hn H. unfold getMaxScanNumber in H. apply bind_ok in H. destruct H as (l & Hl & H). destruct (C10_lemma s l Hn Hl) as (P & S & _).
  pose proof (numbers_numeric s l Hl) as Hnu.
  destruct (rev l) as [|a r] eqn:Er; inversion H; subst.
  - left. split; auto. apply scans_nil. assert (l = []) by (rewrite <- (rev_involutive l), Er; auto). subst. apply Permutation_nil in P. auto.
  - right. assert (Hla : l = rev r ++ [a]) by (rewrite <- (rev_involutive l), Er; auto). rewrite Hla in *.
    assert (Ha : In a (keys (scans s))) by (eapply Permutation_in; [exact P|apply in_or_app; simpl; auto]).
    destruct (nn_self s a Hnu Hn Ha) as (x & Hx & Hxx). exists a, x. split; auto. split; auto. split; auto.
    apply Forall_forall. intros m Hm. eapply Permutation_in in Hm; [|apply Permutation_sym; exact P]. apply in_app_or in Hm. destruct Hm as [Hm|[<-|[]]]; [|eauto].
    apply sorted_last in S. rewrite Forall_forall in S. destruct (S m Hm) as (x' & y & Q1 & Q2 & Q3). assert (y = x) by congruence. subst. eauto.
Qed.
Lemma C12_total s : numeric s -> (exists k, getMinScanNumber s = Ok k) /\ (exists k, getMaxScanNumber s = Ok k).
Proof. intros H. destruct (C10_total s) as [T _]. destruct (T H) as [l Hl]. unfold getMinScanNumber, getMaxScanNumber. rewrite Hl. simpl. eauto. Qed.

(** chronology *)
Lemma C11_chron s l : getScanNumbersChronological s = Ok l -> exists scs, chronological s scs /\ l = map s_num scs.
Proof. intros H. destruct (C11_lemma s l H) as (scs & H1 & H2 & H3 & H4). exists scs. split; auto. split; auto. Qed.
Lemma C11_first s k : getFirstScanNumber s = Ok k ->
  exists scs, chronological s scs /\ ((scs = [] /\ k = KInt 0) \/ exists sc t, scs = sc :: t /\ k = KStr (s_num sc)).
Proof.
  unfold getFirstScanNumber. intros H. apply bind_ok in H. destruct H as (l & Hl & H). apply C11_chron in Hl. destruct Hl as (scs & Hc & ->).
  exists scs. split; auto. destruct scs as [|sc t]; simpl in H; inversion H; eauto. 
Qed.
Lemma C11_last s k : getLastScanNumber s = Ok k ->
  exists scs, chronological s scs /\ ((scs = [] /\ k = KInt 0) \/ exists sc t, scs = t ++ [sc] /\ k = KStr (s_num sc)).
Proof.
  unfold getLastScanNumber. intros H. apply bind_ok in H. destruct H as (l & Hl & H). apply C11_chron in Hl. destruct Hl as (scs & Hc & ->).
  exists scs. split; auto. destruct scs as [|sc t _] using rev_ind; simpl in H; [inversion H; auto|].
  rewrite map_app, rev_app_distr in H. simpl in H. inversion H. right. eauto.
Qed.

(** commands *)
Lemma C13_reported s ks out : ks <> [] -> getScanCommands ks s = Ok out -> reported s ks out.
Proof.
  intros Hne H. apply C13_lemma in H; auto. destruct H as (parts & -> & F). clear Hne.
  induction F as [|k p ks parts Hp F IH]; simpl; [constructor|]. destruct Hp as [(sc & H1 & ->)|[H1 ->]]; simpl; [eapply Rep_yes; eauto|apply Rep_no; auto].
Qed.
Lemma C13_all E known s out : history E known s -> all_ge1 s -> getScanCommands [] s = Ok out ->
  exists scs, Permutation scs (values (scans s)) /\
    StronglySorted (fun a b => exists x y, py_float (s_num a) = Ok x /\ py_float (s_num b) = Ok y /\ num_le x y) scs /\
    out = map (fun sc => L "#S " ++ s_num sc ++ L " " ++ s_cmd sc) scs.
Proof.
  intros Hh HG H. apply hist_inv in Hh.
  assert (Hl : exists l, getScanNumbers s = Ok l).
  { apply C10_total. unfold numeric, all_ge1 in *. eapply Forall_impl; [|exact HG]. intros a (x & Hx & _). eauto. }
  destruct Hl as [l Hl]. rewrite (C13_none_lemma s l Hl) in H.
  assert (Hn : no_nan s). { unfold no_nan, all_ge1 in *. eapply Forall_impl; [|exact HG]. intros a (x & Hx & H1 & _) Q. rewrite Q in Hx. inversion Hx; subst. exact H1. }
  destruct (C10_lemma s l Hn Hl) as (P & S & _).
  assert (X : exists scs, Permutation scs (values (scans s)) /\ map s_num scs = l).
  { destruct Hh as [_ I2]. rewrite I2 in P. clear - P. apply Permutation_map_inv in P. destruct P as (scs & -> & P). exists scs. split; auto. apply Permutation_sym; auto. }
  destruct X as (scs & P2 & <-). exists scs. split; auto. split.
  - clear - S. induction scs as [|a scs IH]; simpl in *; constructor; inversion S; subst; auto. rewrite Forall_map in H2. auto.
  - destruct scs as [|a0 scs0] eqn:Es; [simpl in H; inversion H; auto|]. rewrite <- Es in *. assert (Hne : map KStr (map s_num scs) <> []) by (subst scs; discriminate).
    assert (H' : getScanCommands (map KStr (map s_num scs)) s = Ok out) by (subst scs; exact H).
    apply C13_reported in H'; auto. clear - H' P2 HG Hh.
    assert (F : Forall (fun sc => getScan (KStr (s_num sc)) s = Ok (Some sc)) scs).
    { apply Forall_forall. intros sc Hin. apply ge1_num; auto. eapply Permutation_in; eauto. }
    clear P2. revert out H'; induction F as [|sc scs Hsc F IH]; simpl; intros out H'; inversion H' as [|k ks' out' sc' G1 G2|k ks' out' G1 G2]; subst; auto.
    + rewrite Hsc in G1. inversion G1; subst. simpl. f_equal. auto.
    + congruence.
Qed.

(** slices *)
Lemma chron_chronological s scs : chron s scs -> exists scs', chronological s scs' /\ map s_num scs' = map s_num scs.
Proof. intros [H _]. apply C11_chron in H. destruct H as (scs' & H1 & H2). eauto. Qed.
Lemma num_inj s scs scs' : inv s -> incl scs (values (scans s)) -> incl scs' (values (scans s)) -> map s_num scs = map s_num scs' -> scs = scs'.
Proof.
  intros I H1 H2 H. assert (Q : map Some scs = map Some scs').
  { rewrite <- (map_dget_num s scs), <- (map_dget_num s scs'); auto. congruence. }
  clear - Q. revert scs' Q; induction scs as [|a scs IH]; intros [|b scs'] Q; simpl in Q; inversion Q; auto. f_equal; auto.
Qed.
Lemma chron_ok s scs : inv s -> chron s scs -> chronological s scs.
Proof.
  intros I C. pose proof C as [_ P]. apply chron_chronological in C. destruct C as (scs' & C & Hm).
  assert (scs' = scs); [|subst; auto]. destruct C as [P' _]. apply (num_inj s); auto; intros x Hx; [apply (Permutation_in _ P' Hx)|apply (Permutation_in _ P Hx)].
Qed.
Lemma C14_range E known s a b r : history E known s -> (1 <= a)%Z -> (1 <= b)%Z -> get_slice (Some a) (Some b) None s = Ok r ->
  exists scs kept, chronological s scs /\ Keeps (in_range_of a b) scs kept /\ r = map Some kept.
Proof.
  intros Hh Ha Hb H. apply hist_inv in Hh. destruct (C14_range_lemma s a b r Hh Ha Hb H) as (scs & kept & H1 & H2). exists scs, kept. split; auto. apply chron_ok; auto.
Qed.
Lemma C14_step E known s a b k r : history E known s -> (1 <= a)%Z -> (1 <= b)%Z -> (0 <= k)%Z -> get_slice (Some a) (Some b) (Some k) s = Ok r ->
  exists scs kept, chronological s scs /\ Keeps (fun sc => in_range_of a b sc /\ repeat_of k (s_num sc)) scs kept /\ r = map Some kept.
Proof.
  intros Hh Ha Hb Hk H. apply hist_inv in Hh. destruct (C14_step_lemma s a b k r Hh Ha Hb Hk H) as (scs & kept & H1 & H2). exists scs, kept. split; auto. apply chron_ok; auto.
Qed.
Lemma C14_total E known s a b l : history E known s -> (1 <= a)%Z -> (1 <= b)%Z -> getScanNumbersChronological s = Ok l -> numeric s ->
  exists r, get_slice (Some a) (Some b) None s = Ok r.
Proof. intros Hh Ha Hb H Hn. apply hist_inv in Hh. eapply C14_range_total; eauto. Qed.
Lemma C14_neg E known s k l : history E known s -> all_ge1 s -> getScanNumbersChronological s = Ok l -> (0 < k)%nat ->
  exists scs, chronological s scs /\
    get_plain (KInt (- Z.of_nat k)) s = match nth_error (rev scs) (k - 1) with Some sc => Ok (Some sc) | None => Raise IndexError end.
Proof.
  intros Hh HG H Hk. apply hist_inv in Hh. destruct (chron_ex s l H) as (scs & C & _). exists scs. split; [apply chron_ok; auto|]. apply C14_neg_lemma; auto.
Qed.
Lemma C64_relative E known s a b l : history E known s -> all_ge1 s -> getScanNumbersChronological s = Ok l -> l <> [] -> rel_bound a -> rel_bound b ->
  exists scs, chronological s scs /\ get_slice a b None s = Ok (map Some (pslice a b scs)).
Proof.
  intros Hh HG H Hne Ha Hb. apply hist_inv in Hh. destruct (chron_ex s l H) as (scs & C & ->). exists scs. split; [apply chron_ok; auto|].
  apply C64_relative_lemma; auto. intros ->. apply Hne; auto.
Qed.
Lemma C64_from E known s a r : history E known s -> all_ge1 s -> scans s <> [] -> (1 <= a)%Z -> get_slice (Some a) None None s = Ok r ->
  exists scs pre last kept, chronological s scs /\ scs = pre ++ [last] /\ r = map Some kept /\ 
    Keeps (fun sc => exists x y, py_float (s_num sc) = Ok x /\ py_float (s_num last) = Ok y /\ num_le (fl_of_Z a) x /\ num_lt x y) scs kept /\
    ~ In last kept.
Proof.
  intros Hh HG Hne Ha H. apply hist_inv in Hh.
  assert (C : exists l, getScanNumbersChronological s = Ok l) by (unfold get_slice in H; apply bind_ok in H; destruct H as (l & Hl & _); eauto).
  destruct C as [l Hl]. destruct (chron_ex s l Hl) as (scs & C & _). pose proof C as [_ P].
  destruct scs as [|last pre _] using rev_ind.
  { apply Permutation_nil in P. exfalso. apply Hne. unfold values in P. destruct (scans s); [auto|discriminate]. }
  destruct (C64_from_lemma s (pre ++ [last]) a r last) as (kept & H1 & H2 & H3); eauto.
  exists (pre ++ [last]), pre, last, kept. split; [apply chron_ok; auto|]. auto.
Qed.

(** reading the same content again *)
Lemma F2_length {A B} (R : A -> B -> Prop) l m : Forall2 R l m -> List.length l = List.length m.
Proof. induction 1; simpl; auto. Qed.
Lemma C18_lemma E known T s p secs s' : incl all_hids known -> follows E known T s -> dissect p = Ok secs -> Keeps scan_section secs T ->
  (exists A l ks n, T = A ++ [l] /\ Forall (fun a => ~ same_text a l) A /\ keys (scans s) = ks ++ [n] /\ last_scan s = Some (KStr n) /\ at_least_one n) ->
  read E known p s = (s', None) ->
  keys (scans s') = keys (scans s) /\ Forall2 same_text (map s_raw (values (scans s'))) (map s_raw (values (scans s))).
Proof.
  intros Hk HF Hd HK (A & l & ks & n & HT & HA & Hks & Hl & Hn) Hr.
  assert (HG : grows s T T).
  { exists A, A, l, l, [], ks, n. split; auto. split; auto. split; [apply Forall2_same; auto|]. split; auto. split; auto. split; auto. split; auto.
    left. split; [apply same_text_strip; auto|]. split; constructor. }
  destruct (C16_step E known Hk T T s p secs s' (KInt 0) HF Hd HK HG (or_introl Hr)) as (new & H1 & H2).
  destruct (C16_lemma E known Hk T s HF) as (H3 & _).
  split.
  - assert (Hlen : List.length (keys (scans s')) = List.length (keys (scans s))).
    { apply F2_length in H2, H3. unfold keys, values in *. rewrite !map_length in *. congruence. }
    rewrite H1, app_length in Hlen. assert (new = []) by (apply length_zero_iff_nil; lia). subst. rewrite app_nil_r in H1. auto.
  - apply Forall2_same. apply Forall2_same in H2, H3. congruence.
Qed.
Lemma C17_lemma E known A l l' ks n s p secs s' k : incl all_hids known ->
  follows E known (A ++ [l]) s -> dissect p = Ok secs -> Keeps scan_section secs (A ++ [l']) ->
  Forall (fun a => ~ same_text a l) A -> keys (scans s) = ks ++ [n] -> last_scan s = Some (KStr n) -> at_least_one n ->
  lengthened A l l' ->
  (read E known p s = (s', None) \/ refresh E known p s = (s', Ok (Some k))) ->
  keys (scans s') = keys (scans s) /\ exists sc, dget n (scans s') = Some sc /\ same_text (s_raw sc) l'.
Proof.
  intros Hk HF Hd HK HA Hks Hl Hn Hle Hr.
  assert (HG : grows s (A ++ [l]) (A ++ [l'])).
  { exists A, A, l, l', [], ks, n. split; auto. split; auto. split; [apply Forall2_same; reflexivity|]. repeat (split; [assumption|]). right; assumption. }
  destruct (C16_step E known Hk _ _ s p secs s' k HF Hd HK HG Hr) as (new & H1 & H2).
  destruct (C16_lemma E known Hk _ s HF) as (H3 & _).
  assert (HI : inv s').
  { apply follow_lemma in HF; auto. assert (Hr' : read E known p s = (s', None)) by (destruct Hr as [Hr|Hr]; auto; eapply refresh_read; eauto).
    destruct (grow_lemma E known Hk _ _ s p secs s' HF Hd HK HG Hr') as [(I & _) _]. auto. }
  assert (Hkeys : keys (scans s') = keys (scans s)).
  { assert (Hlen : List.length (keys (scans s')) = List.length (keys (scans s))).
    { apply F2_length in H2, H3. rewrite app_length in *. unfold keys, values in *. rewrite !map_length in *. simpl in *. lia. }
    rewrite H1, app_length in Hlen. assert (new = []) by (apply length_zero_iff_nil; lia). subst. rewrite app_nil_r in H1. auto. }
  split; auto. rewrite Hks in Hkeys.
  apply Forall2_app_inv_r in H2. destruct H2 as (a & b & Ha & Hb & Hv). inversion Hb as [|r ? ? ? Hsame Hnil]; subst. inversion Hnil; subst.
  unfold keys, values in Hkeys, Hv. apply map_eq_app in Hkeys. destruct Hkeys as (x & y & Hx & _ & Hy).
  destruct y as [|[n' sc] [|? ?]]; try discriminate. simpl in Hy. inversion Hy; subst n'. rewrite Hx, map_map, map_app in Hv. simpl in Hv.
  apply app_inj_tail in Hv. destruct Hv as [_ Hv]. exists sc. split; [|rewrite Hv; auto].
  destruct HI as [HI _]. rewrite Hx in HI |- *. apply dget_last. unfold keys in HI. rewrite map_app in HI. simpl in HI. apply NoDup_remove_2 in HI. rewrite app_nil_r in HI. auto.
Qed.
