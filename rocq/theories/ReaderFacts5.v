(** C14, C15: slices, updates. *)
From Coq Require Import String Lia Permutation Sorted QArith.
From Verif Require Import Uni Py PyFacts NumFacts Time TimeFacts Utils UtilsFacts Keys Handlers Reader SpecText SpecReader SpecNum SpecHistory SpecLookup
  TextFacts KeyFacts OrderFacts ReaderFacts ReaderFacts2 ReaderFacts3 ReaderFacts4.
Import ListNotations.
Local Open Scope nat_scope.
Local Open Scope list_scope.

Lemma Keeps_filter {A} (p : A -> bool) (P : A -> Prop) l : (forall x, p x = true <-> P x) -> Keeps P l (List.filter p l).
Proof.
  intros H. induction l as [|x l IH]; simpl; [constructor|]. destruct (p x) eqn:E; constructor; auto.
  - apply H; auto.
  - intros Q. apply H in Q. congruence.
Qed.
Lemma Keeps_combine {A K} (f : A -> res K) (p : K -> bool) (P : A -> Prop) ks zs : mapM f ks = Ok zs ->
  (forall a z, f a = Ok z -> (p z = true <-> P a)) ->
  Keeps P ks (map snd (List.filter (fun zk => p (fst zk)) (combine zs ks))).
Proof.
  intros H Hp. apply mapM_ok in H. induction H as [|a z ks zs Ha H IH]; simpl; [constructor|].
  destruct (p z) eqn:E; simpl; constructor; auto.
  - apply (Hp a z); auto.
  - intros Q. apply (Hp a z Ha) in Q. congruence.
Qed.
Lemma Keeps_incl {A} (P : A -> Prop) l k : Keeps P l k -> incl k l /\ Forall P k.
Proof.
  induction 1 as [|x l k Hx H [I F]|x l k Hx H [I F]].
  - split; [intros x []|constructor].
  - split; [intros y [<-|Hy]; simpl; auto|constructor; auto].
  - split; [intros y Hy; simpl; auto|auto].
Qed.
Lemma Keeps_map {A B} (f : A -> B) (P : B -> Prop) l k : Keeps P (map f l) k -> exists k', k = map f k' /\ Keeps (fun a => P (f a)) l k'.
Proof.
  revert k; induction l as [|x l IH]; simpl; intros k H; inversion H; subst.
  - exists []; split; auto; constructor.
  - destruct (IH _ H4) as (k' & -> & ?). exists (x :: k'). split; auto. constructor; auto.
  - destruct (IH _ H4) as (k' & -> & ?). exists k'. split; auto. constructor; auto.
Qed.

(** the scan with a number it has been filed under *)
Lemma inv_dget s sc : inv s -> In sc (values (scans s)) -> dget (s_num sc) (scans s) = Some sc.
Proof.
  intros I Hin. apply inv_invF in I. destruct I as [N F]. unfold values in Hin. apply in_map_iff in Hin. destruct Hin as ([k v] & <- & Hin).
  rewrite Forall_forall in F. pose proof (F _ Hin) as Q. simpl in Q. simpl. rewrite <- Q. apply In_dget; auto.
Qed.

Definition chron s scs := getScanNumbersChronological s = Ok (map s_num scs) /\ Permutation scs (values (scans s)).
Lemma chron_ex s l : getScanNumbersChronological s = Ok l -> exists scs, chron s scs /\ l = map s_num scs.
Proof. intros H. destruct (C11_lemma s l H) as (scs & -> & P & _). exists scs. split; [split; auto|auto]. Qed.

Lemma fl_ltb_num a b : fl_ltb a b = true <-> num_lt a b.
Proof.
  unfold fl_ltb, num_lt. rewrite andb_true_iff, negb_true_iff, fl_leb_num. split; intros [H1 H2]; split; auto.
  - rewrite <- fl_leb_num. congruence.
  - destruct (fl_leb b a) eqn:E; auto. apply fl_leb_num in E. tauto.
Qed.
Lemma fl_leb_Z a b : fl_leb (fl_of_Z a) (fl_of_Z b) = (a <=? b)%Z.
Proof.
  destruct (a <=? b)%Z eqn:E.
  - apply fl_leb_num. apply fl_of_Z_le. lia.
  - destruct (fl_leb (fl_of_Z a) (fl_of_Z b)) eqn:Q; auto. apply fl_leb_num in Q. apply (fl_of_Z_le a b) in Q. lia.
Qed.
Lemma fl_ltb_Z a b : fl_ltb (fl_of_Z a) (fl_of_Z b) = (a <? b)%Z.
Proof.
  unfold fl_ltb. rewrite !fl_leb_Z. destruct (a <? b)%Z eqn:E; destruct (a <=? b)%Z eqn:E1; destruct (b <=? a)%Z eqn:E2; simpl; auto; lia.
Qed.

Lemma mapM_getScan s ks r : mapM (fun k => getScan (KStr k) s) ks = Ok r ->
  Forall (fun k => exists x, py_float k = Ok x /\ num_le (fl_of_Z 1) x /\ x <> FInf false) ks ->
  r = map (fun k => dget k (scans s)) ks.
Proof.
  intros H F. apply mapM_ok in H. induction H as [|k o ks r Hk H IH]; simpl; auto.
  inversion F as [|? ? (x & Hx & H1 & H2) F2]; subst. rewrite (C09_lemma (KStr k) x s) in Hk by auto. inversion Hk; subst. f_equal. auto.
Qed.
Lemma map_dget_num s scs : inv s -> incl scs (values (scans s)) -> map (fun k => dget k (scans s)) (map s_num scs) = map Some scs.
Proof.
  intros I H. rewrite map_map. apply map_ext_in. intros sc Hin. apply inv_dget; auto.
Qed.

Lemma slice_range_keys (a b : Z) (step : option Z) s : (1 <= a)%Z -> (1 <= b)%Z ->
  get_slice (Some a) (Some b) step s =
  do scanlist <- getScanNumbersChronological s;
  do fs <- mapM py_float scanlist;
  do ks <- match step with
           | None => Ok (map snd (List.filter (fun fk => fl_leb (fl_of_Z a) (fst fk) && fl_ltb (fst fk) (fl_of_Z b)) (combine fs scanlist)))
           | Some st => select_step st (map snd (List.filter (fun fk => fl_leb (fl_of_Z a) (fst fk) && fl_ltb (fst fk) (fl_of_Z b)) (combine fs scanlist)))
           end;
  mapM (fun k => getScan (KStr k) s) ks.
Proof.
  intros Ha Hb. unfold get_slice. destruct (getScanNumbersChronological s) as [l|e]; [|reflexivity]. cbn [bind].
  unfold bound. destruct (a =? 0)%Z eqn:E1; [lia|]. destruct (b =? 0)%Z eqn:E2; [lia|]. cbn [bind is_none andb orb is_neg].
  rewrite !fl_ltb_Z, !fl_leb_Z. destruct (a <? 0)%Z eqn:E3; [lia|]. cbn [andb]. cbv iota.
  destruct (0 <=? a)%Z eqn:E4; [|lia]. destruct (0 <=? b)%Z eqn:E5; [|lia]. cbn [andb].
  destruct (mapM py_float l) as [fs|e]; [|reflexivity]. cbn [bind]. reflexivity.
Qed.
Lemma range_pred a b : forall (k : str) x, py_float k = Ok x ->
  (fl_leb (fl_of_Z a) x && fl_ltb x (fl_of_Z b) = true <-> exists x, py_float k = Ok x /\ num_le (fl_of_Z a) x /\ num_lt x (fl_of_Z b)).
Proof.
  intros k x Hx. rewrite andb_true_iff, fl_leb_num, fl_ltb_num. split; [eauto|]. intros (y & Hy & H). rewrite Hx in Hy. inversion Hy; subst; auto.
Qed.
Lemma range_big a b x : (1 <= a)%Z -> num_le (fl_of_Z a) x -> num_lt x (fl_of_Z b) -> num_le (fl_of_Z 1) x /\ x <> FInf false.
Proof.
  intros Ha H1 [_ H2]. split.
  - eapply num_le_trans; [|exact H1]. apply fl_of_Z_le; auto.
  - intros ->. apply H2. exact I.
Qed.

Lemma C14_range_lemma s a b r : inv s -> (1 <= a)%Z -> (1 <= b)%Z -> get_slice (Some a) (Some b) None s = Ok r ->
  exists scs kept, chron s scs /\ Keeps (in_range_of a b) scs kept /\ r = map Some kept.
Proof.
  intros I Ha Hb H. rewrite slice_range_keys in H by auto. apply bind_ok in H. destruct H as (l & Hl & H). apply bind_ok in H. destruct H as (fs & Hf & H).
  cbn [bind] in H. destruct (chron_ex s l Hl) as (scs & Hc & ->). exists scs.
  pose proof (Keeps_combine py_float (fun x => fl_leb (fl_of_Z a) x && fl_ltb x (fl_of_Z b)) _ _ _ Hf (range_pred a b)) as K.
  set (ks := map snd _) in *. clearbody ks. destruct (Keeps_map _ _ _ _ K) as (kept & -> & K'). exists kept. split; [auto|]. split; [exact K'|].
  destruct (Keeps_incl _ _ _ K') as [Hi HF]. destruct Hc as [_ Hp].
  apply mapM_getScan in H.
  - rewrite map_dget_num in H; auto. intros sc Hin. eapply Permutation_in; [exact Hp|auto].
  - rewrite Forall_map. eapply Forall_impl; [|exact HF]. cbv beta. intros sc (x & Hx & H1 & H2).
    exists x. destruct (range_big a b x Ha H1 H2). auto.
Qed.
(** with numeric scan numbers and readable dates the slice is defined *)
Lemma C14_range_total s a b l : (1 <= a)%Z -> (1 <= b)%Z -> getScanNumbersChronological s = Ok l -> numeric s -> inv s ->
  exists r, get_slice (Some a) (Some b) None s = Ok r.
Proof.
  intros Ha Hb Hl Hn I. rewrite slice_range_keys by auto. rewrite Hl. cbn [bind]. destruct (chron_ex s l Hl) as (scs & [_ Hp] & ->).
  assert (HN : Forall (fun k => exists f, py_float k = Ok f) (map s_num scs)).
  { unfold numeric in Hn. rewrite Forall_forall in *. intros k Hk. apply Hn. destruct I as [_ ->].
    eapply Permutation_in; [|exact Hk]. apply Permutation_map; auto. }
  destruct (mapM_total_list _ _ HN) as [fs Hf]. rewrite Hf. cbn [bind].
  pose proof (Keeps_combine py_float (fun x => fl_leb (fl_of_Z a) x && fl_ltb x (fl_of_Z b)) _ _ _ Hf (range_pred a b)) as K.
  set (ks := map snd _) in *. clearbody ks. apply mapM_total_list. destruct (Keeps_incl _ _ _ K) as [_ HF].
  eapply Forall_impl; [|exact HF]. cbv beta. intros k (x & Hx & H1 & H2). destruct (range_big a b x Ha H1 H2).
  rewrite (C09_lemma (KStr k) x s) by auto. eauto.
Qed.
Lemma C14_mixed_lemma s a b step l : getScanNumbersChronological s = Ok l -> ((a < 0 < b) \/ (b < 0 < a))%Z ->
  get_slice (Some a) (Some b) step s = Raise IndexError.
Proof.
  intros Hl H. unfold get_slice. rewrite Hl. cbn [bind]. unfold bound.
  destruct (a =? 0)%Z eqn:E1; [lia|]. destruct (b =? 0)%Z eqn:E2; [lia|]. cbn [bind is_none andb orb is_neg].
  rewrite !fl_ltb_Z, !fl_leb_Z. destruct (a <? 0)%Z eqn:E3; destruct (b <? 0)%Z eqn:E4; try lia; cbn [andb];
    destruct (0 <=? a)%Z eqn:E5; destruct (0 <=? b)%Z eqn:E6; try lia; reflexivity.
Qed.
Lemma select_step_abs step ks r : (0 <= step)%Z -> select_step step ks = Ok r -> Keeps (repeat_of step) ks r.
Proof.
  intros Hs H. unfold select_step in H. destruct (step <? 0)%Z eqn:E; [lia|]. apply bind_ok in H. destruct H as (ps & Hps & H).
  apply bind_ok in H. destruct H as (ws & Hws & H). inversion H; subst r; clear H.
  assert (C : mapM (fun k => do p <- split_scan_number_string k; index 1 p) ks = Ok ws).
  { apply mapM_ok. apply mapM_ok in Hps. apply mapM_ok in Hws. revert ws Hws. induction Hps as [|k p ks ps Hk Hp IH]; intros ws Hws; inversion Hws; subst; constructor; auto.
    rewrite Hk. simpl. auto. }
  apply (Keeps_combine _ (fun w => (w =? step)%Z) (repeat_of step) ks ws C).
  intros k w Hw. apply bind_ok in Hw. destruct Hw as (p & Hp & Hi). rewrite Z.eqb_eq. unfold index in Hi.
  change (1 <? 0)%Z with false in Hi. cbv iota in Hi. change (Z.to_nat 1) with 1 in Hi. unfold repeat_of. split.
  - intros ->. exists p. split; auto. destruct (nth_error p 1); inversion Hi; auto.
  - intros (p' & Hp' & Hn). rewrite Hp in Hp'. inversion Hp'; subst. rewrite Hn in Hi. inversion Hi; auto.
Qed.
Lemma C14_step_lemma s a b k r : inv s -> (1 <= a)%Z -> (1 <= b)%Z -> (0 <= k)%Z -> get_slice (Some a) (Some b) (Some k) s = Ok r ->
  exists scs kept, chron s scs /\ Keeps (fun sc => in_range_of a b sc /\ repeat_of k (s_num sc)) scs kept /\ r = map Some kept.
Proof.
  intros I Ha Hb Hk H. rewrite slice_range_keys in H by auto. apply bind_ok in H. destruct H as (l & Hl & H). apply bind_ok in H. destruct H as (fs & Hf & H).
  apply bind_ok in H. destruct H as (ks2 & Hs & H). destruct (chron_ex s l Hl) as (scs & Hc & ->). exists scs.
  pose proof (Keeps_combine py_float (fun x => fl_leb (fl_of_Z a) x && fl_ltb x (fl_of_Z b)) _ _ _ Hf (range_pred a b)) as K.
  set (ks := map snd _) in *. clearbody ks. destruct (Keeps_map _ _ _ _ K) as (kept & -> & K').
  apply select_step_abs in Hs; auto. destruct (Keeps_map _ _ _ _ Hs) as (kept2 & -> & K2). exists kept2. split; [auto|].
  assert (K3 : Keeps (fun sc => in_range_of a b sc /\ repeat_of k (s_num sc)) scs kept2).
  { change (Keeps (in_range_of a b) scs kept) in K'. clear -K' K2. revert kept2 K2. induction K' as [|x l k' Hx H IH|x l k' Hx H IH]; intros kept2 K2.
    - inversion K2; constructor.
    - inversion K2; subst; constructor; auto. tauto.
    - constructor; auto. tauto. }
  split; [exact K3|]. destruct (Keeps_incl _ _ _ K3) as [Hi HF]. destruct Hc as [_ Hp].
  apply mapM_getScan in H.
  - rewrite map_dget_num in H; auto. intros sc Hin. eapply Permutation_in; [exact Hp|auto].
  - rewrite Forall_map. eapply Forall_impl; [|exact HF]. cbv beta. intros sc [(x & Hx & H1 & H2) _].
    exists x. destruct (range_big a b x Ha H1 H2). auto.
Qed.
(** numbers at least one *)
Lemma ge1_num s sc : inv s -> all_ge1 s -> In sc (values (scans s)) -> getScan (KStr (s_num sc)) s = Ok (Some sc).
Proof.
  intros I H Hin. unfold all_ge1 in H. rewrite Forall_forall in H. destruct (H (s_num sc)) as (x & Hx & H1 & H2).
  { destruct I as [_ ->]. apply in_map; auto. }
  rewrite (C09_lemma (KStr (s_num sc)) x s) by auto. cbn [key_str]. f_equal. apply inv_dget; auto.
Qed.
Lemma index_err {A} z (l : list A) e : index z l = Raise e -> e = IndexError.
Proof.
  unfold index. set (j := if (z <? 0)%Z then _ else _). destruct (j <? 0)%Z; [intros H; inversion H; auto|].
  destruct (nth_error l (Z.to_nat j)); intros H; inversion H; auto.
Qed.
Lemma C14_neg_lemma s k scs : inv s -> all_ge1 s -> chron s scs -> (0 < k)%nat ->
  get_plain (KInt (- Z.of_nat k)) s =
    match nth_error (rev scs) (k - 1) with Some sc => Ok (Some sc) | None => Raise IndexError end.
Proof.
  intros I G [Hl Hp] Hk. unfold get_plain. cbn [key_float bind]. rewrite fl_leb_Z. destruct (0 <=? - Z.of_nat k)%Z eqn:E; [lia|].
  rewrite Hl. cbn [bind].
  assert (N : nth_error (rev (map s_num scs)) (k - 1) = option_map s_num (nth_error (rev scs) (k - 1))).
  { rewrite <- map_rev, nth_error_map. auto. }
  replace (k - 1) with (Z.to_nat (- - Z.of_nat k - 1)) in * by lia.
  destruct (nth_error (rev scs) (Z.to_nat (- - Z.of_nat k - 1))) as [sc|] eqn:Q.
  - assert (X : index (- Z.of_nat k) (map s_num scs) = Ok (s_num sc)) by (apply index_low; [lia|exact N]).
    rewrite X. cbn [bind]. apply ge1_num; auto. eapply Permutation_in; [exact Hp|]. apply in_rev. eapply nth_error_In; eauto.
  - destruct (index (- Z.of_nat k) (map s_num scs)) as [n|e] eqn:X.
    + apply index_low in X; [|lia]. rewrite N in X. discriminate.
    + rewrite (index_err _ _ _ X). reflexivity.
Qed.
Lemma C14_tuple_lemma items s r : get_tuple items s = Ok r ->
  exists parts, r = List.concat parts /\
    Forall2 (fun it p => match it with
                         | GIdx k => exists sc, get_plain k s = Ok (Some sc) /\ p = [Some sc]
                         | GSlice a b c => get_slice a b c s = Ok p
                         end) items parts.
Proof.
  revert r; induction items as [|it items IH]; simpl; intros r H.
  - inversion H. exists []. split; auto.
  - apply bind_ok in H. destruct H as (p & Hp & H). apply bind_ok in H. destruct H as (rs & Hrs & H). inversion H; subst r.
    destruct (IH _ Hrs) as (parts & -> & F). exists (p :: parts). split; auto. constructor; auto.
    destruct it; auto. apply bind_ok in Hp. destruct Hp as (o & Ho & Hp). destruct o as [sc|]; inversion Hp; subst. exists sc. auto.
Qed.

(** relative slices are list slices of the chronological list *)
Lemma mapM_ge1 s scs : inv s -> all_ge1 s -> incl scs (values (scans s)) -> mapM (fun k => getScan (KStr k) s) (map s_num scs) = Ok (map Some scs).
Proof.
  intros I G H. apply mapM_ok. induction scs as [|sc scs IH]; simpl; constructor.
  - apply ge1_num; auto. apply H; simpl; auto.
  - apply IH. intros x Hx. apply H; simpl; auto.
Qed.
Lemma slice_map {A B} (f : A -> B) i j l : slice i j (map f l) = map f (slice i j l).
Proof. unfold slice. rewrite map_length, skipn_map, firstn_map. auto. Qed.
Lemma incl_firstn {A} n (l : list A) : incl (firstn n l) l.
Proof. rewrite <- (firstn_skipn n l) at 2. intros x Hx. apply in_or_app; auto. Qed.
Lemma incl_skipn {A} n (l : list A) : incl (skipn n l) l.
Proof. rewrite <- (firstn_skipn n l) at 2. intros x Hx. apply in_or_app; auto. Qed.
Lemma incl_slice {A} i j (l : list A) : incl (slice i j l) l.
Proof. unfold slice. eapply incl_tran; [apply incl_firstn|apply incl_skipn]. Qed.

(* ------------------------------------------------------------------ *)
(** * C15 *)

Lemma C15_update_lemma c m z s : update_available (File c m z) s = Ok false <-> sd_mtime s = m /\ sd_size s = z.
Proof.
  unfold update_available, stat. cbn [bind]. split.
  - intros H. inversion H as [Q]. apply negb_false_iff in Q. apply andb_true_iff in Q. destruct Q as [Q1 Q2]. apply Z.eqb_eq in Q1, Q2. auto.
  - intros [-> ->]. rewrite !Z.eqb_refl. auto.
Qed.
Lemma run_on_scan_stat m name sc s : sd_mtime (fst (fst (run_on_scan m name sc s))) = sd_mtime s /\ sd_size (fst (fst (run_on_scan m name sc s))) = sd_size s.
Proof. unfold run_on_scan. destruct (m _) as [w r]. auto. Qed.
Lemma interpret_stat E known name s : sd_mtime (fst (interpret E known name s)) = sd_mtime s /\ sd_size (fst (interpret E known name s)) = sd_size s.
Proof.
  unfold interpret. destruct (dget name (scans s)) as [sc|]; [|auto]. destruct (s_done sc) eqn:Ed; [auto|]. cbv zeta.
  pose proof (run_on_scan_stat (interpret_scan E known (s_raw (with_flags false false sc))) name (with_flags false false sc) s) as H.
  destruct (run_on_scan _ name _ s) as [[s1 sc1] [e|]]; simpl in *; auto.
Qed.
Lemma get_attr_stat E known nm a name s : sd_mtime (fst (get_attr E known nm a name s)) = sd_mtime s /\ sd_size (fst (get_attr E known nm a name s)) = sd_size s.
Proof.
  unfold get_attr. destruct (dget name (scans s)) as [sc|]; [|auto].
  destruct (mem nm (lazy_attributes known) && s_lazy sc).
  - pose proof (interpret_stat E known name s) as H. destruct (interpret E known name s) as [s1 [e|]]; simpl in *; auto.
    destruct (dget name (scans s1)); simpl; auto.
  - destruct (dget name (scans s)); simpl; auto.
Qed.
Lemma uses_stat E known s s' : uses E known s s' -> sd_mtime s' = sd_mtime s /\ sd_size s' = sd_size s.
Proof.
  induction 1 as [s|name s s' H [I1 I2]|nm a name s s' H [I1 I2]]; [auto| |].
  - destruct (interpret_stat E known name s') as [-> ->]. auto.
  - destruct (get_attr_stat E known nm a name s') as [-> ->]. auto.
Qed.
Lemma C15_lemma E known c m z s s1 s2 c' m' z' : read E known (File c m z) s = (s1, None) -> uses E known s1 s2 ->
  (update_available (File c' m' z') s2 = Ok false <-> m' = m /\ z' = z) /\
  (m' = m /\ z' = z -> refresh E known (File c' m' z') s2 = (s2, Ok None)) /\
  (~ (m' = m /\ z' = z) -> forall s3, 
      (read E known (File c' m' z') s2 = (s3, None) -> refresh E known (File c' m' z') s2 = (s3, Ok (last_scan s2))) /\
      (forall e, read E known (File c' m' z') s2 = (s3, Some e) -> refresh E known (File c' m' z') s2 = (s3, Raise e))).
Proof.
  intros H U. apply uses_stat in U. destruct U as [U1 U2].
  assert (Hd : exists secs, dissect (File c m z) = Ok secs).
  { unfold read in H. destruct (dissect (File c m z)); [eauto|inversion H]. }
  apply read_shape in H. destruct Hd as [secs Hd]. destruct H as [(e & Q & _)|(secs' & s0 & r0 & _ & _ & _ & _ & _ & Hr)]; [congruence|].
  destruct (Hr eq_refl) as (_ & k & m0 & z0 & _ & _ & Hst & Hm & Hz). simpl in Hst. assert (Hm' : sd_mtime s1 = m) by congruence. assert (Hz' : sd_size s1 = z) by congruence.
  assert (UP : update_available (File c' m' z') s2 = Ok false <-> m' = m /\ z' = z).
  { rewrite C15_update_lemma. rewrite U1, U2, Hm', Hz'. split; intros [? ?]; auto. }
  split; [exact UP|]. split.
  - intros Q. apply UP in Q. unfold refresh. rewrite Q. auto.
  - intros Q s3. assert (UT : update_available (File c' m' z') s2 = Ok true).
    { unfold update_available in *. cbn [stat bind] in *. destruct (negb _); auto. exfalso. apply Q. apply UP. auto. }
    unfold refresh. rewrite UT. split; [intros ->; auto|intros e ->; auto].
Qed.

(* ------------------------------------------------------------------ *)
(** * C64: open-ended and relative slices *)

Lemma ge1_float s sc : inv s -> all_ge1 s -> In sc (values (scans s)) -> exists x, py_float (s_num sc) = Ok x /\ num_le (fl_of_Z 1) x.
Proof.
  intros I G H. unfold all_ge1 in G. rewrite Forall_forall in G. destruct (G (s_num sc)) as (x & H1 & H2 & _); [|eauto].
  destruct I as [_ ->]. apply in_map; auto.
Qed.
Lemma rel_bound_ok o (d : res str) n x : rel_bound o -> d = Ok n -> py_float n = Ok x -> exists f, bound o d = Ok f.
Proof.
  intros H -> Hx. unfold bound. destruct o as [z|]; cbn [bind]; [|eauto]. destruct (z =? 0)%Z; cbn [bind]; eauto.
Qed.
Lemma C64_relative_lemma s scs a b : inv s -> all_ge1 s -> chron s scs -> scs <> [] -> rel_bound a -> rel_bound b ->
  get_slice a b None s = Ok (map Some (pslice a b scs)).
Proof.
  intros I G [Hl Hp] Hne Ha Hb. unfold get_slice. rewrite Hl. cbn [bind].
  assert (Hin : forall sc, In sc scs -> In sc (values (scans s))) by (intros; eapply Permutation_in; eauto).
  destruct scs as [|s0 scs0] eqn:Es; [congruence|]. rewrite <- Es in *.
  assert (I0 : index 0 (map s_num scs) = Ok (s_num s0)) by (rewrite Es; reflexivity).
  destruct (rev scs) as [|s9 scs9] eqn:Er.
  { rewrite Es in Er. apply (f_equal (@List.length scan)) in Er. rewrite rev_length in Er. discriminate. }
  assert (I9 : index (-1) (map s_num scs) = Ok (s_num s9)).
  { apply index_low; [lia|]. rewrite <- map_rev, Er. reflexivity. }
  destruct (ge1_float s s0 I G) as (x0 & F0 & _). { apply Hin. rewrite Es; simpl; auto. }
  destruct (ge1_float s s9 I G) as (x9 & F9 & _). { apply Hin. apply in_rev. rewrite Er; simpl; auto. }
  destruct (rel_bound_ok a _ _ _ Ha I0 F0) as [fa Ha']. destruct (rel_bound_ok b _ _ _ Hb I9 F9) as [fb Hb'].
  rewrite Ha', Hb'. cbn [bind].
  assert (C : (is_none a && (is_none b || is_neg b) || is_none b && (is_none a || is_neg a) ||
               fl_ltb fa (fl_of_Z 0) && fl_ltb fb (fl_of_Z 0)) = true).
  { destruct a as [a|], b as [b|]; cbn [is_none is_neg andb orb rel_bound] in *; auto.
    - unfold bound in Ha', Hb'. destruct (a =? 0)%Z eqn:Q1; [lia|]. destruct (b =? 0)%Z eqn:Q2; [lia|].
      assert (fa = fl_of_Z a) as -> by congruence. assert (fb = fl_of_Z b) as -> by congruence.
      rewrite !fl_ltb_Z. destruct (a <? 0)%Z eqn:Q3; [|lia]. destruct (b <? 0)%Z eqn:Q4; [auto|lia].
    - destruct (a <? 0)%Z eqn:Q; [auto|lia].
    - destruct (b <? 0)%Z eqn:Q; [auto|lia]. }
  rewrite C. cbn [bind]. unfold pslice. unfold len. rewrite map_length. rewrite slice_map. apply mapM_ge1; auto.
  intros sc Hsc. apply Hin. apply incl_slice in Hsc. auto.
Qed.
(** sdf[a:] stops short of the number of the chronologically last scan *)
Lemma C64_from_lemma s scs a r last : inv s -> chron s scs -> (1 <= a)%Z -> get_slice (Some a) None None s = Ok r ->
  (exists pre, scs = pre ++ [last]) -> all_ge1 s ->
  exists kept, r = map Some kept /\
    Keeps (fun sc => exists x y, py_float (s_num sc) = Ok x /\ py_float (s_num last) = Ok y /\ num_le (fl_of_Z a) x /\ num_lt x y) scs kept /\
    ~ In last kept.
Proof.
  intros I [Hl Hp] Ha H (pre & Hpre) G. unfold get_slice in H. rewrite Hl in H. cbn [bind] in H.
  assert (I9 : index (-1) (map s_num scs) = Ok (s_num last)).
  { apply index_low; [lia|]. rewrite <- map_rev, Hpre, rev_app_distr. reflexivity. }
  destruct (ge1_float s last I G) as (y & Fy & Gy). { eapply Permutation_in; [exact Hp|]. rewrite Hpre. apply in_or_app; simpl; auto. }
  unfold bound in H. destruct (a =? 0)%Z eqn:Q1; [lia|]. rewrite I9 in H. cbn [bind] in H. rewrite Fy in H. cbn [bind is_none is_neg andb orb] in H.
  destruct (a <? 0)%Z eqn:Q2; [lia|]. rewrite fl_ltb_Z, Q2 in H. cbn [andb] in H. rewrite fl_leb_Z in H.
  destruct (0 <=? a)%Z eqn:Q3; [|lia].
  assert (Y0 : fl_leb (fl_of_Z 0) y = true). { apply fl_leb_num. eapply num_le_trans; [|exact Gy]. apply fl_of_Z_le. lia. }
  rewrite Y0 in H. cbn [andb] in H. apply bind_ok in H. destruct H as (ks & Hk & H). apply bind_ok in Hk. destruct Hk as (fs & Hf & Hk).
  inversion Hk; subst ks; clear Hk. cbn [bind] in H.
  assert (PP : forall (k : str) x, py_float k = Ok x -> (fl_leb (fl_of_Z a) x && fl_ltb x y = true <->
     exists x y, py_float k = Ok x /\ py_float (s_num last) = Ok y /\ num_le (fl_of_Z a) x /\ num_lt x y)).
  { intros k x Hx. rewrite andb_true_iff, fl_leb_num, fl_ltb_num. split.
    - intros [H1 H2]. exists x, y. auto.
    - intros (x' & y' & H1 & H2 & H3). assert (x' = x) by congruence. assert (y' = y) by congruence. subst; auto. }
  pose proof (Keeps_combine py_float (fun x => fl_leb (fl_of_Z a) x && fl_ltb x y) _ _ _ Hf PP) as K.
  set (ks := map snd _) in *. clearbody ks. destruct (Keeps_map _ _ _ _ K) as (kept & -> & K'). exists kept.
  destruct (Keeps_incl _ _ _ K') as [Hi HF].
  assert (Hv : incl kept (values (scans s))). { intros sc Hin. eapply Permutation_in; [exact Hp|auto]. }
  rewrite mapM_ge1 in H by auto. inversion H as [Hr]. split; [auto|]. split; [exact K'|].
  intros Hin. rewrite Forall_forall in HF. destruct (HF _ Hin) as (x1 & y1 & H1 & H2 & _ & H3 & H4). apply H4.
  assert (x1 = y1) by congruence. subst. auto.
Qed.
