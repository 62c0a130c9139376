(** C50: proofs about the parameters of a geometry. *)
From Coq Require Import String Lia QArith Qpower.
From Verif Require Import Uni Py PyFacts NumFacts GeomData Geom SpecText SpecReader SpecNum SpecInterp SpecData SpecGeom OrderFacts InterpFacts DataFacts GeomFacts.
Import ListNotations.
Local Open Scope nat_scope.
Local Open Scope list_scope.

(** ** dictionaries *)
Lemma dget_map {V W} (f : V -> W) k (d : dict V) : dget k (map (fun kv => (fst kv, f (snd kv))) d) = option_map f (dget k d).
Proof. induction d as [|[k' v] d IH]; [reflexivity|]. cbn [map dget fst snd]. destruct (seqb k k'); [reflexivity|exact IH]. Qed.
Definition put {V} (d : dict V) (kv : str * V) : dict V := dset (fst kv) (snd kv) d.
Lemma dget_dupdate {V} k (e d : dict V) : NoDup (keys e) -> dget k (dupdate e d) = match dget k e with Some v => Some v | None => dget k d end.
Proof.
  unfold dupdate. revert d. induction e as [|[k' v] e IH]; intros d Hn; [reflexivity|]. cbn [fold_left fst snd dget]. inversion Hn as [|x l H1 H2]. rewrite IH by assumption.
  destruct (seqb k k') eqn:E.
  - apply seqb_eq in E. rewrite <- E in *. destruct (dget k e) as [w|] eqn:E2; [exfalso; apply H1; apply dget_In in E2; apply in_map_iff; exists (k, w); auto|]. apply dget_dset_same.
  - destruct (dget k e); [reflexivity|]. apply dget_dset_other. intros ->. rewrite seqb_refl in E. discriminate.
Qed.
Lemma keys_combine {V} names (vals : list V) x : In x (keys (combine names vals)) -> In x names.
Proof. unfold keys. rewrite in_map_iff. intros ([k v] & <- & H). exact (in_combine_l _ _ _ _ H). Qed.
Lemma NoDup_combine {V} names (vals : list V) : NoDup names -> NoDup (keys (combine names vals)).
Proof.
  intros H. revert vals. induction H as [|x l Hx Hl IH]; intros vals; [constructor|]. destruct vals as [|v vals]; [constructor|]. cbn [combine keys map fst].
  constructor; [intros Q; apply Hx; exact (keys_combine _ _ _ Q)|exact (IH vals)].
Qed.
Lemma zip_combine_aux {V} names (vals : list V) d : NoDup names -> (forall x, In x names -> ~ In x (keys d)) ->
  fold_left (fun d kv => dset (fst kv) (snd kv) d) (combine names vals) d = d ++ combine names vals.
Proof.
  intros H. revert vals d. induction H as [|x l Hx Hl IH]; intros vals d Hd; [rewrite app_nil_r; reflexivity|]. destruct vals as [|v vals]; [rewrite app_nil_r; reflexivity|].
  cbn [combine fold_left fst snd]. rewrite dset_fresh by (apply Hd; left; reflexivity). rewrite IH; [rewrite <- app_assoc; reflexivity|].
  intros y Hy Q. rewrite keys_app in Q. apply in_app_or in Q. destruct Q as [Q|[Q|[]]]; [exact (Hd y (or_intror Hy) Q)|]. cbn in Q. subst y. contradiction.
Qed.
Lemma zip_combine {V} names (vals : list V) : NoDup names -> zip_dict names vals = combine names vals.
Proof. intros H. unfold zip_dict. rewrite zip_combine_aux; auto. Qed.
Lemma dget_combine names vals k v : NoDup names -> dget k (combine names vals) = Some v <-> at_position names vals k v.
Proof.
  intros H. revert vals. induction H as [|x l Hx Hl IH]; intros vals.
  - split; [discriminate|]. intros ([|j] & Q & _); discriminate.
  - destruct vals as [|w vals]; [split; [discriminate|intros ([|j] & _ & Q); discriminate]|]. cbn [combine dget]. destruct (seqb k x) eqn:E.
    + apply seqb_eq in E. subst x. split; [intros Q; injection Q as ->; exists 0; split; reflexivity|]. intros ([|j] & Q1 & Q2); [injection Q2 as ->; reflexivity|].
      exfalso. apply Hx. cbn in Q1. exact (nth_error_In _ _ Q1).
    + rewrite IH. split; [intros (j & Q1 & Q2); exists (S j); auto|]. intros ([|j] & Q1 & Q2); [injection Q1 as ->; rewrite seqb_refl in E; discriminate|]. exists j. auto.
Qed.
Lemma dget_combine_none names vals k : NoDup names -> (forall v, ~ at_position names vals k v) -> dget k (combine names vals) = None.
Proof. intros H Hk. destruct (dget k (combine names vals)) as [v|] eqn:E; [|reflexivity]. exfalso. apply (Hk v). apply dget_combine; auto. Qed.
Lemma at_position_in names vals k v : at_position names vals k v -> In k names.
Proof. intros (j & H & _). exact (nth_error_In _ _ H). Qed.
Lemma at_position_ex names (vals : list fl) k : List.length vals = List.length names -> In k names -> exists v, at_position names vals k v.
Proof.
  intros Hl Hk. apply In_nth_error in Hk. destruct Hk as (j & Hj). assert (j < List.length vals) by (rewrite Hl; apply nth_error_Some; congruence).
  apply nth_error_Some in H. destruct (nth_error vals j) as [v|] eqn:E; [|contradiction]. exists v, j. auto.
Qed.

(** ** numbers on a line *)
Lemma floats_spec t vals : floats t = Ok vals <-> Forall2 number (words t) vals.
Proof. unfold floats, number. apply mapM_F2. Qed.
Lemma numbers_on_get G line vals : numbers_on G line vals <-> exists t, dget (L line) G = Some t /\ floats t = Ok vals.
Proof.
  unfold numbers_on. split.
  - intros (t & ws & H1 & H2 & H3). exists t. split; auto. apply floats_spec. apply fields_words in H2. subst ws; exact H3.
  - intros (t & H1 & H2). exists t, (words t). split; auto. split; [apply fields_words; reflexivity|apply floats_spec; auto].
Qed.
Lemma numbers_on_fun G line v v' : numbers_on G line v -> numbers_on G line v' -> v = v'.
Proof. rewrite !numbers_on_get. intros (t & H1 & H2) (t' & H3 & H4). congruence. Qed.

(** ** integer part *)
Lemma p10_pos e : (0 <= e)%Z -> (0 < p10 e)%Z.
Proof. intros H. unfold p10. apply Z.pow_pos_nonneg; lia. Qed.
Lemma decQ_nonneg m e : (0 <= e)%Z -> (decQ m e == inject_Z (m * p10 e))%Q.
Proof. intros H. rewrite (decQ_shift m e 0 H). rewrite Z.sub_0_r. cbn [Qpower]. rewrite Qmult_1_r. reflexivity. Qed.
Lemma decQ_neg m e : (e < 0)%Z -> (decQ m e * inject_Z (p10 (- e)) == inject_Z m)%Q.
Proof.
  intros H. unfold decQ, p10. rewrite <- Qmult_assoc.
  assert (E : (Qpower (inject_Z 10) e * inject_Z (10 ^ (- e)) == 1)%Q).
  { assert (E1 : (inject_Z (10 ^ (- e)) == Qpower (inject_Z 10) (- e))%Q).
    { destruct e as [|p|p]; try lia. cbn [Z.opp]. rewrite (Zpower_Qpower 10 (Z.pos p)) by lia. reflexivity. }
    rewrite E1. rewrite <- Qpower_plus by discriminate. rewrite Z.add_opp_diag_r. reflexivity. }
  rewrite E. apply Qmult_1_r.
Qed.
Lemma int_part v z : int_of_fl v = Ok z -> integer_part v z.
Proof.
  destruct v as [m e| |]; cbn [int_of_fl]; try discriminate. intros Q. injection Q as <-. cbn [integer_part]. cbv zeta.
  destruct (0 <=? e)%Z eqn:E.
  - apply Z.leb_le in E. pose proof (decQ_nonneg m e E) as H. set (n := (m * p10 e)%Z) in *. split; intros _.
    + split; [rewrite H; apply Qle_refl|]. rewrite H. rewrite <- Zlt_Qlt. lia.
    + split; [|rewrite H; apply Qle_refl]. rewrite H. rewrite <- Zlt_Qlt. lia.
  - apply Z.leb_gt in E. pose proof (decQ_neg m e E) as H. pose proof (p10_pos (- e) ltac:(lia)) as Hp. set (p := p10 (- e)) in *. set (q := decQ m e) in *.
    assert (Hpq : (0 < inject_Z p)%Q) by (change 0%Q with (inject_Z 0); rewrite <- Zlt_Qlt; exact Hp).
    assert (M : (m = p * (m ÷ p) + Z.rem m p)%Z) by (apply Z.quot_rem'). split; intros Hq.
    + assert (Hm : (0 <= m)%Z). { rewrite Zle_Qle. rewrite <- H. change (inject_Z 0) with 0%Q. apply Qmult_le_0_compat; [exact Hq|apply Qlt_le_weak; exact Hpq]. }
      pose proof (Z.rem_bound_pos m p Hm Hp) as R. split.
      * apply (Qmult_le_r _ _ _ Hpq). rewrite H, <- inject_Z_mult, <- Zle_Qle. lia.
      * apply (Qmult_lt_r _ _ _ Hpq). rewrite H, <- inject_Z_mult, <- Zlt_Qlt. lia.
    + assert (Hm : (m <= 0)%Z). { rewrite Zle_Qle. rewrite <- H. change (inject_Z 0) with 0%Q. rewrite <- (Qmult_0_l (inject_Z p)). apply Qmult_le_compat_r; [exact Hq|apply Qlt_le_weak; exact Hpq]. }
      pose proof (Z.rem_bound_pos (- m) p ltac:(lia) Hp) as R. rewrite Z.rem_opp_l in R by lia. split.
      * apply (Qmult_lt_r _ _ _ Hpq). rewrite H, <- inject_Z_mult, <- Zlt_Qlt. lia.
      * apply (Qmult_le_r _ _ _ Hpq). rewrite H, <- inject_Z_mult, <- Zle_Qle. lia.
Qed.

(** ** the loop over #G0 *)
Definition sectk := L "g_sect".
Definition modek := L "g_mode".
Definition mode_at (modes : list str) (z : Z) : option str := if ((0 <=? z)%Z && (z <? len modes)%Z)%bool then nth_error modes (Z.to_nat z) else None.
Lemma nth_mode modes z : mode_at modes z = match z with Zneg _ => None | _ => nth_error modes (Z.to_nat z) end.
Proof.
  unfold mode_at, len. destruct (0 <=? z)%Z eqn:E1.
  - apply Z.leb_le in E1. destruct (z <? Z.of_nat (List.length modes))%Z eqn:E2; cbn [andb].
    + destruct z; try reflexivity; lia.
    + apply Z.ltb_ge in E2. assert (nth_error modes (Z.to_nat z) = None) by (apply nth_error_None; lia). destruct z; auto. 
  - apply Z.leb_gt in E1. destruct z; try lia. reflexivity.
Qed.
Lemma g0_fold modes l s a s' a' : NoDup (keys l) -> (forall k, In k (keys l) -> prefixb sectk k = true -> k = sectk) ->
  (forall k, In k (keys l) -> prefixb modek k = true -> k = modek \/ modes = []) -> foldM (g0_step modes) l (s, a) = Ok (s', a') ->
  (match dget sectk l with Some v => exists z, int_of_fl v = Ok z /\ s' = Some z | None => s' = s end) /\
  (match dget modek l with Some v => exists z, int_of_fl v = Ok z /\ a' = a ++ match mode_at modes z with Some m => [(L "g_mode_name", m)] | None => [] end | None => a' = a end).
Proof.
  revert s a. induction l as [|[k v] l IH]; intros s a Hn Hs Hm H; [cbn in H; injection H as <- <-; split; reflexivity|].
  destruct (proj1 (NoDup_cons_iff k (keys l)) Hn) as [H1 H2]. cbn [foldM] in H.
  assert (Hs' : forall k, In k (keys l) -> prefixb sectk k = true -> k = sectk) by (intros; apply Hs; [right; auto|auto]).
  assert (Hm' : forall k, In k (keys l) -> prefixb modek k = true -> k = modek \/ modes = []) by (intros; apply Hm; [right; auto|auto]).
  pose proof (Hs k (or_introl eq_refl)) as Hsk. pose proof (Hm k (or_introl eq_refl)) as Hmk. cbn [g0_step] in H. fold sectk modek in H.
  cbn [dget]. destruct (prefixb sectk k) eqn:E1.
  - rewrite (Hsk eq_refl) in *. rewrite seqb_refl. change (seqb modek sectk) with false. cbv iota.
    destruct (int_of_fl v) as [z|] eqn:Ez; [|discriminate]. cbn [bind] in H. destruct (IH _ _ H2 Hs' Hm' H) as [I1 I2]. split; [|exact I2].
    assert (dget sectk l = None) by (apply dget_none; exact H1). rewrite H0 in I1. exists z. auto.
  - destruct (prefixb modek k) eqn:E2; cbn [negb] in H.
    + destruct (int_of_fl v) as [z|] eqn:Ez; [|discriminate]. cbn [bind] in H. destruct (Hmk eq_refl) as [->|Q].
      * change (seqb sectk modek) with false. rewrite seqb_refl. cbv iota.
        assert (Hl : dget modek l = None) by (apply dget_none; exact H1). change (modek ++ L "_name") with (L "g_mode_name") in H.
        assert (H' : foldM (g0_step modes) l (s, a ++ match mode_at modes z with Some m => [(L "g_mode_name", m)] | None => [] end) = Ok (s', a')).
        { unfold mode_at. destruct ((0 <=? z)%Z && (z <? len modes)%Z)%bool; [destruct (nth_error modes (Z.to_nat z)) as [m|]|]; cbn [bind] in H; rewrite ?app_nil_r; exact H. }
        destruct (IH _ _ H2 Hs' Hm' H') as [I1 I2]. rewrite Hl in I2. split; [exact I1|]. exists z. split; [exact Ez|exact I2].
      * subst modes. assert (E : ((0 <=? z)%Z && (z <? len (@nil str))%Z)%bool = false).
        { unfold len. cbn [List.length Z.of_nat]. destruct (0 <=? z)%Z eqn:A; [|reflexivity]. apply Z.leb_le in A. cbn [andb]. apply Z.ltb_ge. exact A. }
        rewrite E in H. cbn [bind] in H. destruct (IH _ _ H2 Hs' Hm' H) as [I1 I2]. split.
        -- destruct (seqb sectk k) eqn:A; [|exact I1]. apply seqb_eq in A. subst k. discriminate.
        -- destruct (seqb modek k) eqn:A; [|exact I2]. apply seqb_eq in A. subst k. exists z. split; auto. unfold mode_at. rewrite E, app_nil_r.
           assert (Hl : dget modek l = None) by (apply dget_none; exact H1). rewrite Hl in I2. exact I2.
    + cbn [bind] in H. destruct (IH _ _ H2 Hs' Hm' H) as [I1 I2]. split.
      * destruct (seqb sectk k) eqn:A; [|exact I1]. apply seqb_eq in A. subst k. discriminate.
      * destruct (seqb modek k) eqn:A; [|exact I2]. apply seqb_eq in A. subst k. discriminate.
Qed.

(** ** what the catalog guarantees *)
Fixpoint nodupb (l : list str) : bool := match l with [] => true | x :: t => negb (mem x t) && nodupb t end.
Lemma nodupb_spec l : nodupb l = true -> NoDup l.
Proof.
  induction l as [|x l IH]; [constructor|]. cbn [nodupb]. intros H. apply andb_prop in H. destruct H as [H1 H2]. constructor; auto.
  intros Q. apply mem_In in Q. rewrite Q in H1. discriminate.
Qed.
Definition disj (a b : list str) : bool := forallb (fun x => negb (mem x b)) a.
Lemma disj_spec a b x : disj a b = true -> In x a -> ~ In x b.
Proof. unfold disj. rewrite forallb_forall. intros H Hx Q. specialize (H _ Hx). apply mem_In in Q. rewrite Q in H. discriminate. Qed.
Definition reserved : list str := map L ["diffractometer_full"; "diffractometer_simple"; "diffractometer_variant"; "ub_matrix"; "g_mode_name"]%string.
Definition sound_entry (g : geometry) : bool :=
  nodupb (g_G g) && nodupb (g_Q g) && nodupb (U_names g) && disj (g_Q g) (g_G g) && disj (g_Q g) (U_names g) && disj reserved (g_G g) && disj reserved (g_Q g) && disj reserved (U_names g) &&
  forallb (fun k => implb (prefixb sectk k) (seqb k sectk)) (g_G g) &&
  forallb (fun k => implb (prefixb modek k) (seqb k modek || match g_modes g with [] => true | _ => false end)) (g_G g).
Lemma sound_catalog : forallb sound_entry catalog = true.
Proof. vm_compute. reflexivity. Qed.
(** the catalog entry [g] is sound *)
Record sound (g : geometry) : Prop := mk_sound {
  so_G : NoDup (g_G g); so_Q : NoDup (g_Q g); so_U : NoDup (U_names g);
  so_QG : forall k, In k (g_Q g) -> ~ In k (g_G g); so_QU : forall k, In k (g_Q g) -> ~ In k (U_names g);
  so_rG : forall k, In k reserved -> ~ In k (g_G g); so_rQ : forall k, In k reserved -> ~ In k (g_Q g); so_rU : forall k, In k reserved -> ~ In k (U_names g);
  so_sect : forall k, In k (g_G g) -> prefixb sectk k = true -> k = sectk;
  so_mode : forall k, In k (g_G g) -> prefixb modek k = true -> k = modek \/ g_modes g = [] }.
Lemma sound_in g : In g catalog -> sound g.
Proof.
  intros Hg. pose proof sound_catalog as H. rewrite forallb_forall in H. specialize (H _ Hg). unfold sound_entry in H. repeat rewrite andb_true_iff in H.
  destruct H as [[[[[[[[[H1 H2] H3] H4] H5] H6] H7] H8] H9] H10]. split; try (apply nodupb_spec; assumption); try (intros k Hk; refine (disj_spec _ _ k _ Hk); assumption).
  - intros k Hk Hp. rewrite forallb_forall in H9. specialize (H9 _ Hk). cbv beta in H9. rewrite Hp in H9. cbn [implb] in H9. apply seqb_eq. exact H9.
  - intros k Hk Hp. rewrite forallb_forall in H10. specialize (H10 _ Hk). cbv beta in H10. rewrite Hp in H10. cbn [implb] in H10. apply orb_prop in H10. destruct H10 as [Q|Q]; [left; apply seqb_eq; exact Q|].
    right. destruct (g_modes g); [reflexivity|discriminate].
Qed.
Lemma has_len_neqb (a b : nat) : Nat.eqb a b = false -> a <> b. Proof. apply Nat.eqb_neq. Qed.

Section Entry.
  Context (g : geometry) (So : sound g) (G : dict str).
  Lemma keys_GNum (d : dict fl) : keys (map (fun kv => (fst kv, GNum (snd kv))) d) = keys d.
  Proof. unfold keys. rewrite map_map. reflexivity. Qed.
  Lemma zip_upd names vals d k : NoDup names ->
    dget k (dupdate (map (fun kv => (fst kv, GNum (snd kv))) (zip_dict names vals)) d) = match dget k (combine names vals) with Some v => Some (GNum v) | None => dget k d end.
  Proof.
    intros Hn. rewrite (zip_combine names vals Hn). rewrite dget_dupdate by (rewrite keys_GNum; apply NoDup_combine; exact Hn). rewrite dget_map. destruct (dget k (combine names vals)); reflexivity.
  Qed.
  Lemma combine_out names (vals : list fl) k : ~ In k names -> dget k (combine names vals) = None.
  Proof. intros H. apply dget_none. intros Q. apply H. exact (keys_combine _ _ _ Q). Qed.

  Lemma G0_eff d d' : parse_G0 g G d = Ok d' ->
    d_lattice d' = d_lattice d /\ d_UB d' = d_UB d /\ d_wavelength d' = d_wavelength d /\ d_full d' = d_full d /\ d_name d' = d_name d /\ d_variant d' = d_variant d /\
    (forall k, ~ In k (g_G g) -> k <> L "g_mode_name" -> dget k (d_gpar d') = dget k (d_gpar d)) /\
    ((~ exists vals, given G "G0" (g_G g) vals) -> d' = d) /\
    (forall vals, given G "G0" (g_G g) vals -> (forall k v, at_position (g_G g) vals k v -> dget k (d_gpar d') = Some (GNum v)) /\
      (forall v, at_position (g_G g) vals sectk v -> exists z, integer_part v z /\ d_sector d' = Some z) /\ (~ In sectk (g_G g) -> d_sector d' = d_sector d) /\
      (forall v, at_position (g_G g) vals modek v -> exists z, integer_part v z /\ d_mode d' = match mode_at (g_modes g) z with Some m => Some m | None => d_mode d end) /\
      (~ In modek (g_G g) -> d_mode d' = d_mode d)).
  Proof.
    intros H. unfold parse_G0 in H. change (L "G0") with (L "G0") in H. destruct (dget (L "G0") G) as [t|] eqn:Et.
    2:{ injection H as <-. do 6 (split; [reflexivity|]). split; [reflexivity|]. split; [reflexivity|]. intros vals [(t & ws & Q & _) _]. change (L "G0") with (L "G0") in Q. congruence. }
    destruct (floats t) as [g0|] eqn:Ef; [|discriminate]. cbn [bind] in H.
    assert (Hg : forall vals, given G "G0" (g_G g) vals -> vals = g0 /\ List.length g0 = List.length (g_G g)).
    { intros vals [Hv Hl]. apply numbers_on_get in Hv. destruct Hv as (t' & Q1 & Q2). assert (vals = g0) by congruence. subst vals. auto. }
    destruct (Nat.eqb (List.length g0) (List.length (g_G g))) eqn:El; cbn [negb] in H.
    2:{ apply Nat.eqb_neq in El. injection H as <-. do 6 (split; [reflexivity|]). split; [reflexivity|]. split; [reflexivity|]. intros vals Hv. destruct (Hg _ Hv). contradiction. }
    apply Nat.eqb_eq in El. assert (Hgiven : given G "G0" (g_G g) g0) by (split; [apply numbers_on_get; exists t; auto|exact El]).
    cbv zeta in H. rewrite (zip_combine (g_G g) g0 (so_G g So)) in H.
    destruct (foldM (g0_step (g_modes g)) (combine (g_G g) g0) (d_sector d, [])) as [[sect adds]|] eqn:Eg; [|discriminate]. cbn [bind] in H.
    apply g0_fold in Eg; [| apply NoDup_combine; exact (so_G g So) | intros k Hk; apply (so_sect g So); exact (keys_combine _ _ _ Hk) | intros k Hk; apply (so_mode g So); exact (keys_combine _ _ _ Hk)].
    destruct Eg as [Es Em].
    assert (Ha : (adds = [] \/ exists m, adds = [(L "g_mode_name", m)])).
    { destruct (dget modek (combine (g_G g) g0)) as [v|]; [|left; exact Em]. destruct Em as (z & _ & ->). cbn [app]. destruct (mode_at (g_modes g) z); eauto. }
    assert (Hnm : ~ In (L "g_mode_name") (g_G g)) by (apply (so_rG g So); unfold reserved; cbn [map In]; auto 10).
    set (gp := dupdate (dupdate (map (fun kv => (fst kv, GStr (snd kv))) adds) (map (fun kv => (fst kv, GNum (snd kv))) (combine (g_G g) g0))) (d_gpar d)) in H.
    assert (Hgp : forall k, k <> L "g_mode_name" -> dget k gp = match dget k (combine (g_G g) g0) with Some v => Some (GNum v) | None => dget k (d_gpar d) end).
    { intros k Hk. unfold gp. assert (E : forall m, dupdate [(L "g_mode_name", GStr m)] (map (fun kv => (fst kv, GNum (snd kv))) (combine (g_G g) g0)) = map (fun kv => (fst kv, GNum (snd kv))) (combine (g_G g) g0) ++ [(L "g_mode_name", GStr m)]).
      { intros m. unfold dupdate. cbn [fold_left fst snd]. apply dset_fresh. rewrite keys_GNum. intros Q. apply Hnm. exact (keys_combine _ _ _ Q). }
      destruct Ha as [->|(m & ->)].
      - cbn [map]. change (dupdate [] (map (fun kv => (fst kv, GNum (snd kv))) (combine (g_G g) g0))) with (map (fun kv : str * fl => (fst kv, GNum (snd kv))) (combine (g_G g) g0)).
        rewrite dget_dupdate by (rewrite keys_GNum; apply NoDup_combine; exact (so_G g So)). rewrite dget_map. destruct (dget k (combine (g_G g) g0)); reflexivity.
      - cbn [map fst snd]. rewrite E. rewrite dget_dupdate.
        + rewrite dget_app, dget_map. destruct (dget k (combine (g_G g) g0)); [reflexivity|]. cbn [option_map dget]. destruct (seqb k (L "g_mode_name")) eqn:A; [apply seqb_eq in A; contradiction|reflexivity].
        + rewrite keys_app, keys_GNum. cbn [keys map fst]. apply NoDup_Add with (a := L "g_mode_name") (l := keys (combine (g_G g) g0)).
          * rewrite <- (app_nil_r (keys (combine (g_G g) g0))) at 1. apply Add_app.
          * split; [apply NoDup_combine; exact (so_G g So)|]. intros Q. apply Hnm. exact (keys_combine _ _ _ Q). }
    injection H as <-. cbn [d_lattice d_UB d_wavelength d_full d_name d_variant d_gpar d_sector d_mode]. do 6 (split; [reflexivity|]). split.
    { intros k Hk Hkn. rewrite (Hgp k Hkn). rewrite combine_out by exact Hk. reflexivity. }
    split; [intros Q; exfalso; apply Q; exists g0; exact Hgiven|]. intros vals Hv. destruct (Hg _ Hv) as [-> _]. split.
    { intros k v Hk. rewrite Hgp; [|intros ->; apply Hnm; exact (at_position_in _ _ _ _ Hk)]. apply dget_combine in Hk; [|exact (so_G g So)]. rewrite Hk. reflexivity. }
    split. { intros v Hk. apply dget_combine in Hk; [|exact (so_G g So)]. rewrite Hk in Es. destruct Es as (z & Ez & ->). exists z. split; [apply int_part; exact Ez|reflexivity]. }
    split. { intros Hk. rewrite combine_out in Es by exact Hk. exact Es. }
    split. { intros v Hk. apply dget_combine in Hk; [|exact (so_G g So)]. rewrite Hk in Em. destruct Em as (z & Ez & ->). exists z. split; [apply int_part; exact Ez|]. cbn [app].
      destruct (mode_at (g_modes g) z) as [m|]; [|reflexivity]. cbn [fold_left fst snd]. rewrite seqb_refl. reflexivity. }
    intros Hk. rewrite combine_out in Em by exact Hk. rewrite Em. reflexivity.
  Qed.

  Lemma numbers_fun line vals : dget (L line) G = None -> numbers_on G line vals -> False.
  Proof. intros H (t & ws & Q & _). congruence. Qed.
  Definition Ukey (k : string) : str := L "g_" ++ L k.
  Lemma uget_pos vals k v : uget (combine (U_names g) vals) k = Ok v <-> at_position (U_names g) vals (L "g_" ++ k) v.
  Proof.
    unfold uget, of_opt. rewrite <- (dget_combine (U_names g) vals _ v (so_U g So)). destruct (dget (L "g_" ++ k) (combine (U_names g) vals)) as [w|]; split; intros Q; try discriminate; injection Q as ->; reflexivity.
  Qed.
  Lemma ugets_pos vals ks p : mapM (uget (combine (U_names g) vals)) ks = Ok p <-> Forall2 (fun k v => at_position (U_names g) vals (L "g_" ++ k) v) ks p.
  Proof.
    rewrite mapM_F2. split; intros H; induction H; constructor; auto; apply uget_pos; auto.
  Qed.
  Lemma has_pos vals k : has k (combine (U_names g) vals) = true <-> exists v, at_position (U_names g) vals k v.
  Proof.
    unfold has. destruct (dget k (combine (U_names g) vals)) as [v|] eqn:E.
    - split; auto. intros _. exists v. apply dget_combine; auto. exact (so_U g So).
    - split; [discriminate|]. intros (v & Q). apply dget_combine in Q; [|exact (so_U g So)]. congruence.
  Qed.
  Definition six : list str := map L ["aa"; "bb"; "cc"; "al"; "be"; "ga"]%string.
  Definition three : list str := map L ["aa"; "bb"; "ga"]%string.
  Definition upos (vals : list fl) (ks : list str) (p : list fl) : Prop := Forall2 (fun k v => at_position (U_names g) vals (L "g_" ++ k) v) ks p.
  Lemma upos_fun vals ks p p' : upos vals ks p -> upos vals ks p' -> p = p'.
  Proof. unfold upos. rewrite <- !ugets_pos. congruence. Qed.
  Lemma refl3_pos vals r motors x : refl3 (combine (U_names g) vals) r motors = Ok x ->
    exists p a, x = Ref3 p a /\ upos vals [L "h" ++ r; L "k" ++ r; L "l" ++ r; L "lambda" ++ r] p.
  Proof.
    unfold refl3. destruct (mapM _ _) as [p|] eqn:E; [|discriminate]. cbn [bind]. intros Q. injection Q as <-. exists p, (angles_of (combine (U_names g) vals) r motors). split; [reflexivity|].
    apply ugets_pos. rewrite <- E. symmetry. exact (mapM_map (fun k : str => k ++ r) (uget (combine (U_names g) vals)) (map L ["h"; "k"; "l"; "lambda"]%string)).
  Qed.
  Lemma G1_eff d d' : parse_G1 g G d = Ok d' ->
    d_UB d' = d_UB d /\ d_wavelength d' = d_wavelength d /\ d_full d' = d_full d /\ d_name d' = d_name d /\ d_variant d' = d_variant d /\ d_sector d' = d_sector d /\ d_mode d' = d_mode d /\
    (forall k, ~ In k (U_names g) -> dget k (d_gpar d') = dget k (d_gpar d)) /\
    ((forall vals, numbers_on G "G1" vals -> List.length vals <= 1) -> d' = d) /\
    (forall vals, numbers_on G "G1" vals -> 1 < List.length vals -> 
      (forall k, dget k (d_gpar d') = match dget k (combine (U_names g) vals) with Some v => Some (GNum v) | None => dget k (d_gpar d) end) /\
      (forall p, upos vals six p -> d_lattice d' = Some (Lat3 p)) /\ 
      (~ (exists p, upos vals six p) -> exists p, upos vals three p /\ d_lattice d' = Some (Lat2 p)) /\
      (~ In (L "g_lambda") (U_names g) -> exists p0 p1 a0 a1, d_refl d' = d_refl d ++ [Ref3 p0 a0; Ref3 p1 a1] /\
         upos vals (map L ["h0"; "k0"; "l0"; "lambda0"]%string) p0 /\ upos vals (map L ["h1"; "k1"; "l1"; "lambda1"]%string) p1)).
  Proof.
    intros H. unfold parse_G1 in H. destruct (dget (L "G1") G) as [t|] eqn:Et.
    2:{ injection H as <-. do 7 (split; [reflexivity|]). split; [reflexivity|]. split; [reflexivity|]. intros vals Q. exfalso. exact (numbers_fun _ _ Et Q). }
    destruct (floats t) as [g1|] eqn:Ef; [|discriminate]. cbn [bind] in H.
    assert (Hv : numbers_on G "G1" g1) by (apply numbers_on_get; exists t; auto).
    destruct (1 <? len g1)%Z eqn:El; cbn [negb] in H.
    2:{ apply Z.ltb_ge in El. unfold len in El. injection H as <-. do 7 (split; [reflexivity|]). split; [reflexivity|]. split; [reflexivity|]. intros vals Q Q2. exfalso. rewrite (numbers_on_fun _ _ _ _ Q Hv) in Q2. lia. }
    apply Z.ltb_lt in El. unfold len in El. cbv zeta in H. fold (U_names g) in H. rewrite (zip_combine (U_names g) g1 (so_U g So)) in H. set (U := combine (U_names g) g1) in *.
    match type of H with bind ?x _ = _ => destruct x as [lat|] eqn:Elat; [|discriminate] end. cbn [bind] in H.
    destruct (get_variant g (d_variant d)) as [v|] eqn:Ev; [|discriminate]. cbn [bind] in H.
    match type of H with bind ?x _ = _ => destruct x as [refl|] eqn:Erefl; [|discriminate] end. cbn [bind] in H. injection H as <-.
    cbn [d_lattice d_UB d_wavelength d_full d_name d_variant d_gpar d_sector d_mode d_refl]. do 7 (split; [reflexivity|]).
    assert (Hgp : forall k, dget k (dupdate (map (fun kv => (fst kv, GNum (snd kv))) U) (d_gpar d)) = match dget k U with Some v => Some (GNum v) | None => dget k (d_gpar d) end).
    { intros k. unfold U. rewrite <- (zip_combine (U_names g) g1 (so_U g So)). rewrite zip_upd by exact (so_U g So). rewrite (zip_combine (U_names g) g1 (so_U g So)). reflexivity. }
    split; [intros k Hk; rewrite Hgp; unfold U; rewrite combine_out by exact Hk; reflexivity|].
    split; [intros Q; specialize (Q _ Hv); exfalso; lia|]. intros vals Q _. rewrite (numbers_on_fun _ _ _ _ Q Hv). clear Q vals. fold U. split; [exact Hgp|].
    assert (Hsix : has (L "g_cc") U && has (L "g_al") U && has (L "g_be") U = true -> exists p, upos g1 six p /\ lat = Lat3 p).
    { intros E. rewrite E in Elat. destruct (mapM (uget U) (map L ["aa"; "bb"; "cc"; "al"; "be"; "ga"]%string)) as [p|] eqn:Ep; [|discriminate]. cbn [bind] in Elat. injection Elat as <-. exists p. split; [|reflexivity]. apply ugets_pos. exact Ep. }
    assert (Hthree : has (L "g_cc") U && has (L "g_al") U && has (L "g_be") U = false -> exists p, upos g1 three p /\ lat = Lat2 p).
    { intros E. rewrite E in Elat. destruct (mapM (uget U) (map L ["aa"; "bb"; "ga"]%string)) as [p|] eqn:Ep; [|discriminate]. cbn [bind] in Elat. injection Elat as <-. exists p. split; [|reflexivity]. apply ugets_pos. exact Ep. }
    split.
    { intros p Hp. assert (E : has (L "g_cc") U && has (L "g_al") U && has (L "g_be") U = true).
      { unfold upos, six in Hp. cbn [map] in Hp. inversion Hp as [|? ? ? ? P1 Hp1]. inversion Hp1 as [|? ? ? ? P2 Hp2]. inversion Hp2 as [|? ? ? ? P3 Hp3]. inversion Hp3 as [|? ? ? ? P4 Hp4]. inversion Hp4 as [|? ? ? ? P5 Hp5].
        rewrite !andb_true_iff. unfold U. rewrite !has_pos. split; [split|]; eexists; eassumption. }
      destruct (Hsix E) as (p' & Hp' & ->). rewrite (upos_fun _ _ _ _ Hp Hp'). reflexivity. }
    split.
    { intros Hno. destruct (has (L "g_cc") U && has (L "g_al") U && has (L "g_be") U) eqn:E; [destruct (Hsix eq_refl) as (p & Hp & _); exfalso; apply Hno; exists p; exact Hp|].
      destruct (Hthree eq_refl) as (p & Hp & ->). exists p. auto. }
    intros Hlam. assert (El2 : has (L "g_lambda") U = false). { destruct (has (L "g_lambda") U) eqn:E; [|reflexivity]. unfold U in E. apply has_pos in E. destruct E as (w & Q). exfalso. apply Hlam. exact (at_position_in _ _ _ _ Q). }
    rewrite El2 in Erefl. cbn [negb] in Erefl. destruct (refl3 U (L "0") (v_motors v)) as [r0|] eqn:E0; [|discriminate]. cbn [bind] in Erefl.
    destruct (refl3 U (L "1") (v_motors v)) as [r1|] eqn:E1; [|discriminate]. cbn [bind] in Erefl. injection Erefl as <-.
    apply refl3_pos in E0. destruct E0 as (p0 & a0 & -> & P0). apply refl3_pos in E1. destruct E1 as (p1 & a1 & -> & P1). exists p0, p1, a0, a1. split; [reflexivity|]. split; [exact P0|exact P1].
  Qed.
  Lemma G3_eff d d' : parse_G3 G d = Ok d' ->
    d_lattice d' = d_lattice d /\ d_refl d' = d_refl d /\ d_wavelength d' = d_wavelength d /\ d_full d' = d_full d /\ d_name d' = d_name d /\ d_variant d' = d_variant d /\ d_sector d' = d_sector d /\ d_mode d' = d_mode d /\
    (forall k, k <> L "ub_matrix" -> dget k (d_gpar d') = dget k (d_gpar d)) /\
    (forall vals, numbers_on G "G3" vals -> List.length vals = 9 -> d_UB d' = Some vals /\ dget (L "ub_matrix") (d_gpar d') = Some (GMat vals)) /\
    ((forall vals, numbers_on G "G3" vals -> List.length vals <> 9) -> d' = d).
  Proof.
    intros H. unfold parse_G3 in H. destruct (dget (L "G3") G) as [t|] eqn:Et.
    2:{ injection H as <-. do 8 (split; [reflexivity|]). split; [reflexivity|]. split; [|reflexivity]. intros vals Q. exfalso. exact (numbers_fun _ _ Et Q). }
    destruct (floats t) as [g3|] eqn:Ef; [|discriminate]. cbn [bind] in H. assert (Hv : numbers_on G "G3" g3) by (apply numbers_on_get; exists t; auto).
    destruct (Nat.eqb (List.length g3) 9) eqn:El; cbn [negb] in H; injection H as <-.
    - apply Nat.eqb_eq in El. cbn [d_lattice d_UB d_wavelength d_full d_name d_variant d_gpar d_sector d_mode d_refl]. do 8 (split; [reflexivity|]).
      split; [intros k Hk; apply dget_dset_other; exact Hk|]. split; [|intros Q; specialize (Q _ Hv); contradiction].
      intros vals Q _. rewrite (numbers_on_fun _ _ _ _ Q Hv). split; [reflexivity|apply dget_dset_same].
    - apply Nat.eqb_neq in El. do 8 (split; [reflexivity|]). split; [reflexivity|]. split; [|reflexivity]. intros vals Q Q2. rewrite (numbers_on_fun _ _ _ _ Q Hv) in Q2. contradiction.
  Qed.
  Lemma G4_eff d d' : parse_G4 g G d = Ok d' ->
    d_lattice d' = d_lattice d /\ d_refl d' = d_refl d /\ d_UB d' = d_UB d /\ d_full d' = d_full d /\ d_name d' = d_name d /\ d_variant d' = d_variant d /\ d_sector d' = d_sector d /\ d_mode d' = d_mode d /\
    (forall k, ~ In k (g_Q g) -> dget k (d_gpar d') = dget k (d_gpar d)) /\
    ((~ exists vals, given G "G4" (g_Q g) vals) -> d' = d) /\
    (forall vals, given G "G4" (g_Q g) vals -> (forall k v, at_position (g_Q g) vals k v -> dget k (d_gpar d') = Some (GNum v)) /\
      (forall v, at_position (g_Q g) vals (L "LAMBDA") v -> d_wavelength d' = Some v) /\ (~ In (L "LAMBDA") (g_Q g) -> d_wavelength d' = d_wavelength d)).
  Proof.
    intros H. unfold parse_G4 in H. destruct (dget (L "G4") G) as [t|] eqn:Et.
    2:{ injection H as <-. do 8 (split; [reflexivity|]). split; [reflexivity|]. split; [reflexivity|]. intros vals [Q _]. exfalso. exact (numbers_fun _ _ Et Q). }
    destruct (floats t) as [g4|] eqn:Ef; [|discriminate]. cbn [bind] in H. assert (Hv : numbers_on G "G4" g4) by (apply numbers_on_get; exists t; auto).
    destruct (Nat.eqb (List.length g4) (List.length (g_Q g))) eqn:El; cbn [negb] in H.
    2:{ apply Nat.eqb_neq in El. injection H as <-. do 8 (split; [reflexivity|]). split; [reflexivity|]. split; [reflexivity|]. intros vals [Q Q2]. rewrite (numbers_on_fun _ _ _ _ Q Hv) in Q2. contradiction. }
    apply Nat.eqb_eq in El. injection H as <-. cbn [d_lattice d_UB d_wavelength d_full d_name d_variant d_gpar d_sector d_mode d_refl]. do 8 (split; [reflexivity|]).
    split; [intros k Hk; rewrite zip_upd by exact (so_Q g So); rewrite combine_out by exact Hk; reflexivity|].
    split; [intros Q; exfalso; apply Q; exists g4; split; auto|]. intros vals [Q _]. rewrite (numbers_on_fun _ _ _ _ Q Hv). clear Q vals.
    split; [intros k v Hk; rewrite zip_upd by exact (so_Q g So); apply dget_combine in Hk; [rewrite Hk; reflexivity|exact (so_Q g So)]|].
    rewrite (zip_combine (g_Q g) g4 (so_Q g So)). split.
    - intros v Hk. apply dget_combine in Hk; [rewrite Hk; reflexivity|exact (so_Q g So)].
    - intros Hk. rewrite combine_out by exact Hk. reflexivity.
  Qed.
End Entry.
