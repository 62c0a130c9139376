(** C49, C50: proofs about geometries. *)
From Coq Require Import String Lia QArith.
From Verif Require Import Uni Py PyFacts NumFacts GeomData Geom SpecText SpecReader SpecNum SpecInterp SpecData SpecGeom OrderFacts InterpFacts.
Import ListNotations.
Local Open Scope nat_scope.
Local Open Scope list_scope.

Lemma strs_eqb_eq a b : strs_eqb a b = true <-> a = b.
Proof.
  revert b; induction a as [|x a IH]; intros [|y b]; cbn [strs_eqb]; try (split; congruence).
  rewrite andb_true_iff, seqb_eq, IH. split; [intros [-> ->]; reflexivity|intros Q; injection Q as -> ->; auto].
Qed.
Lemma drop0_fields t : g_fields t (drop0 (words t)).
Proof.
  unfold g_fields, drop0. destruct (strs_eqb (words t) [L "0"]) eqn:E.
  - apply strs_eqb_eq in E. left. split; [apply fields_words; auto|reflexivity].
  - right. split; [apply fields_words; auto|]. intros Q. apply strs_eqb_eq in Q. congruence.
Qed.
Lemma g_fields_fun t a b : g_fields t a -> g_fields t b -> a = b.
Proof.
  unfold g_fields. rewrite !fields_words. intros [[H1 ->]|[H1 H2]] [[H3 ->]|[H3 H4]]; try congruence; reflexivity.
Qed.
Lemma count_G0_len i n : count_G0 i n <-> n = List.length (scan_G0 i).
Proof.
  unfold count_G0, scan_G0. destruct (dget (L "G0") (gi_G i)) as [t|] eqn:E.
  - split.
    + intros [[Q _]|(t' & ws & Q & Hw & ->)]; [discriminate|]. injection Q as <-. rewrite (g_fields_fun _ _ _ Hw (drop0_fields t)). reflexivity.
    + intros ->. right. exists t, (drop0 (words t)). split; auto. split; [apply drop0_fields|reflexivity].
  - split; [intros [[_ ->]|(t & ws & Q & _)]; [reflexivity|discriminate]|]. intros ->. left. split; reflexivity.
Qed.
Lemma count_G4_len i n : count_G4 i n <-> exists q, scan_G4 i = Some q /\ n = List.length q.
Proof.
  unfold count_G4, scan_G4. destruct (dget (L "G4") (gi_G i)) as [t|] eqn:E.
  - split.
    + intros (t' & ws & Q & Hw & ->). injection Q as <-. exists (drop0 (words t)). split; auto. rewrite (g_fields_fun _ _ _ Hw (drop0_fields t)). reflexivity.
    + intros (q & Q & ->). injection Q as <-. exists t, (drop0 (words t)). split; auto. split; [apply drop0_fields|reflexivity].
  - split; [intros (t & ws & Q & _); discriminate|intros (q & Q & _); discriminate].
Qed.
Lemma firstn_prefix {A} (a l : list A) : firstn (List.length a) l = a <-> exists m, l = a ++ m.
Proof.
  split.
  - intros H. exists (skipn (List.length a) l). rewrite <- H at 1. symmetry. apply firstn_skipn.
  - intros (m & ->). rewrite firstn_app, Nat.sub_diag, firstn_all, firstn_O, app_nil_r. reflexivity.
Qed.
Lemma has_keys {V} k (d : dict V) : has k d = true <-> In k (keys d).
Proof.
  unfold has. destruct (dget k d) as [v|] eqn:E.
  - split; [intros _|auto]. apply dget_In in E. apply in_map_iff. exists (k, v). auto.
  - apply dget_none in E. split; [discriminate|tauto].
Qed.
(** the test for one variation *)
Definition fitb (i : geo_in) (gv : geometry * variation) : bool :=
  Nat.eqb (List.length (scan_G0 i)) (List.length (g_G (fst gv))) &&
  (match scan_G4 i with Some q => Nat.eqb (List.length q) (List.length (g_Q (fst gv))) | None => true end) && var_match i (snd gv).
Lemma fitb_spec i gv : fitb i gv = true <-> fits i (fst gv) (snd gv).
Proof.
  unfold fitb, fits, var_match. rewrite !andb_true_iff, Nat.eqb_eq, strs_eqb_eq, firstn_prefix, forallb_forall, Forall_forall, count_G0_len.
  assert (H4 : (match scan_G4 i with Some q => Nat.eqb (List.length q) (List.length (g_Q (fst gv))) | None => true end) = true <-> forall n, count_G4 i n -> n = List.length (g_Q (fst gv))).
  { setoid_rewrite count_G4_len. destruct (scan_G4 i) as [q|]; [rewrite Nat.eqb_eq|]; split.
    - intros H n (q' & Q & ->). injection Q as <-. exact H.
    - intros H. apply H. eauto.
    - intros _ n (q & Q & _). discriminate.
    - auto. }
  rewrite H4. assert (H5 : (forall x, In x (v_others (snd gv)) -> has x (gi_positioner i) = true) <-> forall x, In x (v_others (snd gv)) -> In x (keys (gi_positioner i))).
  { split; intros H x Hx; apply has_keys; auto. }
  rewrite H5. split; intros H; intuition.
Qed.
Definition full_name (gv : geometry * variation) : str := dot (g_name (fst gv)) (v_name (snd gv)).
Lemma filter_map_pair {A B} (f : A * B -> bool) (g : A) (vs : list B) : List.filter f (map (fun v => (g, v)) vs) = map (fun v => (g, v)) (List.filter (fun v => f (g, v)) vs).
Proof. induction vs as [|v vs IH]; [reflexivity|]. cbn [map List.filter]. destruct (f (g, v)); cbn [map]; rewrite IH; reflexivity. Qed.
Lemma filter_none {A} (f : A -> bool) l : (forall x, f x = false) -> List.filter f l = [].
Proof. intros H. induction l as [|x l IH]; [reflexivity|]. cbn. rewrite H. exact IH. Qed.
Lemma filter_ext' {A} (f g : A -> bool) l : (forall x, f x = g x) -> List.filter f l = List.filter g l.
Proof. intros H. induction l as [|x l IH]; [reflexivity|]. cbn. rewrite H, IH. reflexivity. Qed.
Lemma geo_match_filter i g : geo_match i g = map full_name (List.filter (fitb i) (map (fun v => (g, v)) (g_vars g))).
Proof.
  rewrite filter_map_pair, map_map. unfold geo_match, fitb. cbn [fst snd].
  destruct (Nat.eqb (List.length (scan_G0 i)) (List.length (g_G g))); cbn [negb andb].
  - destruct (scan_G4 i) as [q|].
    + destruct (Nat.eqb (List.length q) (List.length (g_Q g))); cbn [negb]; [apply map_ext; reflexivity|rewrite filter_none; reflexivity].
    + reflexivity.
  - rewrite filter_none; reflexivity.
Qed.
Lemma matches_filter i db : flat_map (geo_match i) db = map full_name (List.filter (fitb i) (all_variations db)).
Proof.
  unfold all_variations. induction db as [|g db IH]; [reflexivity|]. cbn [flat_map]. rewrite geo_match_filter, IH, List.filter_app, map_app. reflexivity.
Qed.
Lemma filter_first {A} (f : A -> bool) l x t : List.filter f l = x :: t -> exists pre post, l = pre ++ x :: post /\ f x = true /\ Forall (fun y => f y = false) pre.
Proof.
  induction l as [|y l IH]; [discriminate|]. cbn [List.filter]. destruct (f y) eqn:E.
  - intros Q. injection Q as -> _. exists [], l. auto.
  - intros Q. destruct (IH Q) as (pre & post & -> & Hx & Hp). exists (y :: pre), post. split; auto.
Qed.
Lemma filter_nil {A} (f : A -> bool) l : List.filter f l = [] -> Forall (fun y => f y = false) l.
Proof. induction l as [|y l IH]; [constructor|]. cbn [List.filter]. destruct (f y) eqn:E; [discriminate|]. intros Q. constructor; auto. Qed.

(** names of the catalog *)
Lemma split_dot a b : ~ In 46%N a -> ~ In 46%N b -> split_name_variation (dot a b) = (a, Some b).
Proof.
  intros Ha Hb. unfold split_name_variation, dot. rewrite split_c_app by auto. rewrite split_c_none by auto. reflexivity.
Qed.
Definition no_dot (s : str) : bool := negb (existsb (fun c => (c =? 46)%N) s).
Lemma no_dot_spec s : no_dot s = true <-> ~ In 46%N s.
Proof.
  unfold no_dot. rewrite negb_true_iff. split.
  - intros H Q. assert (existsb (fun c => (c =? 46)%N) s = true) by (apply existsb_exists; exists 46%N; split; [auto|reflexivity]). congruence.
  - intros H. destruct (existsb _ s) eqn:E; [|reflexivity]. apply existsb_exists in E. destruct E as (c & Hc & Q). apply N.eqb_eq in Q. subst c. contradiction.
Qed.
(** names without dots *)
Definition plain (db : list geometry) : bool := forallb (fun g => no_dot (g_name g) && forallb (fun v => no_dot (v_name v)) (g_vars g)) db.
Lemma plain_catalog : plain catalog = true.
Proof. vm_compute. reflexivity. Qed.
Section Plain.
  Context (db : list geometry) (Hp : plain db = true).
  Lemma plain_g g : In g db -> ~ In 46%N (g_name g) /\ forall v, In v (g_vars g) -> ~ In 46%N (v_name v).
  Proof.
    intros Hg. unfold plain in Hp. rewrite forallb_forall in Hp. specialize (Hp _ Hg). apply andb_prop in Hp. destruct Hp as [H1 H2]. split; [apply no_dot_spec; auto|].
    intros v Hv. rewrite forallb_forall in H2. apply no_dot_spec. auto.
  Qed.
  Lemma split_cases nm : (exists a b, nm = dot a b /\ ~ In 46%N a /\ ~ In 46%N b /\ split_name_variation nm = (a, Some b)) \/
    (split_name_variation nm = (nm, None) /\ forall a b, ~ In 46%N a -> ~ In 46%N b -> nm <> dot a b).
  Proof.
    unfold split_name_variation. pose proof (join_split 46%N nm) as J. pose proof (split_c_Forall 46%N nm) as F. destruct (split_c 46%N nm) as [|a [|b [|c l]]] eqn:E.
    - right. split; auto. intros a b Ha Hb ->. unfold dot in E. rewrite split_c_app in E by auto. discriminate.
    - right. split; auto. intros a' b Ha Hb ->. unfold dot in E. rewrite split_c_app in E by auto. injection E as _ E. exact (split_c_ne _ _ E).
    - left. exists a, b. pose proof (Forall_inv F) as Ha. pose proof (Forall_inv (Forall_inv_tail F)) as Hb. split; [symmetry; exact J|]. auto.
    - right. split; auto. intros a' b' Ha Hb ->. unfold dot in E. rewrite split_c_app in E by auto. rewrite split_c_none in E by auto. discriminate.
  Qed.
  Lemma has_known nm : has_geometry db nm = true <-> known_geometry db nm.
  Proof.
    unfold has_geometry, known_geometry. destruct (split_cases nm) as [(a & b & Hn & Ha & Hb & E)|[E Hn]]; rewrite E.
    - rewrite mem_In. unfold geometries_full. rewrite in_flat_map. split.
      + intros (g & Hg & Hv). apply in_map_iff in Hv. destruct Hv as (v & Hv & Hin). exists g. split; auto. right. exists v. split; auto.
      + intros (g & Hg & [[Q Hd]|(v & Hv & Q)]).
        * exfalso. apply Hd. rewrite Hn. apply in_or_app. right. left. reflexivity.
        * exists g. split; auto. apply in_map_iff. exists v. split; auto.
    - rewrite mem_In. unfold geometries_simple. rewrite in_map_iff. split.
      + intros (g & Q & Hg). exists g. split; auto. left. split; auto. rewrite <- Q. apply (plain_g g Hg).
      + intros (g & Hg & [[Q Hd]|(v & Hv & Q)]); [exists g; auto|]. destruct (plain_g g Hg) as [H1 H2]. exfalso. exact (Hn _ _ H1 (H2 _ Hv) Q).
  Qed.
  Lemma stated_spec i : (exists nm, states i nm /\ known_geometry db nm /\ stated db i = [dot nm (L "default")]) \/
    ((forall nm, states i nm -> ~ known_geometry db nm) /\ stated db i = []).
  Proof.
    unfold stated, states. destruct (gi_comments i) as [|c cs]; [right; split; [|reflexivity]; intros nm (c & cs & x & y & Q & _); discriminate|].
    destruct (words c) as [|nm [|u [|x [|y [|z l]]]]] eqn:Ew;
      try (right; split; [|reflexivity]; intros nm' (c' & cs' & x' & y' & Q & Hf); injection Q as <- <-; apply fields_words in Hf; congruence).
    destruct (seqb u (L "User")) eqn:Eu; cbn [andb].
    - apply seqb_eq in Eu. subst u. destruct (has_geometry db nm) eqn:Eh.
      + left. exists nm. split; [exists c, cs, x, y; split; auto; apply fields_words; auto|]. split; [apply has_known; auto|reflexivity].
      + right. split; [|reflexivity]. intros nm' (c' & cs' & x' & y' & Q & Hf). injection Q as <- <-. apply fields_words in Hf. rewrite <- has_known. congruence.
    - right. split; [|reflexivity]. intros nm' (c' & cs' & x' & y' & Q & Hf). injection Q as <- <-. apply fields_words in Hf. assert (u = L "User") by congruence. subst u.
      rewrite seqb_refl in Eu. discriminate.
  Qed.
  Lemma match_lemma i nm g0 db' : db = g0 :: db' -> geo_name_of db i = Ok nm ->
    (exists st, states i st /\ known_geometry db st /\ nm = st ++ L ".default") \/
    ((forall st, states i st -> ~ known_geometry db st) /\
     ((exists g v, first_fit i db g v /\ nm = g_name g ++ L "." ++ v_name v) \/
      (Forall (fun gv => ~ fits i (fst gv) (snd gv)) (all_variations db) /\ nm = g_name g0))).
  Proof.
    intros Hdb H. unfold geo_name_of in H. rewrite matches_filter in H. destruct (stated_spec i) as [(st & H1 & H2 & H3)|[H1 H2]].
    - rewrite H3 in H. cbn [app] in H. injection H as <-. left. exists st. auto.
    - rewrite H2 in H. cbn [app] in H. right. split; auto. destruct (List.filter (fitb i) (all_variations db)) as [|[g v] t] eqn:E; cbn [map] in H.
      + right. split; [|rewrite Hdb in H; cbn in H; injection H as <-; reflexivity]. apply filter_nil in E. eapply Forall_impl; [|exact E]. intros gv Q Hf. apply fitb_spec in Hf. congruence.
      + left. injection H as <-. apply filter_first in E. destruct E as (pre & post & E & Hf & Hpre). exists g, v. split; [|reflexivity]. exists pre, post. split; auto.
        split; [apply (fitb_spec i (g, v)); auto|]. eapply Forall_impl; [|exact Hpre]. intros gv Q Hf'. apply fitb_spec in Hf'. congruence.
  Qed.
  Lemma find_name nm g : In g db -> nm = g_name g -> exists g', List.find (fun g => seqb nm (g_name g)) db = Some g' /\ In g' db /\ g_name g' = nm.
  Proof.
    intros Hg ->. destruct (List.find (fun g' => seqb (g_name g) (g_name g')) db) as [g'|] eqn:E.
    - apply find_some in E. destruct E as [E1 E2]. apply seqb_eq in E2. exists g'. auto.
    - apply (find_none _ _ E) in Hg. rewrite seqb_refl in Hg. discriminate.
  Qed.
  Lemma lookup_lemma i nm g0 db' : db = g0 :: db' -> (forall st, states i st -> ~ In 46%N st) -> geo_name_of db i = Ok nm ->
    exists g, cat_get db nm = Some g /\ In g db /\ (nm = g_name g \/ exists v, nm = g_name g ++ L "." ++ v).
  Proof.
    intros Hdb Hst H. apply (match_lemma i nm g0 db' Hdb) in H. unfold cat_get.
    destruct H as [(st & H1 & H2 & ->)|[_ [(g & v & (pre & post & Ef & _ & _) & ->)|(_ & ->)]]].
    - specialize (Hst _ H1). destruct H2 as (g & Hg & [[-> _]|(v & _ & ->)]); [|exfalso; apply Hst; apply in_or_app; right; left; reflexivity].
      change (g_name g ++ L ".default") with (dot (g_name g) (L "default")). rewrite split_dot; auto; [|cbn; intros Q; decompose [or] Q; try discriminate; auto]. cbn [fst].
      destruct (find_name _ g Hg eq_refl) as (g' & -> & Hg' & En). exists g'. split; auto. split; auto. right. exists (L "default"). rewrite En. reflexivity.
    - assert (Hin : In (g, v) (all_variations db)) by (rewrite Ef; apply in_elt). unfold all_variations in Hin. apply in_flat_map in Hin. destruct Hin as (g' & Hg & Hv).
      apply in_map_iff in Hv. destruct Hv as (v' & Q & Hv). injection Q as -> ->. destruct (plain_g g Hg) as [P1 P2].
      change (g_name g ++ L "." ++ v_name v) with (dot (g_name g) (v_name v)). rewrite split_dot by auto. cbn [fst].
      destruct (find_name _ g Hg eq_refl) as (g'' & -> & Hg' & En). exists g''. split; auto. split; auto. right. exists (v_name v). rewrite En. reflexivity.
    - assert (Hg : In g0 db) by (rewrite Hdb; left; reflexivity). destruct (plain_g g0 Hg) as [P1 _].
      assert (E : fst (split_name_variation (g_name g0)) = g_name g0).
      { destruct (split_cases (g_name g0)) as [(a & b & Q & _)|[-> _]]; [|reflexivity]. exfalso. apply P1. rewrite Q. apply in_or_app. right. left. reflexivity. }
      rewrite E. destruct (find_name _ g0 Hg eq_refl) as (g' & -> & Hg' & En). exists g'. auto.
  Qed.
End Plain.
