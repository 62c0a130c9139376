(** Facts about the Selector *)
From Coq Require Import String Lia.
From Verif Require Import Py PyFacts Time Utils Keys Handlers Reader Writer Plot SpecPlot.
Import ListNotations.
Local Open Scope list_scope.

Lemma after_snoc ops op : after_calls (ops ++ [op]) = fst (sel_step (after_calls ops) op).
Proof. unfold after_calls. rewrite fold_left_app. reflexivity. Qed.
Definition db_of (ops : list sel_op) : selector := sel_instance (after_calls ops).
Lemma step_instance o op : sel_step o op = sel_step (Some (sel_instance o)) op.
Proof. reflexivity. Qed.
Lemma answer_db ops op : answer ops op = snd (sel_step (Some (db_of ops)) op).
Proof. unfold answer. rewrite step_instance. reflexivity. Qed.
Definition step_db (db : selector) (op : sel_op) : selector := sel_instance (fst (sel_step (Some db) op)).
Lemma db_snoc ops op : db_of (ops ++ [op]) = step_db (db_of ops) op.
Proof. unfold db_of, step_db. rewrite after_snoc, step_instance. reflexivity. Qed.
Definition steps_db := fold_left step_db.
Lemma db_app ops later : db_of (ops ++ later) = steps_db later (db_of ops).
Proof.
  revert ops. induction later as [|op t IH]; intros ops; [rewrite app_nil_r; reflexivity|].
  change (op :: t) with ([op] ++ t). rewrite app_assoc, IH, db_snoc. reflexivity.
Qed.

Lemma store_ok k v d db : issub v = Ok true -> sel_store k v d db = (if d then dset default_key v (dset k v db) else dset k v db, Ok v).
Proof. unfold sel_store. intros ->. reflexivity. Qed.
Lemma issub_maker v : issub v = Ok true <-> image_maker v.
Proof. destruct v; cbn; split; intros; try congruence; auto; tauto. Qed.
Lemma store_cases k v d db : (sel_store k v d db = (if d then dset default_key v (dset k v db) else dset k v db, Ok v) /\ image_maker v)
  \/ (exists e, sel_store k v d db = (db, Raise e) /\ ~ image_maker v).
Proof.
  unfold sel_store. destruct v; cbn [issub image_maker]; auto; right; eexists; split; try reflexivity; intros [].
Qed.

(** what is found under a key other than the default key *)
Lemma get_store m k v d db : m <> default_key -> dget m (fst (sel_store k v d db)) = dget m db \/ (m = k /\ image_maker v).
Proof.
  intros N. destruct (store_cases k v d db) as [[-> I]|(e & -> & _)]; [|left; reflexivity]. cbn [fst].
  destruct (str_eq_dec m k) as [->|Nk]; [right; auto|left].
  destruct d; rewrite ?dget_dset_other; auto. 
Qed.
Lemma get_step m op db c : m <> default_key -> dget m db = Some c -> ~ replaces m op -> dget m (step_db db op) = Some c.
Proof.
  intros N H R. destruct op as [k v d|k v d|k|k|]; unfold step_db; cbn [sel_step sel_instance].
  - unfold sel_add, sel_exists. destruct (has k db) eqn:Hk; [exact H|].
    destruct (get_store m k v d db N) as [X|[-> _]]; [|unfold has in Hk; rewrite H in Hk; discriminate].
    destruct (sel_store k v d db) as [db' r]; cbn [fst sel_instance] in *. congruence.
  - unfold sel_update, sel_exists. destruct (has k db) eqn:Hk; cbn [negb]; [|exact H].
    destruct (get_store m k v d db N) as [X|[-> I]].
    + destruct (sel_store k v d db) as [db' r]; cbn [fst sel_instance] in *. congruence.
    + destruct R. exists v, d. auto.
  - unfold sel_auto. unfold sel_get at 1. destruct (dget k db) as [c'|] eqn:Hk; [exact H|].
    match goal with |- context [sel_add k ?x false db] => generalize x end. intros v. unfold sel_add, sel_exists.
    destruct (has k db) eqn:Hk'; [exact H|].
    destruct (get_store m k v false db N) as [X|[-> _]]; [|congruence].
    destruct (sel_store k v false db) as [db' r]; cbn [fst sel_instance] in *. congruence.
  - exact H.
  - exact H.
Qed.
Lemma get_steps m ops db c : m <> default_key -> dget m db = Some c -> (forall op, In op ops -> ~ replaces m op) -> dget m (steps_db ops db) = Some c.
Proof.
  intros N. revert db. induction ops as [|op t IH]; intros db H R; [exact H|].
  change (steps_db (op :: t) db) with (steps_db t (step_db db op)). apply IH; [|intros; apply R; right; auto].
  apply get_step; auto. apply R. left; reflexivity.
Qed.

Lemma auto_get m db : sel_get m db <> None -> sel_auto m db = (db, match sel_get m db with Some c => Ok c | None => Raise KeyError end).
Proof. unfold sel_auto. destruct (sel_get m db); congruence. Qed.
Lemma answer_auto_known ops m c : dget m (db_of ops) = Some c -> answer ops (OpAuto m) = OutCls (Ok c).
Proof. intros H. rewrite answer_db. cbn [sel_step sel_instance]. unfold sel_auto, sel_get. rewrite H. reflexivity. Qed.

Lemma has_none {V} k (d : dict V) : has k d = false <-> dget k d = None.
Proof. unfold has. destruct (dget k d); split; congruence. Qed.
(** what a successful call leaves *)
Lemma store_get k v d db r : snd (sel_store k v d db) = Ok r -> r = v /\ dget k (fst (sel_store k v d db)) = Some v.
Proof.
  destruct (store_cases k v d db) as [[-> I]|(e & -> & _)]; [|discriminate]. cbn [fst snd]. intros [= <-]. split; [reflexivity|].
  destruct d; [|apply dget_dset_same]. destruct (str_eq_dec k default_key) as [->|N]; [apply dget_dset_same|].
  rewrite dget_dset_other; auto. apply dget_dset_same.
Qed.
Lemma auto_cases m db c : snd (sel_auto m db) = Ok c -> dget m (fst (sel_auto m db)) = Some c.
Proof.
  unfold sel_auto, sel_get at 1. destruct (dget m db) as [c'|] eqn:H; [cbn [fst snd]; intros [= <-]; unfold sel_get; rewrite H; exact H|].
  unfold sel_get. rewrite H. match goal with |- context [sel_add m ?x false db] => generalize x end. intros v.
  unfold sel_add, sel_exists. destruct (has m db) eqn:Hk; [apply has_In in Hk; unfold sel_get in *; discriminate|].
  intros X. destruct (store_get _ _ _ _ _ X) as [-> Y]. exact Y.
Qed.
Lemma C48_auto_lemma before m c mid : answer before (OpAuto m) = OutCls (Ok c) -> m <> default_key -> (forall op, In op mid -> ~ replaces m op) ->
  answer (before ++ OpAuto m :: mid) (OpAuto m) = OutCls (Ok c).
Proof.
  intros A N R. apply answer_auto_known. change (OpAuto m :: mid) with ([OpAuto m] ++ mid). rewrite app_assoc, db_app. apply get_steps; auto.
  rewrite db_snoc. rewrite answer_db in A. unfold step_db. cbn [sel_step sel_instance] in *. pose proof (auto_cases m (db_of before)) as X.
  destruct (sel_auto m (db_of before)) as [db r]. cbn [fst snd sel_instance] in *. injection A; intros ->. apply X; reflexivity.
Qed.
Lemma C48_stored_lemma before m op c d mid : op = OpAdd m c d \/ op = OpUpdate m c d -> (exists v, answer before op = OutCls (Ok v)) -> m <> default_key ->
  (forall op, In op mid -> ~ replaces m op) -> answer (before ++ op :: mid) (OpAuto m) = OutCls (Ok c).
Proof.
  intros O [v A] N R. apply answer_auto_known. change (op :: mid) with ([op] ++ mid). rewrite app_assoc, db_app. apply get_steps; auto.
  rewrite db_snoc. rewrite answer_db in A. unfold step_db. destruct O as [-> | ->]; cbn [sel_step sel_instance] in *.
  - unfold sel_add in *. destruct (sel_exists m (db_of before)); [discriminate A|].
    pose proof (store_get m c d (db_of before)) as X. destruct (sel_store m c d (db_of before)) as [db r]. cbn [fst snd sel_instance] in *.
    injection A; intros ->. destruct (X _ eq_refl) as [_ Y]. exact Y.
  - unfold sel_update in *. destruct (sel_exists m (db_of before)); cbn [negb] in *; [|discriminate A].
    pose proof (store_get m c d (db_of before)) as X. destruct (sel_store m c d (db_of before)) as [db r]. cbn [fst snd sel_instance] in *.
    injection A; intros ->. destruct (X _ eq_refl) as [_ Y]. exact Y.
Qed.

Lemma error_step db op e : snd (sel_step (Some db) op) = OutCls (Raise e) -> step_db db op = db.
Proof.
  unfold step_db. destruct op as [k v d|k v d|k|k|]; cbn [sel_step sel_instance]; try discriminate.
  - unfold sel_add. destruct (sel_exists k db); [reflexivity|]. destruct (store_cases k v d db) as [[-> I]|(e' & -> & _)]; [discriminate|reflexivity].
  - unfold sel_update. destruct (sel_exists k db); cbn [negb]; [|reflexivity]. destruct (store_cases k v d db) as [[-> I]|(e' & -> & _)]; [discriminate|reflexivity].
  - unfold sel_auto. destruct (sel_get k db) eqn:Hk; [reflexivity|]. match goal with |- context [sel_add k ?x false db] => generalize x end. intros v.
    unfold sel_add. destruct (sel_exists k db); [reflexivity|]. destruct (store_cases k v false db) as [[-> I]|(e' & -> & _)]; [discriminate|reflexivity].
Qed.
Lemma same_db ops ops' later op : db_of ops = db_of ops' -> answer (ops ++ later) op = answer (ops' ++ later) op.
Proof. intros H. rewrite !answer_db, !db_app, H. reflexivity. Qed.
Lemma C48_error_lemma ops op e later op' : answer ops op = OutCls (Raise e) -> answer (ops ++ op :: later) op' = answer (ops ++ later) op'.
Proof.
  intros H. change (op :: later) with ([op] ++ later). rewrite app_assoc. apply same_db. rewrite db_snoc. rewrite answer_db in H.
  apply (error_step _ _ _ H).
Qed.
Lemma C48_new_lemma ops later op : answer (ops ++ OpNew :: later) op = answer (ops ++ later) op.
Proof. change (OpNew :: later) with ([OpNew] ++ later). rewrite app_assoc. apply same_db. rewrite db_snoc. reflexivity. Qed.
Lemma C48_get_lemma ops later op k : answer (ops ++ OpGet k :: later) op = answer (ops ++ later) op.
Proof. change (OpGet k :: later) with ([OpGet k] ++ later). rewrite app_assoc. apply same_db. rewrite db_snoc. reflexivity. Qed.

(** the default *)
Definition good_db (db : selector) : Prop := exists c, dget default_key db = Some c /\ image_maker c.
Lemma good_all db : good_db db -> forall op, good_db (step_db db op).
Proof.
  intros (c & H & I) op.
  assert (G : forall k v d, good_db (fst (sel_store k v d db))).
  { intros k v d. destruct (store_cases k v d db) as [[-> J]|(e' & -> & _)]; cbn [fst]; [|exists c; auto].
    destruct d; [exists v; split; [apply dget_dset_same|exact J]|].
    destruct (str_eq_dec default_key k) as [<-|N]; [exists v; split; [apply dget_dset_same|exact J]|]. exists c. rewrite dget_dset_other; auto. }
  destruct op as [k v d|k v d|k|k|]; unfold step_db; cbn [sel_step sel_instance]; try (exists c; auto; fail).
  - unfold sel_add. destruct (sel_exists k db); [exists c; auto|]. specialize (G k v d). destruct (sel_store k v d db); exact G.
  - unfold sel_update. destruct (sel_exists k db); cbn [negb]; [|exists c; auto]. specialize (G k v d). destruct (sel_store k v d db); exact G.
  - unfold sel_auto. destruct (sel_get k db); [exists c; auto|]. match goal with |- context [sel_add k ?x false db] => generalize x end. intros v.
    unfold sel_add. destruct (sel_exists k db); [exists c; auto|]. specialize (G k v false). destruct (sel_store k v false db); exact G.
Qed.
Lemma good_run ops : good_db (db_of ops).
Proof.
  induction ops as [|op ops IH] using rev_ind; [exists LineP; split; [reflexivity|exact I]|]. rewrite db_snoc. apply good_all; auto.
Qed.
Lemma answer_get ops k : answer ops (OpGet k) = OutOpt (dget k (db_of ops)).
Proof. rewrite answer_db. reflexivity. Qed.
Lemma C48_default_lemma ops : exists c, answer ops (OpGet default_key) = OutOpt (Some c) /\ image_maker c.
Proof. destruct (good_run ops) as (c & H & I). exists c. rewrite answer_get, H. auto. Qed.
Lemma C48_set_default_lemma ops op k c : op = OpAdd k c true \/ op = OpUpdate k c true -> (exists v, answer ops op = OutCls (Ok v)) ->
  answer (ops ++ [op]) (OpGet default_key) = OutOpt (Some c).
Proof.
  intros O [v A]. rewrite answer_get, db_snoc. rewrite answer_db in A. unfold step_db. f_equal.
  destruct O as [-> | ->]; cbn [sel_step sel_instance] in *.
  - unfold sel_add in *. destruct (sel_exists k (db_of ops)); [discriminate A|]. destruct (store_cases k c true (db_of ops)) as [[X J]|(e' & X & _)]; rewrite X in *; [|discriminate A].
    cbn [fst sel_instance]. apply dget_dset_same.
  - unfold sel_update in *. destruct (sel_exists k (db_of ops)); cbn [negb] in *; [|discriminate A]. destruct (store_cases k c true (db_of ops)) as [[X J]|(e' & X & _)]; rewrite X in *; [|discriminate A].
    cbn [fst sel_instance]. apply dget_dset_same.
Qed.
Lemma C48_same_default_lemma ops op : ~ sets_default op -> answer (ops ++ [op]) (OpGet default_key) = answer ops (OpGet default_key).
Proof.
  intros N. rewrite !answer_get, db_snoc. f_equal. set (db := db_of ops). assert (Hd : has default_key db = true).
  { destruct (good_run ops) as (c & H & _). unfold has, db. rewrite H. reflexivity. }
  assert (G : forall k v, k <> default_key -> dget default_key (fst (sel_store k v false db)) = dget default_key db).
  { intros k v Nk. destruct (store_cases k v false db) as [[-> J]|(e' & -> & _)]; cbn [fst]; [|reflexivity]. rewrite dget_dset_other; auto. }
  unfold step_db. destruct op as [k v d|k v d|k|k|]; cbn [sel_step sel_instance]; try reflexivity.
  - assert (d = false). { destruct d; auto. destruct N. left. exists k, v. auto. } subst d.
    unfold sel_add, sel_exists. destruct (has k db) eqn:Hk; [reflexivity|]. specialize (G k v ltac:(congruence)). destruct (sel_store k v false db); exact G.
  - assert (d = false). { destruct d; auto. destruct N. left. exists k, v. auto. } subst d.
    unfold sel_update, sel_exists. destruct (has k db) eqn:Hk; cbn [negb]; [|reflexivity].
    assert (k <> default_key). { intros ->. apply N. right. eauto. } specialize (G k v ltac:(auto)). destruct (sel_store k v false db); exact G.
  - unfold sel_auto. destruct (sel_get k db) eqn:Hk; [reflexivity|]. match goal with |- context [sel_add k ?x false db] => generalize x end. intros v.
    unfold sel_add, sel_exists. destruct (has k db) eqn:Hk'; [reflexivity|]. specialize (G k v ltac:(congruence)). destruct (sel_store k v false db); exact G.
Qed.

(** the rules *)
Lemma suffixb_spec p s : suffixb p s = true <-> exists a, s = a ++ p.
Proof.
  unfold suffixb. rewrite prefixb_spec. split; intros [a H].
  - exists (rev a). rewrite <- (rev_involutive s), H, rev_app_distr, rev_involutive. reflexivity.
  - exists (rev a). rewrite H, rev_app_distr. reflexivity.
Qed.
Lemma ends_with_lower t m : ends_with t m <-> suffixb (L t) (lower m) = true.
Proof.
  rewrite suffixb_spec. split.
  - intros (a & b & -> & H). exists (lower a). unfold lower in *. rewrite map_app, H. reflexivity.
  - intros [a H]. unfold lower in H. exists (firstn (List.length a) m), (skipn (List.length a) m). rewrite firstn_skipn. split; [reflexivity|].
    unfold lower. rewrite <- skipn_map, H, skipn_app, skipn_all, Nat.sub_diag. reflexivity.
Qed.
Lemma scan_not_mesh m : ends_with "scan" m -> ends_with "mesh" m -> False.
Proof.
  rewrite !ends_with_lower, !suffixb_spec. intros [a ->] [b H]. apply (f_equal (@rev N)) in H. rewrite !rev_app_distr in H. discriminate H.
Qed.
Lemma C48_rules_lemma ops m : answer ops (OpGet m) = OutOpt None ->
  (m = L "hklscan" -> answer ops (OpAuto m) = OutCls (Ok HklP)) /\
  (m <> L "hklscan" -> ends_with "scan" m -> answer ops (OpAuto m) = OutCls (Ok LineP)) /\
  (ends_with "mesh" m -> answer ops (OpAuto m) = OutCls (Ok MeshP)) /\
  (~ ends_with "scan" m -> ~ ends_with "mesh" m -> forall c, answer ops (OpGet default_key) = OutOpt (Some c) -> answer ops (OpAuto m) = OutCls (Ok c)).
Proof.
  rewrite answer_get. intros [= H].
  assert (G : forall v, (if seqb m (L "hklscan") then HklP
               else if suffixb (L "scan") (lower m) then LineP
               else if suffixb (L "mesh") (lower m) then MeshP
               else match sel_default (db_of ops) with Some c => c | None => NoClass 0 end) = v -> image_maker v -> answer ops (OpAuto m) = OutCls (Ok v)).
  { intros v E I. rewrite answer_db. cbn [sel_step sel_instance]. unfold sel_auto, sel_get at 1. rewrite H, E. unfold sel_add, sel_exists.
    assert (Hh : has m (db_of ops) = false) by (apply has_none; exact H). rewrite Hh. rewrite store_ok by (apply issub_maker; exact I). reflexivity. }
  split; [|split; [|split]].
  - intros ->. apply G; [reflexivity|exact I].
  - intros N S. apply G; [|exact I]. rewrite (proj2 (seqb_neq _ _) N). apply ends_with_lower in S. rewrite S. reflexivity.
  - intros S. apply G; [|exact I]. destruct (seqb m (L "hklscan")) eqn:Em.
    + apply seqb_eq in Em. subst m. apply ends_with_lower in S. vm_compute in S. discriminate S.
    + destruct (suffixb (L "scan") (lower m)) eqn:Es; [apply ends_with_lower in Es; destruct (scan_not_mesh m Es S)|]. apply ends_with_lower in S. rewrite S. reflexivity.
  - intros NS NM c. rewrite answer_get. intros [= Hc]. apply G.
    + destruct (seqb m (L "hklscan")) eqn:Em.
      * apply seqb_eq in Em. subst m. destruct NS. apply ends_with_lower. reflexivity.
      * destruct (suffixb (L "scan") (lower m)) eqn:Es; [destruct NS; apply ends_with_lower; exact Es|].
        destruct (suffixb (L "mesh") (lower m)) eqn:Em'; [destruct NM; apply ends_with_lower; exact Em'|]. unfold sel_default, sel_get. rewrite Hc. reflexivity.
    + destruct (good_run ops) as (c' & X & Y). congruence.
Qed.
Lemma C48_known_lemma ops m c v d : answer ops (OpGet m) = OutOpt (Some c) -> answer ops (OpAdd m v d) = OutCls (Raise KeyError).
Proof.
  rewrite answer_get. intros [= H]. rewrite answer_db. cbn [sel_step sel_instance]. unfold sel_add, sel_exists, has. rewrite H. reflexivity.
Qed.
Lemma C48_unknown_lemma ops m v d : answer ops (OpGet m) = OutOpt None -> answer ops (OpUpdate m v d) = OutCls (Raise KeyError).
Proof.
  rewrite answer_get. intros [= H]. rewrite answer_db. cbn [sel_step sel_instance]. unfold sel_update, sel_exists, has. rewrite H. reflexivity.
Qed.
