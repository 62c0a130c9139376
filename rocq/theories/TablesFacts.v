(** C29, C30: tables of positioners and of UNICAT metadata. *)
From Coq Require Import String Lia Sorted.
From Verif Require Import Uni Py PyFacts NumFacts Keys Handlers Reader SpecText SpecUtils SpecReader SpecNum SpecHistory SpecKeys SpecInterp SpecData SpecTables
  TextFacts UtilsFacts KeyFacts ReaderFacts2 ReaderFacts4 ReaderFacts5 DispatchFacts FrameFacts StateFacts InterpFacts MonadFacts HandlerFacts PostFacts DataFacts DataFacts2 LastFacts.
Import ListNotations.
Local Open Scope list_scope.

(* ------------------------------------------------------------------ *)
(** * Entries at the same position of two tables, in reading order *)
Section Cells.
  Context {A B : Type}.
  Fixpoint cell_row (trow : list B) (r c : nat) (drow : list A) : list ((nat * nat) * (A * B)) :=
    match drow with
    | [] => []
    | d :: drow' => match nth_error trow c with Some t => [((r, c), (d, t))] | None => [] end ++ cell_row trow r (S c) drow'
    end.
  Fixpoint cells (T : list (list B)) (r : nat) (D : list (list A)) : list ((nat * nat) * (A * B)) :=
    match D with
    | [] => []
    | drow :: D' => match nth_error T r with Some trow => cell_row trow r 0 drow | None => [] end ++ cells T (S r) D'
    end.
  Lemma cell_row_in trow r c drow p d t : In (p, (d, t)) (cell_row trow r c drow) <->
    exists i, p = (r, c + i) /\ nth_error drow i = Some d /\ nth_error trow (c + i) = Some t.
  Proof.
    revert c; induction drow as [|x drow IH]; intros c; cbn [cell_row].
    - split; [intros []|]. intros ([|i] & _ & Q & _); discriminate.
    - rewrite in_app_iff, IH. split.
      + intros [H|(i & -> & H1 & H2)].
        * destruct (nth_error trow c) as [y|] eqn:En; [|destruct H]. destruct H as [H|[]]. injection H as <- <- <-.
          exists 0. rewrite Nat.add_0_r. auto.
        * exists (S i). rewrite Nat.add_succ_r. auto.
      + intros ([|i] & -> & H1 & H2).
        * left. rewrite Nat.add_0_r in *. rewrite H2. cbn in H1. injection H1 as <-. left; auto.
        * right. exists i. rewrite Nat.add_succ_r in *. auto.
  Qed.
  Lemma cells_in T r D p d t : In (p, (d, t)) (cells T r D) <->
    exists i c, p = (r + i, c) /\ at_cell D i c d /\ at_cell T (r + i) c t.
  Proof.
    revert r; induction D as [|drow D IH]; intros r; cbn [cells].
    - split; [intros []|]. intros (i & c & _ & (row & Q & _) & _). destruct i; discriminate.
    - rewrite in_app_iff, IH. split.
      + intros [H|(i & c & -> & (row & H1 & H1') & H2)].
        * destruct (nth_error T r) as [trow|] eqn:En; [|destruct H]. apply cell_row_in in H. destruct H as (i & -> & H1 & H2).
          exists 0, i. rewrite Nat.add_0_r. split; auto. split; [exists drow; auto|exists trow; auto].
        * exists (S i), c. rewrite Nat.add_succ_r. split; auto. split; auto. exists row; auto.
      + intros ([|i] & c & -> & (row & H1 & H1') & H2).
        * left. rewrite Nat.add_0_r in *. destruct H2 as (trow & H2 & H3). rewrite H2. cbn in H1. injection H1 as <-. apply cell_row_in. exists c. auto.
        * right. exists i, c. rewrite Nat.add_succ_r in *. split; auto. split; auto. exists row; auto.
  Qed.
  Definition before (x y : (nat * nat) * (A * B)) : Prop := later (fst x) (fst y).
  Lemma sorted_app {X} (R : X -> X -> Prop) l k : StronglySorted R l -> StronglySorted R k -> (forall x y, In x l -> In y k -> R x y) -> StronglySorted R (l ++ k).
  Proof.
    intros Hl Hk Hx. induction Hl as [|x l Hl IH Hf]; [exact Hk|]. cbn. constructor; [apply IH; intros; apply Hx; simpl; auto|].
    apply Forall_app. split; auto. apply Forall_forall. intros y Hy. apply Hx; simpl; auto.
  Qed.
  Lemma cell_row_sorted trow r c drow : StronglySorted before (cell_row trow r c drow).
  Proof.
    revert c; induction drow as [|x drow IH]; intros c; cbn [cell_row]; [constructor|]. apply sorted_app; [|apply IH|].
    - destruct (nth_error trow c); repeat constructor.
    - intros y [p [d t]] Hy Hp. apply cell_row_in in Hp. destruct Hp as (i & -> & _).
      destruct (nth_error trow c) as [y0|]; [|destruct Hy]. destruct Hy as [<-|[]]. right; cbn; lia.
  Qed.
  Lemma cells_sorted T r D : StronglySorted before (cells T r D).
  Proof.
    revert r; induction D as [|drow D IH]; intros r; cbn [cells]; [constructor|]. apply sorted_app; [|apply IH|].
    - destruct (nth_error T r); [apply cell_row_sorted|constructor].
    - intros [q [d' t']] [p [d t]] Hy Hp. apply cells_in in Hp. destruct Hp as (i & c & -> & _).
      destruct (nth_error T r) as [trow|]; [|destruct Hy]. apply cell_row_in in Hy. destruct Hy as (j & -> & _). left; cbn; lia.
  Qed.
  (** the last entry with some key *)
  Lemma fold_last {V} (kf : (nat * nat) * (A * B) -> str) (vf : (nat * nat) * (A * B) -> V) l d k :
    dget k (fold_left (fun d x => dset (kf x) (vf x) d) l d) =
      match List.find (fun x => seqb (kf x) k) (rev l) with Some x => Some (vf x) | None => dget k d end.
  Proof.
    revert d; induction l as [|x l IH]; intros d; [reflexivity|]. cbn [fold_left rev]. rewrite IH, find_app.
    destruct (List.find _ (rev l)); [reflexivity|]. cbn. destruct (seqb (kf x) k) eqn:E1.
    - apply seqb_eq in E1. subst k. apply dget_dset_same.
    - apply dget_dset_other. intros Q1. rewrite Q1, seqb_refl in E1. discriminate.
  Qed.
  Lemma sorted_last l pre x post : StronglySorted before l -> l = pre ++ x :: post -> forall y, In y l -> y = x \/ before y x \/ In y post.
  Proof.
    intros Hs -> y Hy. apply in_app_or in Hy. destruct Hy as [Hy|[<-|Hy]]; auto. right; left.
    induction pre as [|z pre IH]; [destruct Hy|]. cbn in Hs. inversion Hs as [|? ? H1 H2]; subst.
    destruct Hy as [<-|Hy]; [|apply IH; auto]. rewrite Forall_forall in H2. apply H2. apply in_elt.
  Qed.
  Lemma before_irrefl x y : before x y -> fst x = fst y -> False.
  Proof. unfold before, later. intros H E. rewrite E in H. lia. Qed.
  Lemma later_trans p q r : later p q -> later q r -> later p r.
  Proof. unfold later. lia. Qed.
  Lemma last_cell {V} (kf : A * B -> str) (vf : A * B -> V) T D k v :
    dget k (fold_left (fun d x => dset (kf (snd x)) (vf (snd x)) d) (cells T 0 D) []) = Some v <->
    exists r c d t, at_cell D r c d /\ at_cell T r c t /\ kf (d, t) = k /\ vf (d, t) = v /\
      forall r' c' d' t', at_cell D r' c' d' -> at_cell T r' c' t' -> kf (d', t') = k -> (r', c') = (r, c) \/ later (r', c') (r, c).
  Proof.
    rewrite (fold_last (fun x => kf (snd x)) (fun x => vf (snd x))). pose proof (cells_sorted T 0 D) as Hs. split.
    - destruct (List.find _ _) as [[p [d t]]|] eqn:Ef; [|discriminate]. intros Q. injection Q as Q. apply find_rev in Ef.
      destruct Ef as (pre & post & El & Hp & Hf). apply seqb_eq in Hp.
      assert (Hin : In (p, (d, t)) (cells T 0 D)) by (rewrite El; apply in_elt). apply cells_in in Hin. destruct Hin as (r & c & -> & H1 & H2). cbn [Nat.add] in *.
      exists r, c, d, t. repeat split; auto. intros r' c' d' t' H1' H2' Hk'.
      assert (Hin' : In ((r', c'), (d', t')) (cells T 0 D)) by (apply cells_in; exists r', c'; auto).
      destruct (sorted_last _ _ _ _ Hs El _ Hin') as [Q'|[Q'|Q']]; [injection Q'; intros; subst; auto|right; exact Q'|].
      exfalso. rewrite Forall_forall in Hf. specialize (Hf _ Q'). cbn [snd] in Hf, Hk'. rewrite Hk', seqb_refl in Hf. discriminate.
    - intros (r & c & d & t & H1 & H2 & Hk & Hv & Hm).
      assert (Hin : In ((r, c), (d, t)) (cells T 0 D)) by (apply cells_in; exists r, c; auto).
      destruct (List.find _ _) as [[p [d' t']]|] eqn:Ef.
      + apply find_rev in Ef. destruct Ef as (pre & post & El & Hp & Hf). apply seqb_eq in Hp. cbn [snd] in Hp.
        destruct (sorted_last _ _ _ _ Hs El _ Hin) as [Q'|[Q'|Q']].
        * injection Q' as <- <- <-. cbn [snd]. congruence.
        * exfalso. assert (Hin' : In (p, (d', t')) (cells T 0 D)) by (rewrite El; apply in_elt). apply cells_in in Hin'. destruct Hin' as (r' & c' & -> & G1 & G2).
          cbn [Nat.add] in *. destruct (Hm _ _ _ _ G1 G2 Hp) as [Q|Q]; [apply (before_irrefl _ _ Q'); cbn; congruence|].
          unfold before in Q'. cbn [fst] in Q'. unfold later in *. cbn in *. lia.
        * exfalso. rewrite Forall_forall in Hf. specialize (Hf _ Q'). cbn [snd] in Hf. rewrite Hk, seqb_refl in Hf. discriminate.
      + exfalso. pose proof (find_none _ _ Ef ((r, c), (d, t))) as Q. cbn [snd] in Q. rewrite Hk, seqb_refl in Q. discriminate Q.
        rewrite <- in_rev. exact Hin.
  Qed.
  Lemma fold_nodup {V} (kf : (nat * nat) * (A * B) -> str) (vf : (nat * nat) * (A * B) -> V) l d : NoDup (keys d) -> NoDup (keys (fold_left (fun d x => dset (kf x) (vf x) d) l d)).
  Proof. revert d; induction l as [|x l IH]; intros d Hd; [exact Hd|]. cbn [fold_left]. apply IH. apply NoDup_dset; auto. Qed.
  (** the order of different keys *)
  Lemma fold_keys {V} (kf : (nat * nat) * (A * B) -> str) (vf : (nat * nat) * (A * B) -> V) l d : NoDup (keys d ++ map kf l) ->
    keys (fold_left (fun d x => dset (kf x) (vf x) d) l d) = keys d ++ map kf l.
  Proof.
    revert d; induction l as [|x l IH]; intros d Hd; cbn [fold_left map]; [rewrite app_nil_r; reflexivity|].
    assert (Q : keys (dset (kf x) (vf x) d) = keys d ++ [kf x]).
    { cbn [map] in Hd. apply NoDup_remove_2 in Hd. assert (N : ~ In (kf x) (keys d)) by (intros Q; apply Hd; apply in_app_iff; auto). clear -N.
      induction d as [|[k v] d IH]; [reflexivity|]. cbn [dset]. destruct (seqb (kf x) k) eqn:E.
      - apply seqb_eq in E. exfalso. apply N. left. symmetry. exact E.
      - cbn [keys map fst app]. f_equal. apply IH. intros Q. apply N. right. exact Q. }
    rewrite IH; rewrite Q, <- app_assoc; [reflexivity|exact Hd].
  Qed.
  Lemma row_fst trow r : forall drow c, (forall i d, nth_error drow i = Some d -> exists t, nth_error trow (c + i) = Some t) -> map (fun y => fst (snd y)) (cell_row trow r c drow) = drow.
  Proof.
    induction drow as [|d drow IH]; intros c H; cbn [cell_row]; [reflexivity|]. destruct (H 0 d eq_refl) as (t & Ht). rewrite Nat.add_0_r in Ht. rewrite Ht. cbn [app map fst snd].
    f_equal. apply IH. intros i x Hx. destruct (H (S i) x Hx) as (t' & Q). exists t'. rewrite <- Q. f_equal. cbn [Nat.add]. symmetry. apply Nat.add_succ_r.
  Qed.
  Lemma cells_fst T : forall D r, (forall i c d, at_cell D i c d -> exists t, at_cell T (r + i) c t) -> map (fun y => fst (snd y)) (cells T r D) = List.concat D.
  Proof.
    induction D as [|drow D IH]; intros r H; cbn [cells List.concat]; [reflexivity|]. rewrite map_app. f_equal.
    - destruct drow as [|d drow].
      + destruct (nth_error T r); reflexivity.
      + destruct (H 0 0 d) as (t & trow & Q1 & Q2); [exists (d :: drow); auto|]. rewrite Nat.add_0_r in Q1. rewrite Q1. apply row_fst. intros i x Hx.
        destruct (H 0 i x) as (t' & trow' & R1 & R2); [exists (d :: drow); auto|]. rewrite Nat.add_0_r, Q1 in R1. injection R1 as <-. exists t'. exact R2.
    - apply IH. intros i c d (row & Q1 & Q2). rewrite Nat.add_succ_comm. apply (H (S i) c d). exists row. auto.
  Qed.
  Lemma row_snd trow r : forall drow c pre, List.length pre = c -> forall post, trow = pre ++ post -> List.length drow = List.length post -> map (fun y => snd (snd y)) (cell_row trow r c drow) = post.
  Proof.
    induction drow as [|d drow IH]; intros c pre Hc [|t post] Ht Hl; try discriminate Hl; cbn [cell_row]; [reflexivity|].
    rewrite Ht, nth_error_app2, Hc, Nat.sub_diag by (rewrite Hc; auto). cbn [nth_error app map snd]. f_equal. rewrite <- Ht. apply (IH (S c) (pre ++ [t])).
    - rewrite app_length, Hc. cbn. apply Nat.add_comm. - rewrite <- app_assoc. exact Ht. - injection Hl; auto.
  Qed.
  Lemma cells_snd T : forall D r pre, List.length pre = r -> forall post, T = pre ++ post -> map (@List.length A) D = map (@List.length B) post -> map (fun y => snd (snd y)) (cells T r D) = List.concat post.
  Proof.
    induction D as [|drow D IH]; intros r pre Hr [|trow post] HT Hl; try discriminate Hl; cbn [cells]; [reflexivity|].
    rewrite HT, nth_error_app2, Hr, Nat.sub_diag by (rewrite Hr; auto). cbn [nth_error List.concat]. rewrite map_app. injection Hl as L1 L2. f_equal.
    - apply (row_snd trow r drow 0 []); auto.
    - rewrite <- HT. apply (IH (S r) (pre ++ [trow])); [rewrite app_length, Hr; cbn; apply Nat.add_comm|rewrite <- app_assoc; exact HT|exact L2].
  Qed.
End Cells.

(* ------------------------------------------------------------------ *)
(** * C29: positioners *)
Definition num_of (w : str) : fl := match py_float w with Ok f => f | Raise _ => FDec 0 0 end.
(** the messages for one row and for all *)
Fixpoint col_messages (labels : list str) (r c : nat) (row : list str) : list str :=
  match row with [] => [] | _ :: row' => (match nth_error labels c with None => [msg_col r c] | Some _ => [] end) ++ col_messages labels r (S c) row' end.
Definition row_message (O : list (list str)) (r : nat) (row : list str) : list str :=
  match nth_error O r with None => [msg_row r] | Some labels => col_messages labels r 0 row end.
Fixpoint all_messages (O : list (list str)) (r : nat) (P : list (list str)) : list (list str) :=
  match P with [] => [] | row :: P' => row_message O r row :: all_messages O (S r) P' end.

Lemma add_icomment_ok m w w' : add_icomment m w = (w', Ok tt) -> is_scan w' = is_scan w /\ peer w' = peer w /\
  (exists ic, me w A_icomments = Some ic /\ me w' A_icomments = Some (ic ++ [m])) /\ forall a, a <> A_icomments -> me w' a = me w a.
Proof.
  unfold add_icomment. intros H. apply mbind_ok in H. destruct H as (w1 & ic & H1 & H2). apply getA_ok in H1. destruct H1 as [-> H1].
  apply setA_ok in H2. subst w'. cbn [is_scan peer me]. split; auto. split; auto. split; [exists ic; split; auto; apply upd_same|].
  intros a Ha. apply upd_other; auto.
Qed.
(** state of the two attributes *)
Definition motor_st (w : world) (pos : dict fl) (ic : list str) : Prop := me w A_positioner = Some pos /\ me w A_icomments = Some ic.
Lemma motor_cells r labels : forall row c w w' pos ic, iterM (motor_cell r labels) (combine (seq c (List.length row)) row) w = (w', Ok tt) -> motor_st w pos ic ->
  is_scan w' = is_scan w /\ peer w' = peer w /\
  motor_st w' (fold_left (fun d x => dset (snd (snd x)) (num_of (fst (snd x))) d) (cell_row labels r c row) pos) (ic ++ col_messages labels r c row) /\
  Forall (fun x => py_float (fst (snd x)) = Ok (num_of (fst (snd x)))) (cell_row labels r c row).
Proof.
  induction row as [|x row IH]; intros c w w' pos ic H [H1 H2].
  - inversion H; subst. cbn. rewrite app_nil_r. repeat split; auto.
  - cbn [List.length seq combine] in H. apply iter_bind in H. destruct H as (w1 & Ha & Hb). cbn [cell_row col_messages].
    unfold motor_cell in Ha. cbn [fst snd] in Ha. destruct (nth_error labels c) as [mne|] eqn:En.
    + apply mbind_ok in Ha. destruct Ha as (w2 & f & A1 & A2). apply lift_ok in A1. destruct A1 as [-> A1].
      apply mbind_ok in A2. destruct A2 as (w2 & p & A2 & A3). apply getA_ok in A2. destruct A2 as [-> A2]. apply setA_ok in A3.
      rewrite H1 in A2. apply Some_inj in A2. subst p.
      assert (Ef : num_of x = f) by (unfold num_of; rewrite A1; reflexivity).
      assert (S1 : motor_st w1 (dset mne f pos) ic) by (subst w1; split; cbn [me]; [apply upd_same|rewrite upd_other; [auto|discriminate]]).
      destruct (IH _ _ _ _ _ Hb S1) as (I1 & I2 & I3 & I4).
      split; [rewrite I1; subst w1; reflexivity|]. split; [rewrite I2; subst w1; reflexivity|].
      cbn [app fold_left snd fst]. rewrite Ef. split; [exact I3|]. constructor; auto. cbn [fst snd]. rewrite Ef. auto.
    + apply add_icomment_ok in Ha. destruct Ha as (B1 & B2 & (ic0 & B3 & B4) & B5). rewrite H2 in B3. apply Some_inj in B3. subst ic0.
      assert (S1 : motor_st w1 pos (ic ++ [msg_col r c])) by (split; [rewrite B5; [auto|discriminate]|auto]).
      destruct (IH _ _ _ _ _ Hb S1) as (I1 & I2 & I3 & I4). cbn [app].
      split; [congruence|]. split; [congruence|]. split; [|exact I4]. rewrite <- app_assoc in I3. exact I3.
Qed.
Lemma motor_rows O : forall P r w w' pos ic hd, iterM motor_row (combine (seq r (List.length P)) P) w = (w', Ok tt) -> motor_st w pos ic ->
  peer w = Some hd -> hd A_O = Some O ->
  motor_st w' (fold_left (fun d x => dset (snd (snd x)) (num_of (fst (snd x))) d) (cells O r P) pos) (ic ++ List.concat (all_messages O r P)) /\
  Forall (fun x => py_float (fst (snd x)) = Ok (num_of (fst (snd x)))) (cells O r P).
Proof.
  induction P as [|row P IH]; intros r w w' pos ic hd H [H1 H2] Hp HO.
  - inversion H; subst. cbn. rewrite app_nil_r. repeat split; auto.
  - cbn [List.length seq combine] in H. apply iter_bind in H. destruct H as (w1 & Ha & Hb). cbn [cells all_messages List.concat].
    unfold motor_row in Ha. cbn [fst snd] in Ha. apply mbind_ok in Ha. destruct Ha as (w2 & o & A1 & A2). apply getP_ok in A1.
    destruct A1 as (-> & A1 & p & A3 & A4). rewrite Hp in A3. injection A3 as <-. rewrite HO in A4. apply Some_inj in A4. subst o.
    unfold row_message. destruct (nth_error O r) as [labels|] eqn:En.
    + destruct (motor_cells _ _ _ _ _ _ _ _ A2 (conj H1 H2)) as (B1 & B2 & B3 & B4).
      destruct (IH _ _ _ _ _ hd Hb B3 ltac:(congruence) HO) as (I3 & I4). rewrite fold_left_app, app_assoc. split; [exact I3|]. apply Forall_app; auto.
    + apply add_icomment_ok in A2. destruct A2 as (B1 & B2 & (ic0 & B3 & B4) & B5). rewrite H2 in B3. apply Some_inj in B3. subst ic0.
      assert (S1 : motor_st w1 pos (ic ++ [msg_row r])) by (split; [rewrite B5; [auto|discriminate]|auto]).
      destruct (IH _ _ _ _ _ hd Hb S1 ltac:(congruence) HO) as (I3 & I4). rewrite app_assoc. split; [exact I3|exact I4].
Qed.

Lemma col_messages_spec labels r : forall row c, 
  List.length (col_messages labels r c row) = (c + List.length row - List.length labels) - (c - List.length labels) /\
  forall i m, nth_error (col_messages labels r c row) i = Some m -> m = msg_col r (Nat.max c (List.length labels) + i).
Proof.
  induction row as [|x row IH]; intros c; cbn [col_messages List.length].
  - split; [lia|]. intros [|i] m Q; discriminate.
  - destruct (IH (S c)) as [I1 I2]. destruct (nth_error labels c) as [y|] eqn:En.
    + assert (Hc : c < List.length labels) by (apply nth_error_Some; congruence). cbn [app]. split; [rewrite I1; lia|].
      intros i m Q. rewrite (I2 i m Q). f_equal. lia.
    + apply nth_error_None in En. cbn [app List.length]. split; [rewrite I1; lia|]. intros [|i] m Q.
      * cbn [nth_error] in Q. apply Some_inj in Q. subst m. replace (Nat.max c (List.length labels) + 0) with c by lia. reflexivity.
      * cbn [nth_error] in Q. rewrite (I2 i m Q). f_equal. lia.
Qed.
Lemma msg_row_spec r : no_row_message r (msg_row r).
Proof. exists (str_of_nat r). split; [apply numeral_str|reflexivity]. Qed.
Lemma msg_col_spec r c : no_label_message r c (msg_col r c).
Proof. exists (str_of_nat r), (str_of_nat (c + 1)). split; [apply numeral_str|]. split; [apply numeral_str|reflexivity]. Qed.
Lemma all_messages_nth O : forall P r i m, nth_error (all_messages O r P) i = Some m -> exists row, nth_error P i = Some row /\ m = row_message O (r + i) row.
Proof.
  induction P as [|row P IH]; intros r [|i] m Q; try discriminate Q.
  - cbn in Q. injection Q as <-. rewrite Nat.add_0_r. eexists. split; [reflexivity|reflexivity].
  - cbn in Q. destruct (IH _ _ _ Q) as (row' & H1 & H2). exists row'. rewrite Nat.add_succ_r. auto.
Qed.
Lemma all_messages_length O P r : List.length (all_messages O r P) = List.length P.
Proof. revert r; induction P; intros r; cbn; auto. Qed.
Lemma messages_spec O P : messages O P (List.concat (all_messages O 0 P)).
Proof.
  exists (all_messages O 0 P). split; auto. split; [apply all_messages_length|]. intros r row m Hr Hm.
  apply all_messages_nth in Hm. destruct Hm as (row' & H1 & ->). rewrite Hr in H1. injection H1 as <-. cbn [Nat.add]. unfold row_message, row_messages.
  destruct (nth_error O r) as [labels|]; [right|left; split; auto; eexists; split; [reflexivity|apply msg_row_spec]].
  exists labels. split; auto. destruct (col_messages_spec labels r row 0) as [H1 H2]. split; [rewrite H1; lia|].
  intros i m Q. rewrite (H2 _ _ Q). apply msg_col_spec.
Qed.

Section Tables.
  Context (E : env) (known : list hid) (Hk : incl all_hids known).

  Lemma is_scan_lines s sc s' sc' w0 w1 w : ran E known s sc s' sc' w0 w1 w -> is_scan w1 = true.
  Proof.
    intros R. destruct (ran_w0 _ _ _ _ _ _ _ _ _ R) as (Hw & _).
    pose proof (collect E known Hk (fun _ => tt) (fun _ _ x => x)) as Cc. destruct (Cc ltac:(auto) _ _ _ Hw (ran_lines _ _ _ _ _ _ _ _ _ R)); auto.
  Qed.
  (** the header of the scan after the interpretation *)
  Lemma ran_peer s sc s' sc' w0 w1 w : ran E known s sc s' sc' w0 w1 w -> exists o, header_is s' sc' o /\ peer w = Some o.
  Proof.
    intros R. destruct (ran_hdr _ _ _ _ _ _ _ _ _ R) as (hd & H1 & H2). destruct (ran_raw _ _ _ _ _ _ _ _ _ R) as [_ Hh].
    exists (h_obj hd). split; auto. exists hd. rewrite Hh. auto.
  Qed.
  Lemma peer_back (p p' : option obj) o : peer_step [] p p' -> p' = Some o -> exists o0, p = Some o0 /\ forall a, o0 a = o a.
  Proof. intros H ->. destruct p as [o0|]; [|destruct H]. exists o0. split; auto. destruct H as [H _]. intros a. symmetry. apply H. intros []. Qed.

  Lemma history_read s name sc s' sc' : first_interpret E known s name sc s' sc' -> history E known s'.
  Proof. intros (Hh & _ & _ & Hi & _). replace s' with (fst (interpret E known name s)) by (rewrite Hi; reflexivity). apply Hist_interpret; auto. Qed.
  Lemma header_line_frame line : frame all_sets H3 (header_line E known line).
  Proof.
    unfold header_line. destruct line as [|c l]; [apply frame_ret|]. apply frame_bind; [apply frame_lift|]. intros [h|].
    - assert (G : frame all_sets H3 (process E h (c :: l))).
      { eapply frame_mono; [apply sets_all| |apply frame_process]. destruct h; simpl; intros x Hx; simpl in *; tauto. }
      destruct h; exact G.
    - eapply (frame_mono (sets H_unrec) (peer_sets H_unrec)); [apply sets_all|intros x []|apply frame_process].
  Qed.
  Lemma frame_header raw : frame all_sets H3 (interpret_header E known raw).
  Proof. unfold interpret_header. apply frame_bind; [|intros; apply frame_run_posts]. apply frame_iterM. intros l. apply header_line_frame. Qed.
  (** a header always has O and H *)
  Lemma header_has s sc o a : history E known s -> header_is s sc o -> header_init a <> None -> o a <> None.
  Proof.
    intros Hh (h & Hn & ->) Ha. apply history_st in Hh. destruct Hh as (_ & _ & K). rewrite Forall_forall in K. specialize (K h (nth_error_In _ _ Hn)).
    destruct K as [[_ [_ K]]|(ep & pe & w & r & K1 & [_ K2])]; [auto|]. apply K2. pose proof (frame_header (h_raw h) (mk_w false (upd A_epoch ep header_init) pe)) as (_ & [_ F] & _).
    rewrite K1 in F. apply F. cbn [me]. apply upd_some; auto.
  Qed.

  Lemma C29_lemma s name sc s' sc' ls : first_interpret E known s name sc s' sc' -> lines_of (s_raw sc) ls ->
    exists o O P pos ic, header_is s' sc' o /\ o A_O = Some O /\ word_rows H_P ls P /\ attr_is sc' A_P P /\
      attr_is sc' A_positioner pos /\ NoDup (keys pos) /\
      (NoDup (List.concat O) -> map (@List.length str) P = map (@List.length str) O -> keys pos = List.concat O) /\
      (forall k v, dget k pos = Some v <-> exists w, last_pair O P k w /\ number w v) /\
      (forall r c k w, at_cell O r c k -> at_cell P r c w -> exists v, number w v) /\
      attr_is sc' A_icomments ic /\ messages O P ic.
  Proof.
    intros Hf Hl. destruct (first_interpret_ran _ _ _ _ _ _ _ Hf) as (w0 & w1 & w & R). destruct (ran_peer _ _ _ _ _ _ _ R) as (o & Ho & Hp).
    assert (HO : o A_O <> None) by (apply (header_has s' sc'); [eapply history_read; eauto|auto|discriminate]).
    destruct (o A_O) as [O|] eqn:EO; [|congruence].
    destruct (C23_P_lemma E known Hk _ _ _ _ _ _ Hf Hl) as (cs & P & HP1 & HP2 & HP3).
    assert (Hrows : word_rows H_P ls P) by (exists cs; split; auto).
    apply lines_of_scan_lines in Hl. subst ls.
    assert (EP : me w1 A_P = Some P).
    { rewrite <- HP3, (ran_obj _ _ _ _ _ _ _ _ _ R). symmetry. apply (posts_keep E A_P w1 w (Ok tt)); [|apply (ran_posts _ _ _ _ _ _ _ _ _ R)].
      intros p; destruct p; cbn; intros Q; decompose [or] Q; try discriminate; auto. }
    exists o, O, P.
    destruct cs as [|c0 cs0] eqn:Ecs.
    - (* no #P lines *)
      inversion HP2; subst P. assert (Hno : forall a, In a [A_positioner; A_icomments] -> s_obj sc' a = scan_init (fileName s) a).
      { intros a Ha. rewrite (ran_obj _ _ _ _ _ _ _ _ _ R).
        rewrite (ran_no_post E known Hk a _ _ _ _ _ _ _ R).
        - destruct (ran_w0 _ _ _ _ _ _ _ _ _ R) as (Hw & Hm & _).
          assert (Hd : forall h, ~ In a (sets h)) by (intros h; destruct h; cbn; intros Q; decompose [or] Q; subst; cbn in Ha; decompose [or] Ha; try discriminate; auto).
          destruct (collect E known Hk (fun w => me w a) (fun _ _ x => x)) with (lines := scan_lines (s_raw sc)) (w := w0) (w' := w1) as [_ Hv]; auto.
          { intros h line u u' _ Hpr. pose proof (frame_process E h line u) as (_ & [F _] & _). rewrite Hpr in F. cbn [fst] in F. apply F. auto. }
          { apply (ran_lines _ _ _ _ _ _ _ _ _ R). }
          cbv beta in Hv. rewrite Hv. assert (Ef : forall ls (x : option (ty a)), folded known (fun _ _ x => x) ls x = x).
          { unfold folded. induction ls as [|l ls IH]; intros x; cbn [fold_left]; auto. destruct (eff known l); apply IH. }
          rewrite Ef, Hm. destruct (ran_fresh _ _ _ _ _ _ _ _ _ R) as [U _]. apply U. cbn in *. intros Q. decompose [or] Ha; subst; decompose [or] Q; try discriminate; auto.
        - intros l h p Hin He Hpo Q. destruct p; cbn in Q; decompose [or] Q; subst; cbn in Ha; decompose [or] Ha; try discriminate; auto;
            destruct h; try discriminate Hpo.
          + apply (eff_control known Hk) in He; try discriminate; [|pose proof (scan_lines_no_lf (s_raw sc)) as N; rewrite Forall_forall in N; auto].
            eapply (Keeps_In _ _ _ _ HP1) in Hin; eauto.
          + apply (eff_control known Hk) in He; try discriminate; [|pose proof (scan_lines_no_lf (s_raw sc)) as N; rewrite Forall_forall in N; auto].
            eapply (Keeps_In _ _ _ _ HP1) in Hin; eauto. }
      exists [], []. split; auto. split; auto. split; auto. split; auto. split; [unfold attr_is; rewrite Hno by (simpl; auto); reflexivity|].
      split; [constructor|]. split; [intros _ Q; destruct O; [reflexivity|discriminate Q]|]. split.
      + intros k v. split; [discriminate|]. intros (x & (r & c & _ & (row & Q & _) & _) & _). destruct r; discriminate.
      + split; [intros r c k x _ (row & Q & _); destruct r; discriminate|]. split; [unfold attr_is; rewrite Hno by (simpl; auto); reflexivity|].
        exists []. repeat split; auto. intros [|r] row m Q; discriminate.
    - destruct (ran_post E known Hk [A_positioner; A_icomments; A_P] _ _ _ _ _ _ _ H_P PP_motor R) as (wa & wb & B1 & B2 & B3 & B4 & B5 & B6).
      + intros q Hq a Ha Q. destruct q; cbn in Q; decompose [or] Q; subst; cbn in Ha; decompose [or] Ha; try discriminate; auto.
      + reflexivity.
      + discriminate.
      + exists c0. destruct (Keeps_incl _ _ _ HP1) as [Hi Hc]. rewrite Forall_forall in Hc. split; [apply Hi; left; auto|].
        apply (eff_control known Hk); try discriminate; [|apply Hc; left; auto].
        pose proof (scan_lines_no_lf (s_raw sc)) as N. rewrite Forall_forall in N. apply N, Hi; left; auto.
      + cbn [run_post] in B1. unfold post_motor in B1.
        apply mbind_ok in B1. destruct B1 as (wc & [] & C1 & C2). apply setA_ok in C1.
        apply mbind_ok in C2. destruct C2 as (wd & P' & C2 & C3). apply getA_ok in C2. destruct C2 as [-> C2].
        apply mbind_ok in C3. destruct C3 as (we & [] & C3 & C4). apply mbind_ok in C4. destruct C4 as (wf & pos & C4 & C5). apply getA_ok in C4. destruct C4 as [-> C4].
        assert (EP' : P' = P). { apply Some_inj. transitivity (me wc A_P); [symmetry; exact C2|]. transitivity (me w1 A_P); [|exact EP]. rewrite <- B3 by (simpl; auto). subst wc. cbn [me]. apply upd_other. discriminate. }
        subst P'.
        assert (Eic : me wa A_icomments = Some []).
        { rewrite B3 by (simpl; auto). assert (Hd : forall h, ~ In A_icomments (sets h)) by (intros h; destruct h; cbn; intros Q; decompose [or] Q; try discriminate; auto).
          destruct (ran_w0 _ _ _ _ _ _ _ _ _ R) as (Hw & Hm & _).
          destruct (collect E known Hk (fun w => me w A_icomments) (fun _ _ x => x)) with (lines := scan_lines (s_raw sc)) (w := w0) (w' := w1) as [_ Hv]; auto.
          { intros h line u u' _ Hpr. pose proof (frame_process E h line u) as (_ & [F _] & _). rewrite Hpr in F. cbn [fst] in F. apply F. auto. }
          { apply (ran_lines _ _ _ _ _ _ _ _ _ R). }
          cbv beta in Hv. rewrite Hv. assert (Ef : forall ls (x : option (ty A_icomments)), folded known (fun _ _ x => x) ls x = x).
          { unfold folded. induction ls as [|l ls IH]; intros x0; cbn [fold_left]; auto. destruct (eff known l); apply IH. }
          rewrite Ef, Hm. destruct (ran_fresh _ _ _ _ _ _ _ _ _ R) as [U _]. rewrite U; [reflexivity|]. cbn. intros Q; decompose [or] Q; try discriminate; auto. }
        assert (Est : motor_st wc [] []). { subst wc. split; cbn [me]; [apply upd_same|rewrite upd_other by discriminate; exact Eic]. }
        assert (Hpe : exists hd, peer wc = Some hd /\ hd A_O = Some O).
        { assert (Hpb : peer_step [] (peer wa) (peer w)).
          { pose proof (frame_post E PP_motor wa) as (_ & _ & F). cbn [run_post] in F. unfold post_motor in F.
            replace (fst ((setA A_positioner [];; let! p := getA A_P in (iterM motor_row (combine (seq 0 (List.length p)) p);; let! pos := getA A_positioner in match pos with [] => ret tt | _ :: _ => addH5 (key_of H_P) H_P end)) wa)) with wb in F.
            - eapply peer_step_trans; eauto.
            - unfold mbind at 1. replace (setA A_positioner [] wa) with (wc, Ok tt) by (rewrite C1; reflexivity).
              unfold mbind at 1. replace (getA A_P wc) with (wc, Ok P) by (unfold getA; rewrite C2; reflexivity).
              unfold mbind at 1. rewrite C3. unfold mbind at 1. replace (getA A_positioner we) with (we, Ok pos) by (unfold getA; rewrite C4; reflexivity). rewrite C5. reflexivity. }
          destruct (peer_back _ _ _ Hpb Hp) as (o0 & P1 & P2). exists o0. split; [subst wc; exact P1|]. rewrite P2. exact EO. }
        destruct Hpe as (hd & Hpe1 & Hpe2).
        destruct (motor_rows O P 0 wc we [] [] hd C3 Est Hpe1 Hpe2) as [[M1 M2] M3]. cbn [app] in M2. rewrite C4 in M1. apply Some_inj in M1.
        assert (Efin : s_obj sc' A_positioner = Some pos /\ s_obj sc' A_icomments = Some (List.concat (all_messages O 0 P))).
        { rewrite (ran_obj _ _ _ _ _ _ _ _ _ R), !B5 by (simpl; auto). destruct pos as [|kv pos0].
          - apply ret_ok in C5. destruct C5 as [-> _]. auto.
          - apply addH5_ok in C5. destruct C5 as (_ & _ & C5 & _). rewrite !C5 by discriminate. auto. }
        destruct Efin as [Ef1 Ef2]. exists pos, (List.concat (all_messages O 0 P)). split; auto. split; auto. split; auto. split; auto. split; auto.
        split; [rewrite M1; apply (fold_nodup (fun x => snd (snd x)) (fun x => num_of (fst (snd x)))); constructor|].
        split; [intros ND LP; rewrite M1; rewrite <- (cells_snd O P 0 [] eq_refl O eq_refl LP) in ND |- *; apply (fold_keys (fun x => snd (snd x)) (fun x => num_of (fst (snd x))) _ []); exact ND|].
        assert (Hnum : forall r c k x, at_cell O r c k -> at_cell P r c x -> py_float x = Ok (num_of x)).
        { intros r c k x H1 H2. rewrite Forall_forall in M3. apply (M3 ((r, c), (x, k))). apply cells_in. exists r, c. auto. }
        split; [|split; [intros r c k x H1 H2; exists (num_of x); eapply Hnum; eauto|split; [exact Ef2|apply messages_spec]]].
        intros k v. rewrite M1, (last_cell snd (fun x => num_of (fst x))). cbn [fst snd]. split.
        * intros (r & c & d & t & H1 & H2 & <- & <- & Hm). exists d. split; [|unfold number; eapply Hnum; eauto].
          exists r, c. split; auto. split; auto. intros r' c' v' H1' H2'. eapply Hm; eauto.
        * intros (x & (r & c & H1 & H2 & Hm) & Hn). exists r, c, x, k. split; auto. split; auto. split; auto.
          split; [unfold number in Hn; unfold num_of; rewrite Hn; reflexivity|]. intros r' c' d' t' H1' H2' <-. eapply Hm; eauto.
  Qed.
End Tables.
