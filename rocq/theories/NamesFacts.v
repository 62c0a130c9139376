(** Names that the writer takes from the objects as they are do not start with a slash. *)
From Coq Require Import String Lia.
From Verif Require Import Py PyFacts Utils GeomData Geom GeomFacts2 Keys KeyFacts Handlers Reader SpecText SpecReader SpecHistory SpecKeys SpecInterp
  MonadFacts FrameFacts StateFacts TextFacts ReaderFacts ReaderFacts2 ReaderFacts3 ReaderFacts4 ReaderFacts5 ReaderFacts6 DispatchFacts InterpFacts SpecWriter.
Import ListNotations.
Local Open Scope list_scope.

(** a name that does not start at the root of the file; of a diffractometer also: it has parameters *)
Definition rel (p : str) : Prop := prefixb [47%N] p = false.
Definition angles_of_refl (r : reflection) : dict fl := match r with Ref2 _ x | Ref3 _ x => x end.
Definition diffr_names (d : diffr) : Prop :=
  Forall rel (keys (d_gpar d)) /\ Forall (fun r => Forall rel (keys (angles_of_refl r))) (d_refl d) /\ d_gpar d <> [].
(** all names that the writers take from the object as they are, and where they come from *)
Record names_ok (o : obj) : Prop := mk_names {
  no_j : forall x, o A_j = Some x -> Forall (Forall rel) x;
  no_o : forall x, o A_o = Some x -> Forall (Forall rel) x;
  no_cx : forall x, o A_counter_xref = Some x -> Forall rel (keys x);
  no_px : forall x, o A_positioner_xref = Some x -> Forall rel (keys x);
  no_d : forall d, o A_diffractometer = Some d -> diffr_names d }.
Definition five : list attr := [A_j; A_o; A_counter_xref; A_positioner_xref; A_diffractometer].
Lemma names_eq o o' : (forall a, In a five -> o' a = o a) -> names_ok o -> names_ok o'.
Proof.
  intros H [A B C D F]. constructor; intros x E.
  - apply A. rewrite <- H; [exact E|unfold five; simpl; tauto].
  - apply B. rewrite <- H; [exact E|unfold five; simpl; tauto].
  - apply C. rewrite <- H; [exact E|unfold five; simpl; tauto].
  - apply D. rewrite <- H; [exact E|unfold five; simpl; tauto].
  - apply F. rewrite <- H; [exact E|unfold five; simpl; tauto].
Qed.

(* ------------------------------------------------------------------ *)
(** ** the diffractometer *)
Lemma keys_dset_in {V} k (v : V) d x : In x (keys (dset k v d)) -> x = k \/ In x (keys d).
Proof.
  induction d as [|[k' v'] d IH]; simpl; [intros [<-|[]]; auto|].
  destruct (seqb k k') eqn:E; simpl; [|tauto]. apply seqb_eq in E; subst. tauto.
Qed.
Lemma rel_dset {V} k (v : V) d : rel k -> Forall rel (keys d) -> Forall rel (keys (dset k v d)).
Proof.
  rewrite !Forall_forall. intros Hk Hd x Hx. apply keys_dset_in in Hx. destruct Hx as [->|Hx]; auto.
Qed.
Lemma rel_fold {V} (l : list (str * V)) d : Forall (fun kv => rel (fst kv)) l -> Forall rel (keys d) ->
  Forall rel (keys (fold_left (fun d kv => dset (fst kv) (snd kv) d) l d)).
Proof.
  intros H. revert d. induction H as [|x l Hx Hl IH]; intros d Hd; simpl; auto. apply IH. apply rel_dset; auto.
Qed.
Lemma keys_rel {V} (d : dict V) : Forall rel (keys d) <-> Forall (fun kv => rel (fst kv)) d.
Proof. unfold keys. rewrite Forall_map. reflexivity. Qed.
Lemma rel_combine {V} names (vals : list V) : Forall rel names -> Forall (fun kv => rel (fst kv)) (combine names vals).
Proof. rewrite !Forall_forall. intros H [k v] Hx. apply in_combine_l in Hx. simpl. auto. Qed.
Lemma rel_zip {V} names (vals : list V) : Forall rel names -> Forall rel (keys (zip_dict names vals)).
Proof. intros H. apply rel_fold; [apply rel_combine; auto|constructor]. Qed.
Lemma rel_dupdate {V} (e d : dict V) : Forall rel (keys e) -> Forall rel (keys d) -> Forall rel (keys (dupdate e d)).
Proof. intros He Hd. apply rel_fold; auto. apply keys_rel; auto. Qed.
Lemma rel_map {V W} (g : V -> W) (d : dict V) : Forall rel (keys d) -> Forall rel (keys (map (fun kv => (fst kv, g (snd kv))) d)).
Proof. unfold keys. rewrite map_map. auto. Qed.

Lemma dset_some {V} k (v : V) d : dset k v d <> [].
Proof. destruct d as [|[k' v'] d]; simpl; [discriminate|]. destruct (seqb k k'); discriminate. Qed.
Lemma dupdate_some {V} (e d : dict V) : d <> [] -> dupdate e d <> [].
Proof. unfold dupdate. revert d. induction e as [|x e IH]; intros d H; simpl; [exact H|]. apply IH. apply dset_some. Qed.
Definition geo_ok (g : geometry) : Prop :=
  Forall rel (g_G g) /\ Forall rel (g_Q g) /\ Forall rel (match g_U g with Some u => u | None => default_U end) /\
  Forall (fun v => Forall rel (v_motors v)) (g_vars g).
Definition relb (l : list str) : bool := forallb (fun p => negb (prefixb [47%N] p)) l.
Lemma relb_ok l : relb l = true -> Forall rel l.
Proof.
  unfold relb, rel. rewrite forallb_forall, Forall_forall. intros H x Hx. apply negb_true_iff. apply H; auto.
Qed.
Lemma catalog_rel : Forall geo_ok catalog.
Proof.
  assert (G : forallb (fun g => relb (g_G g) && relb (g_Q g) && relb (match g_U g with Some u => u | None => default_U end)
            && forallb (fun v => relb (v_motors v)) (g_vars g)) catalog = true) by (vm_compute; reflexivity).
  rewrite forallb_forall in G. rewrite Forall_forall. intros g Hg. specialize (G g Hg).
  rewrite !andb_true_iff in G. destruct G as [[[A B] C] D]. repeat split; try (apply relb_ok; auto).
  rewrite forallb_forall in D. apply Forall_forall. intros v Hv. apply relb_ok; auto.
Qed.
Lemma g0_rel modes l : forall acc r, Forall rel (keys (snd acc)) -> foldM (g0_step modes) l acc = Ok r -> Forall rel (keys (snd r)).
Proof.
  induction l as [|[k v] l IH]; intros [sect adds] r Ha H; cbn [foldM] in H; [inversion H; subst; auto|].
  destruct (g0_step modes (sect, adds) (k, v)) as [acc'|] eqn:Es; cbn [bind] in H; [|discriminate].
  apply (IH acc' r); auto. unfold g0_step in Es.
  destruct (prefixb (L "g_sect") k).
  { destruct (int_of_fl v) as [z|]; cbn [bind] in Es; [|discriminate]. inversion Es; subst; auto. }
  destruct (prefixb (L "g_mode") k) eqn:Ep; cbn [negb] in Es; [|inversion Es; subst; auto].
  destruct (int_of_fl v) as [z|]; cbn [bind] in Es; [|discriminate].
  destruct ((0 <=? z)%Z && (z <? len modes)%Z)%bool; [|inversion Es; subst; auto].
  destruct (nth_error modes (Z.to_nat z)); [|inversion Es; subst; auto]. inversion Es; subst. cbn [snd] in *.
  unfold keys in *. rewrite map_app, Forall_app. split; auto. constructor; [|constructor]. cbn [fst].
  apply prefixb_spec in Ep. destruct Ep as [t ->]. reflexivity.
Qed.
Lemma angles_rel U n motors : Forall rel motors -> Forall rel (keys (angles_of U n motors)).
Proof.
  intros H. unfold angles_of.
  assert (G : forall l d, Forall (fun im : nat * str => rel (snd im)) l -> Forall rel (keys d) ->
    Forall rel (keys (fold_left (fun d im => match dget (L "g_u" ++ n ++ str_of_nat (fst im)) U with
                         | Some v => dset (snd im) v d | None => d end) l d))).
  { induction l as [|im l IH]; intros d Hl Hd; cbn [fold_left]; auto. inversion Hl; subst. apply IH; auto.
    destruct (dget (L "g_u" ++ n ++ str_of_nat (fst im)) U); auto. apply rel_dset; auto. }
  apply G; [|constructor]. rewrite Forall_forall in *. intros [i m] Hin. apply in_combine_r in Hin. simpl. auto.
Qed.
Lemma get_variant_In g v r : get_variant g v = Ok r -> In r (g_vars g).
Proof.
  unfold get_variant. assert (X : index 0 (g_vars g) = Ok r -> In r (g_vars g)).
  { unfold index. intros H. repeat match type of H with context [if ?b then _ else _] => destruct b end; try discriminate;
    destruct (nth_error (g_vars g) _) eqn:Q; inversion H; subst; eapply nth_error_In; eauto. }
  destruct v as [n|]; auto. destruct (List.find _ (g_vars g)) as [x|] eqn:Ef; auto.
  intros H; inversion H; subst. apply find_some in Ef. tauto.
Qed.
Ltac bnd H x E := match type of H with context [bind ?m ?k] => destruct m as [x|] eqn:E; cbn [bind] in H; [|discriminate H] end.

Lemma diffr_of_names gi d : diffr_of catalog gi = Ok d -> diffr_names d.
Proof.
  unfold diffr_of. intros H. bnd H nm B. unfold parse_diffr in H. bnd H gonio B0.
  assert (GO : geo_ok gonio).
  { unfold of_opt in B0. destruct (cat_get catalog (d_full (new_diffr nm))) as [g|] eqn:Eg; [|discriminate]. inversion B0; subst.
    unfold cat_get in Eg. apply find_some in Eg. pose proof catalog_rel as C. rewrite Forall_forall in C. apply C. tauto. }
  destruct GO as [OG [OQ [OU OV]]].
  assert (N0 : diffr_names (new_diffr nm)).
  { unfold new_diffr. destruct (split_name_variation nm). split; [|split; [constructor|discriminate]].
    repeat constructor. }
  bnd H d1 B1. assert (N1 : diffr_names d1).
  { clear H. unfold parse_G0 in B1. destruct (dget (L "G0") (gi_G gi)) as [t|]; [|inversion B1; subst; auto].
    bnd B1 a B2. destruct (Nat.eqb (List.length a) (List.length (g_G gonio))); cbn [negb] in B1; [|inversion B1; subst; auto].
    cbv zeta in B1. bnd B1 p B3. destruct p as [sect adds]. inversion B1; subst. destruct N0 as [X [Y N]]. split; [|split; [exact Y|cbn [d_gpar]; apply dupdate_some; exact N]]. cbn [d_gpar].
    apply rel_dupdate; auto. apply rel_dupdate.
    - apply rel_map. change adds with (snd (sect, adds)). refine (g0_rel _ _ _ _ _ B3). constructor.
    - apply rel_map. apply rel_zip; auto. }
  clear B1. bnd H d2 B1. assert (N2 : diffr_names d2).
  { clear H. unfold parse_G1 in B1. destruct (dget (L "G1") (gi_G gi)) as [t|]; [|inversion B1; subst; auto].
    bnd B1 a B2. destruct (1 <? len a)%Z; cbn [negb] in B1; [|inversion B1; subst; auto].
    cbv zeta in B1. bnd B1 lat B3. bnd B1 v B4. bnd B1 refl B5. inversion B1; subst. destruct N1 as [X [Y N]].
    assert (MR : Forall rel (v_motors v)).
    { apply get_variant_In in B4. rewrite Forall_forall in OV. apply OV; auto. }
    split; cbn [d_gpar d_refl]; [|split; [|apply dupdate_some; exact N]].
    - apply rel_dupdate; auto. apply rel_map. apply rel_zip; auto.
    - apply Forall_app. split; auto. clear - B5 MR.
      match type of B5 with (if ?b then _ else _) = _ => destruct b end.
      + unfold refl3 in B5. bnd B5 r0 Q0. bnd B5 r1 Q1. inversion B5; subst.
        bnd Q0 x Q2. inversion Q0; subst. bnd Q1 y Q3. inversion Q1; subst.
        constructor; [|constructor; [|constructor]]; cbn [angles_of_refl]; apply angles_rel; auto.
      + bnd B5 p Q0. bnd B5 l Q1. inversion B5; subst. constructor; [|constructor]. cbn [angles_of_refl]. apply angles_rel; auto. }
  clear B1. bnd H d3 B1. assert (N3 : diffr_names d3).
  { clear H. unfold parse_G3 in B1. destruct (dget (L "G3") (gi_G gi)) as [t|]; [|inversion B1; subst; auto].
    bnd B1 a B2. destruct (Nat.eqb (List.length a) 9); cbn [negb] in B1; [|inversion B1; subst; auto].
    inversion B1; subst. destruct N2 as [X [Y N]]. split; [|split; [exact Y|cbn [d_gpar]; apply dset_some]]. cbn [d_gpar]. apply rel_dset; auto. reflexivity. }
  unfold parse_G4 in H. destruct (dget (L "G4") (gi_G gi)) as [t|]; [|inversion H; subst; auto].
  bnd H a B2. destruct (Nat.eqb (List.length a) (List.length (g_Q gonio))); cbn [negb] in H; [|inversion H; subst; auto].
  inversion H; subst. destruct N3 as [X [Y N]]. split; [|split; [exact Y|cbn [d_gpar]; apply dupdate_some; exact N]]. cbn [d_gpar].
  apply rel_dupdate; auto. apply rel_map. apply rel_zip; auto.
Qed.

(* ------------------------------------------------------------------ *)
(** ** handlers *)
Definition mnok {A} (m : M A) : Prop := forall w, names_ok (me w) -> names_ok (me (fst (m w))).
Lemma mnok_frame {A} S T (m : M A) : frame S T m -> (forall a, In a five -> ~ In a S) -> mnok m.
Proof.
  intros F H w N. destruct (F w) as [_ [[O _] _]]. eapply names_eq; [|exact N]. intros a Ha. apply O. auto.
Qed.
Lemma mnok_bind {A B} (m : M A) (k : A -> M B) : mnok m -> (forall a, mnok (k a)) -> mnok (mbind m k).
Proof.
  intros Hm Hk w N. unfold mbind. specialize (Hm w N). destruct (m w) as [w1 [x|e]]; cbn [fst] in *; auto. apply Hk; auto.
Qed.
Lemma mnok_iter {A} (f : A -> M unit) l : (forall x, In x l -> mnok (f x)) -> mnok (iterM f l).
Proof.
  induction l as [|x l IH]; intros H; cbn [iterM]; [intros w N; exact N|].
  apply mnok_bind; [apply H; simpl; auto|]. intros _. apply IH. intros y Hy. apply H. simpl; auto.
Qed.
Lemma mnok_ret {A} (x : A) : mnok (ret x). Proof. intros w N; exact N. Qed.
Lemma mnok_raise {A} e : mnok (@raise A e). Proof. intros w N; exact N. Qed.
Lemma mnok_lift {A} (r : res A) : mnok (lift r). Proof. intros w N; exact N. Qed.
Lemma mnok_hasA a : mnok (hasA a). Proof. intros w N; exact N. Qed.
Lemma mnok_setA a v : (forall o, names_ok o -> names_ok (upd a v o)) -> mnok (setA a v).
Proof. intros H w N. unfold setA. cbn [fst me]. apply H; auto. Qed.
Lemma mnok_getA {B} a (k : ty a -> M B) : (forall v, (exists o, names_ok o /\ o a = Some v) -> mnok (k v)) -> mnok (mbind (getA a) k).
Proof.
  intros H w N. unfold mbind, getA. destruct (me w a) as [v|] eqn:E; cbn [fst]; auto. apply H; eauto.
Qed.
Lemma mnok_ensure a i : (forall o, names_ok o -> names_ok (upd a i o)) -> mnok (ensure a i).
Proof.
  intros H. unfold ensure. apply mnok_bind; [apply mnok_hasA|]. intros [|]; [apply mnok_ret|apply mnok_setA; auto].
Qed.
Lemma mnok_addH5 l h : mnok (addH5 l h).
Proof. apply (mnok_frame [A_h5] []); [apply frame_addH5; simpl; auto|]. intros a Ha [E|[]]; subst; vm_compute in Ha; intuition discriminate. Qed.
Lemma mnok_addPost l h : mnok (addPost l h).
Proof. apply (mnok_frame [A_posts] []); [apply frame_addPost; simpl; auto|]. intros a Ha [E|[]]; subst; vm_compute in Ha; intuition discriminate. Qed.

Lemma upd_j v o : Forall (Forall rel) v -> names_ok o -> names_ok (upd A_j v o).
Proof. intros H [A B C D F]. constructor; auto. intros x E. cbn in E. injection E; intros <-; auto. Qed.
Lemma upd_o v o : Forall (Forall rel) v -> names_ok o -> names_ok (upd A_o v o).
Proof. intros H [A B C D F]. constructor; auto. intros x E. cbn in E. injection E; intros <-; auto. Qed.
Lemma upd_cxv v o : Forall rel (keys v) -> names_ok o -> names_ok (upd A_counter_xref v o).
Proof. intros H [A B C D F]. constructor; auto. intros x E. cbn in E. injection E; intros <-; auto. Qed.
Lemma upd_pxv v o : Forall rel (keys v) -> names_ok o -> names_ok (upd A_positioner_xref v o).
Proof. intros H [A B C D F]. constructor; auto. intros x E. cbn in E. injection E; intros <-; auto. Qed.
Lemma upd_dv v o : diffr_names v -> names_ok o -> names_ok (upd A_diffractometer v o).
Proof. intros H [A B C D F]. constructor; auto. intros x E. cbn in E. injection E; intros <-; auto. Qed.

Lemma process_j_ok text : Forall rel (words (strip_first_word text)) -> mnok (process_j text).
Proof.
  intros H. unfold process_j. apply mnok_bind; [apply mnok_ensure; intros; apply upd_j; auto|]. intros _.
  apply mnok_getA. intros v (o & N & Ev). apply mnok_bind; [|intros; apply mnok_addPost].
  apply mnok_setA. intros. apply upd_j; auto. apply Forall_app. split; [apply (no_j _ N); auto|auto].
Qed.
Lemma process_o_ok text : Forall rel (words (strip (strip_first_word text))) -> mnok (process_o text).
Proof.
  intros H. unfold process_o. apply mnok_bind; [apply mnok_ensure; intros; apply upd_o; auto|]. intros _. cbv zeta.
  apply mnok_getA. intros v (o & N & Ev). apply mnok_bind; [|intros; apply mnok_addPost].
  apply mnok_setA. intros. apply upd_o; auto. apply Forall_app. split; [apply (no_o _ N); auto|auto].
Qed.
Lemma xref_row_rel row mnes x : Forall rel mnes -> Forall rel (keys x) -> Forall rel (keys (fst (xref_row row mnes x))).
Proof.
  intros Hm. unfold xref_row.
  assert (G : forall l acc, Forall (fun im : nat * str => rel (snd im)) l -> Forall rel (keys (fst acc)) ->
    Forall rel (keys (fst (fold_left (fun acc im =>
               match acc with
               | (x, Ok _) => match index (Z.of_nat (fst im)) row with
                              | Ok nm => (dset (snd im) nm x, Ok tt)
                              | Raise e => (x, Raise e)
                              end
               | _ => acc
               end) l acc)))).
  { induction l as [|im l IH]; intros acc Hl Ha; cbn [fold_left]; auto. inversion Hl; subst. apply IH; auto.
    destruct acc as [y [u|e]]; auto. destruct (index (Z.of_nat (fst im)) row); cbn [fst] in *; auto. apply rel_dset; auto. }
  intros Hx. apply G; [|exact Hx]. rewrite Forall_forall in *. intros [i m] Hin. apply in_combine_r in Hin. simpl; auto.
Qed.
Lemma xref_table_rel names mnes x : Forall (Forall rel) mnes -> Forall rel (keys x) -> Forall rel (keys (fst (xref_table names mnes x))).
Proof.
  intros Hm. unfold xref_table.
  assert (G : forall l acc, Forall (fun im : nat * list str => Forall rel (snd im)) l -> Forall rel (keys (fst acc)) ->
    Forall rel (keys (fst (fold_left (fun acc im =>
               match acc with
               | (x, Ok _) => match index (Z.of_nat (fst im)) names with
                              | Ok row => xref_row row (snd im) x
                              | Raise e => (x, Raise e)
                              end
               | _ => acc
               end) l acc)))).
  { induction l as [|im l IH]; intros acc Hl Ha; cbn [fold_left]; auto. inversion Hl; subst. apply IH; auto.
    destruct acc as [y [u|e]]; auto. destruct (index (Z.of_nat (fst im)) names); cbn [fst] in *; auto. apply xref_row_rel; auto. }
  intros Hx. apply G; [|exact Hx]. rewrite Forall_forall in *. intros [i m] Hin. apply in_combine_r in Hin. simpl; auto.
Qed.
Lemma post_counter_ok h : mnok (post_counter h).
Proof.
  unfold post_counter. apply mnok_bind; [apply mnok_hasA|]. intros b1. apply mnok_bind; [apply mnok_hasA|]. intros b2.
  apply mnok_bind; [|intros; apply mnok_addH5]. destruct (b1 && b2); [|apply mnok_ret].
  apply mnok_bind; [apply mnok_ensure; intros; apply upd_cxv; auto; constructor|]. intros _.
  apply mnok_getA. intros mnes (o1 & N1 & E1). apply mnok_getA. intros names _. apply mnok_getA. intros x (o2 & N2 & E2).
  pose proof (xref_table_rel names mnes x (no_j _ N1 _ E1) (no_cx _ N2 _ E2)) as R.
  destruct (xref_table names mnes x) as [x' r]. cbn [fst] in R.
  apply mnok_bind; [apply mnok_setA; intros; apply upd_cxv; auto|]. intros _. apply mnok_lift.
Qed.
Lemma post_posx_ok : mnok post_posx.
Proof.
  unfold post_posx. apply mnok_bind; [apply mnok_hasA|]. intros b1. apply mnok_bind; [apply mnok_hasA|]. intros b2.
  apply mnok_bind; [|intros; apply mnok_addH5]. destruct (b1 && b2); [|apply mnok_ret].
  apply mnok_bind; [apply mnok_ensure; intros; apply upd_pxv; auto; constructor|]. intros _.
  apply mnok_getA. intros mnes (o1 & N1 & E1). apply mnok_getA. intros names _. apply mnok_getA. intros x (o2 & N2 & E2).
  pose proof (xref_table_rel names mnes x (no_o _ N1 _ E1) (no_px _ N2 _ E2)) as R.
  destruct (xref_table names mnes x) as [x' r]. cbn [fst] in R.
  apply mnok_bind; [apply mnok_setA; intros; apply upd_pxv; auto|]. intros _. apply mnok_lift.
Qed.
Lemma post_geo_ok : mnok post_geo.
Proof.
  unfold post_geo. apply mnok_getA. intros g _. apply mnok_bind; [destruct g; [apply mnok_ret|apply mnok_addH5]|]. intros _.
  apply mnok_bind; [apply (mnok_frame [] []); [apply frame_getP|intros a _ []]|]. intros c.
  apply mnok_getA. intros p _. intros w N. cbv zeta. unfold mbind, lift.
  destruct (diffr_of catalog _) as [d|e] eqn:Ed; cbn [fst]; auto.
  apply (mnok_setA A_diffractometer d); auto. intros. apply upd_dv; auto. eapply diffr_of_names; eauto.
Qed.
Definition disj (S : list attr) : bool := forallb (fun a => negb (existsb (fun b => if attr_eq_dec a b then true else false) S)) five.
Lemma disj_ok S : disj S = true -> forall a, In a five -> ~ In a S.
Proof.
  unfold disj. rewrite forallb_forall. intros H a Ha Hin. specialize (H a Ha). apply negb_true_iff in H.
  rewrite <- not_true_iff_false in H. apply H. apply existsb_exists. exists a. split; auto. destruct (attr_eq_dec a a); congruence.
Qed.
Lemma post_ok E p : mnok (run_post E p).
Proof.
  destruct p; try (eapply mnok_frame; [apply frame_post|]; apply disj_ok; vm_compute; reflexivity).
  - apply post_geo_ok. - apply post_counter_ok. - apply post_posx_ok.
Qed.
Lemma run_posts_ok E : mnok (run_posts E).
Proof. unfold run_posts. apply mnok_getA. intros d _. apply mnok_iter. intros p _. apply post_ok. Qed.
Lemma process_ok E h text : h <> H_j \/ Forall rel (words (strip_first_word text)) -> h <> H_o \/ Forall rel (words (strip_first_word text)) ->
  mnok (process E h text).
Proof.
  intros Hj Ho. destruct h; try (eapply mnok_frame; [apply frame_process|]; apply disj_ok; vm_compute; reflexivity).
  - destruct Hj as [Hj|Hj]; [congruence|]. apply process_j_ok; auto.
  - destruct Ho as [Ho|Ho]; [congruence|]. apply process_o_ok. rewrite words_strip. auto.
Qed.

(** ** lines *)
Lemma strip_first_words line b : In SP line -> In b (words (strip_first_word line)) -> In b (words line).
Proof.
  intros Hs. destruct (proj2 (content_strip line (strip_first_word line) Hs) eq_refl) as (_ & w & u & v & E & _ & Hu & Hv).
  set (t := strip_first_word line) in *. clearbody t. rewrite E.
  rewrite (words_app_space w SP) by reflexivity. rewrite words_space_app by (apply blank_forallb; auto).
  rewrite words_rspace by (apply blank_forallb; auto). intros H. apply in_or_app; auto.
Qed.
Lemma key_starts h (s : string) key : In (h, s) [(H_j, "#j"%string); (H_o, "#o"%string)] -> match_key h key = Ok true \/ key = key_of h ->
  exists t, key = L s ++ t.
Proof.
  intros Hin [H| ->].
  - rewrite match_key_re in H by (destruct Hin as [E|[E|[]]]; inversion E; subst; discriminate).
    inversion H as [H1]. apply re_match_cases in H1.
    assert (G : forall k, lang (regex_of h) k = true -> exists t, k = L s ++ t).
    { intros k Hk. apply shaped_lang in Hk; [|destruct Hin as [E|[E|[]]]; inversion E; subst; discriminate].
      destruct Hin as [E|[E|[]]]; inversion E; subst; destruct Hk as (ds & -> & _); eauto. }
    destruct H1 as [H1|(t & -> & H1)]; [auto|]. destruct (G t H1) as (u & ->). exists (u ++ [LF]). rewrite app_assoc. reflexivity.
  - destruct Hin as [E|[E|[]]]; inversion E; subst; eexists; reflexivity.
Qed.
Lemma control_key_starts known h s line : In (h, s) [(H_j, "#j"%string); (H_o, "#o"%string)] -> get_control_key known line = Ok (Some h) ->
  In SP line /\ exists t, line = L s ++ t.
Proof.
  intros Hin H. unfold get_control_key in H. pose proof (find_c_spec SP line) as F.
  destruct (find_c SP line) as [n|]; [|discriminate]. destruct F as (w & b & -> & Hw & Hn).
  split; [apply in_or_app; simpl; auto|].
  assert (Hf : firstn n (w ++ SP :: b) = w) by (rewrite <- Hn, firstn_app, Nat.sub_diag, firstn_all; simpl; apply app_nil_r).
  cbv zeta in H. rewrite Hf in H.
  destruct (key_starts h s w Hin) as (t & ->); [|exists (t ++ SP :: b); rewrite app_assoc; reflexivity].
  destruct (direct_key known w) as [h'|] eqn:D.
  - inversion H; subst. apply direct_key_some in D. tauto.
  - left. apply match_control_some in H. auto.
Qed.
Definition line_ok (l : str) : Prop := mnemonic_line l -> Forall rel (words l).
Lemma line_rel known line l' h : line_ok line -> (exists a, blank a /\ line = a ++ l') -> get_control_key known l' = Ok (Some h) ->
  h = H_j \/ h = H_o -> Forall rel (words (strip_first_word line)).
Proof.
  intros Hl (a & Ha & ->) Hk Hh. assert (X : In SP l' /\ mnemonic_line (a ++ l')).
  { destruct Hh as [-> | ->].
    - destruct (control_key_starts known H_j "#j" l' (or_introl eq_refl) Hk) as (S & t & ->). split; auto. exists a, t. split; auto.
    - destruct (control_key_starts known H_o "#o" l' (or_intror (or_introl eq_refl)) Hk) as (S & t & ->). split; auto. exists a, t. split; auto. }
  destruct X as [S X]. specialize (Hl X). rewrite Forall_forall in *. intros b Hb. apply Hl.
  apply strip_first_words; auto. apply in_or_app; auto.
Qed.
Lemma hid_cases h : (h = H_j \/ h = H_o) \/ (h <> H_j /\ h <> H_o).
Proof. destruct h; try (right; split; discriminate); auto. Qed.
Lemma scan_line_ok E known line : line_ok line -> mnok (scan_line E known line).
Proof.
  intros Hl. unfold scan_line. destruct line as [|c l]; [apply mnok_ret|]. set (line := c :: l) in *. clearbody line.
  intros w N. unfold mbind, lift. destruct (get_control_key known (lstrip line)) as [[h|]|e] eqn:Ek; cbn [fst]; auto.
  - assert (R : forall b, process E h line w = b -> names_ok (me (fst b))).
    { intros b <-. apply process_ok; auto;
      (destruct (hid_cases h) as [Hh|[Hh1 Hh2]]; [right|left; auto]);
      (eapply line_rel; [exact Hl| |exact Ek|exact Hh]); destruct (lstrip_split line) as (a & Ea & Ha & _); eauto. }
    destruct h; try (apply R; reflexivity). exact N.
  - apply process_ok; auto; left; discriminate.
Qed.
Lemma header_line_ok E known line : line_ok line -> mnok (header_line E known line).
Proof.
  intros Hl. unfold header_line. destruct line as [|c l]; [apply mnok_ret|]. set (line := c :: l) in *. clearbody line.
  intros w N. unfold mbind, lift. destruct (get_control_key known line) as [[h|]|e] eqn:Ek; cbn [fst]; auto.
  - assert (R : forall b, process E h line w = b -> names_ok (me (fst b))).
    { intros b <-. apply process_ok; auto;
      (destruct (hid_cases h) as [Hh|[Hh1 Hh2]]; [right|left; auto]);
      (eapply line_rel; [exact Hl| |exact Ek|exact Hh]); (exists []; split; [apply Forall_nil|reflexivity]). }
    destruct h; try (apply R; reflexivity). exact N.
  - apply process_ok; auto; left; discriminate.
Qed.
Lemma no_rooted_lines raw l : no_rooted_mnemonic raw -> In l (scan_lines raw) \/ In l (splitlines raw) -> line_ok l.
Proof.
  intros H Hin M. apply Forall_forall. intros w Hw. unfold rel. destruct (prefixb [47%N] w) eqn:E; auto.
  apply prefixb_spec in E. destruct E as [t ->]. exfalso.
  destruct Hin as [Hin|Hin].
  - apply (H (scan_lines raw) l (words l) (47%N :: t)) with (t := t); auto.
    + left. apply lines_of_scan_lines. reflexivity.
    + apply fields_words. reflexivity.
  - apply (H (splitlines raw) l (words l) (47%N :: t)) with (t := t); auto.
    + right. apply Lines_splitlines. reflexivity.
    + apply fields_words. reflexivity.
Qed.
Lemma interpret_scan_names E known raw : no_rooted_mnemonic raw -> mnok (interpret_scan E known raw).
Proof.
  intros H. unfold interpret_scan. apply mnok_bind; [|intros; apply run_posts_ok]. apply mnok_iter. intros l Hl.
  apply scan_line_ok. eapply no_rooted_lines; eauto.
Qed.
Lemma interpret_header_names E known raw : no_rooted_mnemonic raw -> mnok (interpret_header E known raw).
Proof.
  intros H. unfold interpret_header. apply mnok_bind; [|intros; apply run_posts_ok]. apply mnok_iter. intros l Hl.
  apply header_line_ok. eapply no_rooted_lines; eauto.
Qed.

(** ** histories *)
Section Hist.
  Context (E : env) (known : list hid).
  Definition sc_names (sc : scan) : Prop := no_rooted_mnemonic (s_raw sc) -> names_ok (s_obj sc).
  Definition NS (s : sdf) : Prop := Forall (fun kv => sc_names (snd kv)) (scans s).

  Lemma run_names m name sc s s' sc' r : (no_rooted_mnemonic (s_raw sc) -> mnok m) -> NS s -> sc_names sc ->
    run_on_scan m name sc s = (s', sc', r) -> NS s' /\ sc_names sc'.
  Proof.
    intros Hm Hs Hn H. unfold run_on_scan in H.
    set (w0 := mk_w true (s_obj sc) _) in H. destruct (m w0) as [w r0] eqn:Em. inversion H; subst; clear H.
    assert (X : sc_names (with_obj (me w) sc)).
    { intros Hr. cbn [with_obj s_raw s_obj] in *. specialize (Hm Hr w0 (Hn Hr)). rewrite Em in Hm. exact Hm. }
    split; auto. unfold NS. cbn [set_headers set_scans scans]. apply Forall_dset; auto.
  Qed.
  Lemma interpret_NS name s s' r : NS s -> interpret E known name s = (s', r) -> NS s'.
  Proof.
    intros Hs. unfold interpret. destruct (dget name (scans s)) as [sc|] eqn:Eg; [|intros H; inversion H; subst; auto].
    destruct (s_done sc) eqn:Ed; [intros H; inversion H; subst; auto|]. cbv zeta.
    pose proof Hs as K. unfold NS in K. rewrite Forall_forall in K. specialize (K _ (dget_In _ _ _ Eg)). cbn [snd] in K.
    destruct (run_on_scan _ name _ s) as [[s1 sc1] r1] eqn:Eo.
    destruct (run_names _ name (with_flags false false sc) s s1 sc1 r1 (fun Hr => interpret_scan_names E known _ Hr) Hs K Eo) as [X Y].
    destruct r1; intros H; inversion H; subst; auto. unfold NS. cbn [set_scans scans]. apply Forall_dset; auto.
  Qed.
  Lemma date_scan_NS s s' r : NS s -> date_scan E s = (s', r) -> NS s'.
  Proof.
    intros Hs H. unfold date_scan in H. destruct (rev (scans s)) as [|[name sc] t] eqn:Er; [inversion H; subst; auto|].
    destruct (find_D _) as [[l|]|e]; try (inversion H; subst; auto; fail).
    destruct (run_on_scan (process_D E l) name sc s) as [[s1 sc1] r1] eqn:Eo. inversion H; subst.
    assert (Hin : In (name, sc) (scans s)) by (apply in_rev; rewrite Er; simpl; auto).
    pose proof Hs as K. unfold NS in K. rewrite Forall_forall in K. specialize (K _ Hin). cbn [snd] in K.
    refine (proj1 (run_names _ _ _ _ _ _ _ _ Hs K Eo)). intros _. apply (process_ok E H_D l); left; discriminate.
  Qed.
  Lemma init_names file : names_ok (scan_init file).
  Proof. constructor; intros x H; vm_compute in H; discriminate H. Qed.
  Lemma store_scan_NS part hdr s s' r : NS s -> store_scan part hdr s = (s', r) -> NS s'.
  Proof.
    intros K H. destruct (store_scan_spec part hdr s) as (s1 & r1 & Hs & [(-> & l & n0 & t & n & sc & _ & _ & Hn & -> & Hsc)|(-> & ->)]);
      rewrite Hs in H; inversion H; subst; auto.
    unfold NS. cbn [set_scans scans]. apply Forall_app; split; auto. constructor; auto. intros _. apply init_names.
  Qed.
  Lemma process_scan_NS b s s' r : NS s -> process_scan b s = (s', r) -> NS s'.
  Proof.
    intros Hs. unfold process_scan. set (s1 := match headers s with [] => _ | _ => s end).
    assert (H1 : NS s1) by (unfold s1; destruct (headers s); exact Hs).
    clearbody s1. clear Hs.
    assert (Hd : forall k l, NS (set_last l (set_scans (ddel k (scans s1)) s1))).
    { intros k l. unfold NS in *. cbn [set_last set_scans scans]. rewrite Forall_forall in *. intros x Hx; apply H1; eapply ddel_incl; eauto. }
    destruct (last_scan s1) as [k|].
    - destruct (if existsb _ _ then _ else _) as [[|]|e]; try (intros H; inversion H; subst; auto; fail).
      destruct (last_raw k s1) as [rw|e]; [|intros H; inversion H; subst; auto].
      destruct (seqb (beginning b) (beginning rw)).
      + destruct k as [n| |]; try (intros H; inversion H; subst; auto; fail).
        destruct (has n (scans s1)); [|intros H; inversion H; subst; auto].
        intros H. eapply store_scan_NS; [|exact H]; apply Hd.
      + intros H. eapply store_scan_NS; [|exact H]; auto.
    - intros H. eapply store_scan_NS; [|exact H]; auto.
  Qed.
  Lemma process_epoch_NS b s s' r : NS s -> process_epoch E known b s = (s', r) -> NS s'.
  Proof.
    intros Hs H. unfold process_epoch in H. destruct (existsb _ _); [inversion H; subst; auto|].
    destruct (parse_epoch b) as [ep|e]; [|inversion H; subst; auto].
    destruct (interpret_header E known b _) as [w r0]. inversion H; subst. exact Hs.
  Qed.
  Lemma read_block_NS b s s' r : NS s -> read_block E known b s = (s', r) -> NS s'.
  Proof.
    intros Hs. unfold read_block. destruct b as [|c b0]; [intros H; inversion H; subst; auto|].
    set (b := c :: b0). destruct (bind _ _) as [[h|]|e]; try (intros H; inversion H; subst; auto; fail).
    destruct (negb (prefixb (L "#") (key_of h))); [intros H; inversion H; subst; auto|].
    destruct h; try (intros H; inversion H; subst; auto; fail).
    - intros H; inversion H; subst. unfold process_file. destruct (specFile s) as [[|]|]; auto.
    - intros H. eapply process_epoch_NS; eauto.
    - destruct (process_scan b s) as [s1 [e|]] eqn:Ep.
      + intros H; inversion H; subst. eapply process_scan_NS; eauto.
      + intros H. eapply date_scan_NS; [|exact H]. eapply process_scan_NS; eauto.
  Qed.
  Lemma read_blocks_NS bs s s' r : NS s -> read_blocks E known bs s = (s', r) -> NS s'.
  Proof.
    revert s; induction bs as [|b bs IH]; simpl; intros s Hs H; [inversion H; subst; auto|].
    destruct (read_block E known b s) as [s1 [e|]] eqn:Eb.
    - inversion H; subst. eapply read_block_NS; eauto.
    - eapply IH; [|exact H]. eapply read_block_NS; eauto.
  Qed.
  Lemma read_NS p s s' r : NS s -> read E known p s = (s', r) -> NS s'.
  Proof.
    intros Hs. unfold read. destruct (dissect p) as [secs|e]; [|intros H; inversion H; subst; auto].
    destruct (read_blocks E known secs s) as [s1 [e|]] eqn:Eb; pose proof (read_blocks_NS _ _ _ _ Hs Eb) as H1.
    - intros H; inversion H; subst; auto.
    - set (s2 := match specFile s1 with Some _ => s1 | None => _ end).
      assert (V : NS s2) by (unfold s2; destruct (specFile s1); auto).
      destruct (getLastScanNumber s2) as [k|].
      + destruct (stat p) as [[m z]|]; intros H; inversion H; subst; exact V.
      + intros H; inversion H; subst. exact V.
  Qed.
  Lemma history_NS s : history E known s -> NS s.
  Proof.
    induction 1 as [n|p s H IH|p s H IH|name s H IH|nm a name s H IH].
    - constructor.
    - destruct (read E known p s) as [s1 r] eqn:Er. eapply read_NS; eauto.
    - unfold refresh. destruct (update_available p s) as [[]|]; auto.
      destruct (read E known p s) as [s' [e|]] eqn:Er; cbn [fst]; eapply read_NS; eauto.
    - destruct (interpret E known name s) as [s1 r] eqn:Er. eapply interpret_NS; eauto.
    - unfold get_attr. destruct (dget name (scans s)) as [sc|]; [|exact IH].
      destruct (mem nm _ && s_lazy sc).
      + destruct (interpret E known name s) as [s1 [e|]] eqn:Ei; pose proof (interpret_NS _ _ _ _ IH Ei) as H1; [exact H1|].
        destruct (dget name (scans s1)); exact H1.
      + destruct (dget name (scans s)); exact IH.
  Qed.

  Definition names_state (s : sdf) : Prop :=
    Forall (fun kv => names_ok (s_obj (snd kv))) (scans s) /\ Forall (fun h => names_ok (h_obj h)) (headers s).
  Lemma H3_names o o' : obj_step H3 o o' -> names_ok o -> names_ok o'.
  Proof.
    intros [H _]. apply names_eq. intros a Ha. apply H. revert a Ha. apply disj_ok. vm_compute. reflexivity.
  Qed.
  Lemma history_names s : history E known s -> plain_mnemonics s -> names_state s.
  Proof.
    intros Hh [P1 P2]. split.
    - pose proof (history_NS s Hh) as N. unfold NS in N. rewrite Forall_forall in *. intros kv Hkv. apply (N kv Hkv). auto.
    - destruct (history_st E known s Hh) as (_ & _ & K). rewrite Forall_forall in *. intros h Hin.
      destruct (K h Hin) as [[_ X]|(ep & pe & w & r & X & Y)].
      + eapply H3_names; [exact X|]. constructor; intros x Hx; vm_compute in Hx; discriminate Hx.
      + eapply H3_names; [exact Y|]. pose proof (interpret_header_names E known (h_raw h) (P1 h Hin)) as M.
        specialize (M (mk_w false (upd A_epoch ep header_init) pe)). rewrite X in M. apply M.
        cbn [me]. constructor; intros x Hx; cbn in Hx; discriminate Hx.
  Qed.
End Hist.
