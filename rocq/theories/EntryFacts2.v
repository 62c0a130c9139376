(** From the special groups of the entry of a saved file to their paths *)
From Coq Require Import String Lia.
From Verif Require Import Py PyFacts NumFacts Utils SpecUtils Keys Time Geom Handlers Reader SpecHistory SpecInterp SpecWriter SpecEntry SpecTime TimeFacts UtilsFacts NamesFacts
  H5 SpecH5 H5Facts FrameH5 H5Exact Writer DataWrite KeepFacts SaveFacts EntryData FrameK WriterFrame WriterFrameK GrowFacts ClaimFacts
  WriterFacts TableFacts MetaWrite MetaWrite2 MetaWrite3 MetaWrite4 MetaWrite5 MetaWrite6 MetaWrite7 MetaWrite8 RegAll RegAll2 RegAll3 RegGeo EntryFacts.
Import ListNotations.
Local Open Scope list_scope.

Lemma sub_field f sk a g n v l : member f 0 sk a -> sub_holds f a g n v l -> field_at f [sk; g; n] v l.
Proof.
  intros M (i & A & B & (j & J1 & J2 & J3 & J4)). exists j. split; [|auto]. econstructor; [exact M|]. econstructor; [exact B|]. econstructor; [exact J2|]. constructor.
Qed.
Lemma u_desc_tgt line i : ~ In TGT (keys (u_desc line i)).
Proof. simpl. intros [X|[]]. revert X. apply seqb_neq. reflexivity. Qed.
Lemma diff_tgt d q : In q (diff_ds d) -> ~ In TGT (keys (snd (snd q))).
Proof.
  unfold diff_ds. intros [<-|H]; [intros []|]. rewrite !in_app_iff in H. destruct H as [H|[H|[H|H]]].
  - apply in_map_iff in H. destruct H as (p & <- & H). cbn [snd]. destruct (d_lattice d) as [[v|v]|]; [| |destruct H]; cbn [lat_puts] in H.
    + apply in_map_iff in H. destruct H as (kv & <- & _). cbn [snd]. tgt.
    + destruct H as [<-|[<-|[<-|[]]]]; cbn [snd]; tgt.
  - destruct (dget _ _); [|destruct H]. destruct H as [<-|[]]. intros [].
  - destruct (d_mode d); [|destruct H]. destruct H as [<-|[]]. intros [].
  - destruct (d_sector d); [|destruct H]. destruct H as [<-|[]]. intros [].
Qed.
Lemma g_nums_last G vs x v m xs : g_nums G = Ok vs -> last_named G x v m -> floats v = Ok xs -> last_named vs x (DNums (nums xs)) m.
Proof.
  intros H (pre & post & -> & N1 & N2) Hx. unfold g_nums in H.
  assert (K : forall (G : dict str) vs, mapM (fun kv => do v <- floats (snd kv); Ok (fst kv, DNums (nums v))) G = Ok vs -> map fst vs = map fst G).
  { clear. induction G as [|[k t] G IH]; intros vs H; cbn [mapM] in H; [inversion H; reflexivity|]. cbn [fst snd] in H.
    destruct (floats t) as [y|]; cbn [bind] in H; [|discriminate]. match type of H with context [mapM ?g G] => destruct (mapM g G) as [r|] eqn:E end; cbn [bind] in H; [|discriminate].
    inversion H; subst. cbn [map fst]. f_equal. apply IH. reflexivity. }
  assert (S : forall (G1 G2 : dict str) vs, mapM (fun kv => do v <- floats (snd kv); Ok (fst kv, DNums (nums v))) (G1 ++ G2) = Ok vs ->
    exists v1 v2, vs = v1 ++ v2 /\ mapM (fun kv => do v <- floats (snd kv); Ok (fst kv, DNums (nums v))) G2 = Ok v2).
  { clear. induction G1 as [|[k t] G1 IH]; intros G2 vs H; cbn [app mapM] in H; [exists [], vs; auto|]. cbn [fst snd] in H.
    destruct (floats t) as [y|]; cbn [bind] in H; [|discriminate]. match type of H with context [mapM ?g (G1 ++ G2)] => destruct (mapM g (G1 ++ G2)) as [r|] eqn:E end; cbn [bind] in H; [|discriminate].
    inversion H; subst. destruct (IH G2 r E) as (v1 & v2 & -> & X). exists ((k, DNums (nums y)) :: v1), v2. auto. }
  destruct (S _ _ _ H) as (v1 & v2 & -> & H2). cbn [mapM fst snd] in H2. rewrite Hx in H2. cbn [bind] in H2.
  match type of H2 with context [mapM ?g post] => destruct (mapM g post) as [r|] eqn:E end; cbn [bind] in H2; [|discriminate]. inversion H2; subst.
  exists v1, r. split; [reflexivity|]. split; [exact N1|]. rewrite (K _ _ E). exact N2.
Qed.

Lemma g_nums_all (G : dict str) vs x v : g_nums G = Ok vs -> In (x, v) G -> exists xs, floats v = Ok xs.
Proof.
  revert vs. induction G as [|[k t] G IH]; intros vs H Hin; [destruct Hin|]. unfold g_nums in *. cbn [mapM fst snd] in H.
  destruct (floats t) as [y|] eqn:Et; cbn [bind] in H; [|discriminate]. match type of H with context [mapM ?g G] => destruct (mapM g G) as [r|] eqn:E end; cbn [bind] in H; [|discriminate].
  destruct Hin as [X|Hin]; [injection X; intros <- _; exists y; exact Et|]. apply (IH r eq_refl Hin).
Qed.
Lemma mapM_F2 {A B} (g : A -> res B) l r : mapM g l = Ok r -> Forall2 (fun x y => g x = Ok y) l r.
Proof.
  revert r. induction l as [|x l IH]; intros r H; cbn [mapM] in H; [inversion H; constructor|].
  destruct (g x) as [y|] eqn:E; cbn [bind] in H; [|discriminate]. destruct (mapM g l) as [q|]; cbn [bind] in H; [|discriminate]. inversion H; subst. constructor; auto.
Qed.

Section Saved.
  Context (E : env) (known : list hid) (Hk : incl all_hids known).
  Context (s0 s s' : sdf) (versions : list (str * aval)) (ks : list skey) (f : h5) (k : skey) (sc : scan).
  Context (SV : saved E known s0 s versions ks s' f k sc).
  Lemma e_R l i t : attr_is sc A_R l -> nth_error l i = Some t ->
    text_at f [entry_name k; L "UserResults"; u_item i] t (u_desc "#R line " i).
  Proof.
    intros Hc Hi. destruct (saved_done _ _ _ _ _ _ _ _ _ _ SV) as (n & Hn).
    destruct (saved_writer E known H_R (Psi_R i) s0 s versions ks s' f k sc (est_R i)) as (a & M & P); [discriminate| | |exact SV| |].
    - intros o o' f0 a0 S H l0 t0 H0 H1. apply (H l0 t0); auto. rewrite (psi_same A_R o o'); auto; discriminate.
    - intros o f0 f1 a0 Ha G H l0 t0 H0 H1. eapply sub_holds_grow; [exact Ha|apply u_desc_tgt|exact G|exact (H l0 t0 H0 H1)].
    - intros D. destruct SV as (Hh & Hp & Hs & _ & H & _). assert (l <> []) by (intros ->; destruct i; discriminate Hi). eapply reg_R; eauto.
    - exists (ascii t). split; [apply ascii_ok|]. apply (sub_field f _ a URES); [exact M|]. exact (P l t Hc Hi).
  Qed.
  Lemma e_U l i t : attr_is sc A_U l -> nth_error l i = Some t ->
    text_at f [entry_name k; L "UserReserved"; u_item i] t (u_desc "#U line " i).
  Proof.
    intros Hc Hi. destruct (saved_done _ _ _ _ _ _ _ _ _ _ SV) as (n & Hn).
    destruct (saved_writer E known H_U (Psi_U i) s0 s versions ks s' f k sc (est_U i)) as (a & M & P); [discriminate| | |exact SV| |].
    - intros o o' f0 a0 S H l0 t0 H0 H1. apply (H l0 t0); auto. rewrite (psi_same A_U o o'); auto; discriminate.
    - intros o f0 f1 a0 Ha G H l0 t0 H0 H1. eapply sub_holds_grow; [exact Ha|apply u_desc_tgt|exact G|exact (H l0 t0 H0 H1)].
    - intros D. destruct SV as (Hh & Hp & Hs & _ & H & _). assert (l <> []) by (intros ->; destruct i; discriminate Hi). eapply reg_U; eauto.
    - exists (ascii t). split; [apply ascii_ok|]. apply (sub_field f _ a URSV); [exact M|]. exact (P l t Hc Hi).
  Qed.
  Lemma e_diff d g n x l : attr_is sc A_diffractometer d -> In (g, (n, x, l)) (diff_ds d) ->
    exists v, to_hval x = Ok v /\ field_at f [entry_name k; g; n] v l.
  Proof.
    intros Hc Hi. destruct (saved_done _ _ _ _ _ _ _ _ _ _ SV) as (m & Hn).
    destruct (saved_writer E known H_G (Psi_diff g n) s0 s versions ks s' f k sc (est_diff g n)) as (a & M & P); [discriminate| | |exact SV| |].
    - intros o o' f0 a0 S H d0 x0 l0 H0 H1. apply (H d0 x0 l0); auto. rewrite (psi_same A_diffractometer o o'); auto; discriminate.
    - intros o f0 f1 a0 Ha G H d0 x0 l0 H0 H1. destruct (H d0 x0 l0 H0 H1) as (v & V1 & V2). exists v. split; [exact V1|].
      eapply sub_holds_grow; [exact Ha|exact (diff_tgt d0 _ H1)|exact G|exact V2].
    - intros D. destruct SV as (Hh & Hp & Hs & _ & H & _). eapply (reg_G E known Hk); eauto.
    - destruct (P d x l Hc Hi) as (v & V1 & V2). exists v. split; [exact V1|]. apply (sub_field f _ a); auto.
  Qed.
  Lemma e_G d G : attr_is sc A_diffractometer d -> attr_is sc A_G G -> group_at f [entry_name k; L "G"] "NXnote" /\
    forall x v m, last_named G x v m -> exists xs, Forall2 (fun w y => py_float w = Ok y) (words v) xs /\ field_at f [entry_name k; L "G"; m] (HArr [List.length xs] (map NF xs)) [(L "spec_name", AText x)].
  Proof.
    intros Hd Hc. destruct (saved_done _ _ _ _ _ _ _ _ _ _ SV) as (n & Hn).
    destruct (saved_writer E known H_G Psi_G s0 s versions ks s' f k sc est_G) as (a & M & P); [discriminate| | |exact SV| |].
    - intros o o' f0 a0 S H G0 H0. apply (H G0). rewrite (psi_same A_G o o'); auto; discriminate.
    - intros o f0 f1 a0 Ha G1 H G0 H0. destruct (H G0 H0) as (vs & V1 & V2). exists vs. split; [exact V1|]. eapply dict_in_grow; [exact Ha| |exact G1|exact V2]. tgt.
    - intros D. destruct SV as (Hh & Hp & Hs & _ & H & _). eapply (reg_G E known Hk); eauto.
    - destruct (P G Hc) as (vs & V1 & V2). destruct (dict_paths f _ _ _ _ _ _ M V2) as (g & G1 & G2 & _ & G4). split; [exists g; auto|].
      intros x v m Hl. destruct (g_nums_all G vs x v V1) as (xs & Ef).
      { destruct Hl as (pre & post & -> & _). apply in_app_iff. right. left. reflexivity. }
      exists xs. split; [apply mapM_F2; exact Ef|]. apply (G4 x (DNums (nums xs)) m); [eapply g_nums_last; eauto|]. cbn [to_hval]. unfold nums. rewrite map_length. reflexivity.
  Qed.
  Notation sam n := [entry_name k; L "sample"; L n].
  Ltac in_lat := right; apply in_app_iff; left; apply in_map; simpl; tauto.
  Lemma e_sample d : attr_is sc A_diffractometer d ->
    text_at f [entry_name k; L "instrument"; L "name"] (d_full d) [] /\
    (forall a b c al be ga, d_lattice d = Some (Lat3 [a; b; c; al; be; ga]) ->
      field_at f (sam "unit_cell_abc") (HArr [3] (map NF [a; b; c])) [att "units" "angstrom"] /\
      field_at f (sam "unit_cell_alphabetagamma") (HArr [3] (map NF [al; be; ga])) [att "units" "degrees"] /\
      field_at f (sam "unit_cell") (HArr [6] (map NF [a; b; c; al; be; ga])) []) /\
    (forall a b ga, d_lattice d = Some (Lat2 [a; b; ga]) ->
      number_at f (sam "unit_cell_a") (NF a) [att "units" "angstrom"] /\ number_at f (sam "unit_cell_b") (NF b) [att "units" "angstrom"] /\
      number_at f (sam "unit_cell_gamma") (NF ga) [att "units" "degrees"]) /\
    (forall m, List.length m = 9 -> dget (L "ub_matrix") (d_gpar d) = Some (GMat m) -> field_at f (sam "ub_matrix") (HArr [3; 3] (map NF m)) []) /\
    (forall m, d_mode d = Some m -> text_at f (sam "diffractometer_mode") m []) /\
    (forall z, d_sector d = Some z -> number_at f (sam "diffractometer_sector") (NI z) []).
  Proof.
    intros Hd.
    assert (T : forall g n t l, In (g, (n, DText t, l)) (diff_ds d) -> text_at f [entry_name k; g; n] t l).
    { intros g n t l Hi. destruct (e_diff d g n _ l Hd Hi) as (v & V & F). cbn [to_hval] in V. injection V; intros <-. exists (ascii t). split; [apply ascii_ok|exact F]. }
    assert (X : forall g n x v l, to_hval x = Ok v -> In (g, (n, x, l)) (diff_ds d) -> field_at f [entry_name k; g; n] v l).
    { intros g n x v l Hv Hi. destruct (e_diff d g n x l Hd Hi) as (v' & V & F). rewrite Hv in V. injection V; intros ->. exact F. }
    split; [|split; [|split; [|split; [|split]]]].
    - apply T. left. reflexivity.
    - intros a b c al be ga Hl. split; [|split].
      + apply (X SAM (L "unit_cell_abc") (DNums (nums [a; b; c]))); [reflexivity|]. unfold diff_ds; rewrite Hl; in_lat.
      + apply (X SAM (L "unit_cell_alphabetagamma") (DNums (nums [al; be; ga]))); [reflexivity|]. unfold diff_ds; rewrite Hl; in_lat.
      + apply (X SAM (L "unit_cell") (DNums (nums [a; b; c; al; be; ga]))); [reflexivity|]. unfold diff_ds; rewrite Hl; in_lat.
    - intros a b ga Hl. split; [|split].
      + apply (X SAM (L "unit_cell_a") (DNum (NF a))); [reflexivity|]. unfold diff_ds; rewrite Hl; in_lat.
      + apply (X SAM (L "unit_cell_b") (DNum (NF b))); [reflexivity|]. unfold diff_ds; rewrite Hl; in_lat.
      + apply (X SAM (L "unit_cell_gamma") (DNum (NF ga))); [reflexivity|]. unfold diff_ds; rewrite Hl; in_lat.
    - intros m Lm Hm. eapply (X SAM (L "ub_matrix") (gval_data (GMat m))).
      + do 10 (destruct m as [|? m]; [try discriminate Lm; reflexivity|]). discriminate Lm.
      + unfold diff_ds. rewrite Hm. right. apply in_app_iff. right. apply in_app_iff. left. left. reflexivity.
    - intros m Hm. apply (T SAM (L "diffractometer_mode")). unfold diff_ds. rewrite Hm. right. apply in_app_iff. right. apply in_app_iff. right. apply in_app_iff. left. left. reflexivity.
    - intros z Hz. eapply (X SAM (L "diffractometer_sector") (DNum (NI z))); [reflexivity|]. unfold diff_ds. rewrite Hz. right. apply in_app_iff. right. apply in_app_iff. right. apply in_app_iff. right. left. reflexivity.
  Qed.
End Saved.
