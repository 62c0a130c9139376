(** C16-C19: reading again after the file has changed. *)
From Coq Require Import String Lia Permutation Sorted QArith.
From Verif Require Import Uni Py PyFacts NumFacts Time TimeFacts Utils UtilsFacts Keys Handlers Reader SpecText SpecUtils SpecReader SpecNum SpecHistory SpecLookup
  TextFacts KeyFacts OrderFacts ReaderFacts ReaderFacts2 ReaderFacts3 ReaderFacts4 ReaderFacts5.
Import ListNotations.
Local Open Scope nat_scope.
Local Open Scope list_scope.

(** the number on the #S line as the code reads it *)
Definition num_on (b n0 : str) : Prop := exists l t, first_line b = Ok l /\ words (strip_first_word (strip l)) = n0 :: t.
Lemma num_on_fun b n m : num_on b n -> num_on b m -> n = m.
Proof. intros (l & t & H1 & H2) (l' & t' & H3 & H4). rewrite H1 in H3. inversion H3; subst. rewrite H2 in H4. inversion H4; auto. Qed.
Lemma num_on_first b b' n : first_line b = first_line b' -> num_on b n -> num_on b' n.
Proof. intros H (l & t & H1 & H2). exists l, t. split; congruence. Qed.
Lemma named_fun ks n0 n m : named ks n0 n -> named ks n0 m -> n = m.
Proof.
  intros [[H1 ->]|(H1 & i & Hi & -> & Ni & Ai)] [[H2 ->]|(H2 & j & Hj & -> & Nj & Aj)]; auto; try tauto.
  destruct (Nat.lt_trichotomy i j) as [Q|[->|Q]]; auto; exfalso; [apply Ni; apply Aj; lia|apply Nj; apply Ai; lia].
Qed.

Notation view := (list (str * (str * str * str * str * nat))).
(** each scan was named after its #S line, given those before it *)
Definition filed (v : view) : Prop :=
  forall v0 x v1, v = v0 ++ x :: v1 -> exists n0, num_on (i_raw (snd x)) n0 /\ named (keys v0) n0 (fst x).
Lemma filed_nil : filed [].
Proof. intros [|y v0] x v1 H; discriminate. Qed.
Lemma filed_snoc v x n0 : filed v -> num_on (i_raw (snd x)) n0 -> named (keys v) n0 (fst x) -> filed (v ++ [x]).
Proof.
  intros F H1 H2 v0 y v1 H. destruct v1 as [|z v1 _] using rev_ind.
  - apply app_inj_tail in H. destruct H as [-> ->]. eauto.
  - rewrite app_comm_cons, app_assoc in H. apply app_inj_tail in H. destruct H as [-> _]. eapply F; eauto.
Qed.
Lemma filed_app v w : filed (v ++ w) -> filed v.
Proof. intros F v0 x v1 ->. eapply F. rewrite <- app_assoc. simpl. reflexivity. Qed.
Lemma block_filed b v h v' h' : block_step b v h v' h' -> filed v -> filed v'.
Proof.
  intros H F. inversion H; subst; auto. eapply filed_snoc; eauto. simpl. do 2 eexists; eauto.
Qed.
Lemma blocks_filed bs v h v' h' : blocks_steps bs v h v' h' -> filed v -> filed v'.
Proof. intros H; induction H; auto. intros F. apply IHblocks_steps. eapply block_filed; eauto. Qed.
Lemma blocks_app_view bs v h v' h' : blocks_steps bs v h v' h' -> exists w, v' = v ++ w.
Proof.
  intros H; induction H as [|b bs v h v1 h1 v2 h2 H1 H2 [w ->]]; [exists []; rewrite app_nil_r; auto|].
  inversion H1; subst; eauto. rewrite <- app_assoc. eauto.
Qed.

Lemma Keeps_inv_app {A} (P : A -> Prop) l k1 k2 : Keeps P l (k1 ++ k2) -> exists l1 l2, l = l1 ++ l2 /\ Keeps P l1 k1 /\ Keeps P l2 k2.
Proof.
  revert k1; induction l as [|x l IH]; intros k1 H.
  - inversion H as [Q0 Q| |]. symmetry in Q. apply app_eq_nil in Q. destruct Q; subst. exists [], []. repeat split; constructor.
  - inversion H as [|y l0 k Hy HK E1 E2|y l0 k Hy HK]; subst.
    + destruct k1 as [|z k1]; simpl in E2.
      * exists [], (x :: l). subst k2. repeat split; auto. constructor.
      * inversion E2; subst. destruct (IH _ HK) as (l1 & l2 & -> & H1 & H2). exists (z :: l1), l2. repeat split; auto. constructor; auto.
    + destruct (IH _ HK) as (l1 & l2 & -> & H1 & H2). exists (x :: l1), l2. repeat split; auto. apply Keeps_no; auto.
Qed.
Lemma Keeps_inv_cons {A} (P : A -> Prop) l x k : Keeps P l (x :: k) -> exists l1 l2, l = l1 ++ x :: l2 /\ Keeps P l1 [] /\ Keeps P l2 k /\ P x.
Proof.
  induction l as [|y l IH]; intros H; inversion H; subst.
  - exists [], l. repeat split; auto. constructor.
  - destruct IH as (l1 & l2 & -> & Q1 & Q2 & Q3); auto. exists (y :: l1), l2. repeat split; auto. apply Keeps_no; auto.
Qed.


Section Again2.
  Context (E : env) (known : list hid) (Hk : incl all_hids known).

  Lemma last_raw_ok n s sc : at_least_one n -> dget n (scans s) = Some sc -> last_raw (KStr n) s = Ok (s_raw sc).
  Proof.
    intros (x & Hx & H1 & H2) Hg. unfold last_raw. rewrite (C09_lemma (KStr n) x s) by auto. cbn [bind key_str]. rewrite Hg. auto.
  Qed.
  Lemma has_match part s : existsb (fun kv => seqb (strip (s_raw (snd kv))) (strip part)) (scans s) = true <->
    In (strip part) (map strip (raws (vs s))).
  Proof.
    rewrite existsb_exists. unfold vs, raws. rewrite raw_vd. unfold values. rewrite !map_map, in_map_iff.
    split; intros (kv & H1 & H2); exists kv; [apply seqb_eq in H2|]; split; auto. apply seqb_eq; auto.
  Qed.

  (** one section, when a last scan is known *)
  Lemma block_again b s s' n r : good_sec b -> inv s -> last_scan s = Some (KStr n) -> at_least_one n ->
    option_map s_raw (dget n (scans s)) = Some r -> read_block E known b s = (s', None) ->
    inv s' /\
    ((~ scan_section b /\ vs s' = vs s /\ last_scan s' = last_scan s) \/
     (scan_section b /\ In (strip b) (map strip (raws (vs s))) /\ r <> b /\ vs s' = vs s /\ last_scan s' = last_scan s) \/
     (scan_section b /\ (~ In (strip b) (map strip (raws (vs s))) \/ r = b) /\
      ((beginning b = beginning r /\ last_scan s' = None /\
         exists n0 m i, num_on b n0 /\ named (keys (ddel n (vs s))) n0 m /\ i_raw i = b /\ vs s' = ddel n (vs s) ++ [(m, i)]) \/
       (beginning b <> beginning r /\ last_scan s' = last_scan s /\
         exists n0 m i, num_on b n0 /\ named (keys (vs s)) n0 m /\ i_raw i = b /\ vs s' = vs s ++ [(m, i)])))).
  Proof.
    intros Hg I Hl Hn Hr H. pose proof (read_block_vh E known b s s' None H) as [_ I']. split; [auto|].
    destruct (read_block_cases E known Hk b s Hg) as (h & t & Hb & Hh & Hfh & FL & Hb0 & C).
    destruct C as [[e C]|[(rest & Hre & C)|[(rest & Hre & C)|(rest & Hre & C)]]]; rewrite C in H; clear C.
    - discriminate.
    - left. injection H as <-. destruct (process_file_view b s) as (S1 & S2 & S3 & S4). unfold vs. rewrite S1.
      split; [|auto]. eapply (scan_not_other b (L "#F")); [|discriminate]. subst b. apply (fw_hash (L "#F") rest h t); simpl; auto.
    - left. apply process_epoch_spec in H. destruct H as (S1 & S2 & S3 & S4). unfold vs. rewrite S1.
      split; [|auto]. eapply (scan_not_other b (L "#E")); [|discriminate]. subst b. apply (fw_hash (L "#E") rest h t); simpl; auto.
    - right. assert (SS : scan_section b). { subst b. apply (fw_hash (L "#S") rest h t); simpl; auto. }
      unfold process_scan in H. set (s1 := match headers s with [] => _ | _ => s end) in H.
      assert (Hs1 : scans s1 = scans s /\ last_scan s1 = last_scan s).
      { unfold s1. destruct (headers s) as [|h0 hs] eqn:Eh; repeat split. }
      destruct Hs1 as (V1 & V3). clearbody s1. rewrite V3, Hl in H.
      destruct (dget n (scans s)) as [sc|] eqn:Eg; [|discriminate]. simpl in Hr. inversion Hr; subst r; clear Hr.
      assert (LR : last_raw (KStr n) s1 = Ok (s_raw sc)) by (apply last_raw_ok; auto; rewrite V1; auto).
      rewrite LR in H. cbn [bind] in H. rewrite V1 in H.
      destruct (existsb _ (scans s)) eqn:Em.
      + apply has_match in Em. destruct (seqb (s_raw sc) b) eqn:Es; cbn [negb] in H.
        * apply seqb_eq in Es. right. split; [auto|]. split; [auto|].
          rewrite Es in H. rewrite seqb_refl in H. assert (Hh2 : has n (scans s) = true) by (unfold has; rewrite Eg; auto). rewrite Hh2 in H.
          left. split; [congruence|].
          destruct (store_scan_spec b (List.length (headers s1) - 1) (set_last None (set_scans (ddel n (scans s)) s1)))
            as (s2 & r & Hst & [(-> & l & n0 & tl & m & sc2 & Fl & Hw & Hnm & Hs2 & Hsc)|(-> & _)]); rewrite Hst in H; [|discriminate].
          assert (I2 : inv s2).
          { subst s2. apply inv_snoc; [rewrite <- V1; apply inv_ddel; unfold inv in *; rewrite V1; auto| |subst sc2; reflexivity]. eapply named_fresh; eauto. }
          apply date_scan_view in H; [|apply I2]. destruct H as [(D1 & D2 & D3) D4].
          split; [rewrite D3; subst s2; reflexivity|]. exists n0, m, (info sc2). split; [exists l, tl; auto|].
          cbn [scans set_last set_scans] in Hnm. unfold vs. rewrite <- vd_ddel. rewrite keys_vd. split; [auto|].
          split; [subst sc2; auto|]. change (vd (scans s')) with (vs s'). rewrite D1. subst s2. unfold vs; simpl. rewrite vd_app. reflexivity.
        * left. split; [auto|]. split; [auto|]. split; [intros Q; rewrite Q, seqb_refl in Es; discriminate|].
          apply date_scan_view in H; [|unfold inv in I; rewrite V1; apply I]. destruct H as [(D1 & D2 & D3) D4].
          split; [|congruence]. rewrite D1. unfold vs. rewrite V1. auto.
      + right. split; [auto|]. assert (Nm : ~ In (strip b) (map strip (raws (vs s)))).
        { intros Q. apply has_match in Q. congruence. }
        split; [auto|]. destruct (seqb (beginning b) (beginning (s_raw sc))) eqn:Eb.
        * left. apply seqb_eq in Eb. split; [auto|]. assert (Hh2 : has n (scans s) = true) by (unfold has; rewrite Eg; auto). rewrite Hh2 in H.
          destruct (store_scan_spec b (List.length (headers s1) - 1) (set_last None (set_scans (ddel n (scans s)) s1)))
            as (s2 & r & Hst & [(-> & l & n0 & tl & m & sc2 & Fl & Hw & Hnm & Hs2 & Hsc)|(-> & _)]); rewrite Hst in H; [|discriminate].
          assert (I2 : inv s2).
          { subst s2. apply inv_snoc; [rewrite <- V1; apply inv_ddel; unfold inv in *; rewrite V1; auto| |subst sc2; reflexivity]. eapply named_fresh; eauto. }
          apply date_scan_view in H; [|apply I2]. destruct H as [(D1 & D2 & D3) D4].
          split; [rewrite D3; subst s2; reflexivity|]. exists n0, m, (info sc2). split; [exists l, tl; auto|].
          cbn [scans set_last set_scans] in Hnm. unfold vs. rewrite <- vd_ddel. rewrite keys_vd. split; [auto|].
          split; [subst sc2; auto|]. change (vd (scans s')) with (vs s'). rewrite D1. subst s2. unfold vs; simpl. rewrite vd_app. reflexivity.
        * right. split; [intros Q; apply seqb_neq in Eb; auto|].
          destruct (store_scan_spec b (List.length (headers s1) - 1) s1)
            as (s2 & r & Hst & [(-> & l & n0 & tl & m & sc2 & Fl & Hw & Hnm & Hs2 & Hsc)|(-> & _)]); rewrite Hst in H; [|discriminate].
          assert (I2 : inv s2).
          { subst s2. apply inv_snoc; [unfold inv in *; rewrite V1; auto| |subst sc2; reflexivity]. eapply named_fresh; eauto. }
          apply date_scan_view in H; [|apply I2]. destruct H as [(D1 & D2 & D3) D4].
          split; [rewrite D3; subst s2; simpl; congruence|]. exists n0, m, (info sc2). split; [exists l, tl; auto|].
          unfold vs. rewrite keys_vd, <- V1. split; [auto|].
          split; [subst sc2; auto|]. change (vd (scans s')) with (vs s'). rewrite D1. subst s2. unfold vs; simpl. rewrite vd_app. reflexivity.
  Qed.

  Lemma read_blocks_app a b s : read_blocks E known (a ++ b) s =
    match read_blocks E known a s with (s', None) => read_blocks E known b s' | (s', Some e) => (s', Some e) end.
  Proof.
    revert s; induction a as [|x a IH]; simpl; intros s; auto. destruct (read_block E known x s) as [s1 [e|]]; auto.
  Qed.
  Definition raw_of n (v : view) : option str := option_map i_raw (dget n v).
  Lemma raw_of_scans n s : raw_of n (vs s) = option_map s_raw (dget n (scans s)).
  Proof. unfold raw_of, vs. rewrite dget_vd. destruct (dget n (scans s)); auto. Qed.

  Lemma phase_skip bs A n r : Forall good_sec bs -> Keeps scan_section bs A -> at_least_one n ->
    forall s s', inv s -> last_scan s = Some (KStr n) -> raw_of n (vs s) = Some r ->
    Forall (fun a => In (strip a) (map strip (raws (vs s))) /\ a <> r) A ->
    read_blocks E known bs s = (s', None) -> inv s' /\ vs s' = vs s /\ last_scan s' = last_scan s.
  Proof.
    intros Hg HK Hn. revert Hg. induction HK as [|b bs A Hb HK IH|b bs A Hb HK IH]; intros Hg s s' I Hl Hr HA H; simpl in H.
    - inversion H; subst; auto.
    - inversion Hg; subst. inversion HA as [|? ? [Q1 Q2] HA2]; subst.
      destruct (read_block E known b s) as [s1 [e|]] eqn:Eb; [discriminate|].
      pose proof Hr as Hr'. rewrite raw_of_scans in Hr'.
      destruct (block_again b s s1 n r) as [I1 [(C & _)|[(_ & _ & _ & V & L1)|(_ & [C|C] & _)]]]; auto; try tauto; [|congruence].
      destruct (IH H3 s1 s' I1) as (I2 & V2 & L2); [congruence|congruence|rewrite V; auto|auto|]. split; [auto|]. split; congruence.
    - inversion Hg; subst. destruct (read_block E known b s) as [s1 [e|]] eqn:Eb; [discriminate|].
      pose proof Hr as Hr'. rewrite raw_of_scans in Hr'.
      destruct (block_again b s s1 n r) as [I1 [(_ & V & L1)|[(C & _)|(C & _)]]]; auto; try tauto.
      destruct (IH H3 s1 s' I1) as (I2 & V2 & L2); [congruence|congruence|rewrite V; auto|auto|]. split; [auto|]. split; congruence.
  Qed.

  Lemma dget_app_some {V} n (a b : dict V) x : dget n a = Some x -> dget n (a ++ b) = Some x.
  Proof. induction a as [|[k v] a IH]; simpl; [discriminate|]. destruct (seqb n k); auto. Qed.
  Lemma phase_append bs N n r : Forall good_sec bs -> Keeps scan_section bs N -> at_least_one n ->
    forall s s', inv s -> filed (vs s) -> last_scan s = Some (KStr n) -> raw_of n (vs s) = Some r ->
    Forall (fun x => ~ In (strip x) (map strip (raws (vs s))) /\ beginning x <> beginning r) N -> NoDup (map strip N) ->
    read_blocks E known bs s = (s', None) ->
    inv s' /\ filed (vs s') /\ exists w, vs s' = vs s ++ w /\ raws w = N.
  Proof.
    intros Hg HK Hn. revert Hg. induction HK as [|b bs N Hb HK IH|b bs N Hb HK IH]; intros Hg s s' I F Hl Hr HA HD H; simpl in H.
    - inversion H; subst; split; auto. split; auto. exists []. rewrite app_nil_r; auto.
    - inversion Hg as [|? ? Hg1 Hg2]; subst. inversion HA as [|? ? [Q1 Q2] HA2]; subst.
      destruct (read_block E known b s) as [s1 [e|]] eqn:Eb; [discriminate|].
      pose proof Hr as Hr'. rewrite raw_of_scans in Hr'.
      destruct (block_again b s s1 n r) as [I1 [(C & _)|[(_ & C & _)|(_ & C & [(D & _)|(_ & L1 & n0 & m & i & N1 & N2 & R1 & V)])]]]; auto; try tauto.
      inversion HD as [|? ? HD1 HD2]; subst.
      destruct (IH Hg2 s1 s' I1) as (I2 & F2 & w & V2 & R2).
      + rewrite V. eapply filed_snoc; eauto.
      + congruence.
      + rewrite V. unfold raw_of in *. destruct (dget n (vs s)) as [x|] eqn:Ex; [|discriminate]. rewrite (dget_app_some n _ _ x Ex). auto.
      + rewrite Forall_forall in *. intros x Hx. destruct (HA2 x Hx) as [X1 X2]. split; auto. rewrite V. unfold raws. rewrite map_app, map_app.
        intros Q. apply in_app_or in Q. destruct Q as [Q|[Q|[]]]; [apply X1; exact Q|]. apply HD1. simpl in Q. rewrite Q. apply in_map; auto.
      + auto.
      + auto.
      + split; auto. split; auto. exists ((m, i) :: w). rewrite V2, V, <- app_assoc. split; [reflexivity|]. simpl. f_equal. auto.
    - inversion Hg as [|? ? Hg1 Hg2]; subst. destruct (read_block E known b s) as [s1 [e|]] eqn:Eb; [discriminate|].
      pose proof Hr as Hr'. rewrite raw_of_scans in Hr'.
      destruct (block_again b s s1 n r) as [I1 [(_ & V & L1)|[(C & _)|(C & _)]]]; auto; try tauto.
      destruct (IH Hg2 s1 s' I1) as (I2 & F2 & w & V2 & R2); try congruence; try (rewrite V; auto; fail).
      split; auto. split; auto. exists w. rewrite V2, V. auto.
  Qed.

  Lemma phase_free bs N s s' : Forall good_sec bs -> Keeps scan_section bs N -> inv s -> filed (vs s) -> last_scan s = None ->
    read_blocks E known bs s = (s', None) -> inv s' /\ filed (vs s') /\ exists w, vs s' = vs s ++ w /\ raws w = N.
  Proof.
    intros Hg HK I F Hl H. destruct (blocks_first E known Hk bs s s' Hg Hl I H) as (_ & I' & _ & B).
    split; auto. split; [eapply blocks_filed; eauto|]. destruct (blocks_app_view _ _ _ _ _ B) as [w Hw]. exists w. split; auto.
    apply blocks_raws in B. destruct B as (k & B1 & B2). rewrite Hw in B1. unfold raws in B1 |- *. rewrite map_app in B1. apply app_inv_head in B1.
    rewrite B1. eapply Keeps_fun; eauto.
  Qed.

  Lemma ddel_last {V} n (v : dict V) x : ~ In n (keys v) -> ddel n (v ++ [(n, x)]) = v.
  Proof.
    induction v as [|[k y] v IH]; simpl; intros H; [rewrite seqb_refl; auto|]. destruct (seqb n k) eqn:Q.
    - apply seqb_eq in Q. subst. tauto.
    - rewrite IH; auto.
  Qed.
  Lemma dget_last {V} n (v : dict V) x : ~ In n (keys v) -> dget n (v ++ [(n, x)]) = Some x.
  Proof.
    induction v as [|[k y] v IH]; simpl; intros H; [rewrite seqb_refl; auto|]. destruct (seqb n k) eqn:Q.
    - apply seqb_eq in Q. subst. tauto.
    - auto.
  Qed.

  Definition grown (A : list str) (l l' : str) (N : list str) : Prop :=
    l' = l \/
    (strip l' = strip l /\ NoDup (map strip N) /\
     Forall (fun x => ~ In (strip x) (map strip (A ++ [l])) /\ beginning x <> beginning l) N) \/
    (~ In (strip l') (map strip (A ++ [l])) /\ beginning l' = beginning l /\ exists n0, num_on l' n0 /\ num_on l n0).

  Lemma again_lemma secs s s' v0 n i A A' l l' N : inv s -> filed (vs s) -> vs s = v0 ++ [(n, i)] -> raws v0 = A -> i_raw i = l ->
    last_scan s = Some (KStr n) -> at_least_one n -> map strip A' = map strip A -> ~ In l A' ->
    Forall good_sec secs -> Keeps scan_section secs (A' ++ l' :: N) -> grown A l l' N ->
    read_blocks E known secs s = (s', None) ->
    inv s' /\ filed (vs s') /\ exists w i' l'', vs s' = v0 ++ [(n, i')] ++ w /\ raws w = N /\ i_raw i' = l'' /\
      (l'' = l' \/ (l'' = l /\ strip l' = strip l)).
  Proof.
    intros I F Hv HA Hi Hl Hn Hst Hu Hg HK HG H.
    assert (ND : ~ In n (keys v0)).
    { destruct I as [I _]. rewrite <- keys_vd in I. change (vd (scans s)) with (vs s) in I. rewrite Hv in I. rewrite keys_app in I. simpl in I.
      apply NoDup_remove_2 in I. rewrite app_nil_r in I. auto. }
    assert (Hr : raw_of n (vs s) = Some l). { unfold raw_of. rewrite Hv, dget_last by auto. simpl. congruence. }
    assert (HS : raws (vs s) = A ++ [l]). { rewrite Hv. unfold raws in *. rewrite map_app, HA. simpl. rewrite Hi. auto. }
    destruct (Keeps_inv_app _ _ _ _ HK) as (b1 & b2 & -> & K1 & K2). destruct (Keeps_inv_cons _ _ _ _ K2) as (b3 & b4 & -> & K3 & K4 & Kl).
    apply Forall_app in Hg. destruct Hg as [G1 G2]. apply Forall_app in G2. destruct G2 as [G3 G4]. inversion G4 as [|? ? Gl G5]; subst.
    rewrite read_blocks_app in H. destruct (read_blocks E known b1 s) as [s1 [e|]] eqn:E1; [discriminate|].
    apply (phase_skip b1 A' n (i_raw i)) in E1; auto.
    2:{ apply Forall_forall. intros a Ha. split; [rewrite HS, map_app, <- Hst; apply in_or_app; left; apply in_map; auto|]. intros ->. auto. }
    destruct E1 as (I1 & V1 & L1). rewrite <- V1 in F, Hv, Hr, HS. rewrite read_blocks_app in H.
    destruct (read_blocks E known b3 s1) as [s2 [e|]] eqn:E3; [discriminate|].
    apply (phase_skip b3 [] n (i_raw i)) in E3; auto; [|congruence]. destruct E3 as (I2 & V2 & L2). rewrite <- V2 in F, Hv, Hr, HS.
    cbn [read_blocks] in H. destruct (read_block E known l' s2) as [s3 [e|]] eqn:El; [discriminate|].
    pose proof Hr as Hr'. rewrite raw_of_scans in Hr'.
    apply (block_again l' s2 s3 n (i_raw i)) in El; auto; [|congruence]. destruct El as [I3 C].
    (* the last scan is stored anew *)
    assert (RE : beginning l' = beginning (i_raw i) -> last_scan s3 = None -> (forall n0, num_on l' n0 -> num_on (i_raw i) n0) ->
       (exists n0 m i0, num_on l' n0 /\ named (keys (ddel n (vs s2))) n0 m /\ i_raw i0 = l' /\ vs s3 = ddel n (vs s2) ++ [(m, i0)]) ->
       inv s' /\ filed (vs s') /\ exists w i' l'', vs s' = v0 ++ [(n, i')] ++ w /\ raws w = N /\ i_raw i' = l'' /\
         (l'' = l' \/ (l'' = i_raw i /\ strip l' = strip (i_raw i)))).
    { intros _ L3 FL (n0 & m & i0 & N1 & N2 & R0 & V3). rewrite Hv, ddel_last in N2, V3 by auto.
      destruct (F v0 (n, i) [] Hv) as (n1 & N3 & N4). simpl in N3, N4.
      assert (n1 = n0). { eapply num_on_fun; [exact N3|]. auto. } subst n1.
      assert (m = n) by (eapply named_fun; eauto). subst m.
      destruct (phase_free b4 N s3 s') as (I' & F' & w & Vw & Rw); auto.
      { rewrite V3. eapply filed_snoc; eauto; [apply (filed_app v0 [(n, i)]); rewrite <- Hv; auto|]. simpl. rewrite R0. auto. }
      split; auto. split; auto. exists w, i0, l'. rewrite Vw, V3, <- app_assoc. auto. }
    destruct C as [(C & _)|[(_ & M & Hne & V3 & L3)|(_ & M & [(B & L3 & X)|(B & L3 & X)])]].
    - tauto.
    - (* skipped *)
      destruct HG as [->|[(G1' & G2' & G3')|(G1' & _)]]; [tauto| |rewrite HS in M; tauto].
      assert (PA : inv s' /\ filed (vs s') /\ exists w, vs s' = vs s3 ++ w /\ raws w = N).
      { apply (phase_append b4 N n (i_raw i)); auto; try (rewrite V3; auto; fail); try congruence.
        apply Forall_forall. intros x Hx. rewrite Forall_forall in G3'. rewrite V3, HS. apply G3'. auto. }
      destruct PA as (I' & F' & w & Vw & Rw).
      split; auto. split; auto. exists w, i, (i_raw i). rewrite Vw, V3, Hv, <- app_assoc. auto 6.
    - destruct HG as [->|[(G1' & _)|(G1' & G2' & G3')]]; [apply RE; auto| |apply RE; auto; destruct G3' as (q & Q1 & Q2); intros q' Q'; rewrite (num_on_fun _ _ _ Q' Q1); auto].
      destruct M as [M|M].
      + exfalso. apply M. rewrite HS, map_app. apply in_or_app. right. simpl. auto.
      + apply RE; auto. rewrite M. auto.
    - exfalso. destruct HG as [->|[(G1' & _)|(G1' & G2' & G3')]]; [tauto| |tauto].
      destruct M as [M|M]; [|congruence]. apply M. rewrite HS, map_app. apply in_or_app. right. simpl. auto.
  Qed.
End Again2.
