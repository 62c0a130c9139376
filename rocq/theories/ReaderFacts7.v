(** C16-C19: following a file that grows. *)
From Coq Require Import String Lia Permutation Sorted QArith.
From Verif Require Import Uni Py PyFacts NumFacts Time TimeFacts Utils UtilsFacts Keys Handlers Reader SpecText SpecUtils SpecReader SpecNum SpecHistory SpecLookup
  TextFacts KeyFacts OrderFacts ReaderFacts ReaderFacts2 ReaderFacts3 ReaderFacts4 ReaderFacts5 ReaderFacts6.
Import ListNotations.
Local Open Scope nat_scope.
Local Open Scope list_scope.

(** a text that starts with a visible character *)
Definition headed (t : str) : Prop := exists c x, t = c :: x /\ is_space c = false.
Lemma eol_space c : is_space c = false -> is_eol c = false.
Proof.
  intros H. destruct (is_eol c) eqn:Q; auto. exfalso.
  assert (S : is_space c = true); [|congruence].
  unfold is_eol, is_space, in_ranges, in_range in *. cbn [existsb fst snd] in *.
  rewrite !orb_true_iff, !andb_true_iff, !N.leb_le in *. lia.
Qed.
Lemma Lines_head s ls : Lines py_eol s ls -> (s = [] /\ ls = []) \/
  exists l r ls', s = l ++ r /\ ls = l :: ls' /\ free_of py_eol l /\ (r = [] \/ exists e r', r = e :: r' /\ py_eol e = true).
Proof.
  intros H; inversion H as [|l H1 H2|l t ls' H1 H2|l c t ls' H1 H2 H3 H4]; subst; auto; right.
  - exists s, [], []. rewrite app_nil_r. repeat split; auto.
  - exists l, (CR :: LF :: t), ls'. repeat split; auto. right; do 2 eexists; split; eauto.
  - exists l, (c :: t), ls'. repeat split; auto. right; do 2 eexists; split; eauto.
Qed.
Lemma first_line_head t l : first_line t = Ok l <-> exists r, t = l ++ r /\ t <> [] /\ free_of py_eol l /\ (r = [] \/ exists e r', r = e :: r' /\ py_eol e = true).
Proof.
  unfold first_line. pose proof (proj2 (Lines_splitlines t _) eq_refl) as HL.
  destruct (Lines_head _ _ HL) as [[-> Q]|(l0 & r & ls' & Ht & Hs & Hf & Hr)].
  - rewrite Q. split; [discriminate|]. intros (r & _ & Q1 & _). congruence.
  - rewrite Hs, index_0. assert (Hne : t <> []).
    { intros Q. rewrite Q in Hs. discriminate. }
    split.
    + intros Q; inversion Q; subst l0. exists r. auto.
    + intros (r2 & Ht2 & _ & Hf2 & Hr2). f_equal. rewrite Ht in Ht2. clear - Hf Hf2 Hr Hr2 Ht2. revert l Hf2 Ht2; induction l0 as [|x l0 IH]; intros [|y l] Hf2 Ht2.
      * auto.
      * exfalso. simpl in Ht2. destruct Hr as [->|(e & r' & -> & He)]; [discriminate|]. inversion Ht2; subst. inversion Hf2; subst. congruence.
      * exfalso. simpl in Ht2. destruct Hr2 as [->|(e & r' & -> & He)]; [discriminate|]. inversion Ht2; subst. inversion Hf; subst. congruence.
      * simpl in Ht2. injection Ht2 as <- Ht2. inversion Hf; inversion Hf2; subst. f_equal. apply IH; auto.
Qed.
Lemma app_split_eq {A} (a b c d : list A) : a ++ b = c ++ d -> (exists x, c = a ++ x /\ b = x ++ d) \/ (exists x, a = c ++ x /\ d = x ++ b).
Proof.
  revert c; induction a as [|x a IH]; intros [|y c] H; simpl in H.
  - left; exists []; auto.
  - left; exists (y :: c); auto.
  - right; exists (x :: a); auto.
  - inversion H; subst. destruct (IH _ H2) as [(z & -> & ->)|(z & -> & ->)]; [left|right]; exists z; auto.
Qed.
Lemma first_line_strip t l : headed t -> first_line t = Ok l -> exists l2, first_line (strip t) = Ok l2 /\ strip l = strip l2.
Proof.
  intros (c & x & Ht & Hc) H. destruct (strip_by_split is_space t) as (u & v & Hs & Hu & Hv & Htt). fold (strip t) in *.
  assert (u = []). { destruct u as [|d u]; auto. rewrite Ht in Hs. inversion Hs; subst d. simpl in Hu. rewrite Hc in Hu. discriminate. }
  subst u. simpl in Hs. apply first_line_head in H. destruct H as (r & Hr & Hne & Hf & Hr2).
  assert (Hsn : strip t <> []). { intros Q. rewrite Q in Hs. simpl in Hs. rewrite Ht in Hs. rewrite <- Hs in Hv. simpl in Hv. rewrite Hc in Hv. discriminate. }
  rewrite Hs in Hr at 1. destruct (app_split_eq _ _ _ _ Hr) as [(y & Hl & Hvy)|(y & Hst & Hry)].
  - (* the first line runs into the blanks *)
    exists (strip t). split.
    + apply first_line_head. exists []. rewrite app_nil_r. repeat split; auto. rewrite Hl in Hf. unfold free_of in *. apply Forall_app in Hf. apply Hf.
    + rewrite Hl. rewrite Hvy, forallb_app in Hv. apply andb_true_iff in Hv.
      pose proof (strip_by_tight is_space [] (strip t) y eq_refl (proj1 Hv) Htt) as Q. simpl in Q. unfold strip at 1. rewrite Q.
      symmetry. apply strip_by_id. auto.
  - exists l. split; auto. apply first_line_head. exists y. repeat split; auto.
    destruct y as [|e y]; auto. right. exists e, y. split; auto.
    destruct Hr2 as [Q|(e' & r' & Q & He)]; rewrite Hry in Q; [discriminate|]. injection Q as <- _. auto.
Qed.
Lemma num_on_strip t n : headed t -> num_on t n -> num_on (strip t) n.
Proof.
  intros Hh (l & ws & H1 & H2). destruct (first_line_strip _ _ Hh H1) as (l2 & H3 & H4). exists l2, ws. split; auto. congruence.
Qed.
Lemma headed_line t : headed t -> exists l, first_line t = Ok l.
Proof.
  intros (c & x & -> & Hc). unfold first_line. pose proof (proj2 (Lines_splitlines (c :: x) _) eq_refl) as HL.
  destruct (Lines_head _ _ HL) as [[Q _]|(l0 & r & ls' & Ht & Hs & _)]; [discriminate|]. rewrite Hs, index_0. eauto.
Qed.
Lemma num_on_same a b n : headed a -> headed b -> strip a = strip b -> num_on a n -> num_on b n.
Proof.
  intros Ha Hb Hs H. apply num_on_strip in H; auto. rewrite Hs in H. destruct (headed_line b Hb) as [l Hl].
  destruct (first_line_strip b l Hb Hl) as (l2 & H3 & H4). destruct H as (l3 & ws & H5 & H6).
  exists l, ws. split; auto. rewrite H3 in H5. inversion H5; subst. congruence.
Qed.

Definition s_headed (b : str) : Prop := exists rest, b = L "#S" ++ SP :: rest.
Lemma s_headed_headed b : s_headed b -> headed b.
Proof. intros [rest ->]. simpl. do 2 eexists; split; reflexivity. Qed.
Lemma scan_number_num b n : s_headed b -> scan_number b n -> num_on b n.
Proof.
  intros [rest Hr] (l & ls & HL & HS). apply Lines_splitlines in HL.
  assert (HF : first_line b = Ok l) by (unfold first_line; rewrite <- HL, index_0; auto).
  apply second_words in HS. destruct HS as (w & ws & HS).
  assert (exists rest', l = L "#S" ++ SP :: rest').
  { apply first_line_head in HF. destruct HF as (r & Hbr & _ & Hfr & Hrr). rewrite Hr in Hbr.
    destruct l as [|c1 [|c2 [|c3 l]]]; simpl in HS; [discriminate| | |].
    - simpl in Hbr. exfalso. destruct Hrr as [->|(e & r' & -> & He)]; [discriminate|]. inversion Hbr; subst. discriminate.
    - simpl in Hbr. exfalso. destruct Hrr as [->|(e & r' & -> & He)]; [discriminate|]. inversion Hbr; subst. discriminate.
    - simpl in Hbr. inversion Hbr; subst. exists l. reflexivity. }
  destruct H as [rest' ->]. exists (L "#S" ++ SP :: rest'), ws. split; auto.
  assert (W : words (L "#S" ++ SP :: rest') = L "#S" :: words rest') by (apply words_word_space; try reflexivity; discriminate).
  rewrite W in HS. inversion HS as [[Hw0 Hr0]].
  rewrite strip_first_word_words; [congruence|reflexivity|discriminate|rewrite Hr0; discriminate| |reflexivity].
  simpl. intros [Q|[Q|[]]]; discriminate.
Qed.

Section Follow.
  Context (E : env) (known : list hid) (Hk : incl all_hids known).

  Definition hash_space (b : str) : Prop := exists w rest, b = w ++ SP :: rest /\ In w [L "#F"; L "#E"; L "#S"].
  Lemma block_hash b s s' : good_sec b -> read_block E known b s = (s', None) -> hash_space b.
  Proof.
    intros Hg H. destruct (read_block_cases E known Hk b s Hg) as (h & t & Hb & Hh & Hfh & FL & Hb0 & C).
    destruct C as [[e C]|C]; [rewrite C in H; discriminate|].
    assert (exists w rest, h = w ++ SP :: rest /\ In w [L "#F"; L "#E"; L "#S"]).
    { destruct C as [(rest & Hr & _)|[(rest & Hr & _)|(rest & Hr & _)]]; [exists (L "#F"), rest|exists (L "#E"), rest|exists (L "#S"), rest]; split; auto; cbn [In]; auto. }
    destruct H0 as (w & rest & -> & Hw). rewrite join_cons in Hb.
    exists w, (rest ++ match t with [] => [] | _ => [LF] ++ join [LF] t end). split; auto. rewrite Hb, <- app_assoc. reflexivity.
  Qed.
  Lemma blocks_hash bs s s' : Forall good_sec bs -> read_blocks E known bs s = (s', None) -> Forall hash_space bs.
  Proof.
    revert s; induction bs as [|b bs IH]; simpl; intros s Hg H; [constructor|]. inversion Hg; subst.
    destruct (read_block E known b s) as [s1 [e|]] eqn:Eb; [discriminate|]. constructor; eauto. eapply block_hash; eauto.
  Qed.
  Lemma hash_headed b : hash_space b -> headed b.
  Proof. intros (w & rest & -> & Hw). cbn [In] in Hw. destruct Hw as [<-|[<-|[<-|[]]]]; simpl; do 2 eexists; split; reflexivity. Qed.
  Lemma hash_scan b : hash_space b -> scan_section b -> s_headed b.
  Proof.
    intros (w & rest & -> & Hw) Hs. exists rest. apply first_word_words in Hs. destruct Hs as [ws Hs].
    rewrite words_word_space in Hs; cbn [In] in Hw; destruct Hw as [<-|[<-|[<-|[]]]]; try reflexivity; try discriminate; inversion Hs.
  Qed.

  (* openings *)
  Definition open_of (t : str) : list str := List.filter (prefixb (L "#")) (firstn 5 (splitlines (strip t))).
  Lemma opening_of t o : opening t o <-> o = open_of t.
  Proof.
    unfold opening, open_of. split.
    - intros (c & ls & (u & v & Ht & Hu & Hv) & H1 & H2 & H3 & H4).
      assert (Hs : strip t = c).
      { rewrite Ht. apply strip_by_tight; try (apply blank_forallb; auto; fail). split.
        - destruct c as [|x c]; auto. destruct (is_space x) eqn:Q; auto. specialize (H1 [x] c eq_refl). discriminate H1. constructor; auto. 
        - destruct (rev c) as [|x r] eqn:Er; auto. destruct (is_space x) eqn:Q; auto.
          assert (Hc : c = rev r ++ [x]) by (rewrite <- (rev_involutive c), Er; auto).
          specialize (H2 _ _ Hc). discriminate H2. constructor; auto. }
      rewrite Hs. apply Lines_splitlines in H3. rewrite <- H3. eapply Keeps_fun; [exact H4|]. apply Keeps_filter.
      intros x. symmetry. apply starts_with_prefixb.
    - intros ->. destruct (strip_by_split is_space t) as (u & v & Hs & Hu & Hv & [Ht1 Ht2]). fold (strip t) in *.
      exists (strip t), (splitlines (strip t)). split; [exists u, v; repeat split; auto; apply blank_forallb; auto|].
      split; [|split; [|split]].
      + intros x y Hxy Hx. destruct x as [|a x]; auto. rewrite Hxy in Ht1. simpl in Ht1. inversion Hx; subst. congruence.
      + intros x y Hxy Hx. destruct y as [|y a _] using rev_ind; auto. rewrite Hxy in Ht2. rewrite app_assoc, rev_unit in Ht2.
        apply Forall_app in Hx. destruct Hx as [_ Hx]. inversion Hx; subst. congruence.
      + apply Lines_splitlines. auto.
      + apply Keeps_filter. intros x. symmetry. apply starts_with_prefixb.
  Qed.
  Lemma same_opening_beginning a b : same_opening a b <-> beginning a = beginning b.
  Proof.
    unfold same_opening. split.
    - intros (o & H1 & H2). apply opening_of in H1. apply opening_of in H2. unfold beginning. change (join [LF] (open_of a) = join [LF] (open_of b)). congruence.
    - intros H. exists (open_of a). rewrite !opening_of. split; auto.
      change (join [LF] (open_of a) = join [LF] (open_of b)) in H.
      assert (P : forall t, Forall (fun l => ~ In LF l /\ l <> []) (open_of t)).
      { intros t. apply Forall_forall. intros x Hx. apply filter_In in Hx. destruct Hx as [Hx1 Hx2].
        assert (Hx : In x (splitlines (strip t))). { rewrite <- (firstn_skipn 5). apply in_or_app; auto. }
        pose proof (splitlines_free (strip t)) as F. rewrite Forall_forall in F. apply F in Hx. split; [apply free_eol_LF; auto|].
        intros ->. discriminate. }
      pose proof (P a) as Pa. pose proof (P b) as Pb. remember (open_of a) as x. remember (open_of b) as y. clear - H Pa Pb.
      assert (Q : forall l, Forall (fun l => ~ In LF l /\ l <> []) l -> l = [] \/ (join [LF] l <> [] /\ split_c LF (join [LF] l) = l)).
      { intros l Hl. destruct l as [|h t]; auto. right. split.
        - rewrite join_cons. inversion Hl as [|? ? [_ Q] _]; subst. destruct h; [congruence|discriminate].
        - apply split_join; [discriminate|]. eapply Forall_impl; [|exact Hl]. simpl; tauto. }
      destruct (Q x Pa) as [->|[X1 X2]], (Q y Pb) as [->|[Y1 Y2]]; simpl in *; congruence.
  Qed.
  Lemma same_beginning_strip a b : strip a = strip b -> beginning a = beginning b.
  Proof. unfold beginning. intros ->. auto. Qed.

  Definition texts (s : sdf) : list str := map s_raw (values (scans s)).
  Lemma texts_raws s : texts s = raws (vs s).
  Proof. unfold texts, raws, vs. rewrite raw_vd. auto. Qed.
  Lemma Forall2_same a b : Forall2 same_text a b <-> map strip a = map strip b.
  Proof.
    revert b; induction a as [|x a IH]; intros [|y b]; simpl; split; intros H; try (inversion H; fail); try constructor; auto.
    - inversion H; subst. apply same_text_strip in H3. apply IH in H5. congruence.
    - inversion H. apply same_text_strip; auto.
    - inversion H. apply IH; auto.
  Qed.
  Lemma not_same_In x l : Forall (fun a => ~ same_text x a) l <-> ~ In (strip x) (map strip l).
  Proof.
    rewrite Forall_forall, in_map_iff. split.
    - intros H (a & Ha & Hin). apply (H a Hin). apply same_text_strip. auto.
    - intros H a Hin Q. apply H. exists a. split; auto. apply same_text_strip in Q. auto.
  Qed.

  (** what is known of a file object that follows its file *)
  Definition on_track (T : list str) (s : sdf) : Prop :=
    inv s /\ filed (vs s) /\ map strip (texts s) = map strip T /\ Forall s_headed T /\ Forall s_headed (texts s).

  Lemma map_eq_app {A B} (f : A -> B) l a b : map f l = a ++ b -> exists x y, l = x ++ y /\ map f x = a /\ map f y = b.
  Proof.
    revert a; induction l as [|h l IH]; intros [|c a] H; simpl in H.
    - exists [], []; auto.
    - discriminate.
    - exists [], (h :: l). auto.
    - inversion H. destruct (IH _ H2) as (x & y & -> & <- & <-). exists (h :: x), y. subst; auto.
  Qed.
  Lemma grow_lemma T T' s p secs s' : on_track T s -> dissect p = Ok secs -> Keeps scan_section secs T' -> grows s T T' ->
    read E known p s = (s', None) ->
    on_track T' s' /\ exists ks, keys (scans s') = keys (scans s) ++ ks.
  Proof.
    intros (I & F & HT & Hh & Hh2) Hd HK (A & A' & l & l' & N & ks & n & -> & -> & HA & Hl & Hks & Hls & Hn & HG) H.
    apply read_shape in H. destruct H as [(e & H & _)|(secs' & s1 & r1 & Hs & Hb & Hsc & _ & _ & Hr)]; [congruence|].
    destruct (Hr eq_refl) as [-> _]. assert (secs' = secs) by congruence. subst secs'. clear Hr.
    pose proof (dissect_good _ _ Hd) as Hg. pose proof (blocks_hash _ _ _ Hg Hb) as Hhs.
    assert (Vv : vs s' = vs s1) by (unfold vs; rewrite Hsc; auto).
    (* the shape of the view *)
    assert (HV : exists v0 i, vs s = v0 ++ [(n, i)]).
    { unfold vs. rewrite <- keys_vd in Hks. fold (vs s) in *. unfold keys in Hks. apply map_eq_app in Hks. destruct Hks as (x & y & Hx & _ & Hy).
      destruct y as [|[n' i] [|? ?]]; try discriminate. inversion Hy; subst n'. eauto. }
    destruct HV as (v0 & i & HV).
    assert (HTv : map strip (raws v0) = map strip A /\ strip (i_raw i) = strip l).
    { rewrite texts_raws, HV in HT. unfold raws in HT. rewrite !map_app in HT. simpl in HT. apply app_inj_tail in HT. unfold raws. auto. }
    destruct HTv as [HT1 HT2].
    assert (HhT' : Forall s_headed (A' ++ l' :: N)).
    { apply Forall_forall. intros x Hx. apply Keeps_incl in HK. destruct HK as [HK HK2]. rewrite Forall_forall in Hhs, HK2. apply hash_scan; auto. }
    assert (Hhr : s_headed (i_raw i)).
    { rewrite texts_raws, HV in Hh2. unfold raws in Hh2. rewrite map_app in Hh2. apply Forall_app in Hh2. destruct Hh2 as [_ Q]. inversion Q; auto. }
    assert (Hhv : Forall s_headed (raws v0)).
    { rewrite texts_raws, HV in Hh2. unfold raws in *. rewrite map_app in Hh2. apply Forall_app in Hh2. tauto. }
    assert (Hhl : s_headed l) by (apply Forall_app in Hh; destruct Hh as [_ Q]; inversion Q; auto).
    assert (Hhl' : s_headed l' /\ Forall s_headed N) by (apply Forall_app in HhT'; destruct HhT' as [_ Q]; inversion Q; auto).
    destruct Hhl' as [Hhl' HhN].
    assert (Hst : map strip (raws v0 ++ [i_raw i]) = map strip (A ++ [l])) by (rewrite !map_app, HT1; simpl; congruence).
    apply Forall2_same in HA.
    assert (HnI : ~ In (i_raw i) A').
    { intros Q. apply (in_map strip) in Q. rewrite HA, HT2, in_map_iff in Q. destruct Q as (a & Ha & Hin). rewrite Forall_forall in Hl. apply (Hl a Hin).
      apply same_text_strip; auto. }
    destruct (again_lemma E known Hk secs s s1 v0 n i (raws v0) A' (i_raw i) l' N) as (I1 & F1 & w & i' & l'' & Vw & Rw & Ri & Cl); auto.
    - congruence.
    - destruct HG as [(G1 & G2 & G3)|(G1 & G2 & q & G3 & G4)].
      + right. left. split; [apply same_text_strip in G1; congruence|]. split; [apply distinct_texts; auto|].
        eapply Forall_impl; [|exact G3]. intros x [X1 X2]. rewrite Hst. split; [apply not_same_In; auto|].
        intros Q. apply X2. apply same_opening_beginning. rewrite Q. apply same_beginning_strip. auto.
      + right. right. rewrite Hst. split; [apply not_same_In; auto|]. split.
        * apply same_opening_beginning in G2. rewrite G2. symmetry. apply same_beginning_strip. auto.
        * exists q. split; [apply scan_number_num; auto|].
          apply (num_on_same l); auto using s_headed_headed. apply scan_number_num; auto.
    - assert (Cl2 : strip l'' = strip l' /\ s_headed l'') by (destruct Cl as [->|[-> Q]]; auto).
      destruct Cl2 as [Cl1 Cl2].
      assert (Hraw : raws (vs s') = raws v0 ++ l'' :: N).
      { rewrite Vv, Vw. unfold raws in *. rewrite map_app. simpl. rewrite Ri, Rw. auto. }
      split.
      + split; [eapply inv_view; [exact Vv|auto]|]. split; [rewrite Vv; auto|]. rewrite texts_raws, Hraw. split.
        * rewrite !map_app, HT1, HA. simpl. congruence.
        * split; auto. apply Forall_app. split; auto.
      + exists (keys w). rewrite <- keys_vd. change (vd (scans s')) with (vs s'). rewrite <- (keys_vd (scans s)). change (vd (scans s)) with (vs s).
        rewrite Vv, Vw, HV. unfold keys. rewrite !map_app, <- app_assoc. reflexivity.
  Qed.

  Lemma open_track name p s secs T : open_file E known name p = Ok s -> dissect p = Ok secs -> Keeps scan_section secs T -> on_track T s.
  Proof.
    intros H Hd HK. destruct (open_first E known Hk name p s H) as (secs' & Hd' & _ & I & _ & B).
    assert (secs' = secs) by congruence. subst secs'.
    assert (HT : texts s = T).
    { rewrite texts_raws. apply blocks_raws in B. destruct B as (k & B1 & B2). rewrite B1. simpl. eapply Keeps_fun; eauto. }
    assert (Hh : Forall s_headed T).
    { unfold open_file in H. destruct (negb (exists_p p)); [discriminate|]. destruct (negb (is_spec_file p)); [discriminate|].
      destruct (read E known p (sdf_init name)) as [s0 [e|]] eqn:Er; [discriminate|]. inversion H; subst s0.
      apply read_shape in Er. destruct Er as [(e & Q & _)|(secs' & s1 & r1 & Hs & Hb & _ & _ & _ & Hr)]; [congruence|].
      destruct (Hr eq_refl) as [-> _]. assert (secs' = secs) by congruence. subst secs'.
      pose proof (blocks_hash _ _ _ (dissect_good _ _ Hd) Hb) as Hhs. destruct (Keeps_incl _ _ _ HK) as [Q1 Q2].
      rewrite Forall_forall in *. intros x Hx. apply hash_scan; auto. }
    split; auto. split; [eapply blocks_filed; [exact B|apply filed_nil]|]. rewrite HT. auto.
  Qed.
  Lemma uses_view s s' : uses E known s s' -> vs s' = vs s /\ vh s' = vh s /\ last_scan s' = last_scan s.
  Proof.
    intros H; induction H as [s|name s s' H (I1 & I2 & I3)|nm a name s s' H (I1 & I2 & I3)]; auto.
    - destruct (interpret E known name s') as [s2 r] eqn:Ei. apply interpret_view in Ei. destruct Ei as (V1 & V2 & V3). simpl. repeat split; congruence.
    - destruct (get_attr E known nm a name s') as [s2 r] eqn:Ei. apply get_attr_view in Ei. destruct Ei as (V1 & V2 & V3). simpl. repeat split; congruence.
  Qed.
  Lemma on_track_view T s s' : vs s' = vs s -> on_track T s -> on_track T s'.
  Proof.
    intros V (I & F & HT & H1 & H2). split; [eapply inv_view; eauto|]. rewrite texts_raws, V. rewrite texts_raws in *. auto.
  Qed.
  Lemma refresh_read p s s' k : refresh E known p s = (s', Ok (Some k)) -> read E known p s = (s', None).
  Proof.
    unfold refresh. destruct (update_available p s) as [[|]|]; try discriminate. destruct (read E known p s) as [s1 [e|]]; try discriminate. intros H; inversion H; auto.
  Qed.
  Lemma follow_lemma T s : follows E known T s -> on_track T s.
  Proof.
    intros H; induction H as [name p s secs T Ho Hd HK|T s s' H IH Hu|T s p secs T' s' H IH Hd HK HG Hr|T s p s' H IH Hr Hl|T s p secs T' s' k H IH Hd HK HG Hr].
    - eapply open_track; eauto.
    - eapply on_track_view; [|exact IH]. apply uses_view in Hu. tauto.
    - eapply grow_lemma; eauto.
    - unfold refresh in Hr. destruct (update_available p s) as [[|]|]; try discriminate; [|inversion Hr; subst; auto].
      destruct (read E known p s) as [s1 [e|]]; inversion Hr. congruence.
    - apply refresh_read in Hr. eapply grow_lemma; eauto.
  Qed.
  Lemma C16_lemma T s : follows E known T s ->
    Forall2 same_text (map s_raw (values (scans s))) T /\ NoDup (keys (scans s)) /\ map s_num (values (scans s)) = keys (scans s).
  Proof.
    intros H. apply follow_lemma in H. destruct H as ([I1 I2] & F & HT & _). split; [apply Forall2_same; auto|]. auto.
  Qed.
  Lemma C16_step T T' s p secs s' k : follows E known T s -> dissect p = Ok secs -> Keeps scan_section secs T' -> grows s T T' ->
    (read E known p s = (s', None) \/ refresh E known p s = (s', Ok (Some k))) ->
    exists new, keys (scans s') = keys (scans s) ++ new /\ Forall2 same_text (map s_raw (values (scans s'))) T'.
  Proof.
    intros H Hd HK HG Hr. apply follow_lemma in H.
    assert (Hr' : read E known p s = (s', None)) by (destruct Hr as [Hr|Hr]; auto; eapply refresh_read; eauto).
    destruct (grow_lemma T T' s p secs s' H Hd HK HG Hr') as [(I & F & HT & _) [ks Hks]]. exists ks. split; auto. apply Forall2_same; auto.
  Qed.

  (* ---------------------------------------------------------------- *)
  (** a longer text opens alike if the old one has five lines *)
  Lemma tight_of c : (forall x y, c = x ++ y -> blank x -> x = []) -> (forall x y, c = x ++ y -> blank y -> y = []) -> tight_by is_space c.
  Proof.
    intros H1 H2. split.
    - destruct c as [|x c]; auto. destruct (is_space x) eqn:Q; auto. specialize (H1 [x] c eq_refl). discriminate H1. constructor; auto.
    - destruct (rev c) as [|x r] eqn:Er; auto. destruct (is_space x) eqn:Q; auto.
      assert (Hc : c = rev r ++ [x]) by (rewrite <- (rev_involutive c), Er; auto).
      specialize (H2 _ _ Hc). discriminate H2. constructor; auto.
  Qed.
  Lemma splitlines_snoc a b : a <> [] -> (match rev a with [] => True | c :: _ => is_space c = false end) -> splitlines (a ++ LF :: b) = splitlines a ++ splitlines b.
  Proof.
    intros Hne Ht. rewrite !splitlines_splits. remember (List.length a) as k. revert a Heqk Hne Ht.
    assert (G : forall a, (a = [] \/ exists x c, a = x ++ [c] /\ is_eol c = false) -> a <> [] -> splits is_eol (a ++ LF :: b) = splits is_eol a ++ splits is_eol b).
    { intros a. induction a as [|x a IH]; intros Hl Hne; [congruence|]. destruct Hl as [Q|(y & c & Hy & Hc)]; [discriminate|].
      destruct a as [|x2 a].
      - destruct y as [|? [|? ?]]; inversion Hy; subst. simpl. rewrite Hc. simpl. destruct (splits is_eol b); reflexivity.
      - assert (Hl2 : exists y' c', x2 :: a = y' ++ [c'] /\ is_eol c' = false).
        { destruct y as [|y0 y]; [discriminate|]. inversion Hy; subst. eauto. }
        assert (IH' : splits is_eol ((x2 :: a) ++ LF :: b) = splits is_eol (x2 :: a) ++ splits is_eol b) by (apply IH; [right; auto|discriminate]).
        change ((x :: x2 :: a) ++ LF :: b) with (x :: ((x2 :: a) ++ LF :: b)).
        assert (U : forall c0 t, splits is_eol (c0 :: t) = if is_eol c0 then if (c0 =? CR)%N && hd_is LF t then splits is_eol t else [] :: splits is_eol t
              else cons_hd c0 (splits is_eol t)) by reflexivity.
        rewrite (U x ((x2 :: a) ++ LF :: b)), (U x (x2 :: a)), IH'.
        assert (Hd2 : hd_is LF ((x2 :: a) ++ LF :: b) = hd_is LF (x2 :: a)) by reflexivity. rewrite Hd2.
        destruct (is_eol x); [destruct ((x =? CR)%N && hd_is LF (x2 :: a)); reflexivity|].
        assert (Hnn : splits is_eol (x2 :: a) <> []).
        { rewrite U. destruct (is_eol x2); [|destruct (splits is_eol a); discriminate]. destruct ((x2 =? CR)%N && hd_is LF a) eqn:Q; [|discriminate].
          destruct a as [|a0 a]; [simpl in Q; rewrite andb_false_r in Q; discriminate|]. rewrite U. apply andb_true_iff in Q. destruct Q as [_ Q]. simpl in Q. apply N.eqb_eq in Q. subst a0. simpl. discriminate. }
        destruct (splits is_eol (x2 :: a)); [congruence|reflexivity]. }
    intros a _ Hne Ht. apply G; auto. right. destruct (rev a) as [|c r] eqn:Er; [exfalso; apply Hne; rewrite <- (rev_involutive a), Er; auto|].
    exists (rev r), c. split; [rewrite <- (rev_involutive a), Er; auto|]. apply eol_space; auto.
  Qed.
  Lemma longer_opening l more ls : (forall x y, l = x ++ y -> blank x -> x = []) -> (forall x y, l = x ++ y -> blank y -> y = []) ->
    Lines py_eol l ls -> 5 <= List.length ls -> same_opening (l ++ LF :: more) l.
  Proof.
    intros H1 H2 HL Hn. apply same_opening_beginning. pose proof (tight_of l H1 H2) as Ht. apply Lines_splitlines in HL.
    assert (Hne : l <> []) by (intros ->; subst ls; simpl in Hn; lia).
    unfold beginning. f_equal. f_equal. fold (strip l). unfold strip at 2. rewrite (strip_by_id is_space l Ht).
    destruct (strip_by_split is_space more) as (u & v & Hs & Hu & Hv & Htm). fold (strip more) in *.
    assert (S : strip (l ++ LF :: more) = l ++ match strip more with [] => [] | _ => LF :: u ++ strip more end).
    { destruct (strip more) as [|c m] eqn:Em.
      - rewrite app_nil_r. rewrite Hs. simpl. apply (strip_by_tight is_space [] l (LF :: u ++ v)); auto. simpl. rewrite forallb_app, Hu, Hv. auto.
      - rewrite Hs at 1. replace (l ++ LF :: u ++ (c :: m) ++ v) with ([] ++ (l ++ LF :: u ++ (c :: m)) ++ v) by (simpl; rewrite <- !app_assoc; simpl; rewrite <- !app_assoc; reflexivity).
        apply (strip_by_tight is_space [] _ v); auto. destruct Ht as [T1 T2], Htm as [T3 T4]. split.
        + destruct l; [congruence|auto].
        + replace (l ++ LF :: u ++ c :: m) with ((l ++ LF :: u) ++ c :: m) by (rewrite <- app_assoc; reflexivity). rewrite rev_app_distr.
          destruct (rev (c :: m)) as [|z r] eqn:Er; [exfalso; apply (f_equal (@List.length N)) in Er; rewrite rev_length in Er; discriminate|]. exact T4. }
    unfold strip at 1 in S. fold (strip (l ++ LF :: more)) in S. rewrite S. destruct (strip more) as [|c m]; [rewrite app_nil_r; auto|].
    rewrite splitlines_snoc; [|auto|apply Ht]. rewrite firstn_app. replace (5 - List.length (splitlines l)) with 0 by (rewrite <- HL; lia).
    simpl firstn at 2. rewrite app_nil_r. auto.
  Qed.

  Lemma strip_longer l more : tight_by is_space l -> l <> [] -> ~ blank more -> strip (l ++ LF :: more) <> l.
  Proof.
    intros Ht Hne Hb. destruct (strip_by_split is_space more) as (u & v & Hs & Hu & Hv & Htm). fold (strip more) in *.
    destruct (strip more) as [|c m] eqn:Em.
    - exfalso. apply Hb. rewrite Hs. simpl. apply blank_forallb. rewrite forallb_app, Hu, Hv. auto.
    - assert (S : strip (l ++ LF :: more) = l ++ LF :: u ++ (c :: m)).
      { rewrite Hs at 1. replace (l ++ LF :: u ++ (c :: m) ++ v) with ([] ++ (l ++ LF :: u ++ (c :: m)) ++ v) by (simpl; rewrite <- !app_assoc; simpl; rewrite <- !app_assoc; reflexivity).
        apply (strip_by_tight is_space [] _ v); auto. destruct Ht as [T1 T2], Htm as [T3 T4]. split.
        + destruct l; [congruence|auto].
        + replace (l ++ LF :: u ++ c :: m) with ((l ++ LF :: u) ++ c :: m) by (rewrite <- app_assoc; reflexivity). rewrite rev_app_distr.
          destruct (rev (c :: m)) as [|z r] eqn:Er; [exfalso; apply (f_equal (@List.length N)) in Er; rewrite rev_length in Er; discriminate|]. exact T4. }
      rewrite S. intros Q. apply (f_equal (@List.length N)) in Q. rewrite app_length in Q. simpl in Q. lia.
  Qed.
  Lemma longer_lemma A l more ls n : (forall x y, l = x ++ y -> blank x -> x = []) -> (forall x y, l = x ++ y -> blank y -> y = []) ->
    Lines py_eol l ls -> 5 <= List.length ls -> scan_number l n -> ~ blank more -> Forall (fun a => ~ same_text (l ++ LF :: more) a) A ->
    lengthened A l (l ++ LF :: more).
  Proof.
    intros H1 H2 HL Hn Hsn Hb HA. pose proof (tight_of l H1 H2) as Ht.
    assert (Hne : l <> []) by (intros ->; apply Lines_splitlines in HL; subst ls; simpl in Hn; lia).
    split; [|split].
    - apply Forall_app. split; auto. constructor; auto. intros Q. apply same_text_strip in Q. apply (strip_longer l more); auto.
      rewrite Q. apply strip_by_id. auto.
    - eapply longer_opening; eauto.
    - exists n. split; auto. destruct Hsn as (h & t & HLh & Hsw). exists h, (t ++ splitlines more). split; auto.
      apply Lines_splitlines. apply Lines_splitlines in HLh. rewrite splitlines_snoc; [|auto|apply Ht]. rewrite <- HLh. reflexivity.
  Qed.

  (* ---------------------------------------------------------------- *)
  (** a file without scans cannot be followed *)
  Lemma last_raw_empty s : scans s = [] -> last_raw (KInt 0) s = Raise AttributeError.
  Proof. intros H. unfold last_raw, getScan, getScanNumbers. rewrite H. reflexivity. Qed.
  Lemma empty_block b s s' r : good_sec b -> scans s = [] -> last_scan s = Some (KInt 0) -> read_block E known b s = (s', r) ->
    scans s' = [] /\ last_scan s' = Some (KInt 0) /\ (scan_section b -> r <> None).
  Proof.
    intros Hg Hs Hl H. destruct (read_block_cases E known Hk b s Hg) as (h & t & Hb & Hh & Hfh & FL & Hb0 & C).
    destruct C as [[e C]|[(rest & Hr & C)|[(rest & Hr & C)|(rest & Hr & C)]]]; rewrite C in H; clear C.
    - inversion H; subst. repeat split; auto. discriminate.
    - injection H as <- <-. destruct (process_file_view b s) as (V1 & V2 & V3 & V4). rewrite V1, V3. repeat split; auto.
      intros Q. exfalso. revert Q. eapply (scan_not_other b (L "#F")); [|discriminate]. subst b. apply (fw_hash (L "#F") rest h t); simpl; auto.
    - apply process_epoch_spec in H. destruct H as (V1 & V2 & V3 & _). rewrite V1, V2. repeat split; auto.
      intros Q. exfalso. revert Q. eapply (scan_not_other b (L "#E")); [|discriminate]. subst b. apply (fw_hash (L "#E") rest h t); simpl; auto.
    - unfold process_scan in H. set (s1 := match headers s with [] => _ | _ => s end) in H.
      assert (Q : scans s1 = [] /\ last_scan s1 = Some (KInt 0)) by (unfold s1; destruct (headers s); auto). destruct Q as [Q1 Q2].
      rewrite Q2, Q1 in H. cbn [existsb] in H. rewrite last_raw_empty in H by auto. injection H as <- <-. repeat split; auto. discriminate.
  Qed.
  Lemma empty_blocks bs s s' r : Forall good_sec bs -> scans s = [] -> last_scan s = Some (KInt 0) -> read_blocks E known bs s = (s', r) ->
    scans s' = [] /\ last_scan s' = Some (KInt 0) /\ (Exists scan_section bs -> r <> None).
  Proof.
    revert s; induction bs as [|b bs IH]; simpl; intros s Hg Hs Hl H.
    - inversion H; subst. repeat split; auto. intros Q; inversion Q.
    - inversion Hg; subst. destruct (read_block E known b s) as [s1 r1] eqn:Eb. apply empty_block in Eb; auto. destruct Eb as (E1 & E2 & E3).
      destruct r1 as [e|].
      + inversion H; subst. repeat split; auto. discriminate.
      + destruct (IH s1) as (I1 & I2 & I3); auto. repeat split; auto. intros Q. inversion Q; subst; auto. exfalso. apply E3; auto.
  Qed.
  Lemma C19_lemma name p s p' secs : open_file E known name p = Ok s -> scans s = [] -> dissect p' = Ok secs -> Exists scan_section secs ->
    forall s', uses E known s s' -> snd (read E known p' s') <> None /\ scans (fst (read E known p' s')) = [].
  Proof.
    intros H Hs Hd Hex s' Hu.
    assert (Hl : last_scan s = Some (KInt 0)).
    { unfold open_file in H. destruct (negb (exists_p p)); [discriminate|]. destruct (negb (is_spec_file p)); [discriminate|].
      destruct (read E known p (sdf_init name)) as [s0 [e|]] eqn:Er; [discriminate|]. inversion H; subst s0.
      pose proof Er as Er0. apply read_shape in Er. destruct Er as [(e & Q & Q2)|(secs' & s1 & r1 & _ & _ & Hsc & _ & _ & Hr)].
      - exfalso. unfold read in Er0. rewrite Q in Er0. discriminate.
      - destruct (Hr eq_refl) as (_ & k & m & z & G & Hl & _). rewrite Hl. f_equal. rewrite Hs in Hsc.
        unfold getLastScanNumber, getScanNumbersChronological in G. rewrite <- Hsc in G. simpl in G. inversion G. auto. }
    apply uses_view in Hu. destruct Hu as (V1 & _ & V3).
    assert (Hs' : scans s' = []). { unfold vs in V1. rewrite Hs in V1. simpl in V1. destruct (scans s'); [auto|discriminate]. }
    destruct (read E known p' s') as [s2 r] eqn:Er. simpl. pose proof Er as Er0. apply read_shape in Er.
    destruct Er as [(e & Q & _)|(secs' & s1 & r1 & Hd' & Hb & Hsc & _ & _ & Hr)]; [congruence|]. assert (secs' = secs) by congruence. subst secs'.
    apply empty_blocks in Hb; auto; [|apply dissect_good with (p := p'); auto|congruence]. destruct Hb as (B1 & _ & B3).
    split; [|congruence]. intros Q. destruct (Hr Q) as [Q2 _]. apply B3; auto.
  Qed.
End Follow.
