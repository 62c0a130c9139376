(** Facts about control line dispatch (Keys.v). *)
From Coq Require Import String Lia Permutation.
From Verif Require Import Uni Py PyFacts NumFacts TimeFacts Keys SpecText TextFacts.
Import ListNotations.
Local Open Scope list_scope.

Lemma all_hids_complete h : In h all_hids.
Proof. destruct h; unfold all_hids; simpl; tauto. Qed.
Lemma key_of_inj a b : key_of a = key_of b -> a = b.
Proof.
  assert (G : forallb (fun x => forallb (fun y => orb (hid_eqb x y) (negb (seqb (key_of x) (key_of y)))) all_hids) all_hids = true)
    by (vm_compute; reflexivity).
  rewrite forallb_forall in G. specialize (G a (all_hids_complete a)). rewrite forallb_forall in G.
  specialize (G b (all_hids_complete b)). intros H. rewrite H, seqb_refl in G.
  unfold hid_eqb in G. destruct (hid_eq_dec a b); auto. discriminate.
Qed.
Lemma direct_key_of known h : In h known -> direct_key known (key_of h) = Some h.
Proof.
  intros Hin. unfold direct_key. destruct (List.find (fun h0 => seqb (key_of h) (key_of h0)) known) as [h'|] eqn:E.
  - apply find_some in E. destruct E as [_ E]. apply seqb_eq in E. apply key_of_inj in E. congruence.
  - exfalso. eapply find_none in E; [|exact Hin]. cbv beta in E. rewrite seqb_refl in E. discriminate.
Qed.
Lemma direct_key_some known t h : direct_key known t = Some h -> t = key_of h /\ In h known.
Proof. intros H. apply find_some in H. destruct H as [H1 H2]. apply seqb_eq in H2. auto. Qed.

(** no class of the supplied keys has white space *)
Definition cls_ok (k : cls) : bool :=
  match k with Lit c => negb (is_space c) | Alt a b => negb (is_space a) && negb (is_space b) | _ => true end.
Definition item_ok (i : item) : bool := match i with One k | Plus k | Star k => cls_ok k end.
Lemma space_not_word c : is_space c = true -> is_word c = false.
Proof.
  intros H. apply space_values in H. simpl in H. repeat (destruct H as [<-|H]; [reflexivity|]). destruct H.
Qed.
Lemma in_cls_nospace k c : cls_ok k = true -> in_cls k c = true -> is_space c = false.
Proof.
  intros Hk H. destruct k as [a| | |a b]; simpl in *.
  - apply N.eqb_eq in H; subst. destruct (is_space a); auto; discriminate.
  - destruct (is_space c) eqn:E; auto. apply space_not_dec in E. congruence.
  - destruct (is_space c) eqn:E; auto. apply space_not_word in E. congruence.
  - apply andb_true_iff in Hk. destruct Hk as [Ha Hb]. apply orb_true_iff in H. destruct H as [H|H]; apply N.eqb_eq in H; subst.
    + destruct (is_space a); auto; discriminate.
    + destruct (is_space b); auto; discriminate.
Qed.
Lemma lang_nospace p s : forallb item_ok p = true -> lang p s = true -> nospace s = true.
Proof.
  revert s; induction p as [|i p IH]; intros s Hp H; simpl in H.
  - destruct s; [auto|discriminate].
  - simpl in Hp. apply andb_true_iff in Hp. destruct Hp as [Hi Hp]. specialize (fun s => IH s Hp).
    assert (G : forall k, cls_ok k = true -> forall s, (fix go (s : str) : bool :=
      lang p s || match s with x :: t => in_cls k x && go t | [] => false end) s = true -> nospace s = true).
    { intros k Hk. induction s0 as [|x t IHt]; simpl; auto. rewrite orb_true_iff, andb_true_iff. intros [Q|[Q1 Q2]].
      - apply IH in Q. auto.
      - unfold nospace in *. simpl. rewrite (in_cls_nospace k x Hk Q1). simpl. auto. }
    destruct i as [k|k|k]; simpl in Hi.
    + destruct s as [|x t]; [discriminate|]. apply andb_true_iff in H. destruct H as [H1 H2].
      unfold nospace in *. simpl. rewrite (in_cls_nospace k x Hi H1). simpl. apply IH; auto.
    + destruct s as [|x t]; [discriminate|]. apply andb_true_iff in H. destruct H as [H1 H2].
      unfold nospace in *. simpl. rewrite (in_cls_nospace k x Hi H1). simpl. apply (G k Hi); auto.
    + apply (G k Hi); auto.
Qed.
Lemma regex_ok h : forallb item_ok (regex_of h) = true.
Proof. destruct h; vm_compute; reflexivity. Qed.
Lemma drop_last_lf_In s t : drop_last_lf s = Some t -> In LF s.
Proof.
  unfold drop_last_lf. destruct (rev s) as [|x r] eqn:E; [discriminate|].
  destruct (x =? LF)%N eqn:Ex; [|discriminate]. apply N.eqb_eq in Ex; subst. intros _.
  apply in_rev. rewrite E; simpl; auto.
Qed.
Lemma re_match_nospace h s : ~ In LF s -> re_match (regex_of h) s = true -> nospace s = true.
Proof.
  intros Hl H. unfold re_match in H. apply orb_true_iff in H. destruct H as [H|H].
  - eapply lang_nospace; eauto. apply regex_ok.
  - destruct (drop_last_lf s) eqn:E; [|discriminate]. exfalso. apply Hl. eapply drop_last_lf_In; eauto.
Qed.

(** a word that starts with '#' is no number *)
Lemma py_float_hash c t : c = 35%N -> py_float (c :: t) = Raise ValueError.
Proof.
  intros ->. unfold py_float.
  assert (S : exists t', strip_by num_space (35%N :: t) = 35%N :: t').
  { unfold strip_by. change (lstrip_by num_space (35%N :: t)) with (35%N :: t).
    cbn [rstrip_by]. destruct (rstrip_by num_space t); [exists []|eexists]; reflexivity. }
  destruct S as [t' ->]. cbn [drop_us]. change ((35 =? 95)%N) with false. cbv iota.
  destruct (drop_us (is_dec 35) t') as [r|]; reflexivity.
Qed.

Lemma match_key_section h k w ws : words k = w :: ws -> (exists c t, w = c :: t /\ c = 35%N) -> ~ In LF k ->
  match_key h k = Ok true -> nospace k = true.
Proof.
  intros Hw (c & t & -> & Hc) Hl H. unfold match_key in H.
  assert (D : h = H_data \/ match_key h k = Ok (re_match (regex_of h) k)) by (destruct h; auto).
  destruct D as [->|D].
  - unfold match_data in H. rewrite words_strip, Hw, index_0 in H. cbn [bind] in H.
    rewrite (py_float_hash c t Hc) in H. discriminate.
  - unfold match_key in D. rewrite D in H. injection H as Q. eapply re_match_nospace; eauto.
Qed.
Lemma match_control_some known k h : match_control_key known k = Ok (Some h) -> match_key h k = Ok true.
Proof.
  induction known as [|a known IH]; simpl; [discriminate|]. intros H. apply bind_ok in H. destruct H as (b & Hb & H).
  destruct b; auto. inversion H; subst; auto.
Qed.

Lemma hash_word w : In w [L "#F"; L "#E"; L "#S"] -> exists c t, w = c :: t /\ c = 35%N.
Proof. simpl. intros [<-|[<-|[<-|[]]]]; do 2 eexists; split; reflexivity. Qed.

(** a section line that is dispatched at all starts with its key and a blank *)
Lemma section_dispatch known l h : incl all_hids known -> section_line l -> ~ In LF l ->
  get_control_key known l = Ok (Some h) ->
  In h [H_F; H_E; H_S] /\ exists rest, l = key_of h ++ SP :: rest.
Proof.
  intros Hk Hs Hl H. unfold get_control_key in H.
  pose proof (find_c_spec SP l) as F. destruct (find_c SP l) as [n|]; [|discriminate].
  destruct F as (a & b & -> & Ha & Hn). assert (Hf : firstn n (a ++ SP :: b) = a).
  { subst n. rewrite firstn_app, Nat.sub_diag, firstn_all. simpl. apply app_nil_r. }
  rewrite Hf in H.
  assert (Hla : ~ In LF a) by (intros Q; apply Hl; apply in_or_app; auto).
  assert (W : exists w ws, In w [L "#F"; L "#E"; L "#S"] /\ words (a ++ SP :: b) = w :: ws).
  { unfold section_line in Hs. rewrite !first_word_words in Hs.
    destruct Hs as [[ws Hs]|[[ws Hs]|[ws Hs]]]; do 2 eexists; (split; [|exact Hs]); simpl; auto. }
  destruct W as (w & ws & Hw & Hws). rewrite words_app_space in Hws by reflexivity.
  destruct (words a) as [|wa wsa] eqn:Ea.
  - (* the key text is blank *)
    exfalso. apply words_nil in Ea. destruct (direct_key known a) as [h'|] eqn:Ed.
    + apply direct_key_some in Ed. destruct Ed as [-> _]. destruct h'; discriminate Ea.
    + apply match_control_some in H.
      assert (nospace a = true -> a = []).
      { destruct a as [|c a]; auto. unfold nospace; simpl in *. destruct (is_space c); simpl in *; discriminate. }
      assert (D : h = H_data \/ match_key h a = Ok (re_match (regex_of h) a)) by (destruct h; auto).
      destruct D as [->|D].
      * unfold match_key, match_data in H. rewrite words_strip in H. apply words_nil in Ea. rewrite Ea in H. discriminate.
      * rewrite D in H. injection H as Q. pose proof (re_match_nospace h a Hla Q) as N0. apply H0 in N0. subst a.
        clear -Q. destruct h; vm_compute in Q; discriminate.
  - inversion Hws; subst wa. clear Hws.
    assert (Na : nospace a = true -> a = w).
    { intros N0. destruct (words_cons _ _ _ Ea) as (p & q & Hpq & Hp & Hne & _ & _ & Hq).
      rewrite Hpq in N0. unfold nospace in N0. rewrite !forallb_app in N0. rewrite !andb_true_iff in N0. destruct N0 as (N1 & N2 & N3).
      assert (p = []). { destruct p as [|c p]; auto. simpl in *. destruct (is_space c); simpl in *; discriminate. }
      assert (q = []). { destruct q as [|c q]; auto. simpl in *. rewrite Hq in N3. discriminate. }
      subst. simpl. rewrite app_nil_r; auto. }
    assert (A : a = w).
    { apply Na. destruct (direct_key known a) as [h'|] eqn:Ed.
      - apply direct_key_some in Ed. destruct Ed as [-> _]. destruct h'; reflexivity.
      - apply match_control_some in H. eapply match_key_section; eauto. apply hash_word; auto. }
    subst a. simpl in Hw. destruct Hw as [Hw|[Hw|[Hw|[]]]]; subst w.
    + change (L "#F") with (key_of H_F) in H. rewrite direct_key_of in H by (apply Hk; apply all_hids_complete).
      inversion H; subst. split; [simpl; auto|]. eauto.
    + change (L "#E") with (key_of H_E) in H. rewrite direct_key_of in H by (apply Hk; apply all_hids_complete).
      inversion H; subst. split; [simpl; auto|]. eauto.
    + change (L "#S") with (key_of H_S) in H. rewrite direct_key_of in H by (apply Hk; apply all_hids_complete).
      inversion H; subst. split; [simpl; auto|]. eauto.
Qed.
(** and conversely *)
Lemma key_blank_dispatch known h rest : incl all_hids known -> In h [H_F; H_E; H_S] ->
  get_control_key known (key_of h ++ SP :: rest) = Ok (Some h).
Proof.
  intros Hk Hh. unfold get_control_key. rewrite find_c_app.
  - rewrite firstn_app, Nat.sub_diag, firstn_all. simpl firstn. rewrite app_nil_r.
    rewrite direct_key_of by (apply Hk; apply all_hids_complete). auto.
  - simpl in Hh. destruct Hh as [<-|[<-|[<-|[]]]]; intros Q; vm_compute in Q; intuition discriminate.
Qed.
