(** Dispatch of control lines: no two handlers claim the same line. *)
From Coq Require Import String Permutation Lia.
From Verif Require Import Uni Py PyFacts NumFacts Keys Handlers Reader KeyFacts SpecText SpecReader TextFacts SpecKeys ReaderFacts ReaderFacts4.
Import ListNotations.
Local Open Scope list_scope.

(* ------------------------------------------------------------------ *)
(** * Two regular expressions that have no common match *)

Fixpoint desugar (p : regex) : regex :=
  match p with
  | [] => []
  | Plus k :: p' => One k :: Star k :: desugar p'
  | i :: p' => i :: desugar p'
  end.
Lemma desugar_lang p s : lang (desugar p) s = lang p s.
Proof.
  revert s; induction p as [|i p IH]; intros s; [reflexivity|].
  assert (G : forall k s, (fix go (s : str) : bool := lang (desugar p) s || match s with x :: t => in_cls k x && go t | [] => false end) s
                        = (fix go (s : str) : bool := lang p s || match s with x :: t => in_cls k x && go t | [] => false end) s).
  { intros k. induction s0 as [|c s0 IHs]; rewrite IH; [reflexivity|]. rewrite IHs; reflexivity. }
  destruct i as [k|k|k]; cbn [desugar lang].
  - destruct s; [reflexivity|]. rewrite IH; reflexivity.
  - destruct s; [reflexivity|]. rewrite G; reflexivity.
  - apply G.
Qed.

(** may two classes have a common character? *)
Definition cls_meet (a b : cls) : bool :=
  match a, b with
  | Lit x, _ => in_cls b x
  | _, Lit x => in_cls a x
  | Alt x y, _ => in_cls b x || in_cls b y
  | _, Alt x y => in_cls a x || in_cls a y
  | _, _ => true
  end.
Lemma cls_meet_ok a b c : in_cls a c = true -> in_cls b c = true -> cls_meet a b = true.
Proof.
  intros Ha Hb. destruct a as [x| | |x y]; cbn [cls_meet].
  - apply N.eqb_eq in Ha; subst; exact Hb.
  - destruct b as [u| | |u v]; try reflexivity.
    + apply N.eqb_eq in Hb; subst; exact Ha.
    + cbn [in_cls] in Hb. apply orb_true_iff in Hb. apply orb_true_iff. destruct Hb as [Hb|Hb]; apply N.eqb_eq in Hb; subst; auto.
  - destruct b as [u| | |u v]; try reflexivity.
    + apply N.eqb_eq in Hb; subst; exact Ha.
    + cbn [in_cls] in Hb. apply orb_true_iff in Hb. apply orb_true_iff. destruct Hb as [Hb|Hb]; apply N.eqb_eq in Hb; subst; auto.
  - assert (G : in_cls b x || in_cls b y = true).
    { cbn [in_cls] in Ha. apply orb_true_iff in Ha. apply orb_true_iff. destruct Ha as [Ha|Ha]; apply N.eqb_eq in Ha; subst; auto. }
    destruct b; try exact G. apply N.eqb_eq in Hb. subst. exact Ha.
Qed.

Fixpoint meet (fuel : nat) (p q : regex) : bool :=
  match fuel with
  | O => true
  | S f =>
      match p, q with
      | [], [] => true
      | One a :: p', One b :: q' => cls_meet a b && meet f p' q'
      | One a :: p', Star b :: q' => meet f p q' || (cls_meet a b && meet f p' q)
      | Star a :: p', One b :: q' => meet f p' q || (cls_meet a b && meet f p q')
      | Star a :: p', Star b :: q' => meet f p' q || meet f p q'
      | [], Star _ :: q' => meet f [] q'
      | Star _ :: p', [] => meet f p' []
      | [], One _ :: _ | One _ :: _, [] => false
      | _, _ => true
      end
  end.
Lemma lang_star k p s : lang (Star k :: p) s = lang p s || match s with x :: t => in_cls k x && lang (Star k :: p) t | [] => false end.
Proof. destruct s; reflexivity. Qed.
Lemma lang_one k p s : lang (One k :: p) s = match s with x :: t => in_cls k x && lang p t | [] => false end.
Proof. reflexivity. Qed.
Lemma meet_ok fuel : forall s p q, lang p s = true -> lang q s = true -> meet fuel p q = true.
Proof.
  induction fuel as [|f IH]; [reflexivity|].
  induction s as [|c s IHs]; intros p q Hp Hq.
  - destruct p as [|[a|a|a] p]; destruct q as [|[b|b|b] q]; try reflexivity; try discriminate; cbn [meet].
    all: rewrite ?lang_star, ?orb_false_r in Hp; rewrite ?lang_star, ?orb_false_r in Hq.
    + apply (IH []); auto.
    + apply (IH []); auto.
    + apply orb_true_iff; left. apply (IH []); auto. rewrite lang_star, orb_false_r; auto.
  - destruct p as [|[a|a|a] p]; destruct q as [|[b|b|b] q]; try reflexivity; try discriminate; cbn [meet].
    + rewrite lang_one in Hp, Hq. apply andb_true_iff in Hp. apply andb_true_iff in Hq. destruct Hp as [Ha Hp], Hq as [Hb Hq].
      apply andb_true_iff; split; [eapply cls_meet_ok; eauto|eauto].
    + rewrite lang_star in Hq. apply orb_true_iff in Hq. apply orb_true_iff. destruct Hq as [Hq|Hq]; [left; eauto|right].
      rewrite lang_one in Hp. apply andb_true_iff in Hp. apply andb_true_iff in Hq. destruct Hp as [Ha Hp], Hq as [Hb Hq].
      apply andb_true_iff; split; [eapply cls_meet_ok; eauto|eauto].
    + rewrite lang_star in Hp. apply orb_true_iff in Hp. apply orb_true_iff. destruct Hp as [Hp|Hp]; [left; eauto|right].
      rewrite lang_one in Hq. apply andb_true_iff in Hp. apply andb_true_iff in Hq. destruct Hp as [Ha Hp], Hq as [Hb Hq].
      apply andb_true_iff; split; [eapply cls_meet_ok; eauto|eauto].
    + pose proof Hp as Hp0; pose proof Hq as Hq0.
      rewrite lang_star in Hp. rewrite lang_star in Hq. apply orb_true_iff in Hp. apply orb_true_iff in Hq. apply orb_true_iff.
      destruct Hp as [Hp|Hp]; [left; eauto|]. destruct Hq as [Hq|Hq]; [right; eauto|].
      apply andb_true_iff in Hp. apply andb_true_iff in Hq. destruct Hp as [Ha Hp], Hq as [Hb Hq].
      specialize (IHs _ _ Hp Hq). cbn [meet] in IHs. apply orb_true_iff in IHs. exact IHs.
Qed.

Lemma keys_apart a b s : lang (regex_of a) s = true -> lang (regex_of b) s = true -> a = b.
Proof.
  assert (G : forallb (fun x => forallb (fun y => hid_eqb x y || negb (meet 40 (desugar (regex_of x)) (desugar (regex_of y)))) all_hids) all_hids = true)
    by (vm_compute; reflexivity).
  rewrite forallb_forall in G. specialize (G a (all_hids_complete a)). rewrite forallb_forall in G.
  specialize (G b (all_hids_complete b)). intros Ha Hb. rewrite <- desugar_lang in Ha. rewrite <- desugar_lang in Hb.
  rewrite (meet_ok _ _ _ _ Ha Hb) in G. unfold hid_eqb in G. destruct (hid_eq_dec a b); auto. discriminate.
Qed.

Lemma drop_last_lf_some s t : drop_last_lf s = Some t -> s = t ++ [LF].
Proof.
  unfold drop_last_lf. destruct (rev s) as [|x r] eqn:E; [discriminate|].
  destruct (x =? LF)%N eqn:Ex; [|discriminate]. apply N.eqb_eq in Ex; subst. intros H; inversion H; subst.
  rewrite <- (rev_involutive s), E. reflexivity.
Qed.
Lemma lang_no_lf h s : lang (regex_of h) s = true -> ~ In LF s.
Proof.
  intros H Hin. apply lang_nospace in H; [|apply regex_ok]. unfold nospace in H. rewrite forallb_forall in H. specialize (H _ Hin). discriminate.
Qed.
(** what a match is *)
Lemma re_match_cases h s : re_match (regex_of h) s = true <-> lang (regex_of h) s = true \/ exists t, s = t ++ [LF] /\ lang (regex_of h) t = true.
Proof.
  unfold re_match. rewrite orb_true_iff. split.
  - intros [H|H]; [auto|right]. destruct (drop_last_lf s) eqn:E; [|discriminate]. apply drop_last_lf_some in E. eauto.
  - intros [H|(t & -> & H)]; [auto|right]. unfold drop_last_lf. rewrite rev_unit. rewrite N.eqb_refl, rev_involutive. exact H.
Qed.
Lemma re_apart a b s : re_match (regex_of a) s = true -> re_match (regex_of b) s = true -> a = b.
Proof.
  rewrite !re_match_cases. intros [Ha|(t & -> & Ha)] [Hb|(u & Hu & Hb)].
  - eapply keys_apart; eauto.
  - subst s. exfalso. eapply lang_no_lf; [exact Ha|]. apply in_or_app; simpl; auto.
  - exfalso. eapply lang_no_lf; [exact Hb|]. apply in_or_app; simpl; auto.
  - apply app_inj_tail in Hu. destruct Hu as [-> _]. eapply keys_apart; eauto.
Qed.

(* ------------------------------------------------------------------ *)
(** * Lines of numbers *)

(** no key other than that of the data starts like a number *)
Lemma lang_head h s : lang (regex_of h) s = true -> exists c t, s = c :: t /\ In c [35%N; 64%N; 115%N; 117%N].
Proof.
  intros H. destruct s as [|c t]; [destruct h; discriminate|]. exists c, t. split; [reflexivity|].
  assert (G : in_cls (Lit 35%N) c = true \/ in_cls (Lit 64%N) c = true \/ in_cls (Lit 115%N) c = true \/ in_cls (Lit 117%N) c = true).
  { destruct h; cbn in H; apply andb_true_iff in H; destruct H as [H _]; auto. }
  unfold in_cls in G. rewrite !N.eqb_eq in G. simpl. intuition.
Qed.
Lemma py_float_letter c t : In c [35%N; 64%N; 115%N; 117%N] -> py_float (c :: t) = Raise ValueError.
Proof.
  intros H. unfold py_float.
  assert (Hs : num_space c = false) by (simpl in H; repeat (destruct H as [<-|H]; [reflexivity|]); destruct H).
  assert (S : exists t', strip_by num_space (c :: t) = c :: t').
  { unfold strip_by. cbn [lstrip_by]. rewrite Hs. cbn [rstrip_by]. destruct (rstrip_by num_space t); rewrite ?Hs; eexists; reflexivity. }
  destruct S as [t' ->]. cbn [drop_us].
  assert (Hu : (c =? 95)%N = false) by (simpl in H; repeat (destruct H as [<-|H]; [reflexivity|]); destruct H).
  rewrite Hu.
  destruct (drop_us (is_dec c) t') as [u|] eqn:Q; [|reflexivity].
  simpl in H. repeat (destruct H as [<-|H]; [reflexivity|]). destruct H.
Qed.

Lemma match_data_head c t : is_space c = false -> exists w ws, words (c :: t) = (c :: w) :: ws.
Proof.
  intros Hc. destruct (words (c :: t)) as [|w ws] eqn:E.
  - apply words_nil in E. simpl in E. rewrite Hc in E. discriminate.
  - pose proof (proj2 (first_word_words (c :: t) w) (ex_intro _ ws E)) as (Hw & a & b & H & Ha & Hb).
    destruct a as [|x a]; [|inversion H; subst; inversion Ha; congruence].
    destruct w as [|x w]; [destruct Hw; congruence|]. inversion H; subst. eauto.
Qed.

Lemma re_not_data h t : h <> H_data -> re_match (regex_of h) t = true -> match_key H_data t = Ok false.
Proof.
  intros Hd H. assert (G : exists c t', t = c :: t' /\ In c [35%N; 64%N; 115%N; 117%N]).
  { apply re_match_cases in H. destruct H as [H|(u & -> & H)]; apply lang_head in H; [exact H|].
    destruct H as (c & t' & -> & Hc). exists c, (t' ++ [LF]). auto. }
  destruct G as (c & t' & -> & Hc).
  assert (Hsp : is_space c = false) by (simpl in Hc; repeat (destruct Hc as [<-|Hc]; [reflexivity|]); destruct Hc).
  destruct (match_data_head c t' Hsp) as (w & ws & Hw).
  cbn [match_key]. unfold match_data. rewrite words_strip, Hw, index_0. cbn [bind]. rewrite (py_float_letter c w Hc). reflexivity.
Qed.

Lemma match_key_re h t : h <> H_data -> match_key h t = Ok (re_match (regex_of h) t).
Proof. destruct h; try reflexivity. congruence. Qed.
Lemma match_apart a b t : match_key a t = Ok true -> match_key b t = Ok true -> a = b.
Proof.
  destruct (hid_eq_dec a H_data) as [->|Ha], (hid_eq_dec b H_data) as [->|Hb]; auto.
  - intros D H. rewrite match_key_re in H by auto. injection H as H. rewrite (re_not_data b t Hb H) in D. discriminate.
  - intros H D. rewrite match_key_re in H by auto. injection H as H. rewrite (re_not_data a t Ha H) in D. discriminate.
  - rewrite !match_key_re by auto. intros H1 H2. injection H1 as H1. injection H2 as H2. eapply re_apart; eauto.
Qed.

(** what a search finds does not depend on the order *)
Lemma match_control_unique known h t : In h known -> match_key h t = Ok true -> match_control_key known t = Ok (Some h).
Proof.
  intros Hin H. induction known as [|a known IH]; [destruct Hin|]. cbn [match_control_key].
  assert (G : match_key a t = Ok true \/ match_key a t = Ok false).
  { destruct (hid_eq_dec a H_data) as [->|Ha].
    - destruct (hid_eq_dec h H_data) as [->|Hh]; [auto|]. right. apply (re_not_data h); auto.
      rewrite match_key_re in H by auto. injection H as H. exact H.
    - rewrite match_key_re by auto. destruct (re_match _ t); auto. }
  destruct G as [G|G]; rewrite G; cbn [bind].
  - rewrite (match_apart _ _ _ G H). reflexivity.
  - apply IH. destruct Hin as [->|Hin]; [congruence|exact Hin].
Qed.
Lemma match_control_none known t : (forall h, In h known -> match_key h t <> Ok true) -> In H_data known ->
  match_control_key known t = (do b <- match_key H_data t; Ok None).
Proof.
  intros H Hin. induction known as [|a known IH]; [destruct Hin|]. cbn [match_control_key].
  destruct (hid_eq_dec a H_data) as [->|Ha].
  - destruct (match_key H_data t) as [[]|e] eqn:E; cbn [bind]; auto.
    + exfalso. apply (H H_data); simpl; auto.
    + clear IH Hin. induction known as [|b known IH]; [reflexivity|]. cbn [match_control_key].
      assert (G : match_key b t = Ok false).
      { destruct (hid_eq_dec b H_data) as [->|Hb]; auto. rewrite match_key_re by auto. destruct (re_match _ t) eqn:Q; auto.
        exfalso. apply (H b); simpl; auto. rewrite match_key_re by auto. rewrite Q; auto. }
      rewrite G. cbn [bind]. apply IH. intros h Hh. apply H. simpl in *. intuition.
  - assert (G : match_key a t = Ok false).
    { rewrite match_key_re by auto. destruct (re_match _ t) eqn:Q; auto.
      exfalso. apply (H a); simpl; auto. rewrite match_key_re by auto. rewrite Q; auto. }
    rewrite G. cbn [bind]. apply IH; [|destruct Hin; congruence]. intros h Hh. apply H; simpl; auto.
Qed.

Lemma match_control_order known known' t : incl all_hids known -> incl all_hids known' -> match_control_key known t = match_control_key known' t.
Proof.
  intros H1 H2. destruct (existsb (fun h => match match_key h t with Ok b => b | Raise _ => false end) all_hids) eqn:E.
  - apply existsb_exists in E. destruct E as (h & Hh & E). destruct (match_key h t) as [[]|] eqn:Q; try discriminate.
    rewrite (match_control_unique known h t), (match_control_unique known' h t); auto.
  - assert (G : forall h, match_key h t <> Ok true).
    { intros h Q. rewrite <- not_true_iff_false in E. apply E. apply existsb_exists. exists h. split; [apply all_hids_complete|]. rewrite Q; auto. }
    rewrite !match_control_none; auto; try apply H1; try apply H2; apply all_hids_complete.
Qed.
Lemma direct_key_order known known' t : incl all_hids known -> incl all_hids known' -> direct_key known t = direct_key known' t.
Proof.
  intros H1 H2. destruct (direct_key known t) as [h|] eqn:E.
  - apply direct_key_some in E. destruct E as [-> _]. symmetry; apply direct_key_of. apply H2, all_hids_complete.
  - destruct (direct_key known' t) as [h|] eqn:E'; auto. apply direct_key_some in E'. destruct E' as [-> _].
    rewrite direct_key_of in E; [discriminate|]. apply H1, all_hids_complete.
Qed.
Lemma C21_lemma known known' line : incl all_hids known -> incl all_hids known' -> get_control_key known line = get_control_key known' line.
Proof.
  intros H1 H2. unfold get_control_key. destruct (find_c SP line); auto.
  rewrite (direct_key_order known known'), (match_control_order known known'); auto.
Qed.

(* ------------------------------------------------------------------ *)
(** * The forms of SpecKeys.v *)

Lemma lang_lits s p w : lang (map (fun c => One (Lit c)) s ++ p) w = true <-> exists t, w = s ++ t /\ lang p t = true.
Proof.
  revert w; induction s as [|c s IH]; intros w; cbn [map app].
  - split; [eauto|intros (t & -> & H); auto].
  - rewrite lang_one. destruct w as [|x w].
    + split; [discriminate|intros (t & Q & _); discriminate].
    + cbn [in_cls]. rewrite andb_true_iff, N.eqb_eq, IH. split.
      * intros [-> (t & -> & H)]; eauto.
      * intros (t & Q & H). inversion Q; subst; eauto.
Qed.
Lemma lang_stars k w : lang [Star k] w = true <-> Forall (fun c => in_cls k c = true) w.
Proof.
  induction w as [|c w IH]; rewrite lang_star.
  - split; auto.
  - cbn [lang orb]. rewrite andb_true_iff, IH. split; [intros [H1 H2]; auto|intros H; inversion H; auto].
Qed.
Lemma lang_plus k w : lang [Plus k] w = true <-> w <> [] /\ Forall (fun c => in_cls k c = true) w.
Proof.
  rewrite <- desugar_lang. cbn [desugar]. rewrite lang_one. destruct w as [|c w].
  - split; [discriminate|intros [H _]; congruence].
  - rewrite andb_true_iff, lang_stars. split; [intros [H1 H2]; split; [discriminate|auto]|intros [_ H]; inversion H; auto].
Qed.
Definition lits (s : string) : regex := map (fun c => One (Lit c)) (L s).
Definition shape_regex (sh : shape) : option regex :=
  match sh with
  | Exactly s => Some (lits s)
  | Numbered s => Some (lits s ++ [Plus Dig])
  | MaybeNumbered s => Some (lits s ++ [Star Dig])
  | Named s => Some (lits s ++ [Star Wrd])
  | AnyCase _ | Number => None
  end.
Lemma shape_regex_ok sh p w : shape_regex sh = Some p -> (lang p w = true <-> shaped sh w).
Proof.
  destruct sh as [s|s|s|s|s|]; intros Q; inversion Q; subst p; clear Q; unfold lits; cbn [shaped].
  - rewrite <- (app_nil_r (map _ _)), lang_lits. split.
    + intros (t & -> & H). destruct t; [apply app_nil_r|discriminate].
    + intros ->. exists []. rewrite app_nil_r; auto.
  - rewrite lang_lits. split; intros (t & H).
    + destruct H as [-> H]. apply lang_plus in H. eauto.
    + exists t. rewrite lang_plus. intuition.
  - rewrite lang_lits. split; intros (t & H1 & H2); exists t; rewrite lang_stars in *; auto.
  - rewrite lang_lits. split; intros (t & H1 & H2); exists t; rewrite lang_stars in *; auto.
Qed.
Lemma lower_c_cases c x : (97 <= x <= 122)%N -> (lower_c c = x <-> c = x \/ c = (x - 32)%N).
Proof. intros Hx. unfold lower_c, in_range. cbn [fst snd]. destruct (_ && _)%bool eqn:E; rewrite ?andb_true_iff, ?andb_false_iff, ?N.leb_le, ?N.leb_gt in E; lia. Qed.
Lemma lower_c_sym c x : (x < 65)%N -> (lower_c c = x <-> c = x).
Proof. intros Hx. unfold lower_c, in_range. cbn [fst snd]. destruct (_ && _)%bool eqn:E; rewrite ?andb_true_iff, ?andb_false_iff, ?N.leb_le, ?N.leb_gt in E; lia. Qed.
Lemma calib_ok w : lang (regex_of H_CALIB) w = true <-> shaped (shape_of H_CALIB) w.
Proof.
  set (p := regex_of H_CALIB). vm_compute in p. subst p. cbn [shape_of shaped].
  change (lower (L "#@CALIB")) with [35;64;99;97;108;105;98]%N. unfold lower.
  repeat (rewrite lang_one; destruct w as [|? w]; [split; discriminate|]; cbn [in_cls map];
    match goal with |- (?b && lang ?p w)%bool = true <-> lower_c ?c :: map lower_c w = ?x :: ?l =>
      rewrite andb_true_iff;
      let G := fresh in
      assert (G : b = true <-> lower_c c = x);
      [rewrite ?orb_true_iff, ?N.eqb_eq; first [rewrite lower_c_cases by lia|rewrite lower_c_sym by lia]; intuition
      |let T := fresh in assert (T : (lower_c c :: map lower_c w = x :: l) <-> (lower_c c = x /\ map lower_c w = l)) by (split; [intros Q; injection Q as Q1 Q2; auto|intros [-> ->]; auto]);
       rewrite T, G; clear T G; apply and_iff_compat_l]
    end).
  destruct w; split; try discriminate; reflexivity.
Qed.
Lemma shaped_lang h w : h <> H_data -> (lang (regex_of h) w = true <-> shaped (shape_of h) w).
Proof.
  intros Hd. destruct (hid_eq_dec h H_CALIB) as [->|Hc]; [apply calib_ok|].
  apply shape_regex_ok. destruct h; try congruence; vm_compute; reflexivity.
Qed.

Lemma match_data_spec t : match_key H_data t = Ok true <-> shaped Number t.
Proof.
  cbn [match_key shaped]. unfold match_data. rewrite words_strip. split.
  - destruct (words t) as [|w ws] eqn:E; [discriminate|]. rewrite index_0. cbn [bind].
    destruct (py_float w) as [f|e] eqn:F; [intros _|destruct e; discriminate]. exists w, f. split; auto. apply first_word_words; eauto.
  - intros (n & f & H1 & H2). apply first_word_words in H1. destruct H1 as (ws & ->). rewrite index_0. cbn [bind]. rewrite H2. reflexivity.
Qed.
Lemma match_key_shaped h t : ~ In LF t -> (match_key h t = Ok true <-> shaped (shape_of h) t).
Proof.
  intros Hl. destruct (hid_eq_dec h H_data) as [->|Hd]; [apply match_data_spec|].
  rewrite match_key_re by auto. rewrite <- shaped_lang by auto. split.
  - intros Q. injection Q as Q. apply re_match_cases in Q. destruct Q as [Q|(u & -> & _)]; auto. exfalso. apply Hl, in_or_app; simpl; auto.
  - intros Q. rewrite (proj2 (re_match_cases h t)); auto.
Qed.
Lemma match_data_total t : words t <> [] -> exists b, match_key H_data t = Ok b.
Proof.
  cbn [match_key]. unfold match_data. rewrite words_strip. destruct (words t) as [|w ws]; [congruence|]. intros _. rewrite index_0. cbn [bind].
  destruct (py_float_total w) as [[f ->]| ->]; eauto.
Qed.

(** dispatch of a line, leading white space removed *)
Lemma lstrip_split line : exists a, line = a ++ lstrip line /\ blank a /\ (lstrip line = [] \/ exists c t, lstrip line = c :: t /\ is_space c = false).
Proof.
  destruct (lstrip_by_split is_space line) as (a & H1 & H2 & H3). exists a. split; [exact H1|]. split; [apply blank_forallb; auto|].
  fold lstrip in *. destruct (lstrip line) as [|c t]; [auto|right]. exists c, t. split; auto.
Qed.
Lemma lstrip_blank_app a s : blank a -> (exists c t, s = c :: t /\ is_space c = false) -> lstrip (a ++ s) = s.
Proof.
  intros Ha (c & t & -> & Hc). apply lstrip_by_app; [apply blank_forallb; auto|exact Hc].
Qed.

Lemma dispatch_some known line h : incl all_hids known -> ~ In LF line ->
  (get_control_key known (lstrip line) = Ok (Some h) <-> control h line).
Proof.
  intros Hk Hl. split.
  - intros H. destruct (lstrip_split line) as (a & E & Ha & Hs). unfold get_control_key in H.
    pose proof (find_c_spec SP (lstrip line)) as F. destruct (find_c SP (lstrip line)) as [n|]; [|discriminate].
    destruct F as (w & b & F & Hw & Hn). rewrite F in H.
    assert (Hf : firstn n (w ++ SP :: b) = w) by (rewrite <- Hn, firstn_app, Nat.sub_diag, firstn_all; simpl; apply app_nil_r).
    rewrite Hf in H. exists a, w, b. split; [congruence|]. split; [auto|]. split; [auto|]. split.
    + destruct Hs as [Hs|(c & t & Hs & Hc)]; [rewrite Hs in F; destruct w; discriminate|].
      destruct w as [|x w]; [rewrite Hs in F; inversion F; subst; discriminate|]. rewrite Hs in F; inversion F; subst. eauto.
    + destruct (direct_key known w) as [h'|] eqn:D.
      * inversion H; subst. apply direct_key_some in D. right; tauto.
      * left. apply match_control_some in H. apply match_key_shaped in H; auto.
        intros Q. apply Hl. rewrite E, F. apply in_or_app. right. apply in_or_app; auto.
  - intros (a & w & rest & E & Ha & Hsp & Hw & Hb). rewrite E.
    rewrite lstrip_blank_app; [|auto|destruct Hw as (c & t & -> & Hc); exists c, (t ++ SP :: rest); split; [reflexivity|exact Hc]].
    unfold get_control_key. rewrite find_c_app by auto. rewrite firstn_app, Nat.sub_diag, firstn_all. simpl firstn. rewrite app_nil_r.
    destruct (direct_key known w) as [h'|] eqn:D.
    + apply direct_key_some in D. destruct D as [D _]. destruct Hb as [Hb|Hb]; [|rewrite Hb in D; apply key_of_inj in D; subst; auto].
      do 2 f_equal. subst w. assert (Hl2 : ~ In LF (key_of h')) by (destruct h'; vm_compute; intuition discriminate).
      apply match_key_shaped in Hb; auto.
      destruct (hid_eq_dec h h') as [|Hne]; [auto|exfalso].
      assert (G : forallb (fun x => forallb (fun y => hid_eqb x y || match match_key y (key_of x) with Ok b => negb b | Raise _ => true end) all_hids) all_hids = true) by (vm_compute; reflexivity).
      rewrite forallb_forall in G. specialize (G h' (all_hids_complete _)). rewrite forallb_forall in G. specialize (G h (all_hids_complete _)).
      rewrite Hb in G. unfold hid_eqb in G. destruct (hid_eq_dec h' h); [congruence|discriminate].
    + destruct Hb as [Hb|Hb]; [|subst w; rewrite direct_key_of in D; [discriminate|apply Hk, all_hids_complete]].
      apply match_control_unique; [apply Hk, all_hids_complete|]. apply match_key_shaped; auto.
      intros Q. apply Hl. rewrite E. apply in_or_app. right. apply in_or_app; auto.
Qed.
Lemma dispatch_total known line : incl all_hids known -> exists o, get_control_key known (lstrip line) = Ok o.
Proof.
  intros Hk. unfold get_control_key. destruct (lstrip_split line) as (a & E & Ha & Hs).
  pose proof (find_c_spec SP (lstrip line)) as F. destruct (find_c SP (lstrip line)) as [n|]; [|eauto].
  destruct F as (w & b & F & Hw & Hn). rewrite F.
  assert (Hf : firstn n (w ++ SP :: b) = w) by (rewrite <- Hn, firstn_app, Nat.sub_diag, firstn_all; simpl; apply app_nil_r).
  rewrite Hf. destruct (direct_key known w); [eauto|].
  destruct (existsb (fun h => match match_key h w with Ok b => b | Raise _ => false end) all_hids) eqn:X.
  - apply existsb_exists in X. destruct X as (h & Hh & X). destruct (match_key h w) as [[]|] eqn:Q; try discriminate.
    rewrite (match_control_unique known h w); eauto.
  - rewrite match_control_none.
    + destruct (match_data_total w) as (d & ->); [|cbn [bind]; eauto].
      destruct Hs as [Hs|(c & t & Hs & Hc)]; [rewrite Hs in F; destruct w; discriminate|].
      destruct w as [|x w]; [rewrite Hs in F; inversion F; subst; discriminate|]. rewrite Hs in F; inversion F; subst.
      destruct (match_data_head x w Hc) as (? & ? & ->). discriminate.
    + intros h _ Q. rewrite <- not_true_iff_false in X. apply X. apply existsb_exists. exists h. split; [apply all_hids_complete|]. rewrite Q; auto.
    + apply Hk, all_hids_complete.
Qed.
Lemma dispatch_none known line : incl all_hids known -> ~ In LF line ->
  (get_control_key known (lstrip line) = Ok None <-> no_control line).
Proof.
  intros Hk Hl. split.
  - intros H h C. apply (dispatch_some known) in C; auto. congruence.
  - intros H. destruct (dispatch_total known line Hk) as ([h|] & E); auto. exfalso. apply (H h). apply (dispatch_some known); auto.
Qed.
Lemma control_unique line h h' : ~ In LF line -> control h line -> control h' line -> h = h'.
Proof.
  intros Hl C C'. apply (dispatch_some all_hids) in C; auto using incl_refl. apply (dispatch_some all_hids) in C'; auto using incl_refl. congruence.
Qed.
