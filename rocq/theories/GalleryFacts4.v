(** What a run of the gallery may change (C81, C84). *)
From Coq Require Import String Lia.
From Verif Require Import Py PyFacts NumFacts Time Utils Keys Handlers Reader Cli Writer Plot Gallery SpecText SpecLookup SpecHistory SpecCli SpecGallery CliFacts CliFacts2 ReaderFacts ReaderFacts2 ReaderFacts4 ReaderFacts5 ReaderFacts8
  ExampleFacts DataFacts GalleryFacts GalleryFacts2 GalleryFacts3.
Import ListNotations.
Local Open Scope list_scope.

Definition same_but (P : str -> Prop) (f f' : gfs) : Prop := forall n, ~ P n -> dget n f' = dget n f.
Definition gframe (P : str -> Prop) {A} (m : GM A) : Prop := forall s, Forall (same_but P (g_fs s)) (states (m s)).

Lemma same_refl P f : same_but P f f. Proof. intros n _. reflexivity. Qed.
Lemma same_trans P f g h : same_but P f g -> same_but P g h -> same_but P f h.
Proof. intros H1 H2 n Hn. rewrite H2, H1; auto. Qed.
Lemma frame_of P {A} (m : GM A) s t s' r : gframe P m -> m s = (t, (s', r)) -> Forall (same_but P (g_fs s)) t /\ same_but P (g_fs s) (g_fs s').
Proof. intros H Q. specialize (H s). rewrite Q in H. unfold states in H. cbn [fst snd] in H. apply Forall_app in H. destruct H as [H1 H2]. split; [exact H1|]. apply Forall_inv in H2. exact H2. Qed.
Lemma gframe_keep P {A} (m : GM A) : (forall s, fst (m s) = [] /\ g_fs (fst (snd (m s))) = g_fs s) -> gframe P m.
Proof. intros H s. unfold states. destruct (H s) as [-> ->]. constructor; [apply same_refl|constructor]. Qed.
Lemma gframe_ret P {A} (a : A) : gframe P (gret a). Proof. apply gframe_keep. intros s. split; reflexivity. Qed.
Lemma gframe_fail P {A} e : gframe P (@gfail A e). Proof. apply gframe_keep. intros s. split; reflexivity. Qed.
Lemma gframe_lift P {A} (r : res A) : gframe P (glift r). Proof. apply gframe_keep. intros s. split; reflexivity. Qed.
Lemma gframe_get P : gframe P get_fs. Proof. apply gframe_keep. intros s. split; reflexivity. Qed.
Lemma gframe_bind P {A B} (m : GM A) (k : A -> GM B) : gframe P m -> (forall a, gframe P (k a)) -> gframe P (gbind m k).
Proof.
  intros Hm Hk s. unfold gbind. destruct (m s) as [t [s' r]] eqn:Em. destruct (frame_of _ _ _ _ _ _ Hm Em) as [F1 F2]. destruct r as [a|e].
  - destruct (k a s') as [t' [s2 r2]] eqn:Ek. destruct (frame_of _ _ _ _ _ _ (Hk a) Ek) as [G1 G2]. unfold states. cbn [fst snd]. rewrite <- app_assoc. apply Forall_app. split; [exact F1|].
    apply Forall_app. split; [|constructor; [|constructor]; eapply same_trans; eauto]. refine (Forall_impl _ _ G1). intros g. apply same_trans. exact F2.
  - unfold states. cbn [fst snd]. apply Forall_app. split; [exact F1|]. constructor; [exact F2|constructor].
Qed.
Lemma gframe_lift_bind P {A B} (r : res A) (k : A -> GM B) : (forall a, r = Ok a -> gframe P (k a)) -> gframe P (gbind (glift r) k).
Proof.
  intros H s. rewrite gbind_lift. destruct r as [a|e]; [exact (H a eq_refl s)|]. unfold states. cbn. constructor; [apply same_refl|constructor].
Qed.
(** a program that starts by looking at the files may use what it sees *)
Lemma gframe_at P {A} (m : GM A) : (forall s, exists m', m s = m' s /\ gframe P m') -> gframe P m.
Proof. intros H s. destruct (H s) as (m' & -> & Hm). apply Hm. Qed.
Lemma gframe_iter P {A} (c : A -> GM unit) l : (forall x, In x l -> gframe P (c x)) -> gframe P (giter c l).
Proof. induction l as [|x l IH]; intros H; [apply gframe_ret|]. cbn [giter]. apply gframe_bind; [apply H; left; reflexivity|]. intros _. apply IH. intros y Hy. apply H. right. exact Hy. Qed.
Lemma gframe_change (P : str -> Prop) c : (forall f, same_but P f (c f)) -> gframe P (change c).
Proof. intros H s. unfold change, states. cbn [fst snd g_fs app]. repeat constructor; apply H. Qed.
Lemma same_set (P : str -> Prop) n e f : P n -> same_but P f (dset n e f).
Proof. intros H k Hk. apply dget_dset_other. intros ->. exact (Hk H). Qed.
Lemma same_del (P : str -> Prop) n f : P n -> same_but P f (ddel n f).
Proof. intros H k Hk. apply dget_ddel_other. intros ->. exact (Hk H). Qed.
Lemma gframe_write now (P : str -> Prop) n b z : P n -> gframe P (write_file now n b z).
Proof.
  intros H s. unfold write_file, states. cbn [fst snd g_fs app]. constructor; [apply same_set; auto|]. constructor; [|constructor; [|constructor]];
  (eapply same_trans; [|apply same_set; auto]; apply same_set; auto).
Qed.
Lemma gframe_remove (P : str -> Prop) n : P n -> gframe P (remove_file n).
Proof. intros H. apply gframe_change. intros f. apply same_del. exact H. Qed.

(** ** names *)
Lemma pjoin_path d x : plain_path d -> prefixb [SL] x = false -> pjoin d x = d ++ SL :: x.
Proof.
  intros (t & c & -> & Hc) Hx. unfold pjoin. change [H5.SLASH] with [SL]. rewrite Hx. change SL with H5.SLASH.
  destruct (t ++ [c]) as [|y z] eqn:Ey; [destruct t; discriminate|]. rewrite <- Ey. replace (suffixb [H5.SLASH] (t ++ [c])) with false; [reflexivity|].
  unfold suffixb. rewrite rev_unit. cbn [rev app prefixb]. destruct (N.eqb_spec H5.SLASH c) as [Q|]; [exfalso; exact (Hc (eq_sym Q))|reflexivity].
Qed.
Lemma no_prefix x y : x <> [] -> ~ In SL x -> prefixb [SL] (x ++ y) = false.
Proof. intros Hx Hs. destruct x as [|c x]; [congruence|]. cbn [app prefixb]. destruct (N.eqb_spec SL c) as [<-|]; [|reflexivity]. exfalso. apply Hs. left. reflexivity. Qed.
Lemma str_of_Z_plain z : str_of_Z z <> [] /\ ~ In SL (str_of_Z z).
Proof.
  assert (N : forall n, ~ In SL (str_of_N n)).
  { intros n Q. pose proof (str_of_N_digits n) as F. rewrite Forall_forall in F. specialize (F _ Q). unfold ascii_digit, SL in F. lia. }
  destruct z as [|p|p]; cbn [str_of_Z].
  - split; [discriminate|]. cbn. intuition discriminate.
  - split; [apply str_of_N_ne|apply N].
  - split; [discriminate|]. intros [Q|Q]; [discriminate Q|exact (N _ Q)].
Qed.
Lemma four_plain z : four_digits z <> [] /\ ~ In SL (four_digits z).
Proof.
  unfold four_digits. destruct (str_of_Z_plain z) as [H1 H2]. split.
  - intros Q. apply app_eq_nil in Q. destruct Q as [_ Q]. exact (H1 Q).
  - intros Q. apply in_app_or in Q. destruct Q as [Q|Q]; [apply repeat_spec in Q; discriminate|exact (H2 Q)].
Qed.
Lemma two_plain z : two_digits z <> [] /\ ~ In SL (two_digits z).
Proof.
  unfold two_digits. destruct (str_of_Z_plain z) as [H1 H2].
  repeat match goal with |- context [if ?b then _ else _] => destruct b end; try (split; [exact H1|exact H2]);
    (split; [discriminate|]; intros [Q|Q]; [discriminate Q|exact (H2 Q)]).
Qed.
Lemma root_not_nil p r : plain_path p -> root_name p r -> r <> [].
Proof.
  intros (t & c & -> & Hc) (b & ext & [Hb Hp] & He) ->.
  assert (Hne : b <> []).
  { intros ->. destruct Hp as [Q|[d Q]]; [destruct t; discriminate|]. apply app_inj_tail in Q. destruct Q as [_ Q]. exact (Hc Q). }
  destruct He as [(dir & dots & stem & e & H1 & H2 & _ & _ & _ & H3 & _)|(H1 & _)]; [|congruence]. apply H3.
  symmetry in H2. apply app_eq_nil in H2. destruct H2 as [_ H2]. apply app_eq_nil in H2. tauto.
Qed.

Section Frame.
  Variables (E : env) (known : list hid) (draw : image -> option exn) (now : nat -> Z) (size_of : body -> Z) (plotDir : str) (reversed : bool).
  Hypothesis Hdir : plain_path plotDir.

  Lemma cache_path : cache_name plotDir = plotDir ++ SL :: CACHE_FILE.
  Proof. apply pjoin_path; [exact Hdir|reflexivity]. Qed.
  Lemma plot_dir_ok specFile f d : plain_path specFile -> getPlotDir plotDir specFile f = Ok (Some d) -> plots_in plotDir specFile d /\ plain_path d.
  Proof.
    intros Hp H. unfold getPlotDir in H. destruct (getSpecFileDate (path_of f specFile)) as [o|]; [|discriminate]. cbn [bind] in H. destruct o as [date|]; [|discriminate].
    unfold datePath in H. destruct (strptime date) as [t|]; [|discriminate]. cbn [bind] in H. injection H as <-.
    destruct (four_plain (year t)) as [Y1 Y2]. destruct (two_plain (mon t)) as [M1 M2]. pose proof (root_ok specFile) as R. set (root := fst (splitext (basename specFile))) in *.
    assert (Py : plain_path (four_digits (year t))).
    { destruct (four_digits (year t)) as [|c y _] using rev_ind; [congruence|]. exists y, c. split; [reflexivity|]. intros ->. apply Y2. apply in_or_app. right. left. reflexivity. }
    assert (Q1 : pjoin (four_digits (year t)) (two_digits (mon t)) = four_digits (year t) ++ SL :: two_digits (mon t)) by (apply pjoin_plain; auto). rewrite Q1.
    assert (Q2 : pjoin plotDir (four_digits (year t) ++ SL :: two_digits (mon t)) = plotDir ++ SL :: four_digits (year t) ++ SL :: two_digits (mon t)).
    { apply pjoin_path; [exact Hdir|]. apply no_prefix; auto. }
    rewrite Q2.
    assert (Pm : plain_path (plotDir ++ SL :: four_digits (year t) ++ SL :: two_digits (mon t))).
    { replace (plotDir ++ SL :: four_digits (year t) ++ SL :: two_digits (mon t)) with ((plotDir ++ SL :: four_digits (year t)) ++ SL :: two_digits (mon t)) by (rewrite <- app_assoc; reflexivity).
      apply plain_app; auto. }
    rewrite pjoin_plain; [|exact Pm|exact (root_no_slash _ _ R)]. split.
    - exists (four_digits (year t)), (two_digits (mon t)), root. split; [exact Y2|]. split; [exact M2|]. split; [exact R|]. rewrite <- !app_assoc. cbn [app]. rewrite <- app_assoc. reflexivity.
    - apply plain_app; [exact (root_not_nil _ _ Hp R)|exact (root_no_slash _ _ R)].
  Qed.

  Definition place (specFile : str) (n : str) : Prop := n = cache_name plotDir \/ plot_place plotDir specFile n.
  Lemma place_in specFile d x : plots_in plotDir specFile d -> plain_path d -> ~ In SL x -> plot_place plotDir specFile (pjoin d x).
  Proof. intros H Hd Hx. exists d. split; [exact H|]. right. exists x. split; [exact Hx|]. apply pjoin_plain; auto. Qed.

  Lemma frame_updated specFile name : gframe (place specFile) (was_file_updated now size_of plotDir name).
  Proof.
    unfold was_file_updated. apply gframe_bind; [apply gframe_get|]. intros f. apply gframe_bind; [apply gframe_lift|]. intros c. apply gframe_bind; [apply gframe_lift|]. intros [m z].
    cbv zeta. destruct (_ && _); [|apply gframe_ret]. apply gframe_bind; [apply gframe_write; left; reflexivity|]. intros _. apply gframe_ret.
  Qed.
  Lemma frame_spec specFile name : gframe (place specFile) (specFileUpdated now size_of plotDir name).
  Proof.
    unfold specFileUpdated. apply gframe_bind; [apply gframe_get|]. intros f. destruct (fexists f name); [|apply gframe_ret].
    apply gframe_bind; [apply frame_updated|]. intros r. apply gframe_ret.
  Qed.

  Definition good_item (d : str) (it : item) : Prop := i_base it = plot_name (s_num (i_scan it)) /\ ~ In SL (s_num (i_scan it)) /\ i_full it = pjoin d (i_base it).
  Lemma items_ok d sd its : history E known sd -> items d sd = Ok its -> Forall (good_item d) its.
  Proof.
    intros Hh H. unfold items in H. destruct (getScanNumbers sd) as [ns|] eqn:En; [|discriminate]. cbn [bind] in H.
    assert (Hnum : numeric sd).
    { destruct (C10_total sd) as [_ Q]. assert (Dec : numeric sd \/ ~ numeric sd).
      { unfold numeric. induction (keys (scans sd)) as [|k ks IH]; [left; constructor|]. destruct (py_float_total k) as [Q1|Q1].
        - destruct IH as [IH|IH]; [left; constructor; auto|right]. intros F. inversion F; auto.
        - right. intros F. inversion F as [|? ? [x Hx]]; subst. congruence. }
      destruct Dec as [D|D]; [exact D|]. specialize (Q D). congruence. }
    clear En. revert its H. induction ns as [|n ns IH]; intros its H; cbn [mapM] in H; [injection H as <-; constructor|].
    destruct (getScan (KStr n) sd) as [o|] eqn:Eg; [|discriminate]. cbn [bind] in H. destruct o as [sc|]; [|discriminate]. cbn [of_opt bind] in H.
    destruct (mapM _ ns) as [r|] eqn:Em; [|discriminate]. cbn [bind] in H. injection H as <-. constructor; [|apply IH; reflexivity].
    split; [reflexivity|]. split; [|reflexivity]. cbn [i_scan]. destruct (getScan_in _ _ _ Eg) as [k Hk].
    assert (Hn : In (s_num sc) (keys (scans sd))).
    { destruct (hist_inv _ _ _ Hh) as [I1 I2]. rewrite I2. apply in_map. unfold values. apply dget_In in Hk. apply in_map_iff. exists (k, sc). split; [reflexivity|exact Hk]. }
    unfold numeric in Hnum. rewrite Forall_forall in Hnum. destruct (Hnum _ Hn) as [x Hx]. exact (number_no_slash _ _ Hx).
  Qed.

  Lemma frame_one (P : str -> Prop) specFile d it sd : (forall x, ~ In SL x -> P (pjoin d x)) -> good_item d it -> gframe P (one_plot E known draw now size_of specFile it sd).
  Proof.
    intros Hp (Hb & Hn & Hf). unfold one_plot. apply gframe_bind; [apply gframe_get|]. intros f s. unfold select.
    destruct (sel_auto_scan (Some (i_scan it)) (g_sel s)) as [db [c|e]]; [|unfold states; cbn; repeat constructor; apply same_refl].
    destruct (kind_of c) as [k|]; [|unfold states; cbn; repeat constructor; apply same_refl].
    match goal with |- context [plot_scan ?a ?b ?c ?d ?e ?f ?g ?h] => destruct (plot_scan a b c d e f g h) as [p [[i|]|x]] end.
    - set (s1 := mk_g (g_fs s) db (g_tick s)). assert (Q : gframe P (write_file now (i_full it) (BPlot i) (size_of (BPlot i)))).
      { apply gframe_write. rewrite Hf, Hb. apply Hp. apply plot_name_no_slash. exact Hn. }
      destruct (write_file now (i_full it) (BPlot i) (size_of (BPlot i)) s1) as [t' [s' r']] eqn:Ew. destruct (frame_of _ _ _ _ _ _ Q Ew) as [F1 F2].
      unfold states. cbn [fst snd app]. apply Forall_app. split; [exact F1|]. constructor; [exact F2|constructor].
    - unfold states; cbn; repeat constructor; apply same_refl.
    - destruct x; unfold states; cbn; repeat constructor; apply same_refl.
  Qed.
  Lemma frame_plots (P : str -> Prop) specFile d pl its : (forall x, ~ In SL x -> P (pjoin d x)) -> Forall (good_item d) its -> forall sd rm ps,
    gframe P (plots E known draw now size_of specFile pl its sd rm ps).
  Proof.
    intros Hp H. induction H as [|it its Hi H IH]; intros sd rm ps; cbn [plots]; [apply gframe_ret|]. destruct (mem (i_base it) pl); [apply IH|].
    apply gframe_bind; [eapply frame_one; eauto|]. intros [sd' [e|]]; apply IH.
  Qed.
  Lemma listdir_no_slash d f x : In x (listdir d f) -> ~ In SL x.
  Proof.
    intros H Q. unfold listdir in H. apply in_flat_map in H. destruct H as (k & _ & H). destruct (prefixb _ k); [|destruct H]. cbv zeta in H.
    destruct (Nat.eqb _ 0 || existsb (N.eqb H5.SLASH) (skipn (S (List.length d)) k)) eqn:Eb; [destruct H|]. destruct H as [<-|[]]. apply orb_false_elim in Eb. destruct Eb as [_ Eb].
    assert (T : existsb (N.eqb H5.SLASH) (skipn (S (List.length d)) k) = true) by (apply existsb_exists; exists SL; split; [exact Q|reflexivity]). congruence.
  Qed.
  Lemma insert_in {A} (leb : A -> A -> bool) x y l : In x (insert leb y l) -> x = y \/ In x l.
  Proof. induction l as [|z l IH]; cbn [insert]; [intros [<-|[]]; auto|]. destruct (leb y z); cbn [In]; [intuition auto|]. intros [<-|H]; [auto|]. destruct (IH H); auto. Qed.
  Lemma isort_sub {A} (leb : A -> A -> bool) x l : In x (isort leb l) -> In x l.
  Proof. unfold isort. induction l as [|z l IH]; cbn [fold_right]; [auto|]. intros H. apply insert_in in H. destruct H as [->|H]; [left; reflexivity|right; auto]. Qed.
  Lemma frame_old (P : str -> Prop) specFile d last new : (forall x, ~ In SL x -> P (pjoin d x)) -> gframe P (old_plots specFile d last new).
  Proof.
    intros Hp. unfold old_plots. apply gframe_bind; [apply gframe_get|]. intros f. cbv zeta. set (pl := isort str_leb _).
    assert (Hpl : forall k, In k pl -> P (pjoin d k)).
    { intros k Hk. unfold pl in Hk. apply isort_sub in Hk. apply filter_In in Hk. destruct Hk as [Hk _]. apply Hp. exact (listdir_no_slash _ _ _ Hk). }
    destruct (_ && _ && _); [|apply gframe_ret]. destruct (snd last <? snd new)%Z.
    - destruct (path_of f specFile) as [| |[c|] m z]; try apply gframe_fail. destruct (prefixb _ _); [apply gframe_ret|]. destruct (rev pl) as [|k r] eqn:Er; [apply gframe_ret|].
      apply gframe_bind; [|intros _; apply gframe_ret]. apply gframe_remove. apply Hpl. apply in_rev. rewrite Er. left. reflexivity.
    - apply gframe_bind; [|intros _; apply gframe_ret]. apply gframe_iter. intros k Hk. apply gframe_remove. exact (Hpl k Hk).
  Qed.
  Lemma frame_index (P : str -> Prop) d its sd rm ps : (forall x, ~ In SL x -> P (pjoin d x)) -> gframe P (make_index now size_of reversed d its sd rm ps).
  Proof.
    intros Hp. unfold make_index. apply gframe_bind; [apply gframe_get|]. intros f. cbv zeta. destruct (rm || _); [|apply gframe_ret]. apply gframe_bind; [apply gframe_lift|]. intros ts.
    apply gframe_write. apply Hp. cbn. intuition discriminate.
  Qed.
  Lemma frame_copy (P : str -> Prop) specFile d : (forall x, ~ In SL x -> P (pjoin d x)) -> gframe P (copy_data now specFile d).
  Proof.
    intros Hp. unfold copy_data. apply gframe_bind; [apply gframe_get|]. intros f. cbv zeta.
    assert (W : forall b z, gframe P (write_file now (pjoin d (basename specFile)) b z)).
    { intros b z. apply gframe_write. apply Hp. exact (proj1 (basename_spec specFile)). }
    destruct (dget specFile f) as [[|b m z]|]; try apply gframe_fail. destruct (fmtime f _) as [t|].
    - destruct (t <? m)%Z; [apply W|apply gframe_ret].
    - destruct (fexists f _); [apply gframe_ret|apply W].
  Qed.

  Lemma gframe_mono (P Q : str -> Prop) {A} (m : GM A) : (forall n, P n -> Q n) -> gframe P m -> gframe Q m.
  Proof. intros H F s. refine (Forall_impl _ _ (F s)). intros g Hg n Hn. apply Hg. intros HP. exact (Hn (H n HP)). Qed.
  Lemma at_place specFile {A} (m : GM A) : gframe (plot_place plotDir specFile) m -> gframe (place specFile) m.
  Proof. apply gframe_mono. intros n H. right. exact H. Qed.
  Lemma frame_all specFile : plain_path specFile -> gframe (place specFile) (plot_all_scans E known draw now size_of plotDir reversed specFile).
  Proof.
    intros Hs. unfold plot_all_scans. apply gframe_bind; [apply gframe_get|]. intros f. cbv zeta. destruct (negb _); [apply gframe_fail|].
    apply gframe_lift_bind. intros sd Eo. destruct (Nat.eqb _ 0); [apply gframe_ret|]. apply gframe_lift_bind. intros o Ed. apply gframe_lift_bind. intros d Eq. destruct o as [d'|]; [|discriminate].
    cbn [of_opt] in Eq. injection Eq as ->. destruct (plot_dir_ok _ _ _ Hs Ed) as [Hp Hd]. assert (Hx : forall x, ~ In SL x -> plot_place plotDir specFile (pjoin d x)) by (intros x; apply place_in; auto). apply gframe_bind.
    { destruct (fexists f d); [apply gframe_ret|]. apply gframe_change. intros g. apply same_set. right. exists d. auto. }
    intros _. apply gframe_lift_bind. intros its Ei. pose proof (items_ok _ _ _ (open_history _ _ _ _ _ Eo) Ei) as Hi. apply gframe_bind; [apply gframe_get|]. intros f1.
    apply gframe_lift_bind. intros c _. apply gframe_bind; [apply frame_spec|]. intros [new|]; [|apply gframe_ret]. apply gframe_bind; [apply at_place, frame_old; auto|]. intros pl.
    apply gframe_bind; [apply at_place; eapply frame_plots; eauto|]. intros [[sd' rm] ps]. apply gframe_bind; [apply at_place, frame_index; auto|]. intros _. apply at_place, frame_copy; auto.
  Qed.

  (** ** the theorems *)
  Lemma changed_place {A} (m : GM A) specFile s f n : gframe (place specFile) m -> In f (states (m s)) -> dget n f <> dget n (g_fs s) -> ~ ~ place specFile n.
  Proof. intros H Hf Hd Q. specialize (H s). rewrite Forall_forall in H. apply Hd. apply (H f Hf). exact Q. Qed.

  Lemma place_cache specFile : ~ plot_place plotDir specFile (cache_name plotDir).
  Proof.
    rewrite cache_path. intros (d & (y & m & r & _ & _ & _ & ->) & [Q|(x & _ & Q)]).
    - apply app_inv_head in Q. injection Q as Q. assert (In SL CACHE_FILE) by (rewrite Q; apply in_or_app; right; left; reflexivity). cbn in H. intuition discriminate.
    - rewrite <- app_assoc in Q. apply app_inv_head in Q. cbn [app] in Q. injection Q as Q. assert (In SL CACHE_FILE) by (rewrite Q; apply in_or_app; left; apply in_or_app; right; left; reflexivity). cbn in H. intuition discriminate.
  Qed.
  Lemma cut_slash a b x y : ~ In SL a -> ~ In SL b -> a ++ SL :: x = b ++ SL :: y -> a = b /\ x = y.
  Proof.
    revert b. induction a as [|c a IH]; intros [|d b] Ha Hb H; cbn [app] in H.
    - injection H as H. auto.
    - injection H as <- H. exfalso. apply Hb. left. reflexivity.
    - injection H as -> H. exfalso. apply Ha. left. reflexivity.
    - injection H as -> H. destruct (IH b) as [-> ->]; auto; intros Q; [apply Ha|apply Hb]; right; exact Q.
  Qed.
  Lemma cut_end a b x : ~ In SL b -> a ++ SL :: x = b -> False.
  Proof. intros Hb <-. apply Hb. apply in_or_app. right. left. reflexivity. Qed.
  Lemma places_apart a b ra rb n : root_name a ra -> root_name b rb -> (forall r, root_name a r -> root_name b r -> False) -> plot_place plotDir a n -> plot_place plotDir b n -> False.
  Proof.
    intros _ _ Hd (d1 & (y1 & m1 & r1 & Y1 & M1 & R1 & ->) & H1) (d2 & (y2 & m2 & r2 & Y2 & M2 & R2 & ->) & H2).
    pose proof (root_no_slash _ _ R1) as S1. pose proof (root_no_slash _ _ R2) as S2.
    assert (K : forall z1 z2, (z1 = [] \/ exists x, z1 = SL :: x) -> (z2 = [] \/ exists x, z2 = SL :: x) -> (plotDir ++ SL :: y1 ++ SL :: m1 ++ SL :: r1) ++ z1 = (plotDir ++ SL :: y2 ++ SL :: m2 ++ SL :: r2) ++ z2 -> r1 = r2).
    { intros z1 z2 Z1 Z2 Q. rewrite <- !app_assoc in Q. apply app_inv_head in Q. cbn [app] in Q. injection Q as Q. rewrite <- !app_assoc in Q. cbn [app] in Q. apply cut_slash in Q; auto. destruct Q as [_ Q].
      rewrite <- !app_assoc in Q. cbn [app] in Q. apply cut_slash in Q; auto. destruct Q as [_ Q].
      destruct Z1 as [->|[x1 ->]], Z2 as [->|[x2 ->]]; rewrite ?app_nil_r in Q.
      - exact Q.
      - exfalso. exact (cut_end _ _ _ S1 (eq_sym Q)).
      - exfalso. exact (cut_end _ _ _ S2 Q).
      - apply cut_slash in Q; auto. tauto. }
    assert (r1 = r2).
    { destruct H1 as [->|(x1 & _ & ->)], H2 as [H2|(x2 & _ & H2)].
      - apply (K [] []); auto. rewrite !app_nil_r. exact H2.
      - apply (K [] (SL :: x2)); eauto. rewrite app_nil_r. exact H2.
      - apply (K (SL :: x1) []); eauto. rewrite app_nil_r. exact H2.
      - apply (K (SL :: x1) (SL :: x2)); eauto. }
    subst r2. exact (Hd _ R1 R2).
  Qed.

  Lemma C81_lemma a b s f n : plain_path a -> plain_path b -> (forall r, root_name a r -> root_name b r -> False) -> plot_place plotDir a n ->
    In f (states (plot_all_scans E known draw now size_of plotDir reversed b s)) -> dget n f = dget n (g_fs s).
  Proof.
    intros Ha Hb Hd Hn Hf. pose proof (frame_all b Hb s) as F. rewrite Forall_forall in F. apply (F f Hf). intros [->|Q].
    - exact (place_cache _ Hn).
    - exact (places_apart a b _ _ n (root_ok a) (root_ok b) Hd Hn Q).
  Qed.
  Definition places (files : list str) (n : str) : Prop := n = cache_name plotDir \/ exists a, In a files /\ plot_place plotDir a n.
  Lemma C84_lemma files s f n : Forall plain_path files -> ~ places files n -> In f (states (gallery E known draw now size_of plotDir reversed files s)) -> dget n f = dget n (g_fs s).
  Proof.
    intros Hp Hn Hf. assert (F : gframe (places files) (gallery E known draw now size_of plotDir reversed files)).
    { apply gframe_iter. intros a Ha. rewrite Forall_forall in Hp. refine (gframe_mono _ _ _ _ (frame_all a (Hp a Ha))). intros k [->|Hk]; [left; reflexivity|right; exists a; auto]. }
    specialize (F s). rewrite Forall_forall in F. exact (F f Hf n Hn).
  Qed.
End Frame.
