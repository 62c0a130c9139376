(** Which plots are kept at a later run. *)
From Coq Require Import String Lia Permutation Sorted.
From Verif Require Import Py PyFacts NumFacts Time Utils Keys Handlers Reader Cli H5 Writer Plot Gallery SpecText SpecReader SpecNum SpecLookup SpecHistory SpecTables SpecCli SpecPlot SpecGallery SpecGallery2 CliFacts CliFacts2 TextFacts OrderFacts ReaderFacts ReaderFacts2 ReaderFacts4 ReaderFacts5 ReaderFacts8
  ExampleFacts DataFacts UseFacts PlotFacts PlotLocal GalleryFacts GalleryFacts2 GalleryFacts3 GalleryFacts4 GalleryFacts5 GalleryFacts6 GalleryFacts7 GalleryFacts8.
Import ListNotations.
Local Open Scope list_scope.

Lemma str_leb_refl a : str_leb a a = true.
Proof. induction a as [|c a IH]; [reflexivity|]. cbn [str_leb]. rewrite N.ltb_irrefl. exact IH. Qed.
Lemma str_leb_total a : forall b, str_leb a b = true \/ str_leb b a = true.
Proof.
  induction a as [|x a IH]; intros b; [left; reflexivity|]. destruct b as [|y b]; [right; reflexivity|]. cbn [str_leb]. destruct (x <? y)%N eqn:E1; [left; reflexivity|]. destruct (y <? x)%N eqn:E2; [right; reflexivity|]. apply IH.
Qed.
Lemma str_leb_trans a : forall b c, str_leb a b = true -> str_leb b c = true -> str_leb a c = true.
Proof.
  induction a as [|x a IH]; intros b c H1 H2; [reflexivity|]. destruct b as [|y b]; [discriminate H1|]. destruct c as [|w c]; [discriminate H2|]. cbn [str_leb] in *.
  destruct (x <? y)%N eqn:E1.
  - apply N.ltb_lt in E1. destruct (y <? w)%N eqn:E2.
    + apply N.ltb_lt in E2. replace (x <? w)%N with true by (symmetry; apply N.ltb_lt; lia). reflexivity.
    + destruct (w <? y)%N eqn:E3; [discriminate H2|]. apply N.ltb_ge in E2. apply N.ltb_ge in E3. replace (x <? w)%N with true by (symmetry; apply N.ltb_lt; lia). reflexivity.
  - destruct (y <? x)%N eqn:E1'; [discriminate H1|]. apply N.ltb_ge in E1. apply N.ltb_ge in E1'. assert (x = y) as -> by lia.
    destruct (y <? w)%N eqn:E2; [reflexivity|]. destruct (w <? y)%N eqn:E3; [discriminate H2|]. exact (IH _ _ H1 H2).
Qed.
Lemma str_leb_lex a : forall b, str_leb a b = true -> a = b \/ lex_before a b.
Proof.
  induction a as [|x a IH]; intros b H.
  - destruct b as [|y b]; [left; reflexivity|]. right. right. exists y, b. reflexivity.
  - destruct b as [|y b]; [discriminate H|]. cbn [str_leb] in H. destruct (x <? y)%N eqn:E1.
    + apply N.ltb_lt in E1. right. left. exists [], x, y, a, b. split; [reflexivity|]. split; [reflexivity|exact E1].
    + destruct (y <? x)%N eqn:E2; [discriminate H|]. apply N.ltb_ge in E1. apply N.ltb_ge in E2. assert (x = y) as -> by lia. destruct (IH _ H) as [->|[(p & u & v & a' & b' & -> & -> & Q)|(c & u & ->)]].
      * left. reflexivity.
      * right. left. exists (y :: p), u, v, a', b'. split; [reflexivity|]. split; [reflexivity|exact Q].
      * right. right. exists c, u. reflexivity.
Qed.
Lemma listdir_NoDup d f : NoDup (keys f) -> NoDup (listdir d f).
Proof.
  unfold listdir. generalize (keys f) as ks. intros ks. induction 1 as [|k ks Hk _ IH]; cbn [flat_map]; [constructor|].
  set (g := fun k0 : str => _) in *. assert (G : forall a x, In x (g a) -> a = d ++ SL :: x /\ g a = [x]).
  { intros a x Hx. unfold g in *. destruct (prefixb (d ++ [H5.SLASH]) a) eqn:Ep; [|destruct Hx]. apply prefixb_spec in Ep. destruct Ep as [y ->].
    assert (Es : skipn (S (List.length d)) ((d ++ [H5.SLASH]) ++ y) = y).
    { rewrite skipn_app, skipn_all2 by (rewrite app_length; cbn; lia). rewrite app_length. cbn [List.length]. replace (S (List.length d) - (List.length d + 1)) with 0 by lia. reflexivity. }
    cbv zeta in *. rewrite Es in *. destruct (_ || _); [destruct Hx|]. destruct Hx as [<-|[]]. split; [rewrite <- app_assoc; reflexivity|reflexivity]. }
  change (NoDup (g k ++ flat_map g ks)). destruct (g k) as [|x l] eqn:Eg; [exact IH|]. destruct (G k x) as [Q1 Q2]; [rewrite Eg; left; reflexivity|]. rewrite Eg in Q2. injection Q2 as ->. cbn [app]. constructor; [|exact IH].
  intros Q. apply in_flat_map in Q. destruct Q as (k' & Hk' & Hx). destruct (G k' x Hx) as [Q _]. apply Hk. rewrite Q1, <- Q. exact Hk'.
Qed.
Lemma plot_list_NoDup d f : NoDup (keys f) -> NoDup (plot_list_of d f).
Proof. intros H. unfold plot_list_of. apply (Permutation_NoDup (Permutation_sym (isort_perm _ _))). apply NoDup_filter. apply listdir_NoDup. exact H. Qed.
Lemma plot_list_sorted d f : StronglySorted (fun a b => str_leb a b = true) (plot_list_of d f).
Proof. unfold plot_list_of. apply isort_sorted_on with (Hr := fun _ => True); [intros; apply str_leb_total|intros x y z _ _ _; apply str_leb_trans|]. apply Forall_forall. intros; exact I. Qed.
Lemma in_plots d f x : In x (plot_list_of d f) <-> svg_name x /\ dget (d ++ SL :: x) f <> None.
Proof.
  unfold plot_list_of. split.
  - intros H. apply isort_sub in H. apply filter_In in H. destruct H as [H Q]. apply listdir_iff in H. destruct H as (_ & H1 & H2). unfold PLOT_TYPE in Q. apply suffixb_spec in Q. split; [split; [exact H1|exact Q]|exact H2].
  - intros [[H1 [y Hy]] H2]. apply isort_in. apply filter_In. split; [apply listdir_iff; split; [rewrite Hy; destruct y; discriminate|split; assumption]|]. unfold PLOT_TYPE. apply suffixb_spec. exists y. exact Hy.
Qed.
Lemma plot_svg n : ~ In SL n -> svg_name (plot_name n).
Proof. intros H. split; [apply plot_name_no_slash; exact H|apply plot_name_svg]. Qed.
Lemma sorted_last (l : list str) k : StronglySorted (fun a b => str_leb a b = true) (l ++ [k]) -> forall x, In x l -> str_leb x k = true.
Proof.
  induction l as [|y l IH]; intros H x Hx; [destruct Hx|]. cbn [app] in H. inversion H as [|? ? H1 H2]; subst. destruct Hx as [<-|Hx]; [|exact (IH H1 x Hx)]. rewrite Forall_forall in H2. apply H2. apply in_or_app. right. left. reflexivity.
Qed.
Lemma lstrip_split s : exists gap, s = gap ++ lstrip s /\ Forall (fun c => is_space c = true) gap.
Proof.
  unfold lstrip. induction s as [|c s (gap & E & H)]; cbn [lstrip_by]; [exists []; split; [reflexivity|constructor]|]. destruct (is_space c) eqn:Ec.
  - exists (c :: gap). split; [cbn [app]; rewrite <- E; reflexivity|constructor; [exact Ec|exact H]].
  - exists []. split; [reflexivity|constructor].
Qed.
Lemma grown_prefix content size : more_appended content size -> prefixb (L "#S ") (lstrip (skipn (Z.to_nat size) (universal_newlines content))) = false.
Proof.
  intros (Hc & old & rest & E & Hl & Hg). rewrite (universal_same _ Hc), E. rewrite <- Hl, Nat2Z.id, skipn_app, skipn_all, Nat.sub_diag. cbn [app skipn].
  destruct (prefixb (L "#S ") (lstrip rest)) eqn:Ep; [|reflexivity]. exfalso. apply prefixb_spec in Ep. destruct Ep as [r Hr]. destruct (lstrip_split rest) as (gap & Q & Hs). rewrite Hr in Q. exact (Hg gap r Q Hs).
Qed.

Section Old.
  Variables (specFile : str) (m z m0 z0 : Z) (content : str).
  Notation old := (old_plots specFile).
  Lemma kept_list d f : kept_in d f (plot_list_of d f).
  Proof. intros n Hn. apply in_plot_list. exact Hn. Qed.
  Lemma old_appended d f sel tick : (z0 < z)%Z -> scans_appended content z0 -> dget specFile f = Some (FFile (BText (Some content)) m z) -> exists tr f1 pl, old d (m0, z0) (m, z) (mk_g f sel tick) = (tr, (mk_g f1 sel tick, Ok pl)) /\ kept_in d f1 pl /\ kept_all d f f1 /\
    (forall n, (forall x, ~ In SL x -> n <> d ++ SL :: x) -> dget n f1 = dget n f).
  Proof.
    intros Hz Ha Hf. exists [], f, (plot_list_of d f). split; [apply (old_kept specFile d f sel tick m0 z0 m z content); [unfold path_of; rewrite Hf; reflexivity|exact Hz|exact Ha]|]. split; [apply kept_list|]. split; [intros x; reflexivity|]. intros; reflexivity.
  Qed.
  Lemma snoc_of_rev {A} (l : list A) k r : rev l = k :: r -> l = rev r ++ [k].
  Proof. intros H. rewrite <- (rev_involutive l), H. reflexivity. Qed.
  Lemma join_ne d x y : x <> y -> d ++ SL :: x <> d ++ SL :: y.
  Proof. intros H Q. apply app_inv_head in Q. apply (f_equal (@tl N)) in Q. exact (H Q). Qed.
  Lemma old_grown d f sel tick : plain_path d -> NoDup (keys f) -> (0 <= z0 < z)%Z -> more_appended content z0 -> dget specFile f = Some (FFile (BText (Some content)) m z) -> exists tr f1 pl, old d (m0, z0) (m, z) (mk_g f sel tick) = (tr, (mk_g f1 sel tick, Ok pl)) /\ kept_in d f1 pl /\ kept_but_last d f f1 /\
    (forall n, (forall x, ~ In SL x -> n <> d ++ SL :: x) -> dget n f1 = dget n f).
  Proof.
    intros Hd Hn Hz Ha Hf. unfold old_plots. rewrite gbind_get. cbn [g_fs fst snd]. cbv zeta. fold (plot_list_of d f). pose proof (plot_list_NoDup d f Hn) as Nd. pose proof (plot_list_sorted d f) as Sd. pose proof (in_plots d f) as Ip. pose proof (kept_list d f) as Kl.
    destruct (plot_list_of d f) as [|k0 l0] eqn:El; cbn [List.length Nat.eqb negb andb].
    - exists [], f, []. split; [reflexivity|]. split; [exact Kl|]. split; [|intros; reflexivity]. left. split; [|intros x; reflexivity]. intros x Hx. destruct (dget (d ++ SL :: x) f) eqn:Ex; [|reflexivity]. exfalso. apply (proj2 (Ip x)). split; [exact Hx|congruence].
    - replace (0 <? z)%Z with true by (symmetry; apply Z.ltb_lt; lia). replace (z =? z0)%Z with false by (symmetry; apply Z.eqb_neq; lia). replace (z0 <? z)%Z with true by (symmetry; apply Z.ltb_lt; lia). cbn [negb andb].
      unfold path_of. rewrite Hf, (grown_prefix content z0 Ha). set (pl := k0 :: l0) in *. destruct (rev pl) as [|k r] eqn:Er; [apply (f_equal (@rev str)) in Er; rewrite rev_involutive in Er; discriminate Er|]. apply snoc_of_rev in Er.
      unfold gbind, remove_file, change. cbn [g_fs g_sel g_tick]. unfold gret. eexists _, _, _. split; [reflexivity|].
      assert (Kin : In k pl) by (rewrite Er; apply in_or_app; right; left; reflexivity). destruct (proj1 (Ip k) Kin) as [Ks Kf]. rewrite (pjoin_plain d k Hd (proj1 Ks)).
      assert (Nk : ~ In k (rev r)) by (rewrite Er in Nd; apply NoDup_remove_2 in Nd; rewrite app_nil_r in Nd; exact Nd).
      assert (Same : forall x, x <> k -> dget (d ++ SL :: x) (ddel (d ++ SL :: k) f) = dget (d ++ SL :: x) f) by (intros x Q; apply dget_ddel_other; apply join_ne; exact Q).
      assert (Gone : dget (d ++ SL :: k) (ddel (d ++ SL :: k) f) = None) by (apply dget_ddel_same; exact Hn). split; [|split].
      + intros n Hs. rewrite mem_In. destruct (list_eq_dec N.eq_dec (plot_name n) k) as [->|Q].
        * rewrite Gone. split; [intros X; exfalso; exact (Nk X)|congruence].
        * rewrite (Same _ Q), <- (Kl n Hs), mem_In, Er. split; [intros X; apply in_or_app; left; exact X|]. intros X. apply in_app_or in X. destruct X as [X|[X|[]]]; [exact X|]. exfalso. exact (Q (eq_sym X)).
      + right. exists k. split; [|split; [exact Gone|exact Same]]. split; [exact Ks|]. split; [exact Kf|]. intros x Hx Q. assert (Xin : In x pl) by (apply Ip; split; assumption). rewrite Er in Xin, Sd. apply in_app_or in Xin. destruct Xin as [X|[X|[]]]; [|left; symmetry; exact X].
        apply str_leb_lex. exact (sorted_last _ _ Sd x X).
      + intros n Q. apply dget_ddel_other. exact (Q k (proj1 Ks)).
  Qed.
  Lemma remove_all d sel tick l : plain_path d -> Forall svg_name l -> forall f, NoDup (keys f) -> exists tr f1, giter (fun k => remove_file (pjoin d k)) l (mk_g f sel tick) = (tr, (mk_g f1 sel tick, Ok tt)) /\ NoDup (keys f1) /\
    forall n, ((exists k, In k l /\ n = d ++ SL :: k) -> dget n f1 = None) /\ ((forall k, In k l -> n <> d ++ SL :: k) -> dget n f1 = dget n f).
  Proof.
    intros Hd Hl. induction Hl as [|k l Hk _ IH]; intros f Hn.
    - exists [], f. split; [reflexivity|]. split; [exact Hn|]. intros n. split; [intros (k & [] & _)|reflexivity].
    - destruct (IH (ddel (d ++ SL :: k) f) (NoDup_ddel _ _ Hn)) as (tr & f1 & I1 & I2 & I3). cbn [giter]. unfold gbind, remove_file at 1, change. cbn [g_fs g_sel g_tick]. rewrite (pjoin_plain d k Hd (proj1 Hk)), I1. eexists _, f1. split; [reflexivity|]. split; [exact I2|].
      intros n. split.
      + intros (k' & [<-|Hk'] & ->); [|apply I3; exists k'; split; [exact Hk'|reflexivity]]. destruct (in_dec (list_eq_dec N.eq_dec) k l) as [Q|Q]; [apply I3; exists k; split; [exact Q|reflexivity]|].
        rewrite (proj2 (I3 _)); [apply dget_ddel_same; exact Hn|]. intros k' Hk' X. apply app_inv_head in X. apply (f_equal (@tl N)) in X. cbn [tl] in X. apply Q. rewrite X. exact Hk'.
      + intros H. rewrite (proj2 (I3 n)) by (intros k' Hk'; apply H; right; exact Hk'). apply dget_ddel_other. apply H. left. reflexivity.
  Qed.
  Lemma old_shrunk d f sel tick : plain_path d -> NoDup (keys f) -> (0 < z < z0)%Z -> exists tr f1 pl, old d (m0, z0) (m, z) (mk_g f sel tick) = (tr, (mk_g f1 sel tick, Ok pl)) /\ kept_in d f1 pl /\ kept_no_plot d f f1 /\
    (forall n, (forall x, ~ In SL x -> n <> d ++ SL :: x) -> dget n f1 = dget n f).
  Proof.
    intros Hd Hn Hz. unfold old_plots. rewrite gbind_get. cbn [g_fs fst snd]. cbv zeta. fold (plot_list_of d f). pose proof (in_plots d f) as Ip.
    assert (Fs : Forall svg_name (plot_list_of d f)) by (apply Forall_forall; intros x Hx; apply (proj1 (Ip x) Hx)). destruct (remove_all d sel tick _ Hd Fs f Hn) as (tr & f1 & R1 & R2 & R3).
    exists tr, f1, []. split; [|split; [|split]].
    - destruct (plot_list_of d f) as [|k0 l0] eqn:El; cbn [List.length Nat.eqb negb andb]; [cbn [giter] in R1; injection R1 as <- <-; reflexivity|].
      replace (0 <? z)%Z with true by (symmetry; apply Z.ltb_lt; lia). replace (z =? z0)%Z with false by (symmetry; apply Z.eqb_neq; lia). replace (z0 <? z)%Z with false by (symmetry; apply Z.ltb_ge; lia). cbn [negb andb].
      unfold gbind at 1. rewrite R1. unfold gret. rewrite app_nil_r. reflexivity.
    - intros n Hs. rewrite mem_In. cbn [In]. split; [intros []|]. intros X. exfalso. apply X. destruct (in_dec (list_eq_dec N.eq_dec) (plot_name n) (plot_list_of d f)) as [Q|Q].
      + apply (proj1 (R3 _)). exists (plot_name n). split; [exact Q|reflexivity].
      + rewrite (proj2 (R3 _)).
        * destruct (dget (d ++ SL :: plot_name n) f) eqn:Ex; [|reflexivity]. exfalso. apply Q. apply Ip. split; [apply plot_svg; exact Hs|congruence].
        * intros k Hk Y. apply app_inv_head in Y. apply (f_equal (@tl N)) in Y. cbn [tl] in Y. apply Q. rewrite Y. exact Hk.
    - intros x. split.
      + intros Hx. destruct (in_dec (list_eq_dec N.eq_dec) x (plot_list_of d f)) as [Q|Q]; [apply (proj1 (R3 _)); exists x; split; [exact Q|reflexivity]|]. rewrite (proj2 (R3 _)).
        * destruct (dget (d ++ SL :: x) f) eqn:Ex; [|reflexivity]. exfalso. apply Q. apply Ip. split; [exact Hx|congruence].
        * intros k Hk Y. apply app_inv_head in Y. apply (f_equal (@tl N)) in Y. cbn [tl] in Y. apply Q. rewrite Y. exact Hk.
      + intros Hx. apply (proj2 (R3 _)). intros k Hk Y. apply app_inv_head in Y. apply (f_equal (@tl N)) in Y. cbn [tl] in Y. apply Hx. rewrite Y. apply (proj1 (Ip k) Hk).
    - intros n Q. apply (proj2 (R3 _)). intros k Hk. apply Q. exact (proj1 (proj1 (proj1 (Ip k) Hk))).
  Qed.
End Old.
