(** When a plot is made (C55) *)
From Coq Require Import String Lia.
From Verif Require Import Py PyFacts Time Utils Keys Handlers Reader H5 Writer Plot SpecPlot SpecHistory SpecInterp PlotFacts PlotFacts2.
Import ListNotations.
Local Open Scope list_scope.

Lemma sbind_inv {S A B} (m : St S A) (k : A -> St S B) s s' r : sbind m k s = (s', Ok r) -> exists a s1, m s = (s1, Ok a) /\ k a s1 = (s', Ok r).
Proof. unfold sbind. destruct (m s) as [s1 [a|e]]; [|discriminate]. eauto. Qed.
Lemma slift_inv {S A} (r : res A) (s s' : S) a : slift r s = (s', Ok a) -> s' = s /\ r = Ok a.
Proof. unfold slift. intros H. injection H; auto. Qed.
Ltac sinv H := let a := fresh "a" in let s := fresh "s" in let X := fresh "X" in apply sbind_inv in H; destruct H as (a & s & X & H).

Lemma plen_long v n : plen v = Ok n <-> long v n.
Proof.
  destruct v as [l|a|x|d]; cbn [plen long].
  - split; [intros [= H]; exact H|intros ->; reflexivity].
  - destruct (shape a) as [|m t]; split; try discriminate.
    + intros [t H]. discriminate.
    + intros [= ->]. eauto.
    + intros [t' H]. injection H; intros _ ->. reflexivity.
  - split; [discriminate|intros []].
  - split; [intros [= H]; exact H|intros ->; reflexivity].
Qed.
Lemma line_plottable_true p : line_plottable p = Ok true -> curve_ready p.
Proof.
  unfold line_plottable, curve_ready. destruct (p_signal p) as [sg|]; [|discriminate]. destruct (dget sg (p_data p)) as [v|] eqn:Ev; [|discriminate].
  destruct (plen v) as [n|] eqn:Ln; cbn [bind]; [|discriminate]. destruct (p_axes p) as [|ax [|? ?]]; try discriminate.
  destruct (Nat.eqb n 0) eqn:Zn; [discriminate|]. destruct (dget ax (p_data p)) as [x|] eqn:Ex; cbn [of_opt bind]; [|discriminate].
  destruct (plen x) as [m|] eqn:Lm; cbn [bind]; [|discriminate]. intros [= H]. apply Nat.eqb_eq in H. subst m. apply Nat.eqb_neq in Zn.
  exists sg, ax, x, v, n. rewrite <- !plen_long. auto 10.
Qed.
Lemma curve_line p : curve_ready p -> line_plottable p = Ok true.
Proof.
  intros (sg & ax & x & y & n & H1 & H2 & H3 & H4 & H5 & H6 & H7). apply plen_long in H5, H6. unfold line_plottable. rewrite H1, H3, H5. cbn [bind]. rewrite H2.
  destruct n; [congruence|]. cbn [Nat.eqb]. rewrite H4. cbn [of_opt bind]. rewrite H6. cbn [bind]. rewrite Nat.eqb_refl. reflexivity.
Qed.

Definition one_or_two (l : list str) : Prop := List.length l = 1 \/ List.length l = 2.
Lemma len_match v n : (match plen v with Ok m => Nat.eqb n m | Raise _ => false end) = true <-> long v n.
Proof.
  rewrite <- plen_long. destruct (plen v) as [m|e]; [|split; discriminate]. rewrite Nat.eqb_eq. split; [intros ->; reflexivity|intros [= ->]; reflexivity].
Qed.
Lemma mesh_plottable_iff p : one_or_two (p_axes p) -> (mesh_plottable p = true <-> mesh_ready p).
Proof.
  intros O. unfold mesh_plottable, mesh_ready. destruct (p_signal p) as [sg|]; [|split; [discriminate|intros (sg & v & X & _); discriminate]].
  destruct (dget sg (p_data p)) as [v|] eqn:Ev; [|split; [discriminate|intros (sg' & v & X & Y & _); injection X; intros <-; congruence]].
  destruct (p_axes p) as [|a [|b [|? ?]]]; [destruct O; discriminate| | |destruct O; discriminate].
  - cbn [List.length rev app]. rewrite Bool.andb_true_iff. split.
    + intros [H1 H2]. apply Nat.eqb_eq in H1. destruct (pshape v) as [|n [|? ?]] eqn:Sh; try discriminate. cbn [combine forallb] in H2. rewrite Bool.andb_true_r in H2. cbn [fst snd] in H2.
      destruct (dget a (p_data p)) as [x|] eqn:Ex; [|discriminate]. apply len_match in H2. exists sg, v. split; [reflexivity|]. split; [exact Ev|]. left. exists a, x, n.
      split; [reflexivity|]. split; [exact Ex|]. split; [exact H2|]. destruct v as [l|ar|?|?]; cbn [pshape] in Sh; try discriminate; [left|right]; eexists; split; eauto. congruence.
    + intros (sg' & v' & X & Y & Z). injection X; intros <-. assert (v' = v) by congruence. subst v'. destruct Z as [(ax & x & n & Z1 & Z2 & Z3 & Z4)|(?&?&?&?&?&?& Z1 & _)]; [|discriminate].
      injection Z1; intros <-. assert (Sh : pshape v = [n]) by (destruct Z4 as [(l & -> & Z4)|(ar & -> & Z4)]; cbn [pshape]; congruence). rewrite Sh. split; [reflexivity|].
      cbn [combine forallb fst snd]. rewrite Z2. rewrite (proj2 (len_match _ _) Z3). reflexivity.
  - cbn [List.length rev app]. rewrite Bool.andb_true_iff. split.
    + intros [H1 H2]. apply Nat.eqb_eq in H1. destruct (pshape v) as [|n [|m [|? ?]]] eqn:Sh; try discriminate. cbn [combine forallb fst snd] in H2. rewrite Bool.andb_true_r in H2.
      apply Bool.andb_true_iff in H2. destruct H2 as [H2 H3].
      destruct (dget b (p_data p)) as [y|] eqn:Ey; [|discriminate]. destruct (dget a (p_data p)) as [x|] eqn:Ex; [|discriminate]. apply len_match in H2, H3.
      exists sg, v. split; [reflexivity|]. split; [exact Ev|]. right. exists a, b, x, y, m, n. do 5 (split; [auto|]). destruct v as [l|ar|?|?]; cbn [pshape] in Sh; try discriminate. exists ar. auto.
    + intros (sg' & v' & X & Y & Z). injection X; intros <-. assert (v' = v) by congruence. subst v'. destruct Z as [(ax & x & n & Z1 & _)|(a'&b'&x&y&m&n& Z1 & Z2 & Z3 & Z4 & Z5 & (ar & -> & Z6))]; [discriminate|].
      injection Z1; intros <- <-. cbn [pshape]. rewrite Z6. split; [reflexivity|]. cbn [combine forallb fst snd]. rewrite Z2, Z3, (proj2 (len_match _ _) Z4), (proj2 (len_match _ _) Z5). reflexivity.
Qed.

Section Made.
  Variable E : env.
  Variable known : list hid.
  Variable draw : image -> option exn.

  Lemma newer_iff dm pm b : data_is_newer_than_plot dm pm = Ok b -> (b = true <-> newer dm pm).
  Proof.
    unfold data_is_newer_than_plot, newer. destruct dm as [m|e]; cbn [bind]; [|discriminate]. intros [= <-]. rewrite Z.ltb_lt. split.
    - intros H. exists m. split; [reflexivity|]. destruct pm; exact H.
    - intros (m' & X & H). injection X; intros <-. destruct pm; exact H.
  Qed.
  (** make_image changes only the settings *)
  Definition same_data (p q : plotter) : Prop := p_signal p = p_signal q /\ p_axes p = p_axes q /\ p_data p = p_data q.
  Lemma ready_same k p q : same_data p q -> ready k p <-> ready k q.
  Proof. intros (A & B & C). destruct k; cbn [ready]; unfold curve_ready, mesh_ready; rewrite A, B, C; reflexivity. Qed.
  Lemma image_data k raw st st' r : make_image draw k raw st = (st', Ok r) -> same_data (ps_plotter st) (ps_plotter st') /\
    (r <> None <-> k <> KMesh \/ one_or_two (p_axes (ps_plotter st))).
  Proof.
    assert (R : forall p, same_data p p) by (intros; unfold same_data; auto).
    unfold make_image. intros H. sinv H. destruct k.
    - sinv X. injection X; intros <- <-. unfold line_image in X0. sinv X0. unfold get_p in X1. injection X1; intros <- <-. clear X1.
      destruct (p_signal (ps_plotter st)); [|discriminate]. destruct (p_axes (ps_plotter st)) as [|? [|? ?]]; try discriminate.
      destruct (dget _ _); [|discriminate]. destruct (dget _ _); [|discriminate]. injection X0; intros <- <-. destruct (chart draw _); [discriminate|]. injection H; intros <- <-.
      split; [apply R|]. split; [left; discriminate|discriminate].
    - sinv X. injection X; intros <- <-. unfold line_image in X0. sinv X0. unfold get_p in X1. injection X1; intros <- <-. clear X1.
      destruct (p_signal (ps_plotter st)); [|discriminate]. destruct (p_axes (ps_plotter st)) as [|? [|? ?]]; try discriminate.
      destruct (dget _ _); [|discriminate]. destruct (dget _ _); [|discriminate]. injection X0; intros <- <-. destruct (chart draw _); [discriminate|]. injection H; intros <- <-.
      split; [apply R|]. split; [left; discriminate|discriminate].
    - unfold mesh_image in X. sinv X. unfold get_p in X0. injection X0; intros <- <-. sinv X. apply slift_inv in X1. destruct X1 as [-> Es].
      destruct (p_axes (ps_plotter st)) as [|ax [|b [|? ?]]] eqn:Ea.
      + injection X; intros <- <-. injection H; intros <- <-. split; [apply R|]. unfold one_or_two. cbn [List.length]. split; [congruence|intros [N|[N|N]]; congruence].
      + sinv X. apply slift_inv in X1. destruct X1 as [-> _]. sinv X. apply slift_inv in X1. destruct X1 as [-> _]. injection X; intros <- <-.
        destruct (chart draw _); [discriminate|]. injection H; intros <- <-. split; [apply R|]. split; [intros _; right; left; reflexivity|discriminate].
      + sinv X. apply slift_inv in X1. destruct X1 as [-> _]. sinv X. apply slift_inv in X1. destruct X1 as [-> _]. sinv X. unfold put_set in X1. injection X1; intros <- <-.
        sinv X. unfold put_set in X2. injection X2; intros <- <-. sinv X. unfold put_set in X3. injection X3; intros <- <-.
        sinv X. apply slift_inv in X4. destruct X4 as [-> _]. sinv X. apply slift_inv in X4. destruct X4 as [-> _]. sinv X. unfold get_p in X4. injection X4; intros <- <-. injection X; intros <- <-.
        destruct (chart draw _); [discriminate|]. injection H; intros <- <-. split; [unfold same_data; auto|]. split; [intros _; right; right; reflexivity|discriminate].
      + injection X; intros <- <-. injection H; intros <- <-. split; [apply R|]. unfold one_or_two. cbn [List.length]. split; [congruence|intros [N|[N|N]]; [congruence|discriminate|discriminate]].
  Qed.
  Lemma rest_made k dm pm sc st st' r : rest draw k dm pm sc st = (st', Ok r) -> (r <> None <-> ready k (ps_plotter st') /\ newer dm pm).
  Proof.
    unfold rest. intros H. sinv H. sinv H. unfold get_p in X0. injection X0; intros <- <-. clear X X0. sinv H. apply slift_inv in X. destruct X as [-> Ep].
    assert (P : forall q, same_data (ps_plotter s) q -> (a0 = true /\ (k <> KMesh \/ one_or_two (p_axes q)) <-> ready k q)).
    { intros q Q. rewrite <- (ready_same k _ _ Q). replace (p_axes q) with (p_axes (ps_plotter s)) by (apply Q). destruct k; cbn [ready plottable] in *.
      - split; [intros [-> _]; apply line_plottable_true, Ep|intros R; apply curve_line in R; split; [congruence|left; discriminate]].
      - split; [intros [-> _]; apply line_plottable_true, Ep|intros R; apply curve_line in R; split; [congruence|left; discriminate]].
      - injection Ep; intros <-. split.
        + intros [M [N|O]]; [congruence|]. apply mesh_plottable_iff in M; auto.
        + intros R. assert (O : one_or_two (p_axes (ps_plotter s))).
          { destruct R as (sg & v & _ & _ & [(? & ? & ? & -> & _)|(? & ? & ? & ? & ? & ? & -> & _)]); [left|right]; reflexivity. }
          split; [apply mesh_plottable_iff; auto|right; exact O]. }
    destruct a0; cbn [negb] in H.
    - sinv H. apply slift_inv in X. destruct X as [-> En]. apply newer_iff in En. destruct a0.
      + apply image_data in H. destruct H as [S R]. rewrite R. rewrite <- (P _ S). destruct S as (_ & <- & _). split; [|tauto]. intros Hr. split; [auto|]. apply En; reflexivity.
      + injection H; intros <- <-. split; [congruence|]. intros [_ N]. apply En in N. discriminate.
    - injection H; intros <- <-. split; [congruence|]. intros [R _]. destruct (P (ps_plotter s) ltac:(unfold same_data; auto)) as [_ Q]. apply Q in R. destruct R; discriminate.
  Qed.
  Lemma C55_lemma k dm pm sc st st' r : plot_scan E known draw k dm pm sc st = (st', Ok r) -> (r <> None <-> ready k (ps_plotter st') /\ newer dm pm).
  Proof.
    unfold plot_scan. intros H. sinv H. destruct (match a with Some t => seqb t ABORTED0 | None => false end); [discriminate|].
    sinv H. sinv H. sinv H. sinv H. apply (rest_made k dm pm sc s3 st' r). exact H.
  Qed.
End Made.
