(** Inverting successful runs of handlers. *)
From Coq Require Import String Lia.
From Verif Require Import Uni Py PyFacts Keys Handlers KeyFacts FrameFacts.
Import ListNotations.
Local Open Scope list_scope.

Lemma Some_inj {A} (a b : A) : Some a = Some b -> a = b.
Proof. congruence. Qed.
Lemma mbind_ok {A B} (m : M A) (k : A -> M B) w w' b : mbind m k w = (w', Ok b) -> exists w1 a, m w = (w1, Ok a) /\ k a w1 = (w', Ok b).
Proof. unfold mbind. destruct (m w) as [w1 [a|e]]; [eauto|discriminate]. Qed.
Lemma ret_ok {A} (a b : A) w w' : ret a w = (w', Ok b) -> w' = w /\ b = a.
Proof. unfold ret; intros H; inversion H; auto. Qed.
Lemma raise_ok {A} e w w' (b : A) : raise e w = (w', Ok b) -> False.
Proof. discriminate. Qed.
Lemma lift_ok {A} (r : res A) w w' b : lift r w = (w', Ok b) -> w' = w /\ r = Ok b.
Proof. unfold lift; intros H; inversion H; auto. Qed.
Lemma getA_ok a w w' v : getA a w = (w', Ok v) -> w' = w /\ me w a = Some v.
Proof. unfold getA; destruct (me w a); intros H; inversion H; auto. Qed.
Lemma hasA_ok a w w' b : hasA a w = (w', Ok b) -> w' = w /\ b = match me w a with Some _ => true | None => false end.
Proof. unfold hasA; intros H; inversion H; auto. Qed.
Lemma setA_ok a v w w' u : setA a v w = (w', Ok u) -> w' = mk_w (is_scan w) (upd a v (me w)) (peer w).
Proof. unfold setA; intros H; inversion H; auto. Qed.
Lemma ask_ok w w' b : askScan w = (w', Ok b) -> w' = w /\ b = is_scan w.
Proof. unfold askScan; intros H; inversion H; auto. Qed.
Lemma getP_ok a w w' v : getP a w = (w', Ok v) -> w' = w /\ is_scan w = true /\ exists p, peer w = Some p /\ p a = Some v.
Proof.
  unfold getP; destruct (peer w) as [p|]; [|discriminate]. destruct (is_scan w); [|discriminate].
  destruct (p a) eqn:E; intros H; inversion H; subst; eauto 6.
Qed.
Lemma setP_ok a v w w' u : setP a v w = (w', Ok u) -> exists p, peer w = Some p /\ is_scan w = true /\ w' = mk_w (is_scan w) (me w) (Some (upd a v p)).
Proof. unfold setP; destruct (peer w) as [p|]; [|discriminate]. destruct (is_scan w) eqn:E; [|discriminate]. intros H; inversion H; eauto. Qed.
Lemma ensure_ok a i w w' u : ensure a i w = (w', Ok u) ->
  is_scan w' = is_scan w /\ peer w' = peer w /\ me w' a = Some (match me w a with Some v => v | None => i end) /\
  forall b, b <> a -> me w' b = me w b.
Proof.
  unfold ensure. intros H. apply mbind_ok in H. destruct H as (w1 & b & H & Hk). apply hasA_ok in H. destruct H as [-> ->].
  destruct (me w a) as [v|] eqn:E.
  - apply ret_ok in Hk. destruct Hk as [-> _]. auto.
  - apply setA_ok in Hk. subst w'. cbn [is_scan peer me]. rewrite upd_same. repeat split; auto.
    intros b Hb. apply upd_other; auto.
Qed.
Lemma addH5_ok l h w w' u : addH5 l h w = (w', Ok u) ->
  is_scan w' = is_scan w /\ peer w' = peer w /\ (forall b, b <> A_h5 -> me w' b = me w b) /\
  exists d, me w A_h5 = Some d /\ me w' A_h5 = Some (dadd l h d).
Proof.
  unfold addH5. intros H. apply mbind_ok in H. destruct H as (w1 & d & H & Hk). apply getA_ok in H. destruct H as [-> H].
  apply setA_ok in Hk. subst w'. cbn [is_scan peer me]. split; auto. split; auto. split; [intros b Hb; apply upd_other; auto|].
  exists d. split; [exact H|apply upd_same].
Qed.
Lemma addPost_ok l h w w' u : addPost l h w = (w', Ok u) ->
  is_scan w' = is_scan w /\ peer w' = peer w /\ (forall b, b <> A_posts -> me w' b = me w b) /\
  exists d, me w A_posts = Some d /\ me w' A_posts = Some (dadd (L l) h d).
Proof.
  unfold addPost. intros H. apply mbind_ok in H. destruct H as (w1 & d & H & Hk). apply getA_ok in H. destruct H as [-> H].
  apply setA_ok in Hk. subst w'. cbn [is_scan peer me]. split; auto. split; auto. split; [intros b Hb; apply upd_other; auto|].
  exists d. split; [exact H|apply upd_same].
Qed.
Lemma whenScan_ok m w w' u : whenScan m w = (w', Ok u) -> (is_scan w = true /\ m w = (w', Ok u)) \/ (is_scan w = false /\ w' = w).
Proof.
  unfold whenScan. intros H. apply mbind_ok in H. destruct H as (w1 & b & H & Hk). apply ask_ok in H. destruct H as [-> ->].
  destruct (is_scan w); [auto|]. apply ret_ok in Hk. destruct Hk as [-> _]. auto.
Qed.
Lemma whenHeader_ok m w w' u : whenHeader m w = (w', Ok u) -> (is_scan w = false /\ m w = (w', Ok u)) \/ (is_scan w = true /\ w' = w).
Proof.
  unfold whenHeader. intros H. apply mbind_ok in H. destruct H as (w1 & b & H & Hk). apply ask_ok in H. destruct H as [-> ->].
  destruct (is_scan w); [|auto]. apply ret_ok in Hk. destruct Hk as [-> _]. auto.
Qed.

(** one step of inversion of the hypothesis [H] *)
Ltac mstep H :=
  lazymatch type of H with
  | mbind _ _ _ = (_, Ok _) => let w1 := fresh "w" in let a := fresh "v" in let H1 := fresh "H" in
      apply mbind_ok in H; destruct H as (w1 & a & H1 & H); mstep H1
  | ret _ _ = _ => apply ret_ok in H; destruct H as [? ?]
  | raise _ _ = _ => destruct (raise_ok _ _ _ _ H)
  | lift _ _ = _ => apply lift_ok in H; destruct H as [? H]
  | getA _ _ = _ => apply getA_ok in H; destruct H as [? H]
  | hasA _ _ = _ => apply hasA_ok in H; destruct H as [? H]
  | setA _ _ _ = _ => apply setA_ok in H
  | askScan _ = _ => apply ask_ok in H; destruct H as [? H]
  | getP _ _ = _ => apply getP_ok in H; destruct H as (? & ? & ? & ? & ?)
  | setP _ _ _ = _ => apply setP_ok in H; destruct H as (? & ? & ? & ?)
  | ensure _ _ _ = _ => apply ensure_ok in H; destruct H as (? & ? & ? & ?)
  | addH5 _ _ _ = _ => apply addH5_ok in H; destruct H as (? & ? & ? & ? & ? & ?)
  | addPost _ _ _ = _ => apply addPost_ok in H; destruct H as (? & ? & ? & ? & ? & ?)
  | _ => idtac
  end.
Ltac minv H := repeat (progress (mstep H; try subst)).
(** compute attributes of updated objects *)
Ltac attrs := repeat (first [progress cbn [me is_scan peer] in * | rewrite upd_same in * | rewrite upd_other in * by discriminate]).
Lemma is_scan_process E h line w w' r : process E h line w = (w', r) -> is_scan w' = is_scan w.
Proof. intros H. pose proof (frame_process E h line w) as (F & _). rewrite H in F. exact F. Qed.
Ltac mattr := repeat first
  [ progress cbn [me is_scan peer] in *
  | rewrite upd_same in * | rewrite upd_other in * by discriminate
  | match goal with H : forall b, b <> _ -> me ?w b = _ |- context [me ?w _] => rewrite H by discriminate end
  | match goal with H : forall b, b <> _ -> me ?w b = _, K : context [me ?w _] |- _ => lazymatch type of K with forall _, _ => fail | _ => rewrite H in K by discriminate end end ].
Ltac minj := repeat match goal with
  | H1 : me ?w ?a = Some _, H2 : me ?w ?a = Some _ |- _ => rewrite H1 in H2; apply Some_inj in H2; try subst
  | H1 : me ?w ?a = Some _, H2 : me ?w ?a = None |- _ => rewrite H1 in H2; discriminate H2
  end.
Ltac mgo H := minv H; mattr; minj.
Ltac mfin := repeat match goal with K : me ?w ?a = Some _ |- context [me ?w ?a] => rewrite K end; try reflexivity.
