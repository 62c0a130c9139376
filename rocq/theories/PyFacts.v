(** Lemmas about the Python substrate (Py.v). *)
From Coq Require Import String Lia ZifyBool ZifyNat ZifyN Permutation Sorted.
From Verif Require Import Uni Py.
Import ListNotations.
Local Open Scope list_scope.

(* ------------------------------------------------------------------ *)
(** * Equality of strings *)

Lemma seqb_eq a b : seqb a b = true <-> a = b.
Proof.
  revert b; induction a as [|x a IH]; destruct b as [|y b]; simpl; try (split; [discriminate|discriminate]).
  - tauto.
  - rewrite andb_true_iff, N.eqb_eq, IH. split.
    + intros [-> ->]; reflexivity.
    + intros H; inversion H; auto.
Qed.
Lemma seqb_refl a : seqb a a = true.
Proof. apply seqb_eq; reflexivity. Qed.
Lemma seqb_neq a b : seqb a b = false <-> a <> b.
Proof.
  split; intros H.
  - intros ->. rewrite seqb_refl in H; discriminate.
  - destruct (seqb a b) eqn:E; auto. apply seqb_eq in E; contradiction.
Qed.
Lemma seqb_sym a b : seqb a b = seqb b a.
Proof.
  destruct (seqb a b) eqn:E.
  - apply seqb_eq in E; subst; symmetry; apply seqb_refl.
  - symmetry; apply seqb_neq. apply seqb_neq in E. congruence.
Qed.
Lemma str_eq_dec (a b : str) : {a = b} + {a <> b}.
Proof. decide equality; apply N.eq_dec. Defined.

Lemma mem_In x l : mem x l = true <-> In x l.
Proof.
  unfold mem; rewrite existsb_exists. split.
  - intros [y [Hy E]]; apply seqb_eq in E; subst; auto.
  - intros H; exists x; split; auto; apply seqb_refl.
Qed.
Lemma mem_not_In x l : mem x l = false <-> ~ In x l.
Proof. rewrite <- mem_In. destruct (mem x l); split; intros H; try congruence; exfalso; auto. Qed.

Lemma in_ranges_In rs c : in_ranges rs c = true <-> exists r, In r rs /\ (fst r <= c <= snd r)%N.
Proof.
  unfold in_ranges; rewrite existsb_exists. unfold in_range.
  split; intros [r [H1 H2]]; exists r; split; auto; lia.
Qed.

(* ------------------------------------------------------------------ *)
(** * Exceptions *)

Lemma bind_ok {A B} (m : res A) (k : A -> res B) b :
  bind m k = Ok b <-> exists a, m = Ok a /\ k a = Ok b.
Proof. destruct m; simpl; split; intros H; eauto; try discriminate; destruct H as (x & Hx & ?); inversion Hx; subst; auto. Qed.

Lemma mapM_ok {A B} (f : A -> res B) l ys :
  mapM f l = Ok ys <-> Forall2 (fun x y => f x = Ok y) l ys.
Proof.
  revert ys; induction l as [|x l IH]; simpl; intros ys.
  - split; [intros H; inversion H; constructor | intros H; inversion H; reflexivity].
  - split.
    + intros H. apply bind_ok in H; destruct H as [y [Hy H]].
      apply bind_ok in H; destruct H as [ys' [Hys H]]. inversion H; subst.
      constructor; auto. apply IH; auto.
    + intros H; inversion H as [|? y ? ys' Hy Hys]; subst. rewrite Hy; simpl.
      apply IH in Hys; rewrite Hys; reflexivity.
Qed.
Lemma mapM_length {A B} (f : A -> res B) l ys : mapM f l = Ok ys -> List.length ys = List.length l.
Proof. intros H; apply mapM_ok in H; induction H; simpl; auto. Qed.
Lemma mapM_map {A B C} (g : A -> B) (f : B -> res C) l : mapM f (map g l) = mapM (fun x => f (g x)) l.
Proof. induction l as [|x l IH]; simpl; auto. destruct (f (g x)); simpl; auto. rewrite IH; auto. Qed.
Lemma mapM_ext {A B} (f g : A -> res B) l : (forall x, In x l -> f x = g x) -> mapM f l = mapM g l.
Proof.
  induction l as [|x l IH]; simpl; intros H; auto.
  rewrite H by auto. destruct (g x); simpl; auto. rewrite IH; auto.
Qed.
Lemma mapM_total {A B} (f : A -> B) l : mapM (fun x => Ok (f x)) l = Ok (map f l).
Proof. induction l as [|x l IH]; simpl; auto. rewrite IH; auto. Qed.
Lemma mapM_app {A B} (f : A -> res B) l m :
  mapM f (l ++ m) = (do a <- mapM f l; do b <- mapM f m; Ok (a ++ b)).
Proof.
  induction l as [|x l IH]; simpl.
  - destruct (mapM f m); auto.
  - destruct (f x); simpl; auto. rewrite IH. destruct (mapM f l); simpl; auto.
    destruct (mapM f m); simpl; auto.
Qed.

(* ------------------------------------------------------------------ *)
(** * Lists and slices *)

Lemma nth_error_app_l {A} (l m : list A) n : n < List.length l -> nth_error (l ++ m) n = nth_error l n.
Proof. apply nth_error_app1. Qed.

Lemma clamp_nonneg len i : (0 <= i)%Z -> clamp len i = Nat.min (Z.to_nat i) len.
Proof. unfold clamp; intros. destruct (i <? 0)%Z eqn:?; [lia|]. destruct (i <? 0)%Z eqn:?; lia. Qed.
Lemma slice_from_nat {A} n (l : list A) : slice_from (Z.of_nat n) l = skipn n l.
Proof.
  unfold slice_from. rewrite clamp_nonneg by lia. rewrite Nat2Z.id.
  destruct (Nat.le_gt_cases n (List.length l)).
  - rewrite Nat.min_l; auto.
  - rewrite Nat.min_r by lia. rewrite !skipn_all2; auto; lia.
Qed.
Lemma slice_to_nat {A} n (l : list A) : slice_to (Z.of_nat n) l = firstn n l.
Proof.
  unfold slice_to. rewrite clamp_nonneg by lia. rewrite Nat2Z.id.
  destruct (Nat.le_gt_cases n (List.length l)).
  - rewrite Nat.min_l; auto.
  - rewrite Nat.min_r by lia. rewrite !firstn_all2; auto; lia.
Qed.
Lemma index_nat {A} n (l : list A) : index (Z.of_nat n) l = of_opt IndexError (nth_error l n).
Proof. unfold index. destruct (Z.of_nat n <? 0)%Z eqn:?; [lia|]. rewrite Heqb. rewrite Nat2Z.id; auto. Qed.
Lemma index_0 {A} (l : list A) : index 0 l = match l with [] => Raise IndexError | x :: _ => Ok x end.
Proof. destruct l; reflexivity. Qed.
Lemma index_m1 {A} (l : list A) :
  index (-1) l = match rev l with [] => Raise IndexError | x :: _ => Ok x end.
Proof.
  destruct l as [|x l] using rev_ind; auto.
  rewrite rev_unit. unfold index. rewrite app_length; simpl List.length.
  replace ((-1 <? 0)%Z) with true by auto.
  replace ((-1 + Z.of_nat (List.length l + 1))%Z) with (Z.of_nat (List.length l)) by lia.
  destruct (Z.of_nat (List.length l) <? 0)%Z eqn:?; [lia|]. rewrite Nat2Z.id.
  rewrite nth_error_app2 by lia. rewrite Nat.sub_diag; auto.
Qed.

(* ------------------------------------------------------------------ *)
(** * find *)

Lemma find_c_spec c s :
  match find_c c s with
  | Some n => exists a b, s = a ++ c :: b /\ ~ In c a /\ List.length a = n
  | None => ~ In c s
  end.
Proof.
  induction s as [|x t IH]; simpl; [tauto|].
  destruct (x =? c)%N eqn:E.
  - apply N.eqb_eq in E; subst. exists [], t; simpl; auto.
  - apply N.eqb_neq in E. destruct (find_c c t) as [n|].
    + destruct IH as (a & b & -> & Ha & Hn). exists (x :: a), b; simpl; repeat split; auto.
      intros [H|H]; auto.
    + intros [H|H]; auto.
Qed.
Lemma find_c_app c a b : ~ In c a -> find_c c (a ++ c :: b) = Some (List.length a).
Proof.
  induction a as [|x a IH]; simpl; intros H.
  - rewrite N.eqb_refl; auto.
  - destruct (x =? c)%N eqn:E; [apply N.eqb_eq in E; subst; tauto|]. rewrite IH; tauto.
Qed.
Lemma find_c_none c s : ~ In c s <-> find_c c s = None.
Proof.
  pose proof (find_c_spec c s) as H. destruct (find_c c s); split; auto; try discriminate.
  destruct H as (a & b & -> & _). intros H; exfalso; apply H; apply in_or_app; simpl; auto.
Qed.

Lemma prefixb_spec p s : prefixb p s = true <-> exists t, s = p ++ t.
Proof.
  revert s; induction p as [|x p IH]; simpl; intros s.
  - split; eauto.
  - destruct s as [|y s]; [split; [discriminate|intros [t H]; discriminate]|].
    rewrite andb_true_iff, N.eqb_eq, IH. split.
    + intros [-> [t ->]]; eauto.
    + intros [t H]; inversion H; eauto.
Qed.

(* ------------------------------------------------------------------ *)
(** * strip *)

Lemma lstrip_by_app f a s :
  forallb f a = true -> (match s with [] => True | c :: _ => f c = false end) -> lstrip_by f (a ++ s) = s.
Proof.
  induction a as [|x a IH]; simpl; intros Ha Hs.
  - destruct s; simpl; auto. rewrite Hs; auto.
  - apply andb_true_iff in Ha; destruct Ha as [Hx Ha]. rewrite Hx; auto.
Qed.
Lemma rstrip_by_all f a : forallb f a = true -> rstrip_by f a = [].
Proof.
  induction a as [|x a IH]; simpl; auto. intros H; apply andb_true_iff in H; destruct H as [Hx Ha].
  rewrite IH, Hx; auto.
Qed.
Lemma rstrip_by_app f s a c : forallb f a = true -> f c = false -> rstrip_by f (s ++ c :: a) = s ++ [c].
Proof.
  induction s as [|x s IH]; simpl; intros Ha Hc.
  - rewrite rstrip_by_all, Hc; auto.
  - rewrite IH; auto. destruct (s ++ [c]) eqn:E; auto. destruct s; discriminate.
Qed.
(** a string is a run of [f], the stripped string and a run of [f] *)
Lemma lstrip_by_split f s : exists a, s = a ++ lstrip_by f s /\ forallb f a = true /\
  match lstrip_by f s with [] => True | c :: _ => f c = false end.
Proof.
  induction s as [|x s IH]; simpl; [exists []; auto|].
  destruct (f x) eqn:E.
  - destruct IH as (a & Hs & Ha & Hc). exists (x :: a); simpl; rewrite E, Ha; repeat split; auto.
    rewrite Hs at 1; auto.
  - exists []; simpl; auto.
Qed.
Lemma rstrip_by_split f s : exists b, s = rstrip_by f s ++ b /\ forallb f b = true /\
  (rstrip_by f s = [] \/ exists t c, rstrip_by f s = t ++ [c] /\ f c = false).
Proof.
  induction s as [|x s IH]; simpl; [exists []; auto|].
  destruct IH as (b & Hs & Hb & Hc). destruct (rstrip_by f s) as [|y r] eqn:E.
  - destruct (f x) eqn:Ef.
    + exists (x :: b); simpl; rewrite Ef, Hb; simpl in Hs; subst; auto.
    + exists b; simpl in *; subst; repeat split; auto. right; exists [], x; auto.
  - exists b; repeat split; auto; [simpl in *; congruence|].
    right. destruct Hc as [Hc|(t & c & Hc & Hf)]; [discriminate|].
    exists (x :: t), c; rewrite Hc; auto.
Qed.
Lemma rstrip_by_id f s c : f c = false -> rstrip_by f (s ++ [c]) = s ++ [c].
Proof. intros H. apply (rstrip_by_app f s [] c); auto. Qed.
Lemma rstrip_by_nil f s : rstrip_by f s = [] <-> forallb f s = true.
Proof.
  split; [|apply rstrip_by_all]. intros H. destruct (rstrip_by_split f s) as (b & Hs & Hb & _).
  rewrite H in Hs; simpl in Hs; subst; auto.
Qed.

(** no blank at either end *)
Definition tight_by (f : N -> bool) (s : str) : Prop :=
  (match s with [] => True | c :: _ => f c = false end) /\
  (match rev s with [] => True | c :: _ => f c = false end).
Lemma strip_by_tight f a s b :
  forallb f a = true -> forallb f b = true -> tight_by f s -> strip_by f (a ++ s ++ b) = s.
Proof.
  intros Ha Hb [H1 H2]. unfold strip_by. destruct s as [|x s] using rev_ind.
  - simpl. replace (lstrip_by f (a ++ b)) with (@nil N); auto.
    clear H1 H2. assert (Hab : forallb f (a ++ b) = true) by (rewrite forallb_app, Ha, Hb; auto).
    induction (a ++ b) as [|x l IH]; simpl in *; auto. apply andb_true_iff in Hab; destruct Hab as [-> ?]; auto.
  - clear IHs. rewrite rev_unit in H2. rewrite lstrip_by_app; auto.
    + rewrite <- app_assoc; simpl. apply rstrip_by_app; auto.
    + destruct s; simpl in *; auto.
Qed.
Lemma strip_by_id f s : tight_by f s -> strip_by f s = s.
Proof. intros H. pose proof (strip_by_tight f [] s [] eq_refl eq_refl H) as E. rewrite app_nil_r in E; auto. Qed.
Lemma strip_by_split f s : exists a b, s = a ++ strip_by f s ++ b /\ forallb f a = true /\ forallb f b = true /\ tight_by f (strip_by f s).
Proof.
  unfold strip_by. destruct (lstrip_by_split f s) as (a & Ha & Hfa & Hc).
  destruct (rstrip_by_split f (lstrip_by f s)) as (b & Hb & Hfb & Hd).
  exists a, b. rewrite Ha at 1. rewrite Hb at 1. repeat split; auto.
  - destruct (rstrip_by f (lstrip_by f s)) as [|x r] eqn:E; auto.
    rewrite Hb in Hc; auto.
  - destruct Hd as [->|(t & c & -> & Hf)]; simpl; auto. rewrite rev_unit; auto.
Qed.
Lemma strip_by_idem f s : strip_by f (strip_by f s) = strip_by f s.
Proof. destruct (strip_by_split f s) as (a & b & _ & _ & _ & H). apply strip_by_id; auto. Qed.

(* ------------------------------------------------------------------ *)
(** * words *)

Lemma words_aux_nospace s w : forallb (fun c => negb (is_space c)) s = true ->
  words_aux (s ++ w) = (s ++ fst (words_aux w), snd (words_aux w)).
Proof.
  induction s as [|c s IH]; simpl; intros H.
  - destruct (words_aux w); auto.
  - apply andb_true_iff in H; destruct H as [Hc Hs]. rewrite IH by auto.
    destruct (is_space c); [discriminate|auto].
Qed.
Lemma words_lspace c s : is_space c = true -> words (c :: s) = words s.
Proof. intros H. unfold words; simpl. destruct (words_aux s); rewrite H; auto. Qed.
Lemma words_space_app a s : forallb is_space a = true -> words (a ++ s) = words s.
Proof.
  induction a as [|c a IH]; simpl; auto. intros H; apply andb_true_iff in H; destruct H as [Hc Ha].
  rewrite words_lspace; auto.
Qed.
Definition nospace (s : str) : bool := forallb (fun c => negb (is_space c)) s.
Lemma words_word_space w c s : w <> [] -> nospace w = true -> is_space c = true ->
  words (w ++ c :: s) = w :: words s.
Proof.
  intros Hw Hn Hc. unfold words at 1. rewrite words_aux_nospace by auto. simpl.
  unfold words. destruct (words_aux s) as [v vs]. rewrite Hc; simpl. rewrite app_nil_r.
  destruct w; [contradiction|]; auto.
Qed.
Lemma words_word w : w <> [] -> nospace w = true -> words w = [w].
Proof.
  intros Hw Hn. unfold words. rewrite <- (app_nil_r w) at 1. rewrite words_aux_nospace by auto. simpl.
  rewrite app_nil_r. destruct w; [contradiction|]; auto.
Qed.
Lemma words_nil s : words s = [] <-> forallb is_space s = true.
Proof.
  induction s as [|c s IH]; [simpl; unfold words; simpl; tauto|].
  simpl. destruct (is_space c) eqn:E; simpl.
  - rewrite words_lspace; auto.
  - split; [|discriminate]. unfold words; simpl. destruct (words_aux s); rewrite E; simpl; discriminate.
Qed.
(** the first word *)
Lemma words_cons s w ws : words s = w :: ws ->
  exists a b, s = a ++ w ++ b /\ forallb is_space a = true /\ w <> [] /\ nospace w = true /\
              words b = ws /\ match b with [] => True | c :: _ => is_space c = true end.
Proof.
  revert w ws; induction s as [|c s IH]; intros w ws; [discriminate|].
  destruct (is_space c) eqn:E.
  - rewrite words_lspace by auto. intros H. destruct (IH _ _ H) as (a & b & -> & Ha & R).
    exists (c :: a), b; simpl; rewrite E, Ha; auto.
  - assert (Hsplit : exists u v, c :: s = u ++ v /\ nospace u = true /\ u <> [] /\
                match v with [] => True | x :: _ => is_space x = true end).
    { clear -E. revert c E; induction s as [|d s IH]; intros c E.
      - exists [c], []; simpl; rewrite E; repeat split; auto; discriminate.
      - destruct (is_space d) eqn:D.
        + exists [c], (d :: s); simpl; rewrite E, D; repeat split; auto; discriminate.
        + destruct (IH d D) as (u & v & Hu & Hn & _ & Hv).
          exists (c :: u), v; simpl; unfold nospace in *; simpl; rewrite E, Hn, Hu; repeat split; auto; discriminate. }
    destruct Hsplit as (u & v & Hs & Hn & Hu & Hv). rewrite Hs. intros Hw.
    destruct v as [|x v].
    + rewrite app_nil_r in *. rewrite words_word in Hw by auto. inversion Hw; subst.
      exists [], []; rewrite app_nil_r; simpl; repeat split; auto.
    + rewrite words_word_space in Hw by auto. inversion Hw; subst.
      exists [], (x :: v); simpl; repeat split; auto. rewrite words_lspace; auto.
Qed.
Lemma words_app_space a c b : is_space c = true -> words (a ++ c :: b) = words a ++ words b.
Proof.
  intros Hc. remember (List.length (words a)) as n eqn:Hn. revert a Hn.
  induction n as [|n IH]; intros a Hn.
  - destruct (words a) eqn:Ea; [|discriminate]. apply words_nil in Ea.
    rewrite words_space_app by auto. rewrite words_lspace; auto.
  - destruct (words a) as [|w ws] eqn:Ea; [discriminate|].
    destruct (words_cons _ _ _ Ea) as (p & q & -> & Hp & Hw & Hnw & Hq & Hqs).
    rewrite <- !app_assoc. rewrite words_space_app by auto.
    destruct q as [|x q].
    + simpl. unfold words in Hq; simpl in Hq; subst ws. rewrite words_word_space by auto. auto.
    + simpl. rewrite words_word_space by auto. simpl. rewrite words_lspace in Hq by auto. f_equal.
      rewrite <- Hq. apply IH. simpl in Hn. rewrite Hq. lia.
Qed.
Lemma words_all_nospace s : Forall (fun w => w <> [] /\ nospace w = true) (words s).
Proof.
  remember (words s) as ws eqn:H. symmetry in H. revert s H. induction ws as [|w ws IH]; intros s H; constructor.
  - destruct (words_cons _ _ _ H) as (a & b & _ & _ & ? & ? & _); auto.
  - destruct (words_cons _ _ _ H) as (a & b & _ & _ & _ & _ & Hb & _). eapply IH; eauto.
Qed.
Lemma words_lstrip s : words (lstrip s) = words s.
Proof.
  destruct (lstrip_by_split is_space s) as (a & Hs & Ha & _). unfold lstrip.
  rewrite Hs at 2. rewrite words_space_app; auto.
Qed.
Lemma words_rspace s b : forallb is_space b = true -> words (s ++ b) = words s.
Proof.
  intros Hb. destruct b as [|c b]; [rewrite app_nil_r; auto|].
  simpl in Hb; apply andb_true_iff in Hb; destruct Hb as [Hc Hb].
  rewrite words_app_space by auto. apply words_nil in Hb; rewrite Hb, app_nil_r; auto.
Qed.
Lemma words_strip s : words (strip s) = words s.
Proof.
  destruct (strip_by_split is_space s) as (a & b & Hs & Ha & Hb & _). unfold strip.
  rewrite Hs at 2. rewrite words_space_app by auto. rewrite words_rspace; auto.
Qed.

(* ------------------------------------------------------------------ *)
(** * split at one character, join *)

Lemma cons_hd_ne c l : cons_hd c l <> [].
Proof. destruct l; discriminate. Qed.
Lemma split_c_ne c s : split_c c s <> [].
Proof. destruct s; simpl; [discriminate|]. destruct (n =? c)%N; [discriminate|apply cons_hd_ne]. Qed.
Lemma split_c_none c s : ~ In c s -> split_c c s = [s].
Proof.
  induction s as [|x s IH]; simpl; auto; intros H.
  destruct (x =? c)%N eqn:E; [apply N.eqb_eq in E; tauto|]. rewrite IH by tauto; auto.
Qed.
Lemma split_c_app c a b : ~ In c a -> split_c c (a ++ c :: b) = a :: split_c c b.
Proof.
  induction a as [|x a IH]; simpl; intros H.
  - rewrite N.eqb_refl; auto.
  - destruct (x =? c)%N eqn:E; [apply N.eqb_eq in E; tauto|]. rewrite IH by tauto; auto.
Qed.
Lemma split_join c l : l <> [] -> Forall (fun s => ~ In c s) l -> split_c c (join [c] l) = l.
Proof.
  induction l as [|x l IH]; [congruence|]. intros _ H; inversion H; subst.
  destruct l as [|y l].
  - simpl. apply split_c_none; auto.
  - change (join [c] (x :: y :: l)) with (x ++ [c] ++ join [c] (y :: l)).
    change ([c] ++ join [c] (y :: l)) with (c :: join [c] (y :: l)).
    rewrite split_c_app by auto. rewrite IH; auto. discriminate.
Qed.
Lemma join_split c s : join [c] (split_c c s) = s.
Proof.
  induction s as [|x s IH]; simpl; auto.
  destruct (x =? c)%N eqn:E.
  - apply N.eqb_eq in E; subst. destruct (split_c c s) eqn:Es; [exfalso; eapply split_c_ne; eauto|].
    simpl in *. rewrite IH; auto.
  - destruct (split_c c s) as [|w ws] eqn:Es; [exfalso; eapply split_c_ne; eauto|].
    destruct ws; simpl in *; rewrite <- IH; auto.
Qed.
Lemma split_c_Forall c s : Forall (fun w => ~ In c w) (split_c c s).
Proof.
  induction s as [|x s IH]; simpl; [constructor; auto|].
  destruct (x =? c)%N eqn:E; [constructor; auto|].
  apply N.eqb_neq in E. destruct (split_c c s); simpl; inversion IH; subst; constructor; auto.
  - simpl; intros [?|[]]; auto.
  - intros [?|?]; auto.
Qed.

Lemma replace_none c p new s : ~ In c s -> replace (c :: p) new s = s.
Proof.
  unfold replace. induction s as [|x s IH]; simpl; auto; intros H.
  destruct (c =? x)%N eqn:E; [apply N.eqb_eq in E; subst; tauto|].
  simpl. rewrite IH; tauto.
Qed.
Lemma replace_c c new s : replace [c] new s = List.concat (map (fun x => if (c =? x)%N then new else [x]) s).
Proof.
  unfold replace. induction s as [|x s IH]; simpl; auto.
  rewrite andb_true_r. destruct (c =? x)%N; simpl; rewrite IH; auto.
Qed.

(* ------------------------------------------------------------------ *)
(** * Ordered dictionaries *)

Section DictFacts.
  Context {V : Type}.
  Implicit Types (d : dict V).
  Lemma dget_In k v d : dget k d = Some v -> In (k, v) d.
  Proof.
    induction d as [|[k' v'] d IH]; simpl; [discriminate|].
    destruct (seqb k k') eqn:E; [|auto]. apply seqb_eq in E; subst. intros H; inversion H; auto.
  Qed.
  Lemma dget_none k d : dget k d = None <-> ~ In k (keys d).
  Proof.
    induction d as [|[k' v'] d IH]; simpl; [tauto|].
    destruct (seqb k k') eqn:E.
    - apply seqb_eq in E; subst. split; [discriminate|]. intros H; exfalso; auto.
    - apply seqb_neq in E. rewrite IH. split; [intros H [H1|H1]; auto|tauto].
  Qed.
  Lemma has_In k d : has k d = true <-> In k (keys d).
  Proof.
    unfold has. pose proof (dget_none k d). destruct (dget k d); split; auto; intros; try discriminate.
    - destruct (in_dec str_eq_dec k (keys d)); auto. apply H in n. discriminate.
    - tauto.
  Qed.
  Lemma has_not_In k d : has k d = false <-> ~ In k (keys d).
  Proof. rewrite <- has_In. destruct (has k d); split; congruence. Qed.
  Lemma dget_dset_same k v d : dget k (dset k v d) = Some v.
  Proof.
    induction d as [|[k' v'] d IH]; simpl; [rewrite seqb_refl; auto|].
    destruct (seqb k k') eqn:E; simpl; rewrite E; auto.
  Qed.
  Lemma dget_dset_other k k' v d : k <> k' -> dget k (dset k' v d) = dget k d.
  Proof.
    intros H. induction d as [|[k2 v2] d IH]; simpl.
    - apply seqb_neq in H; rewrite H; auto.
    - destruct (seqb k' k2) eqn:E; simpl.
      + apply seqb_eq in E; subst. apply seqb_neq in H; rewrite H; auto.
      + rewrite IH; auto.
  Qed.
  Lemma dset_fresh k v d : ~ In k (keys d) -> dset k v d = d ++ [(k, v)].
  Proof.
    induction d as [|[k' v'] d IH]; simpl; auto; intros H.
    destruct (seqb k k') eqn:E; [apply seqb_eq in E; subst; tauto|]. rewrite IH; tauto.
  Qed.
  Lemma keys_dset k v d : keys (dset k v d) = if has k d then keys d else keys d ++ [k].
  Proof.
    induction d as [|[k' v'] d IH]; simpl; auto.
    unfold has; simpl. destruct (seqb k k') eqn:E; simpl; auto.
    unfold has in IH. rewrite IH. destruct (dget k d); auto.
  Qed.
  Lemma keys_dset_in k v d x : In x (keys (dset k v d)) <-> x = k \/ In x (keys d).
  Proof.
    rewrite keys_dset. destruct (has k d) eqn:E.
    - apply has_In in E. split; [auto|intros [->|]; auto].
    - rewrite in_app_iff; simpl. split; [intros [?|[?|[]]]; auto|intros [->|]; auto].
  Qed.
End DictFacts.

Lemma NoDup_snoc {A} (l : list A) x : NoDup l -> ~ In x l -> NoDup (l ++ [x]).
Proof.
  induction l as [|y l IH]; simpl; intros H Hx; [constructor; auto|].
  inversion H; subst. constructor.
  - rewrite in_app_iff; simpl. intros [?|[?|[]]]; subst; auto.
  - apply IH; auto.
Qed.
Lemma NoDup_snoc_inv {A} (l : list A) x : NoDup (l ++ [x]) -> NoDup l /\ ~ In x l.
Proof.
  intros H. split.
  - apply NoDup_remove_1 in H. rewrite app_nil_r in H; auto.
  - apply NoDup_remove_2 in H. rewrite app_nil_r in H; auto.
Qed.

Section DictFacts2.
  Context {V : Type}.
  Implicit Types (d : dict V).
  Lemma NoDup_dset k v d : NoDup (keys d) -> NoDup (keys (dset k v d)).
  Proof.
    intros H. rewrite keys_dset. destruct (has k d) eqn:E; auto.
    apply has_not_In in E. apply NoDup_snoc; auto.
  Qed.
  Lemma In_dget k v d : NoDup (keys d) -> In (k, v) d -> dget k d = Some v.
  Proof.
    induction d as [|[k' v'] d IH]; simpl; [tauto|]. intros Hn [H|H]; inversion Hn; subst.
    - inversion H; subst. rewrite seqb_refl; auto.
    - destruct (seqb k k') eqn:E; auto. apply seqb_eq in E; subst.
      exfalso. apply H2. apply in_map_iff. exists (k', v); auto.
  Qed.
  Lemma keys_ddel k d : NoDup (keys d) -> forall x, In x (keys (ddel k d)) <-> x <> k /\ In x (keys d).
  Proof.
    induction d as [|[k' v'] d IH]; simpl; [tauto|]. intros Hn x; inversion Hn; subst.
    destruct (seqb k k') eqn:E.
    - apply seqb_eq in E; subst. split; [intros H; split; auto; intros ->; auto|].
      intros [H [?|?]]; auto; congruence.
    - apply seqb_neq in E. simpl. rewrite IH by auto. split.
      + intros [->|[? ?]]; auto.
      + intros [? [?|?]]; auto.
  Qed.
  Lemma NoDup_ddel k d : NoDup (keys d) -> NoDup (keys (ddel k d)).
  Proof.
    induction d as [|[k' v'] d IH]; simpl; auto. intros Hn; inversion Hn; subst.
    destruct (seqb k k') eqn:E; auto. simpl. constructor; auto.
    rewrite keys_ddel by auto. tauto.
  Qed.
  Lemma dget_ddel_other k k' d : k <> k' -> dget k (ddel k' d) = dget k d.
  Proof.
    intros H. induction d as [|[k2 v2] d IH]; simpl; auto.
    destruct (seqb k' k2) eqn:E; simpl.
    - apply seqb_eq in E; subst. apply seqb_neq in H; rewrite H; auto.
    - rewrite IH; auto.
  Qed.
  Lemma dget_ddel_same k d : NoDup (keys d) -> dget k (ddel k d) = None.
  Proof. intros H. apply dget_none. rewrite keys_ddel by auto. tauto. Qed.
  Lemma ddel_snoc k v d : ~ In k (keys d) -> ddel k (d ++ [(k, v)]) = d.
  Proof.
    induction d as [|[k' v'] d IH]; simpl; intros H.
    - rewrite seqb_refl; auto.
    - destruct (seqb k k') eqn:E; [apply seqb_eq in E; subst; tauto|]. rewrite IH; tauto.
  Qed.
  Lemma dset_snoc k v v' d : ~ In k (keys d) -> dset k v' (d ++ [(k, v)]) = d ++ [(k, v')].
  Proof.
    induction d as [|[k2 v2] d IH]; simpl; intros H.
    - rewrite seqb_refl; auto.
    - destruct (seqb k k2) eqn:E; [apply seqb_eq in E; subst; tauto|]. rewrite IH; tauto.
  Qed.
  Lemma keys_app (d e : dict V) : keys (d ++ e) = keys d ++ keys e.
  Proof. apply map_app. Qed.
  Lemma dget_app k (d e : dict V) : dget k (d ++ e) = match dget k d with Some v => Some v | None => dget k e end.
  Proof. induction d as [|[k2 v2] d IH]; simpl; auto. destruct (seqb k k2); auto. Qed.
End DictFacts2.

(* ------------------------------------------------------------------ *)
(** * Stable sorting *)

Section SortFacts.
  Context {A : Type} (leb : A -> A -> bool).
  Hypothesis leb_total : forall x y, leb x y = true \/ leb y x = true.
  Hypothesis leb_trans : forall x y z, leb x y = true -> leb y z = true -> leb x z = true.

  Lemma insert_perm x l : Permutation (insert leb x l) (x :: l).
  Proof.
    induction l as [|y l IH]; simpl; auto. destruct (leb x y); auto.
    apply perm_trans with (y :: x :: l); [constructor; auto|constructor].
  Qed.
  Lemma isort_perm l : Permutation (isort leb l) l.
  Proof.
    induction l as [|x l IH]; simpl; auto. rewrite insert_perm. constructor; auto.
  Qed.
  Lemma insert_sorted x l : StronglySorted (fun a b => leb a b = true) l ->
    StronglySorted (fun a b => leb a b = true) (insert leb x l).
  Proof.
    induction 1 as [|y l Hs IH Hy]; simpl; [repeat constructor|].
    destruct (leb x y) eqn:E.
    - constructor; [constructor; auto|]. constructor; auto.
      eapply Forall_impl; [|exact Hy]. intros z Hz; eapply leb_trans; eauto.
    - constructor; auto. rewrite Forall_forall. intros z Hz.
      apply Permutation_in with (l' := x :: l) in Hz; [|apply insert_perm].
      destruct Hz as [->|Hz]; [destruct (leb_total z y); congruence|].
      rewrite Forall_forall in Hy; auto.
  Qed.
  Lemma isort_sorted l : StronglySorted (fun a b => leb a b = true) (isort leb l).
  Proof. induction l as [|x l IH]; simpl; [constructor|]. apply insert_sorted; auto. Qed.

  (** elements for which [p] holds keep their order if all of them are equal under the order *)
  Lemma insert_filter_out (p : A -> bool) x l : p x = false -> List.filter p (insert leb x l) = List.filter p l.
  Proof.
    intros H. induction l as [|y l IH]; simpl; [rewrite H; auto|].
    destruct (leb x y); simpl; [rewrite H; auto|]. rewrite IH; auto.
  Qed.
  Lemma isort_stable (p : A -> bool) l :
    (forall x y, p x = true -> p y = true -> leb x y = true) ->
    List.filter p (isort leb l) = List.filter p l.
  Proof.
    intros Hp. induction l as [|x l IH]; simpl; auto.
    destruct (p x) eqn:E.
    - rewrite <- IH. generalize (isort leb l) as m. induction m as [|y m IHm]; simpl; [rewrite E; auto|].
      destruct (leb x y) eqn:Exy; simpl; [rewrite E; auto|].
      destruct (p y) eqn:Ey; auto. rewrite Hp in Exy; auto; discriminate.
    - rewrite insert_filter_out; auto.
  Qed.
End SortFacts.
