(** The attributes of the root of a file that is saved *)
From Coq Require Import String Lia.
From Verif Require Import Uni Py PyFacts TextFacts SpecText Utils SpecUtils Keys Time Geom Handlers Reader SpecHistory SpecInterp SpecMeta SpecWriter SpecEntry SpecRoot SpecTime TimeFacts UtilsFacts NamesFacts
  H5 SpecH5 H5Facts H5Exact Writer SaveFacts WriterFacts MetaLineFacts.
Import ListNotations.
Local Open Scope list_scope.

Lemma find_ok p s : match find p s with
  | Some n => exists a t, s = a ++ p ++ t /\ List.length a = n /\ forall a' t', s = a' ++ p ++ t' -> n <= List.length a'
  | None => forall a t, s <> a ++ p ++ t end.
Proof.
  induction s as [|x s IH]; cbn [find].
  - destruct (prefixb p []) eqn:E.
    + apply prefixb_spec in E. destruct E as [t E]. exists [], t. split; [exact E|]. split; [reflexivity|]. intros; lia.
    + intros a t H. destruct a; [|discriminate]. cbn [app] in H. assert (X : prefixb p [] = true) by (apply prefixb_spec; exists t; exact H). congruence.
  - destruct (prefixb p (x :: s)) eqn:E.
    + apply prefixb_spec in E. destruct E as [t E]. exists [], t. split; [exact E|]. split; [reflexivity|]. intros; lia.
    + assert (Z : forall t, x :: s <> p ++ t) by (intros t H; assert (X : prefixb p (x :: s) = true) by (apply prefixb_spec; exists t; exact H); congruence).
      destruct (find p s) as [n|].
      * destruct IH as (a & t & -> & <- & M). exists (x :: a), t. split; [reflexivity|]. split; [reflexivity|].
        intros [|y a'] t' H; [destruct (Z t' H)|]. cbn [app] in H. injection H; intros H' _. specialize (M a' t' H'). cbn [List.length]. lia.
      * intros [|y a] t H; [exact (Z t H)|]. cbn [app] in H. injection H; intros H' _. exact (IH a t H').
Qed.
Definition US : str := L "User = ".
Lemma user_some c u : user_is c u -> user_of c = Ok u.
Proof.
  intros (a & t & v & Ec & Mn & (Nv & Ev) & Tr). unfold user_of. pose proof (find_ok US c) as F. fold US in *. destruct (find US c) as [n|].
  - destruct F as (a2 & t2 & E2 & Ln & M2). assert (La : List.length a = n).
    { apply Nat.le_antisymm; [rewrite <- Ln; eapply Mn; exact E2|eapply M2; exact Ec]. }
    cbn [pos_of]. rewrite slice_from_nat. rewrite Ec at 1. rewrite <- La. rewrite skipn_app, skipn_all, Nat.sub_diag. cbn [app skipn].
    replace (US ++ t) with (L "User " ++ 61%N :: 32%N :: t) by reflexivity.
    rewrite (split_c_app 61%N (L "User ") (32%N :: t)); [|intros X; simpl in X; repeat (destruct X as [X|X]; [discriminate X|]); destruct X].
    assert (Es : exists r, split_c 61%N (32%N :: t) = (32%N :: v) :: r).
    { destruct Ev as [->|(r & ->)].
      - exists []. apply split_c_none. intros [X|X]; [discriminate X|contradiction].
      - change (32%N :: v ++ L "=" ++ r) with ((32%N :: v) ++ 61%N :: r). eexists. apply split_c_app. intros [X|X]; [discriminate X|contradiction]. }
    destruct Es as (r & Es). match goal with |- context [split_c 61%N ?x] => replace (split_c 61%N x) with ((32%N :: v) :: r) by (symmetry; exact Es) end.
    cbn [index]. change (index 1 (L "User " :: (32%N :: v) :: r)) with (Ok (A := str) (32%N :: v)). cbn [bind]. f_equal.
    apply trimmed_strip in Tr. rewrite Tr. reflexivity.
  - destruct (F a t Ec).
Qed.
Lemma user_none c : no_user c -> (forall a, c <> a ++ L "=") -> exists x, user_of c = Raise x.
Proof.
  intros N1 N2. unfold user_of. pose proof (find_ok US c) as F. fold US. destruct (find US c) as [n|]; [destruct F as (a & t & Ec & _); destruct (N1 a t Ec)|].
  cbn [pos_of]. destruct c as [|x c] using rev_ind; [eexists; reflexivity|]. clear IHc. unfold slice_from.
  assert (Cl : clamp (List.length (c ++ [x])) (-1) = List.length c) by (unfold clamp; change (-1 <? 0)%Z with true; cbv iota zeta; rewrite app_length; cbn [List.length]; destruct (Z.ltb_spec (-1 + Z.of_nat (List.length c + 1)) 0); lia).
  rewrite Cl. rewrite skipn_app, skipn_all, Nat.sub_diag. cbn [app skipn]. rewrite split_c_none; [eexists; reflexivity|].
  intros [X|[]]. subst x. exact (N2 c eq_refl).
Qed.

Definition root_of (versions : attrs_t) (s : sdf) (f : h5) : Prop := exists l at_ ms, root_attributes versions s = Ok l /\ nth_error f 0 = Some (Group ms at_) /\
  forall k, k <> L "default" -> dget k at_ = dget k (fold_left (fun a kv => dset (fst kv) (snd kv) a) l []).
Lemma save_root E known versions ks s s' f r : Forall good_key ks -> GS s -> save E known versions ks s = (s', f, r) -> (exists x, r = Some x /\ root_attributes versions s = Raise x) \/ root_of versions s f.
Proof.
  intros Hk Hs H. unfold save in H. destruct (root_attributes versions s) as [l|x] eqn:El; [|left; exists x; split; [congruence|reflexivity]]. right.
  destruct (addAttributes root l new_file) as [f0 r0] eqn:E0. rewrite (addAttributes_eq root l (Group [] [])) in E0 by reflexivity.
  cbn [root h_id new_file put_nth with_attrs] in E0. match type of E0 with (?F, _) = _ => assert (X : f0 = F /\ r0 = Ok tt) by (split; congruence) end. destruct X as [-> ->].
  destruct (save_keys_spec E known ks true s _ s' f r Hk Hs (ok5_start _) ltac:(eexists; eexists; reflexivity) H) as (_ & (done & [KO KL KW KP KE KD KR]) & _ & _).
  destruct (KR _ _ eq_refl) as (at' & R' & D). exists l, at'. eexists. split; [exact El|]. split; [exact R'|exact D].
Qed.
Lemma fold_dget (k : str) l : forall (a : dict aval), dget k (fold_left (fun a kv => dset (fst kv) (snd kv) a) l a) =
  match dget k (rev l) with Some v => Some v | None => dget k a end.
Proof.
  induction l as [|[k' v] l IH] using rev_ind; intros a; [reflexivity|]. rewrite fold_left_app, rev_unit. cbn [fold_left fst snd dget].
  destruct (seqb k k') eqn:E; [apply seqb_eq in E; subst; apply dget_dset_same|]. rewrite dget_dset_other; [apply IH|]. intros ->. rewrite seqb_refl in E. discriminate.
Qed.

(** the values of the attributes *)
Lemma root_values versions s f : root_of versions s f -> exists h ep d iso_ cs user,
  nth_error (headers s) 0 = Some h /\ h_obj h A_epoch = Some ep /\ h_obj h A_date = Some d /\ iso8601 d = Ok iso_ /\ h_obj h A_comments = Some cs /\
  (user = match (do c <- index 0 cs; user_of c) with Ok u => [(L "SPEC_user", AText u)] | Raise _ => [] end) /\
  attribute f 0 (L "SPEC_file") (AText (match specFile s with Some t => t | None => [] end)) /\ attribute f 0 (L "SPEC_epoch") (ANum ep) /\
  attribute f 0 (L "SPEC_date") (AText iso_) /\ attribute f 0 (L "SPEC_comments") (AText (join [LF] cs)) /\
  attribute f 0 (L "SPEC_num_headers") (ANum (NI (len (headers s)))) /\
  (forall u, user = [(L "SPEC_user", AText u)] -> attribute f 0 (L "SPEC_user") (AText u)) /\
  (user = [] -> ~ In (L "SPEC_user") (map fst versions) -> forall v, ~ attribute f 0 (L "SPEC_user") v).
Proof.
  intros (l & at_ & ms & Hl & N0 & D). unfold root_attributes in Hl. rewrite index_0 in Hl. destruct (headers s) as [|h hs] eqn:Eh; cbn [bind] in Hl; [discriminate|].
  destruct (h_obj h A_epoch) as [ep|] eqn:E1; cbn [of_opt bind] in Hl; [|discriminate]. destruct (h_obj h A_date) as [d|] eqn:E2; cbn [of_opt bind] in Hl; [|discriminate].
  destruct (iso8601 d) as [i|] eqn:E3; cbn [bind] in Hl; [|discriminate]. destruct (h_obj h A_comments) as [cs|] eqn:E4; cbn [of_opt bind] in Hl; [|discriminate].
  cbv zeta in Hl. set (user := match (do c <- index 0 cs; user_of c) with Ok u => [(L "SPEC_user", AText u)] | Raise _ => [] end) in *.
  exists h, ep, d, i, cs, user. do 6 (split; [auto; reflexivity|]).
  match type of Hl with Ok (versions ++ ?m ++ user) = _ => set (mid := m) in Hl end. assert (El : l = versions ++ mid ++ user) by congruence. clear Hl.
  assert (Us : user = [] \/ exists u, user = [(L "SPEC_user", AText u)]) by (unfold user; destruct (do c <- index 0 cs; user_of c) as [u|]; [right; exists u; reflexivity|left; reflexivity]).
  assert (Dg : forall k, k <> L "default" -> dget k at_ = dget k (rev user ++ rev mid ++ rev versions)).
  { intros k Nk. rewrite (D k Nk), fold_dget, El, !rev_app_distr, <- app_assoc. destruct (dget k (rev user ++ rev mid ++ rev versions)); reflexivity. }
  assert (At : forall k v, k <> L "default" -> dget k (rev user ++ rev mid ++ rev versions) = Some v -> attribute f 0 k v).
  { intros k v Nk H. exists (Group ms at_). split; [exact N0|]. cbn. rewrite Dg; auto. }
  assert (Mid : forall k v, k <> L "default" -> k <> L "SPEC_user" -> dget k (rev mid) = Some v -> attribute f 0 k v).
  { intros k v N1 N2 H. apply At; [exact N1|]. assert (X : dget k (rev mid ++ rev versions) = Some v) by (rewrite dget_app, H; reflexivity).
    destruct Us as [->|(u & ->)]; [exact X|]. cbn [rev app dget]. rewrite (proj2 (seqb_neq k (L "SPEC_user")) N2). exact X. }
  split; [apply Mid; [discriminate|discriminate|reflexivity]|]. split; [apply Mid; [discriminate|discriminate|reflexivity]|].
  split; [apply Mid; [discriminate|discriminate|reflexivity]|]. split; [apply Mid; [discriminate|discriminate|reflexivity]|].
  split; [apply Mid; [discriminate|discriminate|reflexivity]|]. split.
  - intros u Eu. apply At; [discriminate|]. rewrite Eu. reflexivity.
  - intros Eu Nv v (nd & A & B). rewrite N0 in A. injection A; intros <-. cbn in B. rewrite Dg in B by discriminate. rewrite Eu in B. cbn [rev app] in B.
    assert (X : dget (L "SPEC_user") (rev mid ++ rev versions) = dget (L "SPEC_user") (rev versions)) by reflexivity.
    assert (B' : dget (L "SPEC_user") (rev versions) = Some v) by (rewrite <- X; exact B). clear B X. rename B' into B.
    apply Nv. apply dget_In in B. apply in_rev in B. apply (in_map fst) in B. exact B.
Qed.
