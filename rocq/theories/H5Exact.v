(** What the eznx calls do, exactly, when the name has no slash *)
From Coq Require Import String Lia.
From Verif Require Import Py PyFacts Utils SpecUtils H5 SpecH5 H5Facts FrameH5.
Import ListNotations.
Local Open Scope list_scope.

Lemma put_last {A} (l : list A) x y : put_nth (List.length l) x (l ++ [y]) = l ++ [x].
Proof. induction l as [|z l IH]; simpl; [reflexivity|]. f_equal. exact IH. Qed.
Lemma put_app {A} n (x : A) l m : n < List.length l -> put_nth n x (l ++ m) = put_nth n x l ++ m.
Proof. revert n; induction l as [|z l IH]; intros [|n] H; simpl in *; try lia; [reflexivity|]. f_equal. apply IH. lia. Qed.
Lemma put_put {A} n (x y : A) l : put_nth n x (put_nth n y l) = put_nth n x l.
Proof. revert n; induction l as [|z l IH]; intros [|n]; simpl; auto. f_equal; auto. Qed.
Lemma put_id {A} n (x : A) l : nth_error l n = Some x -> put_nth n x l = l.
Proof. revert n; induction l as [|z l IH]; intros [|n] H; simpl in *; try discriminate; [congruence|]. f_equal; auto. Qed.

Definition with_attrs (nd : node) (l : attrs_t) : node :=
  let upd at_ := fold_left (fun a kv => dset (fst kv) (snd kv) a) l at_ in
  match nd with Group ms at_ => Group ms (upd at_) | Dset v at_ => Dset v (upd at_) end.
Lemma with_attrs_nil nd : with_attrs nd [] = nd.
Proof. destruct nd; reflexivity. Qed.
Lemma addAttributes_eq o l nd f : nth_error f (h_id o) = Some nd ->
  addAttributes o l f = (put_nth (h_id o) (with_attrs nd l) f, Ok tt).
Proof.
  unfold addAttributes. revert nd f; induction l as [|[k v] l IH]; intros nd f H; cbn [siter fst snd].
  - rewrite with_attrs_nil, put_id by exact H. reflexivity.
  - rewrite sbind_eq.
    assert (X : set_attr (h_id o) k v f = (put_nth (h_id o) (with_attrs nd [(k, v)]) f, Ok tt)).
    { unfold set_attr. rewrite H. destruct nd; reflexivity. }
    rewrite X. rewrite (IH (with_attrs nd [(k, v)])).
    + rewrite put_put. destruct nd; reflexivity.
    + apply put_same. apply nth_error_Some. congruence.
Qed.

Lemma create_at_eq i n nd ms at_ f : plain_name n -> nth_error f i = Some (Group ms at_) ->
  create_at i n nd f = if has n ms then (f, Raise ValueError)
    else (put_nth i (Group (ms ++ [(n, List.length f)]) at_) f ++ [nd], Ok (List.length f)).
Proof.
  intros Hp H. unfold create_at. rewrite (parts_plain n Hp). cbn [rev app]. rewrite sbind_eq.
  rewrite start_rel by (apply plain_rel; auto). cbn [dig]. rewrite sbind_eq. unfold free. rewrite H.
  destruct (has n ms) eqn:Hs; [reflexivity|].
  rewrite sbind_eq. unfold alloc. rewrite sbind_eq. unfold add_member.
  assert (Hi : i < List.length f) by (apply nth_error_Some; congruence).
  rewrite nth_error_app1, H, Hs by exact Hi. rewrite put_app by exact Hi.
  destruct (Nat.leb_spec (List.length (f ++ [nd])) (List.length f)) as [Lb|Lb]; [rewrite app_length in Lb; simpl in Lb; lia|reflexivity].
Qed.

Definition made (i : nat) (n : str) (ms : dict nat) (at_ : dict aval) (nd : node) (f : h5) : h5 :=
  put_nth i (Group (ms ++ [(n, List.length f)]) at_) f ++ [nd].
Lemma made_length i n ms at_ nd f : List.length (made i n ms at_ nd f) = S (List.length f).
Proof. unfold made. rewrite app_length, put_length. simpl. lia. Qed.
Lemma made_nth i n ms at_ nd f x : nth_error f i = Some x -> forall j, nth_error (made i n ms at_ nd f) j =
  if Nat.eqb j i then Some (Group (ms ++ [(n, List.length f)]) at_)
  else if Nat.eqb j (List.length f) then Some nd else nth_error f j.
Proof.
  intros H j. unfold made. rewrite nth_snoc, put_length, (put_nth_error _ _ _ _ H).
  assert (Hi : i < List.length f) by (apply nth_error_Some; congruence).
  destruct (Nat.eqb_spec j i) as [->|N]; [|reflexivity].
  destruct (Nat.eqb_spec i (List.length f)); [lia|reflexivity].
Qed.
Lemma made_last i n ms at_ nd f : i < List.length f -> put_nth (List.length f) nd (made i n ms at_ (Group [] []) f) = made i n ms at_ nd f.
Proof.
  intros H. unfold made. rewrite <- (put_length i (Group (ms ++ [(n, List.length f)]) at_) f) at 1. apply put_last.
Qed.
Lemma made_last' i n ms at_ nd nd' f : put_nth (List.length f) nd (made i n ms at_ nd' f) = made i n ms at_ nd f.
Proof.
  unfold made. rewrite <- (put_length i (Group (ms ++ [(n, List.length f)]) at_) f) at 1. apply put_last.
Qed.

Lemma makeGroup_eq o n c l ms at_ f : plain_name n -> nth_error f (h_id o) = Some (Group ms at_) ->
  makeGroup o n c l f = if has n ms then (f, Raise ValueError)
    else (made (h_id o) n ms at_ (with_attrs (Group [] [(NXC, AText c)]) l) f,
          Ok (mk_handle (List.length f) (sub_name (h_name o) n))).
Proof.
  intros Hp H. unfold makeGroup. rewrite sbind_eq, (create_at_eq _ _ _ ms at_) by auto. destruct (has n ms); [reflexivity|].
  cbv zeta. fold (made (h_id o) n ms at_ (Group [] []) f).
  set (g0 := made (h_id o) n ms at_ (Group [] []) f).
  assert (Hi : h_id o < List.length f) by (apply nth_error_Some; congruence).
  assert (E0 : nth_error g0 (List.length f) = Some (Group [] [])).
  { unfold g0. rewrite (made_nth _ _ _ _ _ _ _ H). destruct (Nat.eqb_spec (List.length f) (h_id o)); [lia|]. rewrite Nat.eqb_refl. reflexivity. }
  assert (X : set_attr (List.length f) (L "NX_class") (AText c) g0 = (made (h_id o) n ms at_ (Group [] [(NXC, AText c)]) f, Ok tt)).
  { unfold set_attr. rewrite E0. unfold g0. rewrite made_last'. reflexivity. }
  rewrite sbind_eq. rewrite X. rewrite sbind_eq.
  rewrite (addAttributes_eq _ l (Group [] [(NXC, AText c)])).
  - cbn [h_id]. rewrite made_last'. reflexivity.
  - cbn [h_id]. rewrite (made_nth _ _ _ _ _ _ _ H).
    destruct (Nat.eqb_spec (List.length f) (h_id o)); [lia|]. rewrite Nat.eqb_refl. reflexivity.
Qed.
Lemma makeDataset_eq o n d l v ms at_ f : plain_name n -> to_hval d = Ok v -> nth_error f (h_id o) = Some (Group ms at_) ->
  makeDataset o n d l f = if has n ms then (f, Raise ValueError)
    else (made (h_id o) n ms at_ (with_attrs (Dset v []) l) f,
          Ok (mk_handle (List.length f) (sub_name (h_name o) n))).
Proof.
  intros Hp Hv H. unfold makeDataset. rewrite sbind_eq. unfold slift. rewrite Hv.
  rewrite sbind_eq, (create_at_eq _ _ _ ms at_) by auto. destruct (has n ms); [reflexivity|].
  cbv zeta. fold (made (h_id o) n ms at_ (Dset v []) f). rewrite sbind_eq.
  assert (Hi : h_id o < List.length f) by (apply nth_error_Some; congruence).
  rewrite (addAttributes_eq _ l (Dset v [])).
  - cbn [h_id]. rewrite made_last'. reflexivity.
  - cbn [h_id]. rewrite (made_nth _ _ _ _ _ _ _ H).
    destruct (Nat.eqb_spec (List.length f) (h_id o)); [lia|]. rewrite Nat.eqb_refl. reflexivity.
Qed.

Lemma resolve_plain i n ms at_ f : plain_name n -> nth_error f i = Some (Group ms at_) -> resolve i n f = dget n ms.
Proof.
  intros Hp H. unfold resolve. destruct n as [|c n]; [destruct Hp; congruence|].
  rewrite (parts_plain _ Hp), start_rel by (apply plain_rel; auto). cbn [walk]. rewrite H. destruct (dget (c :: n) ms); reflexivity.
Qed.
Lemma write_dataset_eq o n d l v ms at_ f : plain_name n -> to_hval d = Ok v -> NoDup (keys ms) ->
  nth_error f (h_id o) = Some (Group ms at_) ->
  write_dataset o n d l f =
    (made (h_id o) n (ddel n ms) at_ (with_attrs (Dset v []) l) f,
     Ok (mk_handle (List.length f) (sub_name (h_name o) n))).
Proof.
  intros Hp Hv ND H. unfold write_dataset. rewrite sbind_eq. unfold hin. rewrite (resolve_plain _ _ ms at_) by auto.
  rewrite sbind_eq. assert (Hi : h_id o < List.length f) by (apply nth_error_Some; congruence).
  destruct (dget n ms) as [j|] eqn:D.
  - unfold hdel. rewrite (parts_plain n Hp). cbn [rev app walk]. rewrite start_rel by (apply plain_rel; auto).
    unfold del_member. rewrite H. unfold has. rewrite D.
    rewrite (makeDataset_eq o n d l v (ddel n ms) at_) by (auto; apply put_same; auto).
    assert (X : has n (ddel n ms) = false).
    { apply has_not_In. intros K. apply in_map_iff in K. destruct K as [[k x] [K1 K2]]. cbn [fst] in K1. subst k.
      revert K2. clear - ND. induction ms as [|[k y] ms IH]; simpl; [auto|]. inversion ND; subst.
      destruct (seqb n k) eqn:Ek; simpl.
      - intros K2. apply seqb_eq in Ek. subst. apply H1. apply (in_map fst) in K2. exact K2.
      - intros [K2|K2]; [inversion K2; subst; rewrite seqb_refl in Ek; discriminate|]. apply IH; auto. }
    rewrite X. unfold made. rewrite put_length, put_put. reflexivity.
  - unfold sret at 1; cbv iota beta. rewrite (makeDataset_eq o n d l v ms at_) by auto. unfold has. rewrite D.
    assert (X : ddel n ms = ms).
    { clear - D. induction ms as [|[k y] ms IH]; simpl in *; [reflexivity|]. destruct (seqb n k); [discriminate|]. f_equal; auto. }
    rewrite X. reflexivity.
Qed.

Lemma with_attrs_get k v nd l : dget k (node_attrs nd) = Some v -> Forall (fun kv => fst kv <> k) l ->
  dget k (node_attrs (with_attrs nd l)) = Some v.
Proof.
  intros H F. assert (X : forall at_, dget k at_ = Some v -> dget k (fold_left (fun a kv => dset (fst kv) (snd kv) a) l at_) = Some v).
  { clear - F. induction F as [|[k' v'] l H F IH]; intros at_ Ha; cbn [fold_left fst snd] in *; auto.
    apply IH. rewrite dget_dset_other; auto. }
  destruct nd; simpl in *; apply X; auto.
Qed.
