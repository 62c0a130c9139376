(** C56, C57, C74: what Writer.save makes of a data file object *)
From Coq Require Import String Lia.
From Verif Require Import Py PyFacts Utils Keys Handlers Reader SpecHistory SpecInterp H5 SpecH5 H5Facts Writer SpecWriter NamesFacts SaveFacts RegFacts DataWrite EntryData TableFacts.
Import ListNotations.
Local Open Scope list_scope.

Section Use.
  Context (E : env) (known : list hid).
  Lemma saves_GS s s' : GS s -> saves E known s s' -> GS s'.
  Proof.
    intros G H. induction H as [|s1 versions ks H IH Hk]; [auto|].
    destruct (save E known versions ks s1) as [[s2 f] r] eqn:Es. apply (save_spec E known versions ks s1 s2 f r Hk IH Es).
  Qed.
  Lemma saves_TW s s' : TW s -> saves E known s s' -> TW s'.
  Proof.
    intros G H. induction H as [|s1 versions ks H IH Hk]; [auto|].
    destruct (save E known versions ks s1) as [[s2 f] r] eqn:Es. eapply save_TW; eauto.
  Qed.
  Lemma start_GS s0 s : history E known s0 -> plain_mnemonics s0 -> saves E known s0 s -> GS s.
  Proof. intros H P. apply saves_GS. split; [auto|eapply history_names; eauto]. Qed.
  Lemma split_map ks (done : list (skey * nat)) : map fst done = ks ->
    map (fun kj => (entry_name (fst kj), snd kj)) done = combine (map entry_name ks) (map snd done).
  Proof. intros <-. induction done as [|[k j] l IH]; cbn; f_equal; auto. Qed.
  Lemma keys_combine {V} ks (js : list V) : List.length js = List.length ks -> keys (combine ks js) = ks.
  Proof. revert js; induction ks as [|k ks IH]; intros [|j js] H; try discriminate; auto. cbn. f_equal. apply IH. cbn in H. lia. Qed.
  Lemma save_entries s0 s versions ks s' f : history E known s0 -> plain_mnemonics s0 -> saves E known s0 s -> Forall good_key ks ->
    save E known versions ks s = (s', f, None) ->
    exists js at_, nth_error f 0 = Some (Group (combine (map entry_name ks) js) at_) /\ List.length js = List.length ks /\ NoDup (map entry_name ks) /\
      Forall (fun j => nx_group f j "NXentry" /\ default_plot f j) js /\
      (forall k t, ks = k :: t -> attribute f 0 (L "default") (AText (entry_name k))).
  Proof.
    intros Hh Hp Hs Hk H. destruct (save_spec E known versions ks s s' f None Hk (start_GS _ _ Hh Hp Hs) H) as (_ & _ & [W _] & D).
    destruct (D eq_refl) as (done & at_ & D1 & D2 & D3 & D4). exists (map snd done), at_.
    rewrite (split_map ks done D1) in D2. split; [auto|].
    assert (Hl : List.length (map snd done) = List.length ks) by (rewrite <- D1, !map_length; reflexivity). split; [auto|].
    split; [|split; [|auto]].
    - pose proof (W 0 _ _ D2) as X. rewrite keys_combine in X by (rewrite !map_length in *; auto). auto.
    - rewrite Forall_map. exact D3.
  Qed.
  (** whatever happens, the file holds entries of the first keys only *)
  Lemma save_prefix s0 s versions ks s' f r : history E known s0 -> plain_mnemonics s0 -> saves E known s0 s -> Forall good_key ks ->
    save E known versions ks s = (s', f, r) ->
    exists ks1 ks2 js at_, ks = ks1 ++ ks2 /\ nth_error f 0 = Some (Group (combine (map entry_name ks1) js) at_) /\ List.length js = List.length ks1 /\
      NoDup (map entry_name ks1) /\ Forall (fun j => nx_group f j "NXentry") js.
  Proof.
    intros Hh Hp Hs Hk H. pose proof (start_GS _ _ Hh Hp Hs) as G.
    assert (N : forall at0, exists ks1 ks2 js at_, ks = ks1 ++ ks2 /\ nth_error [Group [] at0] 0 = Some (Group (combine (map entry_name ks1) js) at_) /\
      List.length js = List.length ks1 /\ NoDup (map entry_name ks1) /\ Forall (fun j => nx_group f j "NXentry") js).
    { intros at0. exists [], ks, [], at0. do 3 (split; [reflexivity|]). split; constructor. }
    unfold save in H. destruct (root_attributes versions s) as [l|x] eqn:El; [|inversion H; subst; apply N].
    destruct (addAttributes root l new_file) as [f0 r0] eqn:E0. destruct (save_start versions s l f0 r0 El E0) as [-> [at0 ->]].
    destruct (save_keys_spec E known ks true s _ s' f r Hk G (ok5_start at0) ltac:(exists [], at0; reflexivity) H) as (_ & (done & [KO KL [KW _] [rest KP] KE KD KR]) & _).
    destruct (KR [] at0 eq_refl) as (at' & R' & _). cbn [app] in R'. rewrite (split_map (map fst done) done eq_refl) in R'.
    exists (map fst done), rest, (map snd done), at'. split; [auto|]. split; [auto|]. split; [rewrite !map_length; auto|]. split.
    - pose proof (KW 0 _ _ R') as X. rewrite keys_combine in X by (rewrite !map_length; auto). auto.
    - rewrite Forall_map. eapply Forall_impl; [|exact KE]. intros kj [_ X]. auto.
  Qed.
  Lemma save_repeated s0 s versions ks k s1 f1 : history E known s0 -> plain_mnemonics s0 -> saves E known s0 s -> Forall good_key ks -> In k ks ->
    save E known versions ks s = (s1, f1, None) -> save E known versions (ks ++ [k]) s = (s1, f1, Some ValueError).
  Proof. intros Hh Hp Hs Hk. intros Hin H. apply save_again; auto. eapply start_GS; eauto. Qed.
  Lemma save_kept s0 s versions ks more s1 f1 s' f' r : history E known s0 -> plain_mnemonics s0 -> saves E known s0 s -> Forall good_key ks -> Forall good_key more ->
    save E known versions ks s = (s1, f1, None) -> save E known versions (ks ++ more) s = (s', f', r) -> kept_in f1 f'.
  Proof.
    intros Hh Hp Hs Hk Hm H1 H2. destruct (save_more E known versions ks more s s1 f1 s' f' r Hk Hm (start_GS _ _ Hh Hp Hs) H1 H2) as [A B].
    intros ps j P. split; [auto|]. intros N.
    assert (L : exists nd, nth_error f1 j = Some nd).
    { destruct (save_spec E known versions ks s s1 f1 None Hk (start_GS _ _ Hh Hp Hs) H1) as (_ & I0 & [_ Bd] & _).
      unfold at_path in P. revert P. generalize 0 as i, I0. clear - Bd. intros i (ms & a & I0) P.
      assert (I : exists nd, nth_error f1 i = Some nd) by eauto. clear I0. induction P as [i|i n j ps k M P IH]; auto.
      apply IH. destruct M as (m & x & M1 & M2). pose proof (Bd i m x n j M1 (dget_In _ _ _ M2)) as X. apply nth_error_Some in X.
      destruct (nth_error f1 j); [eauto|congruence]. }
    destruct L as [nd L]. rewrite L. apply B; auto.
  Qed.

  (** the table of a scan *)
  Lemma saved_table2 s0 s versions ks s' f : history E known s0 -> plain_mnemonics s0 -> saves E known s0 s -> Forall good_key ks ->
    save E known versions ks s = (s', f, None) -> forall k sc0 sc' table, In k ks -> getScan k s = Ok (Some sc0) ->
    dget (s_num sc0) (scans s') = Some sc' -> attr_is sc' A_data table -> table <> [] -> one_dim (s_cmd sc') ->
    exists b c items sg axv, at_path f [entry_name k; L "data"] b /\
      table_of (s_cmd sc') (s_obj sc') items sg axv /\ Stored f b c items sg axv.
  Proof.
    intros Hh Hp Hs Hk H k sc0 sc' table Hin Hg Hd Ht Nt HD.
    destruct (save_table E known versions ks s s' f Hk (start_GS _ _ Hh Hp Hs) H k Hin) as (sc1 & sc2 & a & B1 & B2 & B3 & B4 & B5).
    assert (sc1 = sc0) by congruence. subst sc1. assert (sc2 = sc') by congruence. subst sc2.
    assert (T : TW s') by (eapply save_TW; [|exact H]; eapply saves_TW; [|exact Hs]; eapply history_table_writer; eauto).
    unfold TW in T. rewrite Forall_forall in T. destruct (T _ (dget_In _ _ _ Hd)) as [_ R]. cbn [snd] in R.
    destruct (reg_In _ (R B3 table Ht Nt)) as (sw & W1 & W2).
    destruct (B5 sw W1 W2) as (b & c & items & sg & axv & T1 & Lab & St & Mb); [apply one_dim_iff; auto|].
    exists b, c, items, sg, axv. split; [|auto]. econstructor; [exact B4|]. econstructor; [exact Mb|]. constructor.
  Qed.
End Use.
