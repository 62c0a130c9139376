(** The positioners of a scan *)
From Coq Require Import String Lia.
From Verif Require Import Py PyFacts NumFacts Utils SpecUtils Keys Time Geom Handlers Reader MonadFacts SpecWriter NamesFacts
  H5 SpecH5 H5Facts FrameH5 H5Exact Writer DataWrite KeepFacts SaveFacts EntryData FrameK WriterFrame WriterFrameK GrowFacts ClaimFacts MetaWrite MetaWrite2 MetaWrite3 MetaWrite5.
Import ListNotations.
Local Open Scope list_scope.

Lemma hdf_ok {A} (m : HM A) w w' x : hdf m w = (w', Ok x) -> m (w_h5 w) = (w_h5 w', Ok x) /\ w_scan w' = w_scan w /\ w_hdr w' = w_hdr w.
Proof. unfold hdf. destruct (m (w_h5 w)) as [f r]. intros H. injection H; intros -> <-. auto. Qed.
Lemma wds_eq g n d l v mp at_ w w' u : plain_name n -> to_hval d = Ok v -> NoDup (keys mp) -> nth_error (w_h5 w) (h_id g) = Some (Group mp at_) ->
  wds g n d l w = (w', Ok u) -> w_h5 w' = made (h_id g) n (ddel n mp) at_ (with_attrs (Dset v []) l) (w_h5 w) /\ w_scan w' = w_scan w /\ w_hdr w' = w_hdr w.
Proof.
  intros Hn Hv ND Hg H. unfold wds in H. apply hdf_ok in H. destruct H as (H & A & B). split; [|auto].
  unfold unit_of in H. apply bind_ok in H. destruct H as (o & f1 & H1 & H). rewrite (write_dataset_eq g n d l v mp at_ _ Hn Hv ND Hg) in H1. unfold sret in H. congruence.
Qed.

Definition NAME : str := L "name". Definition VALUE : str := L "value".
Definition n_name (c : str) (l : attrs_t) : node := with_attrs (Dset (HTexts [ascii c]) []) l.
Definition n_value (x : fl) (l : attrs_t) : node := with_attrs (Dset (HArr [1] [NF x]) []) l.
Definition PAT : dict aval := [(NXC, AText (L "NXpositioner"))].

(** the two datasets of a positioner *)
Lemma two_written g c x l mp w w1 w' u1 u : NoDup (keys mp) -> nth_error (w_h5 w) (h_id g) = Some (Group mp PAT) ->
  wds g NAME (DText c) l w = (w1, Ok u1) -> wds g VALUE (DNum (NF x)) l w1 = (w', Ok u) ->
  let f := w_h5 w in let f' := w_h5 w' in
  w_scan w' = w_scan w /\ w_hdr w' = w_hdr w /\ List.length f' = S (S (List.length f)) /\
  (forall j, j < List.length f -> j <> h_id g -> nth_error f' j = nth_error f j) /\
  exists mp', nth_error f' (h_id g) = Some (Group mp' PAT) /\ NoDup (keys mp') /\
    dget NAME mp' = Some (List.length f) /\ nth_error f' (List.length f) = Some (n_name c l) /\
    dget VALUE mp' = Some (S (List.length f)) /\ nth_error f' (S (List.length f)) = Some (n_value x l).
Proof.
  intros ND Hg H1 H2 f f'. assert (Lg : h_id g < List.length f) by (apply nth_error_Some; fold f in Hg; congruence).
  destruct (wds_eq g NAME (DText c) l (HTexts [ascii c]) mp PAT w w1 u1 ltac:(apply plainb_ok; reflexivity) eq_refl ND Hg H1) as (E1 & S1 & D1).
  fold f in E1. set (mp1 := ddel NAME mp ++ [(NAME, List.length f)]) in *.
  assert (N1 : forall j, nth_error (w_h5 w1) j = if Nat.eqb j (h_id g) then Some (Group mp1 PAT) else if Nat.eqb j (List.length f) then Some (n_name c l) else nth_error f j).
  { intros j. rewrite E1. apply (made_nth _ _ _ _ _ _ _ Hg). }
  assert (ND1 : NoDup (keys mp1)) by (apply NoDup_snoc_key; [apply NoDup_ddel; auto|apply ddel_gone; auto]).
  assert (G1 : nth_error (w_h5 w1) (h_id g) = Some (Group mp1 PAT)) by (rewrite N1, Nat.eqb_refl; reflexivity).
  assert (L1 : List.length (w_h5 w1) = S (List.length f)) by (rewrite E1; apply made_length).
  destruct (wds_eq g VALUE (DNum (NF x)) l (HArr [1] [NF x]) mp1 PAT w1 w' u ltac:(apply plainb_ok; reflexivity) eq_refl ND1 G1 H2) as (E2 & S2 & D2).
  fold f' in E2. set (mp2 := ddel VALUE mp1 ++ [(VALUE, List.length (w_h5 w1))]) in *.
  assert (N2 : forall j, nth_error f' j = if Nat.eqb j (h_id g) then Some (Group mp2 PAT) else if Nat.eqb j (List.length (w_h5 w1)) then Some (n_value x l) else nth_error (w_h5 w1) j).
  { intros j. rewrite E2. apply (made_nth _ _ _ _ _ _ _ G1). }
  split; [congruence|]. split; [congruence|]. split; [rewrite E2, made_length; congruence|]. split.
  - intros j Hj Nj. rewrite N2. destruct (Nat.eqb_spec j (h_id g)); [contradiction|]. destruct (Nat.eqb_spec j (List.length (w_h5 w1))); [lia|].
    rewrite N1. destruct (Nat.eqb_spec j (h_id g)); [contradiction|]. destruct (Nat.eqb_spec j (List.length f)); [lia|reflexivity].
  - exists mp2. split; [rewrite N2, Nat.eqb_refl; reflexivity|]. split; [apply NoDup_snoc_key; [apply NoDup_ddel; auto|apply ddel_gone; auto]|].
    split; [|split; [|split]].
    + unfold mp2. rewrite dget_app, dget_ddel_other by (apply seqb_neq; reflexivity). unfold mp1. rewrite dget_none_app; [reflexivity|apply ddel_gone; auto].
    + rewrite N2. destruct (Nat.eqb_spec (List.length f) (h_id g)); [lia|]. destruct (Nat.eqb_spec (List.length f) (List.length (w_h5 w1))); [lia|].
      rewrite N1. destruct (Nat.eqb_spec (List.length f) (h_id g)); [lia|]. rewrite Nat.eqb_refl. reflexivity.
    + unfold mp2. rewrite dget_none_app; [rewrite L1; reflexivity|apply ddel_gone; auto].
    + rewrite N2. destruct (Nat.eqb_spec (S (List.length f)) (h_id g)); [lia|]. rewrite L1, Nat.eqb_refl. reflexivity.
Qed.

(** positioner groups of group [b] *)
Definition item : Type := (str * (node * node))%type.
Record PI (b : nat) (atb : dict aval) (ms : dict nat) (done : list item) (f : h5) : Prop := mk_PI {
  pi_b : nth_error f b = Some (Group ms atb);
  pi_nd : NoDup (keys ms);
  pi_pg : forall c pg, In (c, pg) ms -> b < pg < List.length f /\ exists mp, nth_error f pg = Some (Group mp PAT) /\ NoDup (keys mp);
  pi_inj : forall c c' pg, In (c, pg) ms -> In (c', pg) ms -> c = c';
  pi_done : forall l1 c n1 n2 l2, done = l1 ++ (c, (n1, n2)) :: l2 -> ~ In c (map fst l2) ->
    exists pg mp j1 j2, dget c ms = Some pg /\ nth_error f pg = Some (Group mp PAT) /\ dget NAME mp = Some j1 /\ b < j1 /\ nth_error f j1 = Some n1 /\
      dget VALUE mp = Some j2 /\ b < j2 /\ nth_error f j2 = Some n2 }.
(** datasets *)
Definition is_ds (nd : node) : Prop := match nd with Dset _ _ => True | _ => False end.

Lemma pos_open b g c atb ms done f f1 pg : h_id g = b -> plain_name c -> PI b atb ms done f -> Forall (fun it => is_ds (fst (snd it)) /\ is_ds (snd (snd it))) done ->
  openGroup g c (L "NXpositioner") [] f = (f1, Ok pg) ->
  exists ms1, PI b atb ms1 done f1 /\ dget c ms1 = Some (h_id pg) /\ List.length f <= List.length f1 /\ (forall j, j < b -> nth_error f1 j = nth_error f j).
Proof.
  intros Hb Hc [A1 A2 A3 A4 A5] Ds H. unfold openGroup in H. rewrite (resolve_plain _ c ms atb f Hc) in H by (rewrite Hb; auto).
  destruct (dget c ms) as [j|] eqn:Dc.
  - cbv zeta in H. unfold addAttributes in H. cbn [siter] in H. rewrite sbind_eq in H. unfold sret in H. assert (f1 = f) by congruence.
    assert (Ep : h_id pg = j) by (injection H; intros <-; reflexivity). subst f1. exists ms. split; [constructor; auto|]. rewrite Ep. auto.
  - assert (Lb : b < List.length f) by (apply nth_error_Some; congruence).
    destruct (group_of_make g c (L "NXpositioner") [] f f1 pg Hc ltac:(rewrite Hb; exact Lb) H) as (ms' & at' & Na & Hh & Ef & Eo).
    rewrite Hb, A1 in Na. injection Na; intros <- <-. rewrite Hb in Ef.
    assert (NN : forall j, nth_error f1 j = if Nat.eqb j b then Some (Group (ms ++ [(c, List.length f)]) atb) else if Nat.eqb j (List.length f) then Some (Group [] PAT) else nth_error f j).
    { intros j. rewrite Ef. apply (made_nth _ _ _ _ _ _ _ A1). }
    assert (L1 : List.length f1 = S (List.length f)) by (rewrite Ef; apply made_length).
    exists (ms ++ [(c, List.length f)]). rewrite Eo. cbn [h_id]. split; [|split; [apply dget_none_app; auto|split; [lia|]]].
    2:{ intros j Hj. rewrite NN. destruct (Nat.eqb_spec j b); [lia|]. destruct (Nat.eqb_spec j (List.length f)); [lia|reflexivity]. }
    assert (Ol : forall j, j < List.length f -> j <> b -> nth_error f1 j = nth_error f j).
    { intros j Hj Nj. rewrite NN. destruct (Nat.eqb_spec j b); [contradiction|]. destruct (Nat.eqb_spec j (List.length f)); [lia|reflexivity]. }
    constructor.
    + rewrite NN, Nat.eqb_refl. reflexivity.
    + apply NoDup_snoc_key; auto.
    + intros k q Hin. apply in_app_iff in Hin. destruct Hin as [Hin|[Hin|[]]].
      * destruct (A3 k q Hin) as (B1 & mp & B2 & B3). split; [lia|]. exists mp. split; [|auto]. rewrite Ol; [auto|lia|lia].
      * inversion Hin; subst. split; [lia|]. exists []. split; [|constructor]. rewrite NN. destruct (Nat.eqb_spec (List.length f) (h_id g)); [lia|]. rewrite Nat.eqb_refl. reflexivity.
    + intros k k' q X Y. apply in_app_iff in X, Y. destruct X as [X|[X|[]]], Y as [Y|[Y|[]]].
      * eauto. * inversion Y; subst. destruct (A3 k _ X). lia. * inversion X; subst. destruct (A3 k' _ Y). lia. * congruence.
    + intros l1 k n1 n2 l2 E N. destruct (A5 l1 k n1 n2 l2 E N) as (q & mp & j1 & j2 & C1 & C2 & C3 & C4 & C5 & C6 & C7 & C8).
      assert (Lt : forall j nd, nth_error f j = Some nd -> j < List.length f) by (intros j nd X; apply nth_error_Some; congruence).
      destruct (A3 k q (dget_In _ _ _ C1)) as (B1 & _).
      exists q, mp, j1, j2. split; [rewrite dget_app, C1; reflexivity|]. split; [rewrite Ol; [auto|lia|lia]|]. split; [auto|]. split; [auto|].
      split; [rewrite Ol; [auto|eauto|lia]|]. split; [auto|]. split; [auto|]. rewrite Ol; [auto|eauto|lia].
Qed.

(** the attributes of the [i]-th positioner, with the [i]-th of the mnemonics [xr] *)
Definition p_attrs (xr : option (dict str)) (i : nat) (spec : str) : attrs_t :=
  (L "spec_name", AText spec) :: match xr with Some x => match nth_error (keys x) i with Some m => [(L "spec_mne", AText m)] | None => [] end | None => [] end.
Definition p_ok (xr : option (dict str)) (i : nat) : Prop := forall x, xr = Some x -> i < List.length (keys x).
Lemma p_attrs_nd xr i spec : NoDup (keys (p_attrs xr i spec)).
Proof. unfold p_attrs. destruct xr as [x|]; [destruct (nth_error (keys x) i) as [m|]|]; repeat constructor; simpl; intuition discriminate. Qed.
Lemma p_attrs_tgt xr i spec : ~ In TGT (keys (p_attrs xr i spec)).
Proof.
  unfold p_attrs. destruct xr as [x|]; [destruct (nth_error (keys x) i) as [m|]|]; cbn [keys map fst In].
  1: intros [X|[X|[]]]; revert X; apply seqb_neq; reflexivity.
  all: intros [X|[]]; revert X; apply seqb_neq; reflexivity.
Qed.
Lemma pos_step b g i spec x atb ms done w w' u : h_id g = b -> PI b atb ms done (w_h5 w) -> Forall (fun it => is_ds (fst (snd it)) /\ is_ds (snd (snd it))) done ->
  w_positioner g (i, (spec, x)) w = (w', Ok u) ->
  exists c l ms', clean_name spec = Ok c /\ l = p_attrs (w_hdr w A_positioner_xref) i spec /\ p_ok (w_hdr w A_positioner_xref) i /\ PI b atb ms' (done ++ [(c, (n_name c l, n_value x l))]) (w_h5 w') /\
    List.length (w_h5 w) <= List.length (w_h5 w') /\ (forall j, j < b -> nth_error (w_h5 w') j = nth_error (w_h5 w) j) /\ w_scan w' = w_scan w /\ w_hdr w' = w_hdr w.
Proof.
  intros Hb I Ds H. unfold w_positioner in H. apply bind_ok in H. destruct H as (c & w1 & H1 & H). apply lift_ok in H1. destruct H1 as [-> Hc].
  apply bind_ok in H. destruct H as (pg & w1 & H1 & H). apply hdf_ok in H1. destruct H1 as (H1 & S1 & D1).
  destruct (pos_open b g c atb ms done _ _ pg Hb (clean_plain _ _ Hc) I Ds H1) as (ms1 & I1 & Dc & L1 & O1).
  apply bind_ok in H. destruct H as (bb & w2 & H2 & H). apply has_ok in H2. destruct H2 as [-> Ebb]. cbn [obj_of] in Ebb.
  apply bind_ok in H. destruct H as (mne & w2 & H2 & H).
  assert (X : w2 = w1 /\ (L "spec_name", AText spec) :: mne = p_attrs (w_hdr w1 A_positioner_xref) i spec /\ p_ok (w_hdr w1 A_positioner_xref) i).
  { unfold p_attrs, p_ok. destruct (w_hdr w1 A_positioner_xref) as [xr|] eqn:Exr.
    - assert (Eb : bb = true) by (apply Ebb; discriminate). rewrite Eb in H2. apply bind_ok in H2. destruct H2 as (xr' & w3 & H3 & H2). apply rd_ok in H3. destruct H3 as [-> H3]. cbn [obj_of] in H3. rewrite Exr in H3. assert (xr' = xr) by exact (eq_sym (MonadFacts.Some_inj _ _ H3)). subst xr'.
      apply bind_ok in H2. destruct H2 as (m & w3 & H3' & H2). apply lift_ok in H3'. destruct H3' as [-> Hm]. rewrite PyFacts.index_nat in Hm. destruct (nth_error (keys xr) i) as [m'|] eqn:Em; [|discriminate Hm].
      unfold sret in H2. split; [congruence|]. split; [cbn [of_opt] in Hm; congruence|]. intros x0 Q. assert (x0 = xr) by congruence. subst x0. apply nth_error_Some. congruence.
    - assert (Eb : bb = false) by (destruct bb; [exfalso; apply Ebb; reflexivity|reflexivity]). rewrite Eb in H2. unfold sret in H2. split; [congruence|]. split; [congruence|]. discriminate. }
  destruct X as (-> & El & Hok). cbv zeta in H. rewrite El in H. rewrite D1 in H, Hok. clear El mne H2. set (l := p_attrs (w_hdr w A_positioner_xref) i spec) in *.
  assert (NDl : NoDup (keys l)) by apply p_attrs_nd.
  apply bind_ok in H. destruct H as (u3 & w3 & H3 & H4).
  destruct I1 as [A1 A2 A3 A4 A5]. destruct (A3 c (h_id pg) (dget_In _ _ _ Dc)) as (Bp & mp & Np & NDp).
  destruct (two_written pg c x l mp w1 w3 w' u3 u NDp Np H3 H4) as (S2 & D2 & L2 & O2 & mp' & N1 & N2 & N3 & N4 & N5 & N6).
  set (f1 := w_h5 w1) in *. set (f' := w_h5 w') in *.
  exists c, l, ms1. split; [auto|]. split; [reflexivity|]. split; [exact Hok|].
  split; [|split; [lia|split; [intros j Hj; rewrite O2; [apply O1; auto|lia|lia]|split; congruence]]].
  assert (Hbl : b < List.length f1) by (apply nth_error_Some; congruence).
  constructor.
  - rewrite O2; [auto|auto|lia].
  - auto.
  - intros k q Hin. destruct (A3 k q Hin) as (B1 & mq & B2 & B3). split; [lia|]. destruct (Nat.eq_dec q (h_id pg)) as [->|Nq]; [exists mp'; auto|].
    exists mq. split; [|auto]. rewrite O2; [auto|lia|auto].
  - auto.
  - intros l1 k n1 n2 l2 E N. destruct l2 as [|y l2].
    + apply app_inj_tail in E. destruct E as [-> E]. injection E; intros <- <- <-.
      exists (h_id pg), mp', (List.length f1), (S (List.length f1)). split; [auto|]. split; [auto|]. split; [auto|]. split; [auto|]. split; [auto|]. split; [auto|]. split; [lia|auto].
    + destruct (exists_last (l := y :: l2) ltac:(discriminate)) as (l3 & z & El). rewrite El in E, N.
      rewrite app_comm_cons, app_assoc in E. apply app_inj_tail in E. destruct E as [E Ez]. subst z. rewrite map_app, in_app_iff in N. cbn [map fst] in N.
      assert (Nk : k <> c) by (intros ->; apply N; right; left; reflexivity).
      destruct (A5 l1 k n1 n2 l3 E ltac:(intros X; apply N; left; auto)) as (q & mq & j1 & j2 & C1 & C2 & C3 & C4 & C5 & C6 & C7 & C8).
      assert (Lt : forall j nd, nth_error f1 j = Some nd -> j < List.length f1) by (intros j nd X; apply nth_error_Some; congruence).
      assert (Hd : is_ds n1 /\ is_ds n2).
      { rewrite Forall_forall in Ds. apply (Ds (k, (n1, n2))). rewrite E. apply in_app_iff. right; left; reflexivity. }
      assert (Nq : q <> h_id pg). { intros ->. apply Nk. apply (A4 k c (h_id pg)); apply dget_In; auto. }
      assert (Nj : forall j nd, nth_error f1 j = Some nd -> is_ds nd -> j <> h_id pg) by (intros j nd X Y ->; rewrite Np in X; injection X; intros <-; destruct Y).
      exists q, mq, j1, j2. split; [auto|]. split; [rewrite O2; [auto|eauto|auto]|]. split; [auto|]. split; [auto|]. split; [rewrite O2; [auto|eauto|apply (Nj j1 n1); [auto|apply Hd]]|].
      split; [auto|]. split; [auto|]. rewrite O2; [auto|eauto|apply (Nj j2 n2); [auto|apply Hd]].
Qed.

Lemma pos_iter b g atb : h_id g = b -> forall ps done ms w w' u, PI b atb ms done (w_h5 w) -> Forall (fun it => is_ds (fst (snd it)) /\ is_ds (snd (snd it))) done ->
  siter (w_positioner g) ps w = (w', Ok u) ->
  exists new ms', PI b atb ms' (done ++ new) (w_h5 w') /\ List.length (w_h5 w) <= List.length (w_h5 w') /\ (forall j, j < b -> nth_error (w_h5 w') j = nth_error (w_h5 w) j) /\ w_scan w' = w_scan w /\
    Forall2 (fun ip it => exists c l, clean_name (fst (snd ip)) = Ok c /\ l = p_attrs (w_hdr w A_positioner_xref) (fst ip) (fst (snd ip)) /\ p_ok (w_hdr w A_positioner_xref) (fst ip) /\ it = (c, (n_name c l, n_value (snd (snd ip)) l))) ps new.
Proof.
  intros Hb. induction ps as [|[i [spec x]] ps IH]; intros done ms w w' u I Ds H; cbn [siter] in H.
  - unfold sret in H. assert (w' = w) by congruence. subst w'. exists [], ms. rewrite app_nil_r. split; [auto|]. split; [auto|]. split; [auto|]. split; [auto|constructor].
  - apply bind_ok in H. destruct H as (u1 & w1 & H1 & H).
    destruct (pos_step b g i spec x atb ms done w w1 u1 Hb I Ds H1) as (c & l & ms1 & C1 & C2 & C3 & I1 & L1 & O1 & S1 & D1).
    destruct (IH (done ++ [(c, (n_name c l, n_value x l))]) ms1 w1 w' u I1) as (new & ms2 & I2 & L2 & O2 & S2 & F2); [|exact H|].
    { apply Forall_app. split; [auto|]. constructor; [|constructor]. split; exact Logic.I. }
    exists ((c, (n_name c l, n_value x l)) :: new), ms2. rewrite <- app_assoc in I2. split; [exact I2|]. split; [lia|].
    split; [intros j Hj; rewrite O2, O1; auto|]. split; [congruence|]. rewrite D1 in F2. constructor; [|exact F2]. cbn [fst snd]. exists c, l. auto.
Qed.

(** dataset [n] of group [g] *)
Definition has_ds (f : h5) (g : nat) (n : str) (v : hval) (l : attrs_t) : Prop :=
  exists j, 0 < j /\ member f g n j /\ dataset f j v /\ Forall (fun kv => attribute f j (fst kv) (snd kv)) l.
Lemma has_ds_grow f f' g n v l : 1 <= g -> ~ In TGT (keys l) -> grow f f' -> has_ds f g n v l -> has_ds f' g n v l.
Proof.
  intros Ha Nt G (j & A & B & C & D). exists j. split; [auto|]. split; [eapply grow_member; eauto|]. split; [eapply grow_dataset; eauto; lia|].
  rewrite Forall_forall in *. intros kv H. eapply grow_attribute; [exact G|lia| |apply D; auto]. intros X. apply Nt. rewrite <- X. apply (in_map fst). auto.
Qed.
Definition POS : str := L "positioners".
Definition Pdesc : attrs_t := [desc "SPEC positioners (#P & #O lines)"].
Definition positioners_in2 (xr : option (dict str)) (f : h5) (a : nat) (d : list (str * fl)) : Prop :=
  exists g, a < g /\ member f a POS g /\ nx_group f g "NXnote" /\ Forall (fun kv => attribute f g (fst kv) (snd kv)) Pdesc /\
    forall l1 x v l2 c, d = l1 ++ (x, v) :: l2 -> clean_name x = Ok c -> (forall y, In y (map fst l2) -> clean_name y <> Ok c) ->
      exists pg, a < pg /\ member f g c pg /\ nx_group f pg "NXpositioner" /\ p_ok xr (List.length l1) /\
        has_ds f pg NAME (HTexts [ascii c]) (p_attrs xr (List.length l1) x) /\ has_ds f pg VALUE (HArr [1] [NF v]) (p_attrs xr (List.length l1) x).
Definition positioners_in (f : h5) (a : nat) (d : list (str * fl)) : Prop :=
  exists g, a < g /\ member f a POS g /\ nx_group f g "NXnote" /\ Forall (fun kv => attribute f g (fst kv) (snd kv)) Pdesc /\
    forall l1 x v l2 c, d = l1 ++ (x, v) :: l2 -> clean_name x = Ok c -> (forall y, In y (map fst l2) -> clean_name y <> Ok c) ->
      exists pg, a < pg /\ member f g c pg /\ nx_group f pg "NXpositioner" /\
        has_ds f pg NAME (HTexts [ascii c]) [(L "spec_name", AText x)] /\ has_ds f pg VALUE (HArr [1] [NF v]) [(L "spec_name", AText x)].
Lemma positioners_in_of xr f a d : positioners_in2 xr f a d -> positioners_in f a d.
Proof.
  intros (g & A & B & C & D & F). exists g. do 4 (split; [auto|]). intros l1 x v l2 c E1 E2 E3. destruct (F l1 x v l2 c E1 E2 E3) as (pg & F1 & F2 & F3 & _ & (j & X1 & X2 & X3 & X4) & (j' & Y1 & Y2 & Y3 & Y4)).
  exists pg. do 3 (split; [auto|]). split; [exists j|exists j']; (do 3 (split; [auto|])); (constructor; [|constructor]); [inversion X4|inversion Y4]; auto.
Qed.
Lemma positioners_grow2 xr f f' a d : 1 <= a -> grow f f' -> positioners_in2 xr f a d -> positioners_in2 xr f' a d.
Proof.
  intros Ha G (g & A & B & C & D & F). exists g. split; [auto|]. split; [eapply grow_member; eauto|]. split; [eapply grow_nx; eauto; lia|]. split.
  - rewrite Forall_forall in *. intros kv H. eapply grow_attribute; [exact G|lia| |apply D; auto]. destruct H as [<-|[]]. apply seqb_neq. reflexivity.
  - intros l1 x v l2 c E1 E2 E3. destruct (F l1 x v l2 c E1 E2 E3) as (pg & F1 & F2 & F3 & F4 & F5 & F6). exists pg. split; [auto|].
    split; [eapply grow_member; eauto; lia|]. split; [eapply grow_nx; eauto; lia|]. split; [exact F4|].
    split; (eapply has_ds_grow; [lia|apply p_attrs_tgt|exact G|auto]).
Qed.
Lemma positioners_grow f f' a d : 1 <= a -> grow f f' -> positioners_in f a d -> positioners_in f' a d.
Proof.
  intros Ha G (g & A & B & C & D & F). exists g. split; [auto|]. split; [eapply grow_member; eauto|]. split; [eapply grow_nx; eauto; lia|]. split.
  - rewrite Forall_forall in *. intros kv H. eapply grow_attribute; [exact G|lia| |apply D; auto]. destruct H as [<-|[]]. apply seqb_neq. reflexivity.
  - intros l1 x v l2 c E1 E2 E3. destruct (F l1 x v l2 c E1 E2 E3) as (pg & F1 & F2 & F3 & F4 & F5). exists pg. split; [auto|].
    split; [eapply grow_member; eauto; lia|]. split; [eapply grow_nx; eauto; lia|].
    assert (Nt : ~ In TGT (keys [(L "spec_name", AText x)])) by (simpl; intros [X|[]]; revert X; apply seqb_neq; reflexivity).
    split; eapply has_ds_grow; eauto; lia.
Qed.
Definition Psi_P2 (o ho : obj) (f : h5) (a : nat) : Prop := forall d, o A_positioner = Some d -> positioners_in2 (ho A_positioner_xref) f a d /\ in_instrument f a POS.
(** like [est], for claims about a scan and its header *)
Definition est2 (h : hid) (Psi : obj -> obj -> h5 -> nat -> Prop) : Prop :=
  forall cmd a sk w w' u, 0 < a -> plain_name sk -> is_ascii sk -> BW a sk w ->
    writer_of cmd h (mk_handle a (name_at [sk])) Scn w = (w', Ok u) ->
    exists P K II, ~ K [] /\ (forall g n, K [g; n] -> Uq g) /\ (forall h', h' <> h -> okw K h') /\
      FrameK.Inv P a sk K II (w_h5 w') /\ forall f, FrameK.Inv P a sk K II f -> FrameK.Fr P a K II (w_h5 w') f -> Psi (w_scan w) (w_hdr w) f a.
Definition Psi_P (o : obj) (f : h5) (a : nat) : Prop := forall d, o A_positioner = Some d -> positioners_in f a d /\ in_instrument f a POS.

Lemma base_positioners a sk w w1 w2 g l u : plain_name sk -> BW a sk w ->
  hdf (makeGroup (mk_handle a (name_at [sk])) POS NOTE Pdesc) w = (w1, Ok g) -> siter (w_positioner g) l w1 = (w2, Ok u) -> BInv a sk (w_h5 w2).
Proof.
  intros Hp W H1 H2. pose proof W as [I _].
  assert (M : WriterFrameK.wk (PO a) a sk noK noI (hdf (makeGroup (mk_handle a (name_at [sk])) POS NOTE Pdesc)) (FrameK.hat (PO a) a sk noI [POS])).
  { apply (WriterFrameK.make_e (PO a) a sk noK noI); auto; [eapply entry_hat; eauto|apply plainb_ok; reflexivity]. }
  destruct (wk_step _ _ _ _ _ _ _ _ _ _ M W H1) as [W1 _]. destruct (M w W) as (_ & _ & Hh). rewrite H1 in Hh. specialize (Hh g eq_refl).
  assert (D : WriterFrameK.wk (PO a) a sk noK noI (siter (w_positioner g) l) (fun _ => True)).
  { apply WriterFrameK.wk_iter. intros iv _. apply (WriterFrameK.w_positioner_ok (PO a) a sk noK noI); auto.
    apply (WriterFrameK.deep_top noK); [intros ? ? []|nuq|auto]. }
  destruct (wk_step _ _ _ _ _ _ _ _ _ _ D W1 H2) as [[I2 _] _]. exact I2.
Qed.

Lemma enum_split {A} (d : list A) l1 x l2 : d = l1 ++ x :: l2 -> enum d = enum l1 ++ (List.length l1, x) :: combine (seq (S (List.length l1)) (List.length l2)) l2.
Proof.
  intros ->. unfold enum. rewrite app_length, seq_app. cbn [List.length seq Nat.add].
  assert (X : forall (a a' : list nat) (b b' : list A), List.length a = List.length b -> combine (a ++ a') (b ++ b') = combine a b ++ combine a' b').
  { induction a as [|y a IH]; destruct b; intros; try discriminate; [reflexivity|]. cbn. f_equal. apply IH. cbn in *. lia. }
  rewrite X by apply seq_length. reflexivity.
Qed.

Lemma est_P2 : est2 H_P Psi_P2.
Proof.
  intros cmd a sk w w' u Ha Hp Has W H. pose proof (base_writer _ _ _ _ _ _ _ Hp Has W H) as WE. cbn [writer_of] in H. unfold w_P in H.
  apply bind_ok in H. destruct H as (g & w1 & H1 & H). apply bind_ok in H. destruct H as (d & w1' & H2 & H). apply rd_ok in H2. destruct H2 as [-> H2]. cbn [obj_of] in H2.
  apply bind_ok in H. destruct H as (u1 & w2 & H3 & H).
  pose proof (base_positioners a sk w w1 w2 g (enum d) u1 Hp W H1 H3) as W2.
  apply hdf_ok in H1. destruct H1 as (H1 & S1 & D1). pose proof W as [I _]. set (f := w_h5 w) in *. set (b := List.length f).
  assert (Hab : a < b) by apply (FrameK.inv_alt _ _ _ _ _ f I).
  destruct (group_of_make (mk_handle a (name_at [sk])) POS NOTE Pdesc f _ g ltac:(apply plainb_ok; reflexivity) Hab H1) as (ms & at_ & Na & Hh & Ef & Eg).
  cbn [h_id h_name] in *. assert (Eid : h_id g = b) by (rewrite Eg; reflexivity).
  set (nd := with_attrs (Group [] [(NXC, AText NOTE)]) Pdesc) in *.
  assert (NN1 : forall j, nth_error (w_h5 w1) j = if Nat.eqb j a then Some (Group (ms ++ [(POS, b)]) at_) else if Nat.eqb j b then Some nd else nth_error f j).
  { intros j. rewrite Ef. apply (made_nth _ _ _ _ _ _ _ Na). }
  assert (L1 : List.length (w_h5 w1) = S b) by (rewrite Ef; apply made_length).
  assert (Nb : nth_error (w_h5 w1) b = Some (Group [] (node_attrs nd))).
  { rewrite NN1. destruct (Nat.eqb_spec b a); [lia|]. rewrite Nat.eqb_refl. reflexivity. }
  destruct (pos_iter b g (node_attrs nd) Eid (enum d) [] [] w1 w2 u1) as (new & mg & [I1 In2 I3 I4 I5] & L2 & O2 & S2 & F2); [|constructor|exact H3|].
  { constructor; auto; [constructor|intros c pg []|intros c c' pg []|]. intros l1 c n1 n2 l2 E. destruct l1; discriminate E. }
  cbn [app] in *.
  assert (Fi : filled a POS ms at_ f (w_h5 w2)).
  { constructor; auto; [fold b; lia|]. fold b. intros i Hi. rewrite O2 by lia. rewrite NN1. destruct (Nat.eqb_spec i b); [lia|reflexivity]. }
  assert (Hgn : h_name g = name_at [sk; POS]) by (rewrite Eg; cbn [h_name]; apply (sub_name_at [sk]); [constructor; [auto|constructor]|apply plainb_ok; reflexivity]).
  destruct WE as [I' _].
  destruct (link_up a sk POS ms at_ mg _ f w2 w' g u Ha Hp Has ltac:(apply plainb_ok; reflexivity) ltac:(repeat constructor) ltac:(nuq) I W2 Fi Eid Hgn I1 eq_refl H I')
    as (i & IU & Es' & _ & Hai & Ma & Mi & Nb2 & Nj).
  fold b in IU, Ma, Mi, Nb2, Nj. set (c2 := List.length (w_h5 w2)) in *.
  eexists. exists (K2 POS), (I2 i). split; [apply K2_0|]. split; [apply K2_2|]. split; [okk2|]. split; [exact IU|].
  intros f' Inv' G d' Hd. rewrite <- S1, H2 in Hd. injection Hd; intros <-. destruct G as [G1 G2 G3 G4].
  assert (Mf : member f' a POS b) by (apply G3; [left; reflexivity|exact Ma]). split.
  - assert (Gj : forall j, b < j < c2 -> nth_error f' j = nth_error (w_h5 w2) j) by (intros j Hj; rewrite G2 by (right; lia); apply Nj; exact Hj).
    assert (Hbc : b < c2) by (unfold c2; lia).
    assert (Gb : nth_error f' b = Some (Group mg (dset TGT (AText (name_at [sk; POS])) (node_attrs nd)))) by (rewrite G2 by (right; lia); exact Nb2).
    exists b. split; [exact Hab|]. split; [exact Mf|].
    split; [|split].
    + split; [eexists; eexists; exact Gb|]. eexists. split; [exact Gb|]. cbn [node_attrs]. rewrite dget_dset_other by (apply seqb_neq; reflexivity). reflexivity.
    + constructor; [|constructor]. exists (Group mg (dset TGT (AText (name_at [sk; POS])) (node_attrs nd))). split; [exact Gb|]. cbn [node_attrs fst snd]. rewrite dget_dset_other by (apply seqb_neq; reflexivity). reflexivity.
    + intros l1 x v l2 c E C Later. pose proof (enum_split d l1 (x, v) l2 E) as EE. rewrite EE in F2.
      apply Forall2_app_inv_l in F2. destruct F2 as (m1 & m2 & _ & F2 & Em). inversion F2 as [|? it ? m3 (c0 & l & Q1 & Q2' & Q3' & Q4) F3]; subst m2. clear F2. cbn [fst snd] in *. rewrite D1 in Q2', Q3'.
      assert (c0 = c) by congruence. subst c0 it.
      assert (Nl : ~ In c (map fst m3)).
      { clear - F3 Later. intros X. apply in_map_iff in X. destruct X as (it & X1 & X2). apply in_split in X2. destruct X2 as (p1 & p2 & ->).
        apply Forall2_app_inv_r in F3. destruct F3 as (q1 & q2 & _ & F & Eq). inversion F as [|ip ? q3 ? (c0 & l & Q1 & _ & _ & Q4) _]; subst q2.
        rewrite Q4 in X1. cbn [fst] in X1. subst c0. apply (Later (fst (snd ip))); [|exact Q1].
        apply in_map. apply (in_combine_r (seq (S (List.length l1)) (List.length l2)) l2 (fst ip)). rewrite Eq. apply in_app_iff. right. left. destruct ip; reflexivity. }
      destruct (I5 m1 c _ _ m3 Em Nl) as (pg & mp & j1 & j2 & C1 & C2 & C3 & C4 & C5 & C6 & C7 & C8).
      destruct (I3 c pg (dget_In _ _ _ C1)) as (B1 & _).
      assert (Lt : forall j nd, nth_error (w_h5 w2) j = Some nd -> j < c2) by (intros j nd' X; apply nth_error_Some; congruence).
      exists pg. split; [lia|]. split; [exists mg; eexists; split; [exact Gb|exact C1]|].
      assert (Gp : nth_error f' pg = Some (Group mp PAT)) by (rewrite Gj; [exact C2|unfold c2; lia]).
      split; [split; [eexists; eexists; exact Gp|exists (Group mp PAT); split; [exact Gp|reflexivity]]|].
      assert (Q2 : NoDup (keys l)) by (rewrite Q2'; apply p_attrs_nd).
      assert (Sp : forall v' j nd, nd = with_attrs (Dset v' []) l -> nth_error f' j = Some nd -> Forall (fun kv => attribute f' j (fst kv) (snd kv)) (p_attrs (w_hdr w A_positioner_xref) (List.length l1) x)).
      { intros v' j nd' En Ej. rewrite <- Q2'. apply Forall_forall. intros kv Hkv. exists nd'. split; [exact Ej|]. rewrite En. apply (attrs_get l Q2 v' [] kv Hkv). }
      split; [exact Q3'|].
      split.
      * exists j1. split; [lia|]. split; [exists mp, PAT; auto|]. pose proof (Lt j1 _ C5). 
        assert (Gj1 : nth_error f' j1 = Some (n_name c l)) by (rewrite Gj; [exact C5|lia]). split.
        -- eexists. exact Gj1.
        -- exact (Sp (HTexts [ascii c]) j1 _ eq_refl Gj1).
      * exists j2. split; [lia|]. split; [exists mp, PAT; auto|]. pose proof (Lt j2 _ C8). 
        assert (Gj2 : nth_error f' j2 = Some (n_value v l)) by (rewrite Gj; [exact C8|lia]). split.
        -- eexists. exact Gj2.
        -- exact (Sp (HArr [1] [NF v]) j2 _ eq_refl Gj2).
  - exists b, i. split; [auto|]. split; [auto|]. split; [exact Mf|]. split.
    + apply (FrameK.inv_I _ _ _ _ _ f' Inv' i INS). split; reflexivity.
    + apply (G4 i INS); [split; reflexivity|right; reflexivity|exact Mi].
Qed.
Lemma est_P : est H_P Psi_P.
Proof.
  intros cmd a sk w w' u Ha Hp Has W H. destruct (est_P2 cmd a sk w w' u Ha Hp Has W H) as (P & K & II & A & B & C & D & F).
  exists P, K, II. do 4 (split; [auto|]). intros f I G d Hd. destruct (F f I G d Hd) as [X Y]. split; [eapply positioners_in_of; exact X|exact Y].
Qed.
