(** The table of a saved scan, in terms of what can be seen of the scan and of the file *)
From Coq Require Import String Lia.
From Verif Require Import Py PyFacts Utils SpecUtils UtilsFacts Keys Geom Handlers Reader StateFacts SpecHistory SpecText SpecReader SpecInterp InterpFacts SpecWriter NamesFacts
  H5 SpecH5 H5Facts FrameH5 H5Exact Writer DataWrite KeepFacts WriterFrame SaveFacts HistInv RegFacts EntryData.
Import ListNotations.
Local Open Scope list_scope.

Lemma cleaned_fun s : forall t u, cleaned s t -> cleaned s u -> t = u.
Proof.
  unfold cleaned. induction s as [|c s IH]; intros t u H1 H2; inversion H1 as [|? d ? t' D1 F1]; subst; inversion H2 as [|? d' ? u' D2 F2]; subst; [auto|]. f_equal; [|auto].
  destruct D1 as [[A B]|[A B]], D2 as [[A' B']|[A' B']]; subst; auto; contradiction.
Qed.
Lemma ds_name_iff s t : clean_name s = Ok t <-> ds_name s t.
Proof.
  split.
  - intros H. assert (Ne : s <> []) by (intros ->; discriminate). split; [auto|].
    destruct (C33_lemma s Ne) as (t' & u & p & A & V & C & D & F). assert (Et : t' = t) by congruence. rewrite Et in *. clear Et t'. exists u. split; [auto|].
    destruct F as [->|(-> & c & r & -> & F)].
    + right. cbn [app] in D. subst t. destruct u as [|c r].
      * destruct V as [V _]. congruence.
      * exists c, r. split; [auto|split; [|auto]]. apply (proj2 (proj2 V) c r eq_refl).
    + left. exists c, r. auto.
  - intros [Ne (u & C & F)]. destruct (C33_lemma s Ne) as (t' & u' & p & A & V & C' & D & F').
    pose proof (cleaned_fun _ _ _ C C') as X. subst u'. rewrite A. f_equal. destruct F as [(c & r & -> & Hd & ->)|(c & r & -> & Hd & ->)].
    + destruct F' as [->|(-> & _)]; [|exact D]. cbn [app] in D. subst t'. destruct V as (_ & _ & V). rewrite (V c r eq_refl) in Hd. discriminate.
    + destruct F' as [->|(-> & c' & r' & E' & Hd')]; [exact D|]. inversion E'; subst. congruence.
Qed.
Lemma one_dim_iff cmd : one_dim cmd <-> one_dim_w cmd.
Proof.
  split.
  - intros H w ws E. apply (H (words cmd) w); [apply fields_words; auto|rewrite E; reflexivity].
  - intros H ws w E1 E2. apply fields_words in E1. subst ws. destruct (words cmd) as [|x l] eqn:Ew; [discriminate|].
    injection E2; intros ->. apply (H w l). auto.
Qed.
Lemma hkl_scan_iff cmd : hkl_scan cmd <-> hkl_scan_w cmd.
Proof.
  split.
  - intros (ws & w & E1 & E2 & E3). apply fields_words in E1. subst ws. destruct (words cmd) as [|x l] eqn:Ew; [discriminate|].
    injection E2; intros ->. exists w, l. auto.
  - intros (w & ws & E & X). exists (words cmd), w. split; [apply fields_words; auto|]. rewrite E. auto.
Qed.

(** ** the writer of the table is registered in all states of a save *)
Definition TW (s : sdf) : Prop := Forall (fun kv => table_writer (snd kv)) (scans s).
Lemma J_same o o' M : same_but M o o' -> J o -> J o'.
Proof.
  intros S [H1 H2]. assert (N : forall x, x <> A_counter_xref -> x <> A_positioner_xref -> x <> A_L -> o' x = o x).
  { intros x N1 N2 N3. apply S. intros [X|[X|[_ X]]]; auto. }
  split.
  - intros d. rewrite N by discriminate. apply H1.
  - intros d. rewrite N by discriminate. intros X Y. destruct (H2 d X Y) as (ps & A & B). exists ps. rewrite N by discriminate. auto.
Qed.
Lemma reg_same o o' M : same_but M o o' -> reg o -> reg o'.
Proof.
  intros S (d & A & B). exists d. rewrite S; [auto|]. intros [X|[X|[_ X]]]; discriminate.
Qed.
Lemma data_same o o' M : same_but M o o' -> o' A_data = o A_data.
Proof. intros S. apply S. intros [X|[X|[_ X]]]; discriminate. Qed.

Section SaveTW.
  Context (E : env) (known : list hid).
  Lemma interpret_TW name s s' r : TW s -> interpret E known name s = (s', r) -> TW s'.
  Proof.
    apply interpret_NS. intros sc p w r0 [H1 H2] D H.
    destruct (interpret_scan_J E known _ (mk_w true (s_obj sc) p) _ _ H1 H) as [K1 K2]. split.
    - split; [exact K1|discriminate].
    - intros ->. split; [exact K1|]. intros _. apply K2. reflexivity.
  Qed.
  Lemma save_scan_TW e name s f s' f' r : TW s -> save_scan E known e name s f = (s', f', r) -> TW s'.
  Proof.
    intros Hs. unfold save_scan. destruct (interpret E known name s) as [s1 [x|]] eqn:Ei; pose proof (interpret_TW _ _ _ _ Hs Ei) as T1.
    { intros H; inversion H; subst; auto. }
    destruct (dget name (scans s1)) as [sc|] eqn:Eg; [|intros H; inversion H; subst; auto].
    destruct (nth_error (headers s1) (s_hdr sc)) as [h|] eqn:En; [|intros H; inversion H; subst; auto].
    destruct (save_objs e sc (mk_ws (s_obj sc) (h_obj h) f)) as [w r0] eqn:Es.
    destruct (kp_save_objs (mesh_cmd (s_cmd sc)) e sc (fun x => x) (mk_ws (s_obj sc) (h_obj h) f)) as [K1 _]. rewrite Es in K1. cbn [fst w_scan] in K1.
    intros H; inversion H; subst; clear H. unfold TW. cbn [set_headers scans set_scans]. apply Forall_dset; [exact T1|]. cbn [snd].
    unfold TW in T1. rewrite Forall_forall in T1. destruct (T1 _ (dget_In _ _ _ Eg)) as [J1 J2]. cbn [snd] in J1, J2. split.
    - eapply J_same; eauto.
    - cbn [with_obj s_obj s_done]. intros D d Hd Nd. eapply reg_same; [exact K1|]. apply (J2 D d); [|exact Nd]. rewrite <- (data_same _ _ _ K1). exact Hd.
  Qed.
  Lemma save_key_TW first k s f s' f' r : TW s -> save_key E known first k s f = (s', f', r) -> TW s'.
  Proof.
    intros Hs. unfold save_key. destruct (sbind _ _ f) as [f1 [e|x]]; [|intros H; inversion H; subst; auto].
    destruct (getScan k s) as [[sc|]|x]; try (intros H; inversion H; subst; auto; fail).
    destruct (save_scan E known e (s_num sc) s f1) as [[s2 f2] r2] eqn:Es. pose proof (save_scan_TW _ _ _ _ _ _ _ Hs Es) as T.
    destruct r2; [intros H; inversion H; subst; auto|]. destruct (sbind _ _ f2) as [f3 [u|x]]; intros H; inversion H; subst; auto.
  Qed.
  Lemma save_keys_TW ks : forall first s f s' f' r, TW s -> save_keys E known first ks s f = (s', f', r) -> TW s'.
  Proof.
    induction ks as [|k ks IH]; intros first s f s' f' r Hs; cbn [save_keys]; [intros H; inversion H; subst; auto|].
    destruct (save_key E known first k s f) as [[s1 f1] r1] eqn:E1. pose proof (save_key_TW _ _ _ _ _ _ _ Hs E1) as T1.
    destruct r1; [intros H; inversion H; subst; auto|]. intros H. eapply IH; eauto.
  Qed.
  Lemma save_TW versions ks s s' f r : TW s -> save E known versions ks s = (s', f, r) -> TW s'.
  Proof.
    intros Hs. unfold save. destruct (root_attributes versions s) as [l|x]; [|intros H; inversion H; subst; auto].
    destruct (addAttributes root l new_file) as [f0 [u|x]]; [|intros H; inversion H; subst; auto].
    apply save_keys_TW. auto.
  Qed.

  (** the data group of a saved scan *)
  Lemma saved_table s versions ks s' f : history E known s -> plain_mnemonics s -> Forall good_key ks ->
    save E known versions ks s = (s', f, None) -> forall k sc0 sc' table, In k ks -> getScan k s = Ok (Some sc0) ->
    dget (s_num sc0) (scans s') = Some sc' -> attr_is sc' A_data table -> table <> [] -> one_dim (s_cmd sc') ->
    exists b c items sg axv, at_path f [entry_name k; L "data"] b /\
      table_of (s_cmd sc') (s_obj sc') items sg axv /\ Stored f b c items sg axv.
  Proof.
    intros Hh Hp Hk H k sc0 sc' table Hin Hg Hd Ht Nt HD.
    assert (G : GS s) by (split; [auto|eapply history_names; eauto]).
    destruct (save_table E known versions ks s s' f Hk G H k Hin) as (sc1 & sc2 & a & B1 & B2 & B3 & B4 & B5).
    assert (sc1 = sc0) by congruence. subst sc1. assert (sc2 = sc') by congruence. subst sc2.
    assert (T : TW s') by (eapply save_TW; [|exact H]; eapply history_table_writer; eauto).
    unfold TW in T. rewrite Forall_forall in T. destruct (T _ (dget_In _ _ _ Hd)) as [_ R]. cbn [snd] in R.
    destruct (reg_In _ (R B3 table Ht Nt)) as (sw & W1 & W2).
    destruct (B5 sw W1 W2) as (b & c & items & sg & axv & T1 & Lab & St & Mb); [apply one_dim_iff; auto|].
    exists b, c, items, sg, axv. split; [|auto]. econstructor; [exact B4|]. econstructor; [exact Mb|]. constructor.
  Qed.
End SaveTW.

(** ** the datasets of a table *)
Lemma F2_split {A B} (R : A -> B -> Prop) l1 x l2 m : Forall2 R (l1 ++ x :: l2) m ->
  exists m1 y m2, m = m1 ++ y :: m2 /\ Forall2 R l1 m1 /\ R x y /\ Forall2 R l2 m2.
Proof.
  intros H. apply Forall2_app_inv_l in H. destruct H as (m1 & m' & H1 & H2 & ->). inversion H2; subst. exists m1, y, l'. auto.
Qed.
Lemma column_names dd ls cols : Forall2 (column_item dd) ls cols -> forall n, In n (map fst cols) <-> exists c, In c ls /\ clean_name c = Ok n.
Proof.
  induction 1 as [|c it ls cols (n0 & vs & H1 & H2 & ->) F IH]; intros n; cbn [map fst In].
  - split; [intros []|intros (c & [] & _)].
  - rewrite IH. split.
    + intros [<-|(c' & X & Y)]; [exists c; auto|exists c'; auto].
    + intros (c' & [<-|X] & Y); [left; congruence|right; exists c'; auto].
Qed.
Lemma in_sorted {V} (d : dict V) x : In x (sorted_items d) <-> In x d.
Proof.
  unfold sorted_items. induction d as [|y d IH]; cbn [isort]; [reflexivity|].
  assert (I : forall (l : list (str * V)), In x (insert (fun a b => str_leb (fst a) (fst b)) y l) <-> x = y \/ In x l).
  { induction l as [|z l IHl]; cbn [insert In]; [intuition auto|]. destruct (str_leb (fst y) (fst z)); cbn [In]; [intuition auto|]. rewrite IHl. intuition auto. }
  rewrite I, IH. cbn [In]. intuition auto.
Qed.
Lemma spectra_names axis cal dd its : all_spectra axis cal dd its -> forall n, In n (map fst its) -> mca_name dd n.
Proof.
  unfold all_spectra, mca_name. destruct (dget (L "_mca_") dd) as [[vs|m]|] eqn:D; [intros []| |intros -> n []].
  intros (l & F & ->) n Hn. apply in_map_iff in Hn. destruct Hn as ([n' nd] & <- & Hn). apply in_concat in Hn. destruct Hn as (its & Hi & Hn). cbn [fst].
  assert (X : exists ks, In ks m /\ spectra_items axis cal ks its).
  { assert (Y : exists ks, In ks (sorted_items m) /\ spectra_items axis cal ks its).
    { clear Hn. revert F Hi. generalize (sorted_items m). intros sm F. induction F as [|a b ? ? H F IH]; intros Hi; [destruct Hi|].
      destruct Hi as [->|Hi]; [exists a; split; [left|]; auto|]. destruct (IH Hi) as (ks & A & B). exists ks. split; [right|]; auto. }
    destruct Y as (ks & A & B). exists ks. split; auto. apply in_sorted. auto. }
  destruct X as (ks & Hks & Hit). unfold spectra_items in Hit. destruct cal as [[ca cb] cc]. cbv zeta in Hit.
  destruct Hit as (n1 & n2 & n3 & v & row & rows & E1 & C1 & C2 & C3 & V & ->).
  exists m, (fst ks).
  assert (Hk : In (fst ks) (keys m)) by (unfold keys; apply in_map; auto).
  destruct Hn as [X|[X|[X|[]]]]; injection X; intros _ <-.
  - exists (L ""). split; [auto|split; [auto|split; [cbn; auto|]]]. apply ds_name_iff. exact C1.
  - exists (L "channel_"). split; [auto|split; [auto|split; [cbn; auto|]]]. apply ds_name_iff. rewrite <- C2. f_equal. rewrite <- !app_assoc. reflexivity.
  - exists (L "channel_scaled_x"). split; [auto|split; [auto|split; [cbn; auto|]]]. apply ds_name_iff. rewrite <- C3. f_equal. rewrite <- !app_assoc. reflexivity.
Qed.
Lemma clean_no_colon s t : clean_name s = Ok t -> find_c 58%N t = None.
Proof.
  intros H. assert (Ne : s <> []) by (intros ->; discriminate). destruct (C33_lemma s Ne) as (t' & u & p & A & (_ & V & _) & _).
  assert (t' = t) by congruence. subst t'. clear - V. unfold name_char in V. induction V as [|c l Hc F IH]; [reflexivity|]. cbn [find_c].
  destruct (N.eqb_spec 58 c) as [<-|N]; [discriminate Hc|]. destruct (N.eqb_spec c 58) as [->|]; [congruence|]. rewrite IH. reflexivity.
Qed.

(** one column *)
Lemma stored_column f b c cmd o items sg axv table : table_of cmd o items sg axv -> Stored f b c items sg axv -> o A_data = Some table ->
  forall l1 x l2 n, o A_L = Some (l1 ++ x :: l2) -> ds_name x n -> (forall y, In y l2 -> ~ ds_name y n) -> ~ mca_name table n ->
  exists vs j, dget x table = Some (Col vs) /\ member f b n j /\ dataset f j (HArr [List.length vs] (map NF vs)) /\ attribute f j (L "spec_name") (AText x).
Proof.
  intros (ls & dd & cols & its & ax & axes & cl & cf & A1 & A2 & A3 & A4 & A5 & _) St Ht l1 x l2 n Hl Hn Hy Hm.
  assert (ls = l1 ++ x :: l2) by congruence. assert (dd = table) by congruence. subst ls dd.
  destruct (F2_split _ _ _ _ _ A4) as (m1 & it & m2 & -> & F1 & (n' & vs & C1 & C2 & ->) & F2).
  apply ds_name_iff in Hn. assert (n' = n) by congruence. subst n'. subst items.
  destruct (so_items _ _ _ _ _ _ St m1 n (named x [] (HArr [List.length vs] (nums vs))) (m2 ++ its)) as (j & J1 & J2 & J3).
  - rewrite <- app_assoc. reflexivity.
  - rewrite map_app. intros X. apply in_app_iff in X. destruct X as [X|X].
    + apply (column_names _ _ _ F2) in X. destruct X as (y & Y1 & Y2). apply (Hy y Y1). apply ds_name_iff. auto.
    + apply Hm. eapply spectra_names; eauto.
  - exists vs, j. split; [auto|split; [auto|split]].
    + eexists. exact J3.
    + eexists. split; [exact J3|]. reflexivity.
Qed.
Lemma stored_only f b c cmd o items sg axv table labels : table_of cmd o items sg axv -> Stored f b c items sg axv -> o A_data = Some table -> o A_L = Some labels ->
  forall n j, member f b n j -> (exists x, In x labels /\ ds_name x n) \/ mca_name table n.
Proof.
  intros (ls & dd & cols & its & ax & axes & cl & cf & A1 & A2 & A3 & A4 & A5 & _) St Ht Hl n j Hm.
  assert (ls = labels) by congruence. assert (dd = table) by congruence. subst ls dd items.
  pose proof (so_only _ _ _ _ _ _ St n j Hm) as X. rewrite map_app in X. apply in_app_iff in X. destruct X as [X|X].
  - left. apply (column_names _ _ _ A4) in X. destruct X as (x & X1 & X2). exists x. split; [auto|apply ds_name_iff; auto].
  - right. eapply spectra_names; eauto.
Qed.
Lemma stored_attrs f b c cmd o items sg axv : table_of cmd o items sg axv -> Stored f b c items sg axv ->
  exists first last, o A_column_first = Some first /\ o A_column_last = Some last /\ ds_name last sg /\
    attribute f b (L "signal") (AText sg) /\ (~ hkl_scan cmd -> exists ax, ds_name first ax /\ attribute f b (L "axes") (AText ax)).
Proof.
  intros (ls & dd & cols & its & ax & axes & cl & cf & A1 & A2 & A3 & A4 & A5 & A6 & A7 & A8 & A9 & A10 & A11) St.
  exists cf, cl. split; [auto|split; [auto|split; [apply ds_name_iff; auto|split; [apply (so_sig _ _ _ _ _ _ St)|]]]].
  intros Nh. exists ax. split; [apply ds_name_iff; auto|]. pose proof (so_ax _ _ _ _ _ _ St) as X.
  destruct A11 as [A11|[-> _]]; [|subst axv; unfold axes_value in X; rewrite (clean_no_colon _ _ A9) in X; exact X].
  destruct A11 as [A11 _]. exfalso. apply Nh. apply hkl_scan_iff. exact A11.
Qed.
