(** C112: reading the fields of HDF5 files *)
From Coq Require Import String Lia.
From Verif Require Import Py PyFacts Utils SpecUtils Keys Handlers Reader SpecHistory SpecInterp SpecDecimal InterpFacts H5 SpecH5 SpecLinks H5Facts SaveFacts TableFacts Writer SpecWriter SpecEntry EntryFacts ReadH5 SpecReadH5 ReadH5Facts
  ExampleFacts PropWriter PropEntry.
Import ListNotations.
Local Open Scope list_scope.

(** what was written is read back: under any name or path, in any file made with eznx *)
Theorem C112_written_is_read_partial : forall f o n d l f' h r, eznx_file f -> write_dataset o n d l f = (f', Ok h) -> comes_back d r ->
  read_nexus_field o n f' = Ok (Some r).
Proof. exact written_read. Qed.
Print Assumptions C112_written_is_read_partial.
(** and stays so while anything else is added to the file *)
Theorem C112_still_read : forall f f' g n r, eznx_file f -> adds f f' -> read_nexus_field g n f = Ok (Some r) -> read_nexus_field g n f' = Ok (Some r).
Proof. exact adds_read. Qed.
Print Assumptions C112_still_read.
(** what is in a file is read: by its path from the root, and by its name in its group *)
Theorem C112_fields_of_a_file : forall f ps n v l r, Forall plain_name (ps ++ [n]) -> field_at f (ps ++ [n]) v l -> value_back v r ->
  read_nexus_field root (path_text (ps ++ [n])) f = Ok (Some r) /\
  forall g, at_path f ps (h_id g) -> read_nexus_field g n f = Ok (Some r).
Proof. exact fields_read. Qed.
Print Assumptions C112_fields_of_a_file.
(** fields with more than one dimension (such as meshes) and fields without elements cannot be read: RuntimeError, IndexError *)
Theorem C112_fields_refused : forall f ps n v l e, Forall plain_name (ps ++ [n]) -> field_at f (ps ++ [n]) v l -> refused v e ->
  read_nexus_field root (path_text (ps ++ [n])) f = Raise e /\
  forall g, at_path f ps (h_id g) -> read_nexus_field g n f = Raise e.
Proof. exact fields_refused. Qed.
Print Assumptions C112_fields_refused.
Theorem C112_written_refused : forall f o n d l f' h e, eznx_file f -> write_dataset o n d l f = (f', Ok h) -> refused_data d e -> read_nexus_field o n f' = Raise e.
Proof. exact written_refused. Qed.
Print Assumptions C112_written_refused.
Example C112_refused_example : forall rows, rows = [[NI 1; NI 2]; [NI 3; NI 4]]%Z ->
  exists f' h, eznx_file new_file /\ write_dataset root (L "m") (DRows rows) [] new_file = (f', Ok h) /\ refused_data (DRows rows) RuntimeError /\ read_nexus_field root (L "m") f' = Raise RuntimeError.
Proof.
  intros rows ->. eexists. eexists. split; [exact E_new|]. split; [vm_compute; reflexivity|]. split; [|vm_compute; reflexivity].
  constructor. intros x [<-|[]]. reflexivity.
Qed.
(** what is not in the file is read as None *)
Theorem C112_missing_field : forall f g n, plain_name n -> is_group f (h_id g) -> (forall j, ~ member f (h_id g) n j) -> read_nexus_field g n f = Ok None.
Proof.
  intros f g n Hn (ms & a & H) N. unfold read_nexus_field. rewrite (H5Exact.resolve_plain _ n ms a f Hn H). destruct (dget n ms) as [j|] eqn:D; [|reflexivity].
  exfalso. apply (N j). exists ms, a. auto.
Qed.
Print Assumptions C112_missing_field.
(** several fields of one group: a dictionary with the fields asked for *)
Theorem C112_group_fields : forall f ps j fields rs, Forall plain_name ps -> at_path f ps j ->
  Forall2 (fun n r => forall g, h_id g = j -> read_nexus_field g n f = Ok r) fields rs ->
  exists d, read_nexus_group_fields root (path_text ps) fields f = Ok d /\ (forall n, In n fields <-> In n (keys d)) /\
    forall n r, In n fields -> (forall g, h_id g = j -> read_nexus_field g n f = Ok r) -> dget n d = Some r.
Proof. exact group_read. Qed.
Print Assumptions C112_group_fields.

(** the columns of a saved scan are read as they were in the data file: if there are at least two points; one point is read as a number *)
Theorem C112_columns_partial : forall E known s0 s versions ks s' f k sc table l1 x l2 n, saved E known s0 s versions ks s' f k sc ->
  attr_is sc A_data table -> table <> [] -> attr_is sc A_L (l1 ++ x :: l2) -> one_dim (s_cmd sc) -> ds_name x n -> (forall y, In y l2 -> ~ ds_name y n) -> ~ mca_name table n ->
  exists vs, dget x table = Some (Col vs) /\
    (2 <= List.length vs -> read_nexus_field root (path_text [entry_name k; L "data"; n]) f = Ok (Some (GNums (map NF vs)))) /\
    (forall v, vs = [v] -> read_nexus_field root (path_text [entry_name k; L "data"; n]) f = Ok (Some (GNum (NF v)))) /\
    (vs = [] -> read_nexus_field root (path_text [entry_name k; L "data"; n]) f = Raise IndexError).
Proof.
  intros E known s0 s versions ks s' f k sc table l1 x l2 n (Hh & Hp & Hs & Hk & H & Hin & sc0 & Hg & Hd) Ht Tn Hl Od Dn Ln Mn.
  destruct (C57_columns_stored _ _ _ _ _ _ _ _ Hh Hp Hs Hk H k sc0 sc table _ Hin Hg Hd Ht Tn Hl Od) as (b & P & _ & Col & _).
  destruct (Col l1 x l2 n eq_refl Dn Ln Mn) as (vs & j & V1 & V2 & V3 & _). exists vs. split; [exact V1|].
  assert (PL : Forall plain_name ([entry_name k; L "data"] ++ [n])).
  { rewrite Forall_forall in Hk. repeat constructor; try (apply plainb_ok; reflexivity); try (apply (good_key_plain k (Hk k Hin)));
      apply ds_name_iff in Dn; apply (clean_plain x n Dn). }
  assert (A : at_path f ([entry_name k; L "data"] ++ [n]) j) by (eapply leads_app; [exact P|econstructor; [exact V2|constructor]]).
  split; [|split].
  - intros Hv. apply (fields_read f [entry_name k; L "data"] n (HArr [List.length vs] (map NF vs)) [] (GNums (map NF vs))); [exact PL|exists j; auto|].
    rewrite <- (map_length NF vs). constructor. rewrite map_length. exact Hv.
  - intros v ->. apply (fields_read f [entry_name k; L "data"] n (HArr [1] [NF v]) [] (GNum (NF v))); [exact PL|exists j; auto|constructor].
  - intros ->. unfold read_nexus_field. cbn [root h_id]. pose proof (resolve_path f _ j PL A) as R. cbn [app] in R. rewrite R. destruct V3 as (a & D). rewrite D. reflexivity.
Qed.
Print Assumptions C112_columns_partial.
(** and the title *)
Theorem C112_title : forall E known s0 s versions ks s' f k sc, saved E known s0 s versions ks s' f k sc ->
  exists u, ascii_of (s_S sc) u /\ read_nexus_field root (path_text [entry_name k; L "title"]) f = Ok (Some (GText u)).
Proof.
  intros E known s0 s versions ks s' f k sc SV. destruct (e_title E known s0 s s' versions ks f k sc SV) as (u & A & F). exists u. split; [exact A|].
  apply (fields_read f [entry_name k] (L "title") (HTexts [u]) [] (GText u)); [|exact F|constructor].
  destruct SV as (_ & _ & _ & Hk & _ & Hin & _). rewrite Forall_forall in Hk. repeat constructor; try (apply plainb_ok; reflexivity); apply (good_key_plain k (Hk k Hin)).
Qed.
Print Assumptions C112_title.

Example C112_example : read_nexus_field root (L "/S1/data/Two_Theta") (nxfile PropWriter.two [k1; k2]) = Ok (Some (GNums [NF (FDec 15 (-1)); NF (FDec 25 (-1))])) /\
  read_nexus_field root (L "/S2/data/a_b") (nxfile PropWriter.two [k1; k2]) = Ok (Some (GNum (NF (FDec 2 0)))) /\
  read_nexus_field root (L "/S1/title") (nxfile PropWriter.two [k1; k2]) = Ok (Some (GText (L "1 ascan x 0 1 1 1"))) /\
  read_nexus_group_fields root (L "/S1") (map L ["title"; "missing"]%string) (nxfile PropWriter.two [k1; k2]) = Ok [(L "title", Some (GText (L "1 ascan x 0 1 1 1"))); (L "missing", None)].
Proof. split; [|split; [|split]]; vm_compute; reflexivity. Qed.

(** a list of one number is read as a number, and a field without elements cannot be read *)
Theorem C112_written_is_read_refuted : ~ (forall f o n l a f' h, eznx_file f -> write_dataset o n (DNums l) a f = (f', Ok h) ->
  read_nexus_field o n f' = Ok (Some (GNums l))).
Proof. intros H. specialize (H new_file root (L "x") [] [] _ _ E_new eq_refl). vm_compute in H. discriminate H. Qed.
Print Assumptions C112_written_is_read_refuted.
(** the columns of a scan without complete points cannot be read *)
Definition no_points : path := one "ascan x 0 1 1 1" ["#N 2"; "#L a  b"; "5 ?"]%string.
Theorem C112_columns_refuted :
  ~ (forall E known s0 s versions ks s' f k sc table l1 x l2 n, saved E known s0 s versions ks s' f k sc ->
     attr_is sc A_data table -> table <> [] -> attr_is sc A_L (l1 ++ x :: l2) -> one_dim (s_cmd sc) -> ds_name x n -> (forall y, In y l2 -> ~ ds_name y n) -> ~ mca_name table n ->
     exists r, read_nexus_field root (path_text [entry_name k; L "data"; n]) f = Ok (Some r)).
Proof.
  intros H.
  assert (X : exists sc, saved E0 all_hids (opened no_points) (opened no_points) versions0 [k1] (after_save no_points [k1]) (nxfile no_points [k1]) k1 sc /\
    s_obj sc A_data = Some [(L "a", Col []); (L "b", Col [])] /\ s_obj sc A_L = Some [L "a"; L "b"] /\ s_cmd sc = L "ascan x 0 1 1 1") by (apply one_saved; vm_compute; repeat split).
  destruct X as (sc & SV & D & Ll & C).
  destruct (H _ _ _ _ _ _ _ _ _ _ _ [] (L "a") [L "b"] (L "a") SV D) as (r & R).
  - discriminate.
  - exact Ll.
  - rewrite C. apply one_dim_b. vm_compute. reflexivity.
  - apply ds_name_iff. reflexivity.
  - intros y [<-|[]] Y. apply ds_name_iff in Y. discriminate Y.
  - apply no_mca. reflexivity.
  - vm_compute in R. discriminate R.
Qed.
Print Assumptions C112_columns_refuted.
(** read_nexus_group_fields does not raise KeyError for a field that is not in the group *)
Theorem C112_missing_raises_refuted : ~ (forall f name fields j n, plain_name n -> In n fields -> at_path f [name] j -> plain_name name -> (forall i, ~ member f j n i) ->
  read_nexus_group_fields root (path_text [name]) fields f = Raise KeyError).
Proof.
  intros H. set (f0 := fst (makeGroup root (L "a") (L "NXdata") [] new_file)).
  assert (N : forall i, ~ member f0 1 (L "x") i) by (intros i (ms & a & X & Y); vm_compute in X; injection X; intros _ <-; discriminate Y).
  specialize (H f0 (L "a") [L "x"] 1 (L "x") ltac:(apply plainb_ok; reflexivity) (or_introl eq_refl)).
  assert (P : at_path f0 [L "a"] 1). { econstructor; [|constructor]. eexists. eexists. split; reflexivity. }
  specialize (H P ltac:(apply plainb_ok; reflexivity) N). vm_compute in H. discriminate H.
Qed.
Print Assumptions C112_missing_raises_refuted.
