(** C34, C56-C60, C70-C76: what Writer.save and eznx leave in a file.
    Theorems only; proofs are in WriterFacts.v, TableFacts.v, TableFacts2.v, MeshFacts.v, AgainFacts.v, SaveSame.v, EznxFacts.v. *)
From Coq Require Import String Lia.
From Verif Require Import Uni Py PyFacts Time Utils SpecUtils Keys Handlers Reader SpecText SpecReader SpecHistory SpecInterp SpecDecimal InterpFacts TextFacts ExampleFacts
  H5 SpecH5 H5Facts FrameH5 H5Exact Writer SpecWriter NamesFacts DataWrite SaveFacts MeshWrite EntryData TableFacts TableFacts2 WriterFacts MeshFacts AgainFacts SaveSame EznxFacts.
Import ListNotations.
Local Open Scope list_scope.

(* ------------------------------------------------------------------ *)
(** * Tools and files for the examples *)
Definition versions0 : list (str * aval) := [(L "creator", AText (L "spec2nexus"))].
Definition nexus (p : path) (ks : list skey) := save E0 all_hids versions0 ks (opened p).
Definition after_save (p : path) (ks : list skey) : sdf := fst (fst (nexus p ks)).
Definition nxfile (p : path) (ks : list skey) : h5 := snd (fst (nexus p ks)).
Lemma nexus_ok p ks r : snd (nexus p ks) = r -> save E0 all_hids versions0 ks (opened p) = (after_save p ks, nxfile p ks, r).
Proof. unfold after_save, nxfile, nexus. destruct (save E0 all_hids versions0 ks (opened p)) as [[s f] x]. cbn. congruence. Qed.
Lemma opened_history p : is_ok (open_file E0 all_hids (L "f") p) = true -> history E0 all_hids (opened p).
Proof. intros H. apply (open_history _ _ _ _ _ (opened_ok _ H)). Qed.
Definition plain_b (raw : str) : bool :=
  forallb (fun l => forallb (fun w => negb (prefixb [47%N] w)) (words l)) (Handlers.scan_lines raw ++ splitlines raw).
Lemma plain_b_ok raw : plain_b raw = true -> no_rooted_mnemonic raw.
Proof.
  intros H ls l ws w Hl Hin _ F Hw t ->. apply fields_words in F. subst ws. unfold plain_b in H. rewrite forallb_forall in H.
  assert (X : In l (Handlers.scan_lines raw ++ splitlines raw)).
  { apply in_app_iff. destruct Hl as [Hl|Hl]; [left; apply lines_of_scan_lines in Hl|right; apply Lines_splitlines in Hl]; subst ls; auto. }
  specialize (H l X). rewrite forallb_forall in H. specialize (H _ Hw). cbn in H. discriminate.
Qed.
Lemma plain_mnemonics_ok s : forallb (fun h => plain_b (h_raw h)) (headers s) && forallb (fun kv => plain_b (s_raw (snd kv))) (scans s) = true -> plain_mnemonics s.
Proof.
  intros H. apply andb_true_iff in H. destruct H as [H1 H2]. rewrite forallb_forall in H1, H2. split; apply Forall_forall; intros x Hx; apply plain_b_ok; auto.
Qed.
Lemma ex_getScan k s (P : scan -> Prop) : (match getScan k s with Ok (Some sc) => P sc | _ => False end) -> exists sc, getScan k s = Ok (Some sc) /\ P sc.
Proof. destruct (getScan k s) as [[sc|]|]; intros H; try contradiction. eauto. Qed.
Lemma ex_scan n s (P : scan -> Prop) : (match dget n (scans s) with Some sc => P sc | _ => False end) -> exists sc, dget n (scans s) = Some sc /\ P sc.
Proof. destruct (dget n (scans s)) as [sc|]; intros H; try contradiction. eauto. Qed.
Lemma one_dim_b cmd : (match words cmd with w :: _ => negb (seqb w (L "mesh") || seqb w (L "hklmesh")) | [] => true end) = true -> one_dim cmd.
Proof.
  intros H ws w F Hw. apply fields_words in F. subst ws. destruct (words cmd) as [|x l]; [discriminate|]. injection Hw; intros ->.
  apply negb_true_iff, orb_false_iff in H. destruct H as [H1 H2]. split; apply seqb_neq; auto.
Qed.
Lemma good_key_b k : forallb (fun c => (c <? 128)%N && negb (c =? 47)%N) (key_str k) = true -> good_key k.
Proof.
  intros H. apply Forall_forall. intros c Hc. rewrite forallb_forall in H. specialize (H c Hc). apply andb_true_iff in H. destruct H as [H1 H2].
  apply N.ltb_lt in H1. apply negb_true_iff, N.eqb_neq in H2. auto.
Qed.
Ltac goods := repeat (constructor; [apply good_key_b; vm_compute; reflexivity|]); constructor.

Definition two : path := file (head ++ ["#O0 Two Theta  chi"; "#o0 tth chi"; "#J0 Monitor  Det"; "#j0 mon det";
  "#S 1 ascan x 0 1 1 1"; "#D Wed Nov 03 13:48:06 2010"; "#T 1  (Seconds)"; "#P0 1.5 2"; "#N 3"; "#L Two Theta  I0  det"; "1.5 10 100"; "2.5 20 200";
  "#S 2 ascan y 0 1 1 1"; "#D Wed Nov 03 13:48:16 2010"; "#T 1  (Seconds)"; "#N 2"; "#L a b  a_b"; "1 2"]%string) 5 6.
Definition rooted : path := file (head ++ ["#J0 Monitor"; "#j0 /S2"; "#S 1 ascan x 0 1 1 1"; "#D Wed Nov 03 13:48:06 2010"; "#T 1  (Seconds)"; "#N 2"; "#L a  b"; "1 2"]%string) 5 6.
Definition one (cmd : string) (ls : list string) : path := file (head ++ [("#S 1 " ++ cmd)%string; "#D Wed Nov 03 13:48:06 2010"; "#T 1  (Seconds)"]%string ++ ls) 5 6.
Definition grid : path := one "mesh x 0 1 1 y 0 2 1 1" ["#N 3"; "#L x  y  det"; "0 0 1"; "1 0 2"; "0 2 3"; "1 2 4"]%string.
Definition spectrum : path := one "ascan x 0 1 1 1" ["#N 2"; "#L x  det"; "0 1"; "@A 1 2 3"; "1 2"; "@A 4 5 6"]%string.
Notation k1 := (KStr (L "1")).
Notation k2 := (KInt 2).

Lemma two_start : history E0 all_hids (opened two) /\ plain_mnemonics (opened two) /\ saves E0 all_hids (opened two) (opened two).
Proof. split; [apply opened_history; vm_compute; reflexivity|]. split; [apply plain_mnemonics_ok; vm_compute; reflexivity|constructor]. Qed.
Lemma two_keys : Forall good_key [k1; k2]. Proof. goods. Qed.
Lemma one_key : Forall good_key [k1]. Proof. goods. Qed.
Lemma two_saved : save E0 all_hids versions0 [k1; k2] (opened two) = (after_save two [k1; k2], nxfile two [k1; k2], None).
Proof. apply nexus_ok. vm_compute. reflexivity. Qed.

(* ------------------------------------------------------------------ *)
(** * C56 *)

(** the members of the root are the entries of the keys, in order, each with a default plot *)
Theorem C56_one_entry_per_key_partial : forall E known s0 s versions ks s' f, history E known s0 -> plain_mnemonics s0 -> saves E known s0 s -> Forall good_key ks ->
  save E known versions ks s = (s', f, None) ->
  exists js at_, nth_error f 0 = Some (Group (combine (map entry_name ks) js) at_) /\ List.length js = List.length ks /\ NoDup (map entry_name ks) /\
    Forall (fun j => nx_group f j "NXentry" /\ default_plot f j) js /\
    (forall k t, ks = k :: t -> attribute f 0 (L "default") (AText (entry_name k))).
Proof. exact save_entries. Qed.
Print Assumptions C56_one_entry_per_key_partial.
(** if it fails, the root holds the entries of the keys up to some point, and nothing else *)
Theorem C56_failed_save_partial : forall E known s0 s versions ks s' f r, history E known s0 -> plain_mnemonics s0 -> saves E known s0 s -> Forall good_key ks ->
  save E known versions ks s = (s', f, r) ->
  exists ks1 ks2 js at_, ks = ks1 ++ ks2 /\ nth_error f 0 = Some (Group (combine (map entry_name ks1) js) at_) /\ List.length js = List.length ks1 /\
    NoDup (map entry_name ks1) /\ Forall (fun j => nx_group f j "NXentry") js.
Proof. exact save_prefix. Qed.
Print Assumptions C56_failed_save_partial.
(** a repeated key raises ValueError; what was written before stays *)
Theorem C56_repeated_key_partial : forall E known s0 s versions ks k s1 f1, history E known s0 -> plain_mnemonics s0 -> saves E known s0 s -> Forall good_key ks -> In k ks ->
  save E known versions ks s = (s1, f1, None) -> save E known versions (ks ++ [k]) s = (s1, f1, Some ValueError).
Proof. exact save_repeated. Qed.
Print Assumptions C56_repeated_key_partial.
Example C56_example : exists a b at_, nth_error (nxfile two [k1; k2]) 0 = Some (Group [(L "S1", a); (L "S2", b)] at_) /\
  nx_group (nxfile two [k1; k2]) a "NXentry" /\ default_plot (nxfile two [k1; k2]) b.
Proof.
  destruct two_start as (A & B & C).
  destruct (C56_one_entry_per_key_partial _ _ _ _ _ _ _ _ A B C two_keys two_saved) as (js & at_ & D1 & D2 & _ & D3 & _).
  destruct js as [|a [|b [|]]]; try discriminate D2. inversion D3 as [|? ? [E1 _] E2]; subst. inversion E2 as [|? ? [_ E3] _]; subst.
  exists a, b, at_. split; [exact D1|auto].
Qed.
Example C56_repeated_example : snd (nexus two [k1; k2; KInt 1]) = Some ValueError.
Proof. vm_compute. reflexivity. Qed.
(** a mnemonic that starts with a slash makes a further group in the root *)
Theorem C56_one_entry_per_key_refuted : ~ forall E known s versions ks s' f, history E known s -> Forall good_key ks ->
  save E known versions ks s = (s', f, None) -> forall n j, member f 0 n j -> exists k, In k ks /\ n = entry_name k.
Proof.
  intros H. destruct (H E0 all_hids (opened rooted) versions0 [k1] _ _ (opened_history rooted ltac:(vm_compute; reflexivity)) one_key
    (nexus_ok rooted [k1] None ltac:(vm_compute; reflexivity)) (L "S2")
    (match nth_error (nxfile rooted [k1]) 0 with Some (Group ms _) => match dget (L "S2") ms with Some j => j | None => 0 end | _ => 0 end)) as (k & Hk & E).
  - unfold member. eexists. eexists. split; vm_compute; reflexivity.
  - destruct Hk as [<-|[]]. vm_compute in E. discriminate.
Qed.
Print Assumptions C56_one_entry_per_key_refuted.

(* ------------------------------------------------------------------ *)
(** * C57 *)
Lemma C57_lemma : forall E known s0 s versions ks s' f, history E known s0 -> plain_mnemonics s0 -> saves E known s0 s -> Forall good_key ks ->
  save E known versions ks s = (s', f, None) ->
  forall k sc0 sc table labels, In k ks -> getScan k s = Ok (Some sc0) -> dget (s_num sc0) (scans s') = Some sc ->
    attr_is sc A_data table -> table <> [] -> attr_is sc A_L labels -> one_dim (s_cmd sc) ->
  exists b, at_path f [entry_name k; L "data"] b /\ nx_group f b "NXdata" /\
    (forall l1 x l2 n, labels = l1 ++ x :: l2 -> ds_name x n -> (forall y, In y l2 -> ~ ds_name y n) -> ~ mca_name table n ->
       exists vs j, dget x table = Some (Col vs) /\ member f b n j /\ dataset f j (HArr [List.length vs] (map NF vs)) /\ attribute f j (L "spec_name") (AText x)) /\
    (forall n j, member f b n j -> (exists x, In x labels /\ ds_name x n) \/ mca_name table n) /\
    (exists first last sg, attr_is sc A_column_first first /\ attr_is sc A_column_last last /\ ds_name last sg /\ attribute f b (L "signal") (AText sg) /\
       (~ hkl_scan (s_cmd sc) -> exists ax, ds_name first ax /\ attribute f b (L "axes") (AText ax))).
Proof.
  intros E known s0 s versions ks s' f A B C D H k sc0 sc table labels K1 K2 K3 K4 K5 K6 K7.
  destruct (saved_table2 E known s0 s versions ks s' f A B C D H k sc0 sc table K1 K2 K3 K4 K5 K7) as (b & c & items & sg & axv & P & T & St).
  exists b. split; [exact P|]. split; [apply (so_cls _ _ _ _ _ _ St)|]. split; [|split].
  - intros l1 x l2 n El. eapply stored_column; eauto. unfold attr_is in K6. rewrite K6, El. reflexivity.
  - eapply stored_only; eauto.
  - destruct (stored_attrs _ _ _ _ _ _ _ _ T St) as (first & last & X1 & X2 & X3 & X4 & X5). exists first, last, sg. auto.
Qed.
Theorem C57_columns_stored : forall E known s0 s versions ks s' f, history E known s0 -> plain_mnemonics s0 -> saves E known s0 s -> Forall good_key ks ->
  save E known versions ks s = (s', f, None) ->
  forall k sc0 sc table labels, In k ks -> getScan k s = Ok (Some sc0) -> dget (s_num sc0) (scans s') = Some sc ->
    attr_is sc A_data table -> table <> [] -> attr_is sc A_L labels -> one_dim (s_cmd sc) ->
  exists b, at_path f [entry_name k; L "data"] b /\ nx_group f b "NXdata" /\
    (forall l1 x l2 n, labels = l1 ++ x :: l2 -> ds_name x n -> (forall y, In y l2 -> ~ ds_name y n) -> ~ mca_name table n ->
       exists vs j, dget x table = Some (Col vs) /\ member f b n j /\ dataset f j (HArr [List.length vs] (map NF vs)) /\ attribute f j (L "spec_name") (AText x)) /\
    (forall n j, member f b n j -> (exists x, In x labels /\ ds_name x n) \/ mca_name table n) /\
    (exists first last sg, attr_is sc A_column_first first /\ attr_is sc A_column_last last /\ ds_name last sg /\ attribute f b (L "signal") (AText sg) /\
       (~ hkl_scan (s_cmd sc) -> exists ax, ds_name first ax /\ attribute f b (L "axes") (AText ax))).
Proof. exact C57_lemma. Qed.
Print Assumptions C57_columns_stored.
Lemma no_mca table n : dget (L "_mca_") table = None -> ~ mca_name table n.
Proof. intros H (m & k & x & X & _). congruence. Qed.
Example C57_example : exists b j, at_path (nxfile two [k1; k2]) [L "S1"; L "data"] b /\ member (nxfile two [k1; k2]) b (L "Two_Theta") j /\
  dataset (nxfile two [k1; k2]) j (HArr [2] [NF (FDec 15 (-1)); NF (FDec 25 (-1))]) /\ attribute (nxfile two [k1; k2]) j (L "spec_name") (AText (L "Two Theta")).
Proof.
  destruct two_start as (A & B & C).
  destruct (ex_getScan k1 (opened two) (fun sc => s_num sc = L "1")) as (sc0 & G1 & G2); [vm_compute; reflexivity|].
  destruct (ex_scan (L "1") (after_save two [k1; k2]) (fun sc => s_obj sc A_L = Some (map L ["Two Theta"; "I0"; "det"]%string) /\ s_cmd sc = L "ascan x 0 1 1 1" /\
    s_obj sc A_data = Some [(L "Two Theta", Col [FDec 15 (-1); FDec 25 (-1)]); (L "I0", Col [FDec 10 0; FDec 20 0]); (L "det", Col [FDec 100 0; FDec 200 0])])) as (sc & G3 & G4 & G5 & G6).
  { vm_compute. auto. }
  destruct (C57_columns_stored _ _ _ _ _ _ _ _ A B C two_keys two_saved k1 sc0 sc _ _ (or_introl eq_refl) G1 ltac:(rewrite G2; exact G3) G6 ltac:(discriminate) G4
    ltac:(rewrite G5; apply one_dim_b; vm_compute; reflexivity)) as (b & P & _ & Col & _).
  destruct (Col [] (L "Two Theta") (map L ["I0"; "det"]%string) (L "Two_Theta") eq_refl) as (vs & j & V1 & V2 & V3 & V4).
  - apply ds_name_iff. reflexivity.
  - intros y [<-|[<-|[]]] X; apply ds_name_iff in X; discriminate X.
  - apply no_mca. reflexivity.
  - exists b, j. split; [exact P|]. split; [exact V2|]. split; [|exact V4]. vm_compute in V1. injection V1; intros <-. exact V3.
Qed.

(* ------------------------------------------------------------------ *)
(** * C34 *)

(** a column that is followed by a different one of the same dataset name is not in the file *)
Lemma C34_lemma : forall E known s0 s versions ks s' f, history E known s0 -> plain_mnemonics s0 -> saves E known s0 s -> Forall good_key ks ->
  save E known versions ks s = (s', f, None) ->
  forall k sc0 sc table l1 x l2 n y, In k ks -> getScan k s = Ok (Some sc0) -> dget (s_num sc0) (scans s') = Some sc ->
    attr_is sc A_data table -> table <> [] -> attr_is sc A_L (l1 ++ x :: l2) -> one_dim (s_cmd sc) ->
    ds_name x n -> ~ mca_name table n -> ~ In x l2 -> In y l2 -> ds_name y n ->
  exists b, at_path f [entry_name k; L "data"] b /\ forall m j, member f b m j -> ~ attribute f j (L "spec_name") (AText x).
Proof.
  intros E known s0 s versions ks s' f A B C D H k sc0 sc table l1 x l2 n y K1 K2 K3 K4 K5 K6 K7 N1 N2 N3 N4 N5.
  destruct (saved_table2 E known s0 s versions ks s' f A B C D H k sc0 sc table K1 K2 K3 K4 K5 K7) as (b & c & items & sg & axv & P & T & St).
  exists b. split; [exact P|]. eapply stored_lost; eauto.
Qed.
Theorem C34_lost_column : forall E known s0 s versions ks s' f, history E known s0 -> plain_mnemonics s0 -> saves E known s0 s -> Forall good_key ks ->
  save E known versions ks s = (s', f, None) ->
  forall k sc0 sc table l1 x l2 n y, In k ks -> getScan k s = Ok (Some sc0) -> dget (s_num sc0) (scans s') = Some sc ->
    attr_is sc A_data table -> table <> [] -> attr_is sc A_L (l1 ++ x :: l2) -> one_dim (s_cmd sc) ->
    ds_name x n -> ~ mca_name table n -> ~ In x l2 -> In y l2 -> ds_name y n ->
  exists b, at_path f [entry_name k; L "data"] b /\ forall m j, member f b m j -> ~ attribute f j (L "spec_name") (AText x).
Proof. exact C34_lemma. Qed.
Print Assumptions C34_lost_column.
(** of columns with different dataset names none is lost *)
Theorem C34_no_column_lost_partial : forall E known s0 s versions ks s' f, history E known s0 -> plain_mnemonics s0 -> saves E known s0 s -> Forall good_key ks ->
  save E known versions ks s = (s', f, None) ->
  forall k sc0 sc table labels, In k ks -> getScan k s = Ok (Some sc0) -> dget (s_num sc0) (scans s') = Some sc ->
    attr_is sc A_data table -> table <> [] -> attr_is sc A_L labels -> one_dim (s_cmd sc) ->
    NoDup labels -> (forall x y n, In x labels -> In y labels -> ds_name x n -> ds_name y n -> x = y) -> (forall x n, In x labels -> ds_name x n -> ~ mca_name table n) ->
  exists b, at_path f [entry_name k; L "data"] b /\ forall x n, In x labels -> ds_name x n ->
    exists vs j, dget x table = Some (Col vs) /\ member f b n j /\ dataset f j (HArr [List.length vs] (map NF vs)) /\ attribute f j (L "spec_name") (AText x).
Proof.
  intros E known s0 s versions ks s' f A B C D H k sc0 sc table labels K1 K2 K3 K4 K5 K6 K7 ND U M.
  destruct (C57_lemma E known s0 s versions ks s' f A B C D H k sc0 sc table labels K1 K2 K3 K4 K5 K6 K7) as (b & P & _ & Q & _).
  exists b. split; [exact P|]. intros x n Hx Hn. destruct (in_split _ _ Hx) as (l1 & l2 & El). apply (Q l1 x l2 n El Hn); [|eauto].
  intros y Hy Ny. assert (x = y) by (apply (U x y n); auto; rewrite El; apply in_app_iff; right; right; auto). subst y.
  rewrite El in ND. apply NoDup_remove_2 in ND. apply ND. apply in_app_iff. right; auto.
Qed.
Print Assumptions C34_no_column_lost_partial.
(** the columns "a b" and "a_b" of the second scan of the example *)
Theorem C34_distinct_names_refuted : ~ forall x y n, ds_name x n -> ds_name y n -> x = y.
Proof. intros H. assert (X : L "a b" = L "a_b") by (apply (H _ _ (L "a_b")); apply ds_name_iff; reflexivity). discriminate X. Qed.
Print Assumptions C34_distinct_names_refuted.
Example C34_example : exists b, at_path (nxfile two [k1; k2]) [L "S2"; L "data"] b /\
  forall m j, member (nxfile two [k1; k2]) b m j -> ~ attribute (nxfile two [k1; k2]) j (L "spec_name") (AText (L "a b")).
Proof.
  destruct two_start as (A & B & C).
  destruct (ex_getScan k2 (opened two) (fun sc => s_num sc = L "2")) as (sc0 & G1 & G2); [vm_compute; reflexivity|].
  destruct (ex_scan (L "2") (after_save two [k1; k2]) (fun sc => s_obj sc A_L = Some (map L ["a b"; "a_b"]%string) /\ s_cmd sc = L "ascan y 0 1 1 1" /\
    s_obj sc A_data = Some [(L "a b", Col [FDec 1 0]); (L "a_b", Col [FDec 2 0])])) as (sc & G3 & G4 & G5 & G6).
  { vm_compute. auto. }
  apply (C34_lost_column _ _ _ _ _ _ _ _ A B C two_keys two_saved k2 sc0 sc _ [] (L "a b") [L "a_b"] (L "a_b") (L "a_b") (or_intror (or_introl eq_refl)) G1 ltac:(rewrite G2; exact G3) G6 ltac:(discriminate) G4
    ltac:(rewrite G5; apply one_dim_b; vm_compute; reflexivity)).
  - apply ds_name_iff. reflexivity.
  - apply no_mca. reflexivity.
  - intros [X|[]]. discriminate X.
  - left; reflexivity.
  - apply ds_name_iff. reflexivity.
Qed.
