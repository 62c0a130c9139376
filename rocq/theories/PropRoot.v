(** C104-C105: the attributes of the root of a NeXus file.  Theorems only; proofs are in RootFacts.v. *)
From Coq Require Import String Lia.
From Verif Require Import Uni Py PyFacts Time SpecTime TimeFacts Utils SpecUtils Keys SpecKeys Geom Handlers Reader SpecText SpecReader SpecHistory SpecInterp SpecMeta SpecRoot InterpFacts TextFacts ExampleFacts
  H5 SpecH5 H5Exact Writer SpecWriter SpecEntry NumFacts UtilsFacts SaveFacts WriterFacts RootFacts PropWriter PropEntry.
Import ListNotations.
Local Open Scope list_scope.

(** [h] is the first header of the data file *)
Theorem C104_root : forall E known s0 s versions ks s' f k sc, saved E known s0 s versions ks s' f k sc -> exists h, nth_error (headers s) 0 = Some h /\
  (forall t, specFile s = Some t -> attribute f 0 (L "SPEC_file") (AText t)) /\
  (forall ep, h_obj h A_epoch = Some ep -> attribute f 0 (L "SPEC_epoch") (ANum ep)) /\
  (forall d y m dd hh mi se, h_obj h A_date = Some d -> calendar y m dd -> clock hh mi se -> spec_date d y m dd hh mi se \/ spock_date d y m dd hh mi se ->
     attribute f 0 (L "SPEC_date") (AText (iso y m dd hh mi se))) /\
  (forall cs, h_obj h A_comments = Some cs -> attribute f 0 (L "SPEC_comments") (AText (join [LF] cs))) /\
  attribute f 0 (L "SPEC_num_headers") (ANum (NI (Z.of_nat (List.length (headers s))))) /\
  (forall k0 t, ks = k0 :: t -> attribute f 0 (L "default") (AText (entry_name k0))).
Proof.
  intros E known s0 s versions ks s' f k sc (Hh & Hp & Hs & Hk & H & Hin & _). pose proof (start_GS E known _ _ Hh Hp Hs) as G.
  destruct (save_root E known versions ks s s' f None Hk G H) as [(x & X & _)|R]; [discriminate X|].
  destruct (root_values versions s f R) as (h & ep & d & i & cs & user & A1 & A2 & A3 & A4 & A5 & A6 & B1 & B2 & B3 & B4 & B5 & _).
  exists h. split; [exact A1|]. split; [intros t Et; rewrite Et in B1; exact B1|]. split; [intros ep' E'; assert (ep' = ep) by congruence; subst; exact B2|]. split; [|split; [|split; [exact B5|]]].
  - intros d' y m dd hh mi se Ed C1 C2 Sd. assert (d' = d) by congruence. subst d'. assert (Ei : iso8601 d = Ok (iso y m dd hh mi se)) by (destruct Sd as [Sd|Sd]; [apply C37_spec_lemma|apply C37_spock_lemma]; auto).
    rewrite Ei in A4. injection A4; intros <-. exact B3.
  - intros cs' Ec. assert (cs' = cs) by congruence. subst cs'. exact B4.
  - intros k0 t Ek. unfold save in H. destruct (root_attributes versions s) as [l|x] eqn:El; [|discriminate H].
    destruct (addAttributes root l new_file) as [f0 r0] eqn:E0. destruct (save_start versions s l f0 r0 El E0) as [-> [at0 ->]].
    destruct (save_keys_spec E known ks true s _ s' f None Hk G (ok5_start at0) ltac:(exists [], at0; reflexivity) H) as (_ & _ & KF & _). eapply KF; eauto.
Qed.
Print Assumptions C104_root.
(** without a header, or without a date in the first header, nothing at all is saved: the file that is left has no entry and no attribute *)
Theorem C104_nothing_without_date : forall E known versions ks s s' f r, save E known versions ks s = (s', f, r) ->
  (headers s = [] \/ exists h d, nth_error (headers s) 0 = Some h /\ h_obj h A_date = Some d /\ h_obj h A_epoch <> None /\ (forall t, iso8601 d <> Ok t)) ->
  r <> None /\ s' = s /\ f = [Group [] []].
Proof.
  intros E known versions ks s s' f r H HH. unfold save in H.
  assert (X : exists x, root_attributes versions s = Raise x).
  { unfold root_attributes. rewrite index_0. destruct HH as [->|(h & d & H1 & H2 & H3 & H4)]; [eexists; reflexivity|]. destruct (headers s) as [|h' hs]; [discriminate H1|].
    injection H1; intros ->. cbn [bind]. destruct (h_obj h A_epoch) as [ep|]; [|congruence]. cbn [of_opt bind]. rewrite H2. cbn [of_opt bind].
    destruct (iso8601 d) as [t|x]; [destruct (H4 t eq_refl)|]. eexists. reflexivity. }
  destruct X as (x & X). rewrite X in H. assert (s' = s /\ f = new_file /\ r = Some x) as (-> & -> & ->) by (split; [|split]; congruence). split; [discriminate|]. split; reflexivity.
Qed.
Print Assumptions C104_nothing_without_date.

(** * C105: the user *)
Theorem C105_user : forall E known s0 s versions ks s' f k sc, saved E known s0 s versions ks s' f k sc -> forall h c cs u,
  nth_error (headers s) 0 = Some h -> h_obj h A_comments = Some (c :: cs) -> user_is c u -> attribute f 0 (L "SPEC_user") (AText u).
Proof.
  intros E known s0 s versions ks s' f k sc (Hh & Hp & Hs & Hk & H & _) h c cs u H1 H2 H3. pose proof (start_GS E known _ _ Hh Hp Hs) as G.
  destruct (save_root E known versions ks s s' f None Hk G H) as [(x & X & _)|R]; [discriminate X|].
  destruct (root_values versions s f R) as (h' & ep & d & i & cs' & user & A1 & A2 & A3 & A4 & A5 & A6 & _ & _ & _ & _ & _ & B6 & _).
  assert (h' = h) by congruence. subst h'. assert (cs' = c :: cs) by congruence. subst cs'. apply B6. rewrite A6, index_0. cbn [bind]. rewrite (user_some c u H3). reflexivity.
Qed.
Print Assumptions C105_user.
(** no user is made up, unless the first comment ends with "=" *)
Theorem C105_no_user_partial : forall E known s0 s versions ks s' f k sc, saved E known s0 s versions ks s' f k sc -> ~ In (L "SPEC_user") (map fst versions) -> forall h cs,
  nth_error (headers s) 0 = Some h -> h_obj h A_comments = Some cs ->
  match cs with [] => True | c :: _ => no_user c /\ forall a, c <> a ++ L "=" end -> forall v, ~ attribute f 0 (L "SPEC_user") v.
Proof.
  intros E known s0 s versions ks s' f k sc (Hh & Hp & Hs & Hk & H & _) Nv h cs H1 H2 H3. pose proof (start_GS E known _ _ Hh Hp Hs) as G.
  destruct (save_root E known versions ks s s' f None Hk G H) as [(x & X & _)|R]; [discriminate X|].
  destruct (root_values versions s f R) as (h' & ep & d & i & cs' & user & A1 & A2 & A3 & A4 & A5 & A6 & _ & _ & _ & _ & _ & _ & B7).
  assert (h' = h) by congruence. subst h'. assert (cs' = cs) by congruence. subst cs'. apply B7; [|exact Nv]. rewrite A6, index_0. destruct cs as [|c cs]; [reflexivity|]. cbn [bind].
  destruct H3 as [N1 N2]. destruct (user_none c N1 N2) as (x & ->). reflexivity.
Qed.
Print Assumptions C105_no_user_partial.

(** examples *)
Definition rooted_file (c : string) : path := file (["#F here"; "#E 7"; "#D Wed Nov 03 13:48:06 2010"]%string ++ [("#C " ++ c)%string] ++ ["#C more"; "#S 1 ascan x 0 1 1 1"; "#D Wed Nov 03 13:48:06 2010"; "#T 1  (Seconds)"; "#N 2"; "#L a  b"; "1 2"]%string) 5 6.
Definition mary : path := rooted_file "setup  User =  mary ann = x".
Lemma mary_saved : exists sc, saved E0 all_hids (opened mary) (opened mary) versions0 [k1] (after_save mary [k1]) (nxfile mary [k1]) k1 sc /\ s_done sc = true.
Proof. one_tac. Qed.
Lemma mary_header : exists h, nth_error (headers (opened mary)) 0 = Some h /\ h_obj h A_comments = Some [L "setup  User =  mary ann = x"; L "more"] /\ h_obj h A_date = Some (L "Wed Nov 03 13:48:06 2010") /\
  h_obj h A_epoch = Some (NI 7).
Proof. destruct (nth_error (headers (opened mary)) 0) as [h|] eqn:Eh; [|vm_compute in Eh; discriminate Eh]. exists h. split; [reflexivity|].
  assert (X : option_map (fun h => (h_obj h A_comments, h_obj h A_date, h_obj h A_epoch)) (nth_error (headers (opened mary)) 0) = Some (Some [L "setup  User =  mary ann = x"; L "more"], Some (L "Wed Nov 03 13:48:06 2010"), Some (NI 7))) by (vm_compute; reflexivity).
  rewrite Eh in X. cbn [option_map] in X. injection X; intros X1 X2 X3. split; [exact X3|]. split; [exact X2|exact X1].
Qed.
Lemma trimmed_b s t : strip s = t -> trimmed s t.
Proof. intros <-. apply MetaLineFacts.trimmed_strip. reflexivity. Qed.
Lemma first_at c p n : find p c = Some n -> forall a' t', c = a' ++ p ++ t' -> n <= List.length a'.
Proof. intros H. pose proof (find_ok p c) as X. rewrite H in X. destruct X as (_ & _ & _ & _ & X). exact X. Qed.
Lemma day_ok : calendar 2010 11 3 /\ clock 13 48 6 /\ (spec_date (L "Wed Nov 03 13:48:06 2010") 2010 11 3 13 48 6 \/ spock_date (L "Wed Nov 03 13:48:06 2010") 2010 11 3 13 48 6).
Proof.
  split; [split; [lia|]; exists 30%Z; split; [right; left; split; [right; right; right; left; reflexivity|reflexivity]|lia]|]. split; [unfold clock; lia|].
  left. assert (G : gap (L " ")) by (split; [discriminate|repeat constructor]).
  exists (L "Wed"), (L " "), (L "Nov"), (L " "), (L "03"), (L " "), (L "13"), (L "48"), (L "06"), (L " ").
  split; [reflexivity|]. split; [right; right; left; reflexivity|]. split; [split; [lia|reflexivity]|].
  split; [apply (field_two 3); lia|]. split; [apply (field_two 13); lia|]. split; [apply (field_two 48); lia|]. split; [apply (field_two 6); lia|].
  split; [exact G|]. split; [exact G|]. split; exact G.
Qed.
Example C104_C105_example : attribute (nxfile mary [k1]) 0 (L "SPEC_user") (AText (L "mary ann")) /\ attribute (nxfile mary [k1]) 0 (L "SPEC_date") (AText (L "2010-11-03T13:48:06")) /\
  attribute (nxfile mary [k1]) 0 (L "SPEC_epoch") (ANum (NI 7)) /\ attribute (nxfile mary [k1]) 0 (L "SPEC_file") (AText (L "here")).
Proof.
  destruct mary_saved as (sc & SV & _). destruct mary_header as (h & H1 & H2 & H3 & H4).
  split; [|destruct (C104_root _ _ _ _ _ _ _ _ _ _ SV) as (h' & A1 & A2 & A3 & A4 & A5 & _); assert (h' = h) by congruence; subst h'; split; [|split]].
  - apply (C105_user _ _ _ _ _ _ _ _ _ _ SV h _ _ (L "mary ann") H1 H2). exists (L "setup  "), (L " mary ann = x"), (L " mary ann "). split; [reflexivity|]. split; [apply first_at; vm_compute; reflexivity|].
    split; [|apply trimmed_b; vm_compute; reflexivity]. split; [intros X; vm_compute in X; repeat (destruct X as [X|X]; [discriminate X|]); destruct X|]. right. exists (L " x"). reflexivity.
  - destruct day_ok as (X1 & X2 & X3). exact (A4 _ _ _ _ _ _ _ H3 X1 X2 X3).
  - apply A3. exact H4.
  - apply A2. vm_compute. reflexivity.
Qed.
(** a user is made up when the first comment ends with "=" *)
Definition equals : path := rooted_file "a =".
Theorem C105_made_up_refuted : exists s0 s versions ks s' f k sc h c, saved E0 all_hids s0 s versions ks s' f k sc /\ nth_error (headers s) 0 = Some h /\ h_obj h A_comments = Some (c :: [L "more"]) /\ no_user c /\
  ~ In (L "SPEC_user") (map fst versions) /\ attribute f 0 (L "SPEC_user") (AText []).
Proof.
  assert (X : exists sc, saved E0 all_hids (opened equals) (opened equals) versions0 [k1] (after_save equals [k1]) (nxfile equals [k1]) k1 sc /\ s_done sc = true) by one_tac.
  destruct X as (sc & SV & _). destruct (nth_error (headers (opened equals)) 0) as [h|] eqn:Eh; [|vm_compute in Eh; discriminate Eh].
  exists (opened equals), (opened equals), versions0, [k1], (after_save equals [k1]), (nxfile equals [k1]), k1, sc, h, (L "a ="). split; [exact SV|]. split; [exact Eh|]. split; [|split; [|split]].
  - assert (X : option_map (fun h => h_obj h A_comments) (nth_error (headers (opened equals)) 0) = Some (Some [L "a ="; L "more"])) by (vm_compute; reflexivity).
    rewrite Eh in X. cbn [option_map] in X. injection X; intros X1. exact X1.
  - intros a t H. pose proof (find_ok US (L "a =")) as F. exact (F a t H).
  - intros X. vm_compute in X. repeat (destruct X as [X|X]; [discriminate X|]). destruct X.
  - destruct (nth_error (nxfile equals [k1]) 0) as [nd|] eqn:En; [|vm_compute in En; discriminate En]. exists nd. split; [exact En|].
    assert (X : option_map (fun nd => dget (L "SPEC_user") (match nd with Group _ a => a | Dset _ a => a end)) (nth_error (nxfile equals [k1]) 0) = Some (Some (AText []))) by (vm_compute; reflexivity).
    rewrite En in X. cbn [option_map] in X. injection X; intros X1. exact X1.
Qed.
Print Assumptions C105_made_up_refuted.
Definition undated : path := file ["#F here"; "#E 7"; "#D some day"; "#S 1 ascan x 0 1 1 1"; "#D Wed Nov 03 13:48:06 2010"; "#T 1  (Seconds)"; "#N 2"; "#L a  b"; "1 2"]%string 5 6.
Example C104_undated_example : exists h d, nth_error (headers (opened undated)) 0 = Some h /\ h_obj h A_date = Some d /\ h_obj h A_epoch <> None /\ (forall t, iso8601 d <> Ok t).
Proof.
  destruct (nth_error (headers (opened undated)) 0) as [h|] eqn:Eh; [|vm_compute in Eh; discriminate Eh]. exists h, (L "some day"). split; [reflexivity|].
  assert (X : option_map (fun h => (h_obj h A_date, h_obj h A_epoch)) (nth_error (headers (opened undated)) 0) = Some (Some (L "some day"), Some (NI 7))) by (vm_compute; reflexivity).
  rewrite Eh in X. cbn [option_map] in X. injection X; intros X1 X2. split; [exact X2|]. split; [rewrite X1; discriminate|]. intros t H. vm_compute in H. discriminate H.
Qed.
