(** C26: what SPEC writes is what is read.
    Theorems only; the layout of the file is in SpecRound.v, proofs are in RoundFacts.v to RoundFacts6.v. *)
From Coq Require Import String Lia.
From Verif Require Import Uni Py PyFacts NumFacts Time Utils Keys Handlers Reader SpecText SpecUtils SpecReader SpecNum SpecHistory SpecKeys SpecInterp SpecData SpecDecimal SpecRound
  TextFacts KeyFacts InterpFacts ExampleFacts DataFacts2 PropData RoundFacts RoundFacts3 RoundFacts6.
Import ListNotations.
Local Open Scope nat_scope.
Local Open Scope list_scope.

(** A file written with a header and any number of scans with different numbers can be opened; its scans are those written, in that order;
    and whatever other scans were interpreted or asked for attributes before, interpreting a scan succeeds and gives the number, the command,
    the date, the labels and the table that were written.  Partial: tables of at least two columns (see C26_single_column_refuted). *)
Theorem C26_round_trip_partial : forall E known, incl all_hids known -> forall h ws valss name m z,
  good_head E h -> Forall2 (good_scan E) ws valss -> NoDup (map w_num ws) ->
  exists s, open_file E known name (File (Some (file_text h ws)) m z) = Ok s /\ keys (scans s) = map w_num ws /\
    forall s1, uses E known s s1 -> forall i w vals, nth_error ws i = Some w -> nth_error valss i = Some vals ->
    exists s2 sc, interpret E known (w_num w) s1 = (s2, None) /\ dget (w_num w) (scans s2) = Some sc /\ s_num sc = w_num w /\ s_cmd sc = w_cmd w /\
      attr_is sc A_date (w_date w) /\ (w_rows w <> [] -> read_back sc w vals) /\ (w_rows w = [] -> attr_is sc A_L (w_labels w) /\ attr_is sc A_data []).
Proof. intros E known Hk. exact (round_lemma E known Hk). Qed.
Print Assumptions C26_round_trip_partial.

(** In any file and after any history: if the last #N and #L lines of a scan and its data lines are those of a table,
    the table is read back, whatever other control lines stand between them. *)
Theorem C26_table_read_back_partial : forall E known, incl all_hids known -> forall s name sc s' sc' ls w vals,
  first_interpret E known s name sc s' sc' -> lines_of (s_raw sc) ls -> good_table w vals -> w_rows w <> [] ->
  last_line_of H_N ls (L "#N " ++ w_ncols w) -> last_line_of H_L ls (L "#L " ++ join [SP; SP] (w_labels w)) ->
  Keeps data_line_of ls (map (join [SP]) (w_rows w)) -> read_back sc' w vals.
Proof. exact table_lemma. Qed.
Print Assumptions C26_table_read_back_partial.

(** the numbers of a table of one column are lost *)
Theorem C26_single_column_refuted : good single /\ its_lines single = [L "#S 1 ascan x 0 1 1 1"; L "#D Wed Nov 03 13:48:06 2010"; L "#N 1"; L "#L x"; L "1.5"; L "2.5"] /\
  attr_is (after single) A_L [L "x"] /\ attr_is (after single) A_data [].
Proof. split; [good_tac|]. repeat split; vm_compute; reflexivity. Qed.
Print Assumptions C26_single_column_refuted.

(* ------------------------------------------------------------------ *)
(** * An example *)
Definition a_file : SpecRound.head := mk_head (L "x.dat") (L "1288810086") (L "Wed Nov 03 13:48:06 2010") (L "user = test").
Definition scan1 : SpecRound.written := mk_written (L "1") (L "ascan  tth 0 1 1 1") (L "Wed Nov 03 13:48:06 2010") (L "3") (map L ["Two Theta"; "I0"; "det"]%string)
  [map L ["1.5"; "10"; "-1e3"]%string; map L ["-2.50"; "+20"; ".5"]%string].
Definition vals1 : list (list fl) := [[FDec 15 (-1); FDec 10 0; FDec (-1) 3]; [FDec (-250) (-2); FDec 20 0; FDec 5 (-1)]].
Definition scan2 : SpecRound.written := mk_written (L "2") (L "loopscan 1 1") (L "Wed Nov 03 13:49:06 2010") (L "2") (map L ["Time"; "I0"]%string) [].
Definition digitb (c : N) : bool := ((48 <=? c) && (c <=? 57))%N.
Lemma digits_ok s : forallb digitb s = true -> Forall digit s.
Proof.
  intros H. apply Forall_forall. intros c Hc. rewrite forallb_forall in H. apply H in Hc. unfold digitb in Hc. apply andb_true_iff in Hc. destruct Hc as [H1 H2].
  apply N.leb_le in H1. apply N.leb_le in H2. split; auto.
Qed.
Ltac fixed sg neg ip dot fp :=
  exists (L sg), neg, (L ip), (L dot), (L fp); split; [first [left; split; reflexivity|right; left; split; reflexivity|right; right; split; reflexivity]|];
  split; [apply digits_ok; reflexivity|]; split; [apply digits_ok; reflexivity|]; split; [first [left; reflexivity|right; split; reflexivity]|];
  split; [discriminate|]; repeat split; reflexivity.
Definition line_textb (t : str) : bool := forallb (fun c => negb (is_eol c)) t && match rev t with c :: _ => negb (c =? BACKSLASH)%N | [] => true end.
Lemma line_text_ok t : line_textb t = true -> line_text t.
Proof.
  unfold line_textb. rewrite andb_true_iff. intros [H1 H2]. split.
  - apply Forall_forall. intros c Hc. rewrite forallb_forall in H1. apply H1 in Hc. apply negb_true_iff in Hc. exact Hc.
  - intros a ->. rewrite rev_app_distr in H2. cbn in H2. discriminate.
Qed.
Definition tightb (t : str) : bool := match t with c :: _ => negb (is_space c) | [] => true end && match rev t with c :: _ => negb (is_space c) | [] => true end.
Lemma tight_ok t : tightb t = true -> tight t.
Proof.
  unfold tightb. rewrite andb_true_iff. intros [H1 H2]. split; intros c u ->; [apply negb_true_iff in H1; exact H1|]. rewrite rev_app_distr in H2. cbn in H2. apply negb_true_iff in H2. exact H2.
Qed.
Fixpoint no_gap (t : str) : bool := match t with [] => true | a :: u => negb ((a =? SP)%N && match u with b :: _ => (b =? SP)%N | [] => false end) && no_gap u end.
Lemma no_gap_ok t : no_gap t = true -> forall a b, t <> a ++ SP :: SP :: b.
Proof.
  intros H a. revert t H. induction a as [|x a IH]; intros t H b ->; cbn [app no_gap] in H; apply andb_true_iff in H; destruct H as [H1 H2]; [discriminate|]. exact (IH _ H2 b eq_refl).
Qed.
Definition labelb (l : str) : bool := negb (seqb l []) && tightb l && line_textb l && no_gap l && negb (existsb (fun c => (c =? TAB)%N) l).
Lemma label_ok l : labelb l = true -> good_label l /\ tight l /\ line_text l.
Proof.
  unfold labelb. rewrite !andb_true_iff. intros ((((H1 & H2) & H3) & H4) & H5). apply tight_ok in H2. apply line_text_ok in H3. split; [|split; auto].
  split; [intros ->; discriminate|]. destruct H2 as [T1 T2]. split; [intros t ->; specialize (T1 _ _ eq_refl); discriminate|]. split; [intros t ->; specialize (T2 _ _ eq_refl); discriminate|].
  split; [|apply no_gap_ok; exact H4]. intros Q. apply negb_true_iff in H5. assert (existsb (fun c => (c =? TAB)%N) l = true) as Z; [|congruence].
  apply existsb_exists. exists TAB. split; auto.
Qed.
Lemma date_ok d : line_textb d = true -> tightb d = true -> In SP d -> (exists t, strptime d = Ok t) -> good_date E0 d.
Proof.
  intros H1 H2 H3 [t H4]. split; [split; [apply line_text_ok; auto|split; [apply tight_ok; auto|auto]]|]. exists t, (NI 0). split; auto. split; [reflexivity|].
  split; eexists; reflexivity.
Qed.
Lemma word_ok w : w <> [] -> nospace w = true -> a_word w.
Proof. intros H1 H2. split; auto. apply nospace_Forall. exact H2. Qed.
Lemma good_scan1 : good_scan E0 scan1 vals1.
Proof.
  unfold scan1, vals1. split; [apply word_ok; [discriminate|reflexivity]|]. split; [apply line_text_ok; reflexivity|]. split; [discriminate|]. split; [apply tight_ok; reflexivity|].
  split; [apply date_ok; [reflexivity|reflexivity|cbn; auto 8|eexists; vm_compute; reflexivity]|].
  split; [cbn; lia|]. split; [cbn [w_labels map]; repeat constructor; cbn; intuition discriminate|]. split; [cbn [w_labels map]; repeat (constructor; [apply label_ok; reflexivity|]); constructor|].
  split; [split; [discriminate|split; [apply digits_ok; reflexivity|split; [intros Q; discriminate|reflexivity]]]|]. split; [repeat constructor|].
  cbn [w_rows map]. repeat apply Forall2_cons; try apply Forall2_nil.
  - exists 15%Z, (-1)%Z. split; [|reflexivity]. left. fixed ""%string false "1"%string "."%string "5"%string.
  - exists 10%Z, 0%Z. split; [|reflexivity]. left. fixed ""%string false "10"%string ""%string ""%string.
  - exists (-1)%Z, 3%Z. split; [|reflexivity]. right. exists (L "-1"), (L "3"), 0%Z, 3%Z. split; [fixed "-"%string true "1"%string ""%string ""%string|].
    split; [|split; [left; reflexivity|reflexivity]]. exists [], false, (L "3"). split; [left; split; reflexivity|]. split; [discriminate|]. split; [apply digits_ok; reflexivity|]. split; reflexivity.
  - exists (-250)%Z, (-2)%Z. split; [|reflexivity]. left. fixed "-"%string true "2"%string "."%string "50"%string.
  - exists 20%Z, 0%Z. split; [|reflexivity]. left. fixed "+"%string false "20"%string ""%string ""%string.
  - exists 5%Z, (-1)%Z. split; [|reflexivity]. left. fixed ""%string false ""%string "."%string "5"%string.
Qed.
Lemma good_scan2 : good_scan E0 scan2 [].
Proof.
  unfold scan2. split; [apply word_ok; [discriminate|reflexivity]|]. split; [apply line_text_ok; reflexivity|]. split; [discriminate|]. split; [apply tight_ok; reflexivity|].
  split; [apply date_ok; [reflexivity|reflexivity|cbn; auto 8|eexists; vm_compute; reflexivity]|].
  split; [cbn; lia|]. split; [cbn [w_labels map]; repeat constructor; cbn; intuition discriminate|]. split; [cbn [w_labels map]; repeat (constructor; [apply label_ok; reflexivity|]); constructor|].
  split; [split; [discriminate|split; [apply digits_ok; reflexivity|split; [intros Q; discriminate|reflexivity]]]|]. split; constructor.
Qed.
Lemma good_file : good_head E0 a_file.
Proof.
  split; [apply line_text_ok; reflexivity|]. split; [exists 1288810086%Z; split; [|split; eexists; reflexivity]|split; [split; [apply line_text_ok; reflexivity|split; [apply tight_ok; reflexivity|cbn; auto 8]]|apply line_text_ok; reflexivity]].
  exists [], false, (L "1288810086"). split; [left; split; reflexivity|]. split; [discriminate|]. split; [apply digits_ok; reflexivity|]. split; reflexivity.
Qed.
Example C26_applies : exists s, open_file E0 all_hids (L "f") (File (Some (file_text a_file [scan1; scan2])) 1 2) = Ok s /\ keys (scans s) = [L "1"; L "2"] /\
  exists s2 sc, interpret E0 all_hids (L "1") (fst (interpret E0 all_hids (L "2") s)) = (s2, None) /\ dget (L "1") (scans s2) = Some sc /\ read_back sc scan1 vals1.
Proof.
  destruct (C26_round_trip_partial E0 all_hids (incl_refl _) a_file [scan1; scan2] [vals1; []] (L "f") 1 2) as (s & O & K & R).
  - exact good_file.
  - constructor; [exact good_scan1|constructor; [exact good_scan2|constructor]].
  - cbn [map w_num scan1 scan2]. repeat constructor; cbn; intuition discriminate.
  - exists s. split; [exact O|]. split; [exact K|]. destruct (R _ (Uses_interpret E0 all_hids (L "2") s s (Uses_none _ _ s)) 0 scan1 vals1 eq_refl eq_refl) as (s2 & sc & R1 & R2 & _ & _ & _ & R3 & _).
    exists s2, sc. split; [exact R1|]. split; [exact R2|]. apply R3. discriminate.
Qed.
Example C26_text : file_text a_file [scan1; scan2] = text_of ["#F x.dat"; "#E 1288810086"; "#D Wed Nov 03 13:48:06 2010"; "#C user = test"; "";
  "#S 1  ascan  tth 0 1 1 1"; "#D Wed Nov 03 13:48:06 2010"; "#N 3"; "#L Two Theta  I0  det"; "1.5 10 -1e3"; "-2.50 +20 .5"; "";
  "#S 2  loopscan 1 1"; "#D Wed Nov 03 13:49:06 2010"; "#N 2"; "#L Time  I0"; ""]%string.
Proof. vm_compute. reflexivity. Qed.
