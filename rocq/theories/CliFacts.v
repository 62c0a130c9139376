(** C40-C43, C62: proofs about the command line tools. *)
From Coq Require Import String Lia Sorting.Sorted.
From Verif Require Import Uni Py PyFacts NumFacts Keys Handlers Reader Cli SpecText SpecReader SpecInterp SpecData SpecCli DataFacts.
Import ListNotations.
Local Open Scope nat_scope.
Local Open Scope list_scope.

Lemma parts_split c t ps : parts c t ps <-> ps = split_c c t.
Proof.
  split.
  - intros (Hn & -> & Hf). revert Hn. induction Hf as [|p ps Hp Hf IH]; intros Hn; [exfalso; apply Hn; reflexivity|]. destruct ps as [|q ps].
    + cbn [join]. symmetry. apply split_c_none. exact Hp.
    + cbn [join]. cbn [join] in IH. change ([c] ++ ?x) with (c :: x). rewrite split_c_app by exact Hp. f_equal. apply IH. discriminate.
  - intros ->. split; [apply split_c_ne|]. split; [symmetry; apply join_split|apply split_c_Forall].
Qed.
Lemma range_in a b z : In z (range_incl a b) <-> (a <= z <= b)%Z.
Proof.
  unfold range_incl. rewrite in_map_iff. split.
  - intros (i & <- & Hi). apply in_seq in Hi. lia.
  - intros H. exists (Z.to_nat (z - a)). split; [lia|]. apply in_seq. lia.
Qed.
Lemma split1 c t a : split_c c t = [a] -> t = a /\ ~ In c a.
Proof. intros H. destruct (proj2 (parts_split c t [a]) (eq_sym H)) as (_ & E & F). split; [exact E|exact (Forall_inv F)]. Qed.
Lemma split2 c t a b : split_c c t = [a; b] <-> t = a ++ c :: b /\ ~ In c a /\ ~ In c b.
Proof.
  split.
  - intros H. destruct (proj2 (parts_split c t [a; b]) (eq_sym H)) as (_ & E & F). split; [exact E|]. split; [exact (Forall_inv F)|exact (Forall_inv (Forall_inv_tail F))].
  - intros (-> & Ha & Hb). rewrite split_c_app by exact Ha. rewrite split_c_none by exact Hb. reflexivity.
Qed.
Lemma item_ok item zs : scan_item item = Ok zs -> well_formed item /\ forall z, In z zs <-> names item z.
Proof.
  unfold scan_item. intros H. destruct (split_c DASH item) as [|a [|b [|c l]]] eqn:E; try discriminate.
  - apply split1 in E. destruct E as [-> Ha]. destruct (py_int a) as [x|] eqn:Ex; [|discriminate]. cbn [bind] in H. injection H as <-. split; [left; split; [exact Ha|exists x; exact Ex]|].
    intros z. unfold names, whole. split; [intros [<-|[]]; left; auto|]. intros [[Q _]|(a' & b' & x' & y' & -> & _)]; [left; congruence|]. exfalso. apply Ha. apply in_or_app. right. left. reflexivity.
  - apply split2 in E. destruct E as (-> & Ha & Hb). destruct (py_int a) as [x|] eqn:Ex; [|discriminate]. cbn [bind] in H. destruct (py_int b) as [y|] eqn:Ey; [|discriminate]. cbn [bind] in H. injection H as <-.
    split; [right; exists a, b, x, y; auto|]. intros z. rewrite range_in. unfold names. split.
    + intros Hz. right. exists a, b, x, y. auto 8.
    + intros [[_ Q]|(a' & b' & x' & y' & Q & Ha' & Hb' & Wx & Wy & Hz)]; [exfalso; apply Q; apply in_or_app; right; left; reflexivity|].
      assert (Q2 : split_c DASH (a ++ DASH :: b) = [a'; b']) by (apply split2; auto). assert (Q3 : split_c DASH (a ++ DASH :: b) = [a; b]) by (apply split2; auto).
      rewrite Q2 in Q3. injection Q3 as -> ->. unfold whole in Wx, Wy. rewrite Wx in Ex. rewrite Wy in Ey. injection Ex as ->. injection Ey as ->. exact Hz.
Qed.
Lemma item_well item : well_formed item -> exists zs, scan_item item = Ok zs.
Proof.
  unfold scan_item. intros [[Hn (z & Hz)]|(a & b & x & y & -> & Ha & Hb & Hx & Hy)].
  - unfold DASH. rewrite split_c_none by exact Hn. unfold whole in Hz. rewrite Hz. cbn [bind]. eauto.
  - assert (Q : split_c DASH (a ++ L "-" ++ b) = [a; b]) by (apply split2; auto). rewrite Q. unfold whole in Hx, Hy. rewrite Hx, Hy. cbn [bind]. eauto.
Qed.
(** sorting *)
Definition lez (a b : Z) : Prop := (a <= b)%Z.
Lemma insert_in x l y : In y (insert Z.leb x l) <-> y = x \/ In y l.
Proof. induction l as [|z l IH]; cbn [insert In]; [intuition|]. destruct (x <=? z)%Z; cbn [In]; [intuition|]. rewrite IH. intuition. Qed.
Lemma isort_in l y : In y (isort Z.leb l) <-> In y l.
Proof. induction l as [|z l IH]; cbn [isort In]; [tauto|]. rewrite insert_in, IH. intuition. Qed.
Lemma insert_sorted x l : StronglySorted lez l -> StronglySorted lez (insert Z.leb x l).
Proof.
  induction 1 as [|z l H IH Hf]; cbn [insert]; [repeat constructor|]. destruct (x <=? z)%Z eqn:E.
  - apply Z.leb_le in E. constructor; [constructor; auto|]. constructor; [exact E|]. eapply Forall_impl; [|exact Hf]. unfold lez. intros; lia.
  - apply Z.leb_gt in E. constructor; [exact IH|]. apply Forall_forall. intros y Hy. apply insert_in in Hy. destruct Hy as [->|Hy]; [unfold lez; lia|]. rewrite Forall_forall in Hf. auto.
Qed.
Lemma isort_sorted l : StronglySorted lez (isort Z.leb l).
Proof. induction l as [|x l IH]; cbn [isort]; [constructor|]. apply insert_sorted. exact IH. Qed.
Lemma dedup_in l acc z : In z (dedup acc l) <-> In z acc \/ In z l.
Proof.
  revert acc; induction l as [|x l IH]; intros acc; cbn [dedup]; [cbn [In]; tauto|]. rewrite IH. destruct (existsb (Z.eqb x) acc) eqn:E.
  - apply existsb_exists in E. destruct E as (y & Hy & Q). apply Z.eqb_eq in Q. subst y. cbn [In]. intuition (subst; auto).
  - rewrite in_app_iff. cbn [In]. tauto.
Qed.
Lemma SS_app (l : list Z) x : StronglySorted Z.lt l -> Forall (fun y => (y < x)%Z) l -> StronglySorted Z.lt (l ++ [x]).
Proof.
  induction 1 as [|y l H IH Hf]; intros Hx; cbn [app]; [repeat constructor|]. constructor; [apply IH; exact (Forall_inv_tail Hx)|]. apply Forall_app. split; [exact Hf|].
  constructor; [exact (Forall_inv Hx)|constructor].
Qed.
Lemma dedup_sorted l acc : StronglySorted lez l -> StronglySorted Z.lt acc -> (forall a x, In a acc -> In x l -> (a <= x)%Z) -> StronglySorted Z.lt (dedup acc l).
Proof.
  intros H. revert acc. induction H as [|x l H IH Hf]; intros acc Ha Hax; cbn [dedup]; [exact Ha|]. rewrite Forall_forall in Hf. apply IH.
  - destruct (existsb (Z.eqb x) acc) eqn:E; [exact Ha|]. apply SS_app; [exact Ha|]. apply Forall_forall. intros y Hy. specialize (Hax y x Hy (or_introl eq_refl)).
    assert (y <> x). { intros ->. assert (existsb (Z.eqb x) acc = true) by (apply existsb_exists; exists x; split; [exact Hy|apply Z.eqb_refl]). congruence. } lia.
  - intros a y Ha' Hy. destruct (existsb (Z.eqb x) acc); [apply Hax; [exact Ha'|right; exact Hy]|]. apply in_app_or in Ha'. destruct Ha' as [Q|[<-|[]]]; [apply Hax; [exact Q|right; exact Hy]|exact (Hf y Hy)].
Qed.
Lemma C40_lemma t l : parse_scan_list_spec [t] = Ok l -> forall items, parts 44%N t items ->
  Forall well_formed items /\ StronglySorted Z.lt l /\ forall z, In z l <-> exists item, In item items /\ names item z.
Proof.
  unfold parse_scan_list_spec. cbn [index bind]. change (index 0 [t]) with (Ok t). cbn [bind]. intros H items Hp. apply parts_split in Hp. subst items. unfold COMMA in H.
  destruct (mapM scan_item (split_c 44%N t)) as [ls|] eqn:E; [|discriminate]. cbn [bind] in H. injection H as <-. apply mapM_F2 in E.
  assert (W : Forall well_formed (split_c 44%N t) /\ forall z, In z (List.concat ls) <-> exists item, In item (split_c 44%N t) /\ names item z).
  { induction E as [|item zs its ls' Hi E IH]; [split; [constructor|]; intros z; split; [intros []|intros (i & [] & _)]|]. apply item_ok in Hi. destruct Hi as [H1 H2]. destruct IH as [I1 I2].
    split; [constructor; auto|]. intros z. cbn [List.concat]. rewrite in_app_iff, H2, I2. split.
    - intros [Q|(i & Q1 & Q2)]; [exists item; split; [left; reflexivity|exact Q]|exists i; split; [right; exact Q1|exact Q2]].
    - intros (i & [<-|Q1] & Q2); [left; exact Q2|right; exists i; auto]. }
  destruct W as [W1 W2]. split; [exact W1|]. split.
  - apply dedup_sorted; [apply isort_sorted|constructor|intros a x []].
  - intros z. rewrite dedup_in, isort_in. cbn [In]. rewrite W2. tauto.
Qed.
Lemma C40_total t items : parts 44%N t items -> Forall well_formed items -> exists l, parse_scan_list_spec [t] = Ok l.
Proof.
  intros Hp Hw. apply parts_split in Hp. subst items. unfold parse_scan_list_spec. change (index 0 [t]) with (Ok t). cbn [bind]. unfold COMMA.
  assert (E : exists ls, mapM scan_item (split_c 44%N t) = Ok ls).
  { induction Hw as [|i its Hi Hw (ls & IH)]; [exists []; reflexivity|]. destruct (item_well i Hi) as (zs & E). exists (zs :: ls). cbn [mapM]. rewrite E. cbn [bind]. rewrite IH. reflexivity. }
  destruct E as (ls & ->). cbn [bind]. eauto.
Qed.
(** numbers as they are spelled *)
Lemma digit_no_dash n : ~ In 45%N (str_of_N n).
Proof. intros Q. pose proof (str_of_N_digits n) as F. rewrite Forall_forall in F. specialize (F _ Q). unfold ascii_digit in F. lia. Qed.
Lemma digit_no_comma n : ~ In 44%N (str_of_N n).
Proof. intros Q. pose proof (str_of_N_digits n) as F. rewrite Forall_forall in F. specialize (F _ Q). unfold ascii_digit in F. lia. Qed.
(** ** C43 *)
Lemma spelled_well w : well_formed (spelled w) /\ ~ In 44%N (spelled w) /\ forall z, names (spelled w) z <-> wants w z.
Proof.
  destruct w as [n|a b]; cbn [spelled].
  - split; [left; split; [apply digit_no_dash|exists (Z.of_N n); apply py_int_str_of_N]|]. split; [apply digit_no_comma|]. intros z. unfold names, wants, whole. rewrite py_int_str_of_N. split.
    + intros [[H _]|(a & b & x & y & H & _)]; [congruence|]. exfalso. apply (digit_no_dash n). rewrite H. apply in_or_app. right. left. reflexivity.
    + intros ->. left. split; [reflexivity|apply digit_no_dash].
  - split; [right; exists (str_of_N a), (str_of_N b), (Z.of_N a), (Z.of_N b); split; [reflexivity|]; split; [apply digit_no_dash|]; split; [apply digit_no_dash|]; split; apply py_int_str_of_N|].
    split; [intros H; apply in_app_or in H; destruct H as [H|[H|H]]; [apply (digit_no_comma a H)|discriminate H|apply (digit_no_comma b H)]|]. intros z. unfold names, wants, whole. split.
    + intros [[_ H]|(a' & b' & x & y & H & H1 & H2 & H3 & H4 & H5)]; [exfalso; apply H; apply in_or_app; right; left; reflexivity|].
      assert (Q : split_c 45%N (str_of_N a ++ L "-" ++ str_of_N b) = [str_of_N a; str_of_N b]) by (apply split2; split; [reflexivity|]; split; apply digit_no_dash).
      assert (Q' : split_c 45%N (a' ++ L "-" ++ b') = [a'; b']) by (apply split2; split; [reflexivity|]; split; assumption).
      rewrite H in Q. rewrite Q in Q'. injection Q' as <- <-. rewrite py_int_str_of_N in H3, H4. injection H3 as <-. injection H4 as <-. exact H5.
    + intros H. right. exists (str_of_N a), (str_of_N b), (Z.of_N a), (Z.of_N b). split; [reflexivity|]. split; [apply digit_no_dash|]. split; [apply digit_no_dash|]. split; [apply py_int_str_of_N|]. split; [apply py_int_str_of_N|exact H].
Qed.
Lemma C40_written ws : ws <> [] -> exists l, parse_scan_list_spec [join [44%N] (map spelled ws)] = Ok l /\ StronglySorted Z.lt l /\ forall z, In z l <-> exists w, In w ws /\ wants w z.
Proof.
  intros Hne. assert (Hp : parts 44%N (join [44%N] (map spelled ws)) (map spelled ws)).
  { split; [destruct ws; [congruence|discriminate]|]. split; [reflexivity|]. apply Forall_forall. intros p H. apply in_map_iff in H. destruct H as (w & <- & _). apply (spelled_well w). }
  assert (Hw : Forall well_formed (map spelled ws)) by (apply Forall_forall; intros p H; apply in_map_iff in H; destruct H as (w & <- & _); apply (spelled_well w)).
  destruct (C40_total _ _ Hp Hw) as (l & Hl). exists l. split; [exact Hl|]. destruct (C40_lemma _ _ Hl _ Hp) as (_ & H1 & H2). split; [exact H1|]. intros z. rewrite H2. split.
  - intros (i & Hi & Hn). apply in_map_iff in Hi. destruct Hi as (w & <- & Hw'). exists w. split; [exact Hw'|apply (spelled_well w); exact Hn].
  - intros (w & Hw' & Hn). exists (spelled w). split; [apply in_map; exact Hw'|apply (spelled_well w); exact Hn].
Qed.
Lemma C41_order all request : Keeps (fun n => In n all) (map str_of_Z request) (pick_scans all (Some request)).
Proof.
  cbn [pick_scans]. induction (map str_of_Z request) as [|n l IH]; [constructor|]. cbn [List.filter]. destruct (mem n all) eqn:E.
  - apply Keeps_yes; [apply mem_In; exact E|exact IH].
  - apply Keeps_no; [|exact IH]. intros Q. apply mem_In in Q. rewrite Q in E. discriminate.
Qed.
Lemma range_nth a b i : i < Z.to_nat (b + 1 - a) -> nth_error (range_incl a b) i = Some (a + Z.of_nat i)%Z.
Proof.
  intros H. unfold range_incl. rewrite nth_error_map. rewrite (nth_error_nth' _ 0) by (rewrite seq_length; exact H). rewrite seq_nth by exact H. reflexivity.
Qed.
Lemma range_len a b : List.length (range_incl a b) = Z.to_nat (b + 1 - a).
Proof. unfold range_incl. rewrite map_length, seq_length. reflexivity. Qed.
Lemma nth_ext_error {A} (l l' : list A) : (forall i, nth_error l i = nth_error l' i) -> l = l'.
Proof.
  revert l'; induction l as [|x l IH]; intros [|y l'] H; [reflexivity|specialize (H 0); discriminate|specialize (H 0); discriminate|].
  pose proof (H 0) as H0. cbn in H0. injection H0 as ->. f_equal. apply IH. intros i. exact (H (S i)).
Qed.
Lemma dash_or t : (exists u, t = DASH :: u) \/ prefixb [DASH] t = false.
Proof.
  destruct t as [|c u]; [right; reflexivity|]. destruct (N.eq_dec c DASH) as [->|Hn]; [left; exists u; reflexivity|]. right. cbn [prefixb].
  destruct (DASH =? c)%N eqn:E; [apply N.eqb_eq in E; congruence|reflexivity].
Qed.
Lemma expand_iff t l : expand_term t = Ok l <-> expands t l.
Proof.
  unfold expand_term. destruct (dash_or t) as [(u & ->)|Hd].
  - assert (E : prefixb [DASH] (DASH :: u) = true) by reflexivity. rewrite E. split.
    + intros H. injection H as <-. exact (Exp_dash u).
    + intros H. inversion H as [u' E1 E2|t' Hn E1 E2|a b x y l' Ha Hna Hnb Hx Hy Hl Hi E1 E2]; subst; [reflexivity|reflexivity|].
      destruct a as [|c a]; [congruence|]. cbn [app] in E1. injection E1 as -> _. exfalso. apply Hna. left. reflexivity.
  - rewrite Hd. split.
    + intros H. destruct (split_c DASH t) as [|a [|b [|c l']]] eqn:E; try discriminate.
      * injection H as <-. apply split1 in E. destruct E as [-> Ha]. apply Exp_single. exact Ha.
      * apply split2 in E. destruct E as (-> & Ha & Hb). destruct (py_int a) as [x|] eqn:Ex; [|discriminate]. cbn [bind] in H. destruct (py_int b) as [y|] eqn:Ey; [|discriminate]. cbn [bind] in H. injection H as <-.
        apply (Exp_range a b x y); auto.
        -- intros ->. discriminate Hd.
        -- rewrite map_length. apply range_len.
        -- intros i Hi. rewrite map_length, range_len in Hi. rewrite nth_error_map, range_nth by exact Hi. reflexivity.
    + intros H. inversion H as [u' E1 E2|t' Hn E1 E2|a b x y l' Ha Hna Hnb Hx Hy Hl Hi E1 E2]; subst.
      * discriminate Hd.
      * unfold DASH. rewrite split_c_none by exact Hn. reflexivity.
      * assert (Q : split_c DASH (a ++ L "-" ++ b) = [a; b]) by (apply split2; auto). rewrite Q. unfold whole in Hx, Hy. rewrite Hx, Hy. cbn [bind]. f_equal. apply nth_ext_error. intros i.
        destruct (Nat.lt_ge_cases i (List.length l)) as [Hlt|Hge].
        -- rewrite (Hi i Hlt). rewrite Hl in Hlt. rewrite nth_error_map, range_nth by exact Hlt. reflexivity.
        -- rewrite (proj2 (nth_error_None l i) Hge). apply nth_error_None. rewrite map_length, range_len. lia.
Qed.
Lemma expand_raise t e : expand_term t = Raise e -> e = ValueError.
Proof.
  unfold expand_term. destruct (prefixb [DASH] t); [discriminate|]. destruct (split_c DASH t) as [|a [|b [|c l]]]; try congruence.
  assert (P : forall s, match py_int s with Ok _ => True | Raise e => e = ValueError end).
  { intros s. unfold py_int. destruct (sign_of _) as [neg t']. destruct (us_digits false t'); auto. }
  intros H. pose proof (P a) as Pa. pose proof (P b) as Pb. destruct (py_int a); [|cbn [bind] in H; congruence]. cbn [bind] in H. destruct (py_int b); cbn [bind] in H; congruence.
Qed.
Lemma C43_lemma ts l : expand_scan_range_terms ts = Ok l <-> exists ls, Forall2 expands ts ls /\ l = List.concat ls.
Proof.
  unfold expand_scan_range_terms. split.
  - intros H. destruct (mapM expand_term ts) as [ls|] eqn:E; [|discriminate]. cbn [bind] in H. injection H as <-. exists ls. split; [|reflexivity]. apply mapM_F2 in E.
    clear -E. induction E; constructor; auto. apply expand_iff. assumption.
  - intros (ls & H & ->). assert (E : mapM expand_term ts = Ok ls) by (apply mapM_F2; clear -H; induction H; constructor; auto; apply expand_iff; assumption). rewrite E. reflexivity.
Qed.
Lemma C43_raise ts e : expand_scan_range_terms ts = Raise e -> e = ValueError.
Proof.
  unfold expand_scan_range_terms. assert (P : forall e, mapM expand_term ts = Raise e -> e = ValueError).
  { induction ts as [|t ts IH]; cbn [mapM]; [discriminate|]. intros e' H. destruct (expand_term t) as [x|] eqn:E; cbn [bind] in H.
    - destruct (mapM expand_term ts) as [y|]; cbn [bind] in H; [discriminate|]. injection H as <-. apply IH. reflexivity.
    - injection H as <-. exact (expand_raise t e0 E). }
  intros H. destruct (mapM expand_term ts) as [ls|]; cbn [bind] in H; [discriminate|]. injection H as <-. apply P. reflexivity.
Qed.
(** ** C41 *)
Lemma C41_lemma all request n : In n (pick_scans all (Some request)) <-> In n all /\ exists z, In z request /\ n = str_of_Z z.
Proof.
  cbn [pick_scans]. rewrite filter_In, in_map_iff, mem_In. split; [intros [(z & <- & H) Q]; eauto|intros [Q (z & H & ->)]; eauto].
Qed.
(** ** C42 *)
Section Nexus.
  Context {B S : Type} (open_spec : str -> B -> res S) (numbers : S -> res (list str)) (save : S -> list str -> list B * option exn).
  Notation convert' := (convert open_spec numbers save).
  Lemma fs_set_other n (b : B) (f : @fs B) m : m <> n -> fs_set n b f m = f m.
  Proof. unfold fs_set. destruct (seqb m n) eqn:E; [apply seqb_eq in E; congruence|reflexivity]. Qed.
  (** in the state [st'] reached from [st]: existing names still exist; a name is as before, or the output of an input that exists, and new or overwritten with -f *)
  Definition fine (o : options) (fl : list str) (st st' : @fs B) : Prop :=
    (forall n, st n <> None -> st' n <> None) /\
    (forall n, st' n = st n \/ ((exists f, In f fl /\ n = output_name o f /\ st' f <> None) /\ (o_force o = true \/ st n = None))).
  Lemma convert_fine o sel f fl (st : @fs B) st' : In st' (fst (convert' o sel f st)) -> In f fl -> fine o fl st st'.
  Proof.
    unfold convert. destruct (st f) as [b|] eqn:Ef; [|intros []]. destruct (open_spec f b) as [s|]; [|intros []]. destruct (numbers s) as [all|]; [|intros []].
    cbv zeta. destruct (o_force o || match st (output_name o f) with None => true | Some _ => false end) eqn:Ec; [|intros []]. destruct (save s (pick_scans all sel)) as [bs e]. cbn [fst]. intros H Hf.
    apply in_map_iff in H. destruct H as (b' & <- & _). assert (K : forall n, st n <> None -> fs_set (output_name o f) b' st n <> None).
    { intros n Hn. unfold fs_set. destruct (seqb n (output_name o f)); [discriminate|exact Hn]. }
    split; [exact K|]. intros n. destruct (str_eq_dec n (output_name o f)) as [->|Hd]; [|left; apply fs_set_other; exact Hd].
    right. split; [exists f; split; [exact Hf|]; split; [reflexivity|]; apply K; rewrite Ef; discriminate|].
    apply orb_prop in Ec. destruct Ec as [Ec|Ec]; [left; exact Ec|]. right. destruct (st (output_name o f)); [discriminate|reflexivity].
  Qed.
  Lemma fine_refl o fl st : fine o fl st st.
  Proof. split; auto. Qed.
  Lemma fine_trans o fl a b c : fine o fl a b -> fine o fl b c -> fine o fl a c.
  Proof.
    intros [A1 A2] [B1 B2]. split; [auto|]. intros n. destruct (B2 n) as [Q|[(f & F1 & F2 & F3) Q]].
    - destruct (A2 n) as [Q2|[(f & F1 & F2 & F3) Q2]]; [left; congruence|]. right. split; [exists f; auto|exact Q2].
    - right. split; [exists f; auto|]. destruct Q as [Q|Q]; [left; exact Q|]. right. destruct (a n) eqn:E; [|reflexivity]. exfalso. apply (A1 n); congruence.
  Qed.
  Lemma last_in_or {A} (l : list A) d : last l d = d \/ In (last l d) l.
  Proof.
    destruct l as [|x l]; [left; auto|]. right. revert x. induction l as [|y l IH]; intros x; [left; reflexivity|]. change (last (x :: y :: l) d) with (last (y :: l) d). right. apply IH.
  Qed.
  Lemma convert_all_fine o sel fl' fl : incl fl' fl -> forall (st : @fs B) st', In st' (fst (convert_all open_spec numbers save o sel fl' st)) -> fine o fl st st'.
  Proof.
    intros Hi. induction fl' as [|f fl' IH]; intros st st' H; [destruct H|]. cbn [convert_all] in H. destruct (convert' o sel f st) as [sts e] eqn:E.
    assert (H1 : forall s, In s sts -> fine o fl st s).
    { intros s Hs. assert (Hs' : In s (fst (convert' o sel f st))) by (rewrite E; exact Hs). apply (convert_fine o sel f fl st s Hs'). apply Hi. left. reflexivity. }
    destruct e as [e|]; [exact (H1 st' H)|]. destruct (convert_all open_spec numbers save o sel fl' (last sts st)) as [sts' e'] eqn:E2. cbn [fst] in H. apply in_app_or in H. destruct H as [H|H]; [exact (H1 st' H)|].
    assert (Hin : In st' (fst (convert_all open_spec numbers save o sel fl' (last sts st)))) by (rewrite E2; exact H).
    apply fine_trans with (b := last sts st).
    - destruct (last_in_or sts st) as [->|Hl]; [apply fine_refl|apply H1; exact Hl].
    - apply IH; [|exact Hin]. intros x Hx. apply Hi. right. exact Hx.
  Qed.
  Lemma C42_lemma o (st : @fs B) st' : In st' (fst (nexus_main open_spec numbers save o st)) -> fine o (o_infile o) st st'.
  Proof.
    unfold nexus_main. destruct (scan_selection o) as [sel|]; [|intros [<-|[]]; apply fine_refl]. destruct (convert_all open_spec numbers save o sel (o_infile o) st) as [sts e] eqn:E. cbn [fst].
    intros [<-|H]; [apply fine_refl|]. apply (convert_all_fine o sel (o_infile o)); [apply incl_refl|]. rewrite E. exact H.
  Qed.
End Nexus.

(** ** file names *)
Lemma rfind_some c s n : rfind_c c s = Some n -> exists a b, s = a ++ c :: b /\ List.length a = n /\ ~ In c b.
Proof.
  revert n; induction s as [|x s IH]; intros n H; [discriminate|]. cbn [rfind_c] in H. destruct (rfind_c c s) as [m|] eqn:E.
  - injection H as <-. destruct (IH m eq_refl) as (a & b & -> & <- & Hb). exists (x :: a), b. auto.
  - destruct (x =? c)%N eqn:Ex; [|discriminate]. injection H as <-. apply N.eqb_eq in Ex. subst x. exists [], s. split; [reflexivity|]. split; [reflexivity|]. clear -E. intros Q.
    induction s as [|y s IH]; [destruct Q|]. cbn [rfind_c] in E. destruct (rfind_c c s) eqn:E2; [discriminate|]. destruct Q as [->|Q]; [rewrite N.eqb_refl in E; discriminate|exact (IH eq_refl Q)].
Qed.
Lemma rfind_none c s : rfind_c c s = None -> ~ In c s.
Proof.
  intros E Q. induction s as [|y s IH]; [destruct Q|]. cbn [rfind_c] in E. destruct (rfind_c c s) eqn:E2; [discriminate|]. destruct Q as [->|Q]; [rewrite N.eqb_refl in E; discriminate|exact (IH eq_refl Q)].
Qed.
Lemma directory p : exists dir r, p = dir ++ r /\ (dir = [] \/ exists d, dir = d ++ L "/") /\ ~ In 47%N r /\ match rfind_c SLASH p with Some s => S s | None => 0 end = List.length dir.
Proof.
  destruct (rfind_c SLASH p) as [s|] eqn:E.
  - apply rfind_some in E. destruct E as (a & b & -> & <- & Hb). exists (a ++ L "/"), b. split; [rewrite <- app_assoc; reflexivity|]. split; [right; exists a; reflexivity|]. split; [exact Hb|].
    rewrite app_length. cbn. lia.
  - apply rfind_none in E. exists [], p. split; [reflexivity|]. split; [left; reflexivity|]. split; [exact E|reflexivity].
Qed.
Lemma leading_dots m : forallb (fun c => (c =? DOT)%N) m = false -> exists dots stem, m = dots ++ stem /\ Forall (fun c => c = 46%N) dots /\ stem <> [] /\ (forall c t, stem = c :: t -> c <> 46%N).
Proof.
  induction m as [|c m IH]; intros H; [discriminate|]. cbn [forallb] in H. destruct (c =? DOT)%N eqn:E.
  - cbn [andb] in H. destruct (IH H) as (dots & stem & -> & H1 & H2 & H3). apply N.eqb_eq in E. exists (c :: dots), stem. split; [reflexivity|]. split; [constructor; auto|]. auto.
  - apply N.eqb_neq in E. exists [], (c :: m). split; [reflexivity|]. split; [constructor|]. split; [discriminate|]. intros c' t Q. injection Q as -> _. exact E.
Qed.
Lemma split_at_len {A} (a b c d : list A) : a ++ b = c ++ d -> List.length c <= List.length a -> exists m, a = c ++ m /\ d = m ++ b.
Proof.
  revert c; induction a as [|x a IH]; intros c H Hl.
  - destruct c; [|cbn in Hl; lia]. exists []. auto.
  - destruct c as [|y c]; [exists (x :: a); auto|]. cbn [app] in H. injection H as -> H. destruct (IH c H ltac:(cbn in Hl; lia)) as (m & -> & ->). exists m. auto.
Qed.
Lemma splitext_spec p : p = fst (splitext p) ++ snd (splitext p) /\ extension_of p (fst (splitext p)) (snd (splitext p)).
Proof.
  unfold splitext. destruct (directory p) as (dir & r & Hp & Hdir & Hr & El). destruct (rfind_c DOT p) as [d|] eqn:Ed.
  2:{ apply rfind_none in Ed. cbn [fst snd]. rewrite app_nil_r. split; [reflexivity|]. right. split; [reflexivity|]. split; [reflexivity|]. exists dir, [], r. split; [exact Hp|]. split; [exact Hdir|].
      split; [constructor|]. split; [|exact Hr]. intros Q. apply Ed. rewrite Hp. apply in_or_app. right. exact Q. }
  rewrite El. cbv zeta. apply rfind_some in Ed. destruct Ed as (a & e & Ea & La & He). subst d. destruct (Nat.ltb (List.length a) (List.length dir)) eqn:Ell.
  - apply Nat.ltb_lt in Ell. cbn [fst snd]. rewrite app_nil_r. split; [reflexivity|]. right. split; [reflexivity|]. split; [reflexivity|]. exists dir, [], r. split; [exact Hp|]. split; [exact Hdir|].
    split; [constructor|]. split; [|exact Hr]. intros Q. apply He. assert (E2 : dir ++ r = (a ++ [DOT]) ++ e) by (rewrite <- Hp, Ea, <- app_assoc; reflexivity).
    destruct (split_at_len dir r (a ++ [DOT]) e E2) as (m & _ & ->); [rewrite app_length; cbn; lia|]. apply in_or_app. right. exact Q.
  - apply Nat.ltb_ge in Ell. assert (E2 : a ++ DOT :: e = dir ++ r) by congruence. destruct (split_at_len a (DOT :: e) dir r E2 Ell) as (m & -> & Er).
    assert (Em : firstn (List.length (dir ++ m) - List.length dir) (skipn (List.length dir) p) = m).
    { rewrite Hp, skipn_app, skipn_all, Nat.sub_diag. cbn [app skipn]. rewrite app_length. replace (List.length dir + List.length m - List.length dir) with (List.length m) by lia.
      rewrite Er, firstn_app, Nat.sub_diag, firstn_all, firstn_O, app_nil_r. reflexivity. }
    rewrite Em. destruct (forallb (fun c => (c =? DOT)%N) m) eqn:Ef.
    + cbn [fst snd]. rewrite app_nil_r. split; [reflexivity|]. right. split; [reflexivity|]. split; [reflexivity|]. exists dir, (m ++ [DOT]), e. split; [rewrite Ea, <- !app_assoc; reflexivity|].
      split; [exact Hdir|]. split; [|split; [exact He|]].
      * apply Forall_app. split; [|repeat constructor]. rewrite forallb_forall in Ef. apply Forall_forall. intros c Hc. specialize (Ef c Hc). apply N.eqb_eq in Ef. exact Ef.
      * intros Q. apply Hr. rewrite Er. apply in_or_app. right. right. exact Q.
    + cbn [fst snd]. assert (F1 : firstn (List.length (dir ++ m)) p = dir ++ m) by (rewrite Ea, firstn_app, Nat.sub_diag, firstn_all, firstn_O, app_nil_r; reflexivity).
      assert (F2 : skipn (List.length (dir ++ m)) p = DOT :: e) by (rewrite Ea, skipn_app, skipn_all, Nat.sub_diag; reflexivity). rewrite F1, F2.
      split; [exact Ea|]. left. destruct (leading_dots m Ef) as (dots & stem & Em2 & H1 & H2 & H3). exists dir, dots, stem, e.
      split; [rewrite Ea, Em2, <- !app_assoc; reflexivity|]. split; [rewrite Em2; reflexivity|].
      split; [reflexivity|]. split; [exact Hdir|]. split; [exact H1|]. split; [exact H2|]. split; [exact H3|].
      split; [intros Q; apply Hr; rewrite Er, Em2; apply in_or_app; left; apply in_or_app; right; exact Q|]. split; [exact He|]. intros Q. apply Hr. rewrite Er. apply in_or_app. right. right. exact Q.
Qed.
Definition undotted (n : str) : str := map (fun c => if (c =? 46)%N then 95%N else c) n.
Lemma replace_undotted n : replace [DOT] (L "_") n = undotted n.
Proof.
  rewrite replace_c. unfold undotted. induction n as [|c n IH]; [reflexivity|]. cbn [map List.concat]. rewrite IH. rewrite (N.eqb_sym DOT c). unfold DOT. destruct (c =? 46)%N; reflexivity.
Qed.
Lemma undotted_inj n m : ~ In 95%N n -> ~ In 95%N m -> undotted n = undotted m -> n = m.
Proof.
  revert m; induction n as [|c n IH]; intros [|d m] Hn Hm H; try discriminate; [reflexivity|]. cbn [undotted map] in H. injection H as H1 H2. f_equal.
  - destruct (N.eqb_spec c 46) as [->|Hc], (N.eqb_spec d 46) as [->|Hd]; auto; exfalso; [apply Hm; left; congruence|apply Hn; left; congruence].
  - apply IH; [intros Q; apply Hn; right; exact Q|intros Q; apply Hm; right; exact Q|exact H2].
Qed.
Lemma make_name f n : makeOutputFileName f n = fst (splitext f) ++ L "_" ++ undotted n ++ snd (splitext f).
Proof. unfold makeOutputFileName. destruct (splitext f) as [b e]. rewrite replace_undotted. reflexivity. Qed.
Lemma C62_inj f n m : ~ In 95%N n -> ~ In 95%N m -> makeOutputFileName f n = makeOutputFileName f m -> n = m.
Proof. intros Hn Hm. rewrite !make_name. intros H. apply app_inv_head in H. apply app_inv_head in H. apply app_inv_tail in H. exact (undotted_inj n m Hn Hm H). Qed.
Lemma C62_not_file f n : makeOutputFileName f n <> f.
Proof.
  rewrite make_name. intros H. apply (f_equal (@List.length N)) in H. rewrite (proj1 (splitext_spec f)) in H at 3. rewrite !app_length in H. cbn in H. lia.
Qed.
