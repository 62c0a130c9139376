(** Facts about reading files (Reader.v). *)
From Coq Require Import String Lia Permutation Sorted.
From Verif Require Import Uni Py PyFacts NumFacts Time Utils UtilsFacts Keys Handlers Reader SpecText SpecReader TextFacts KeyFacts.
Import ListNotations.
Local Open Scope list_scope.

(* ------------------------------------------------------------------ *)
(** * Views: what a scan or header is, apart from what its handlers did to it *)

Definition info (sc : scan) : str * str * str * str * nat := (s_raw sc, s_S sc, s_num sc, s_cmd sc, s_hdr sc).
Definition i_raw (i : str * str * str * str * nat) : str := let '(r, _, _, _, _) := i in r.
Definition i_num (i : str * str * str * str * nat) : str := let '(_, _, n, _, _) := i in n.
Definition i_hdr (i : str * str * str * str * nat) : nat := let '(_, _, _, _, h) := i in h.
Definition vkv (kv : str * scan) := (fst kv, info (snd kv)).
Definition vd (d : dict scan) := map vkv d.
Definition vs (s : sdf) := vd (scans s).
Definition vh (s : sdf) : list str := map h_raw (headers s).

Lemma keys_vd d : keys (vd d) = keys d.
Proof. unfold keys, vd. rewrite map_map. reflexivity. Qed.
Lemma raw_vd d : map (fun kv => i_raw (snd kv)) (vd d) = map s_raw (values d).
Proof. unfold vd, values. rewrite !map_map. reflexivity. Qed.
Lemma num_vd d : map (fun kv => i_num (snd kv)) (vd d) = map s_num (values d).
Proof. unfold vd, values. rewrite !map_map. reflexivity. Qed.
Lemma vd_app a b : vd (a ++ b) = vd a ++ vd b.
Proof. apply map_app. Qed.
Lemma vd_length a : List.length (vd a) = List.length a.
Proof. apply map_length. Qed.
Lemma vd_dset k sc sc' d : dget k d = Some sc -> info sc' = info sc -> vd (dset k sc' d) = vd d.
Proof.
  intros H Hi. induction d as [|[k' v] d IH]; simpl in *; [discriminate|].
  destruct (seqb k k') eqn:E.
  - apply seqb_eq in E; subst. inversion H; subst. unfold vd. cbn [map]. unfold vkv at 1 3. cbn [fst snd]. congruence.
  - unfold vd in *. cbn [map]. f_equal; auto.
Qed.
Lemma vd_ddel k d : vd (ddel k d) = ddel k (vd d).
Proof. induction d as [|[k' v] d IH]; simpl; auto. destruct (seqb k k'); auto. simpl. unfold vkv at 1; simpl. congruence. Qed.
Lemma dget_vd k d : dget k (vd d) = option_map info (dget k d).
Proof. induction d as [|[k' v] d IH]; simpl; auto. destruct (seqb k k'); auto. Qed.
Lemma has_vd k d : has k (vd d) = has k d.
Proof. unfold has. rewrite dget_vd. destruct (dget k d); auto. Qed.

(** the same scans and headers, up to what handlers do *)
Definition same_view (s s' : sdf) : Prop :=
  vs s' = vs s /\ vh s' = vh s /\ last_scan s' = last_scan s.
Lemma same_view_refl s : same_view s s.
Proof. repeat split. Qed.
Lemma same_view_trans a b c : same_view a b -> same_view b c -> same_view a c.
Proof. intros (H1 & H2 & H3) (H4 & H5 & H6). repeat split; congruence. Qed.

Lemma set_nth_raw n h p l : nth_error l n = Some h -> map h_raw (set_nth n (mk_header (h_raw h) p) l) = map h_raw l.
Proof.
  revert n; induction l as [|x l IH]; intros [|n] H; simpl in *; try discriminate.
  - inversion H; subst; auto.
  - f_equal; auto.
Qed.

Lemma run_on_scan_view m name sc s s' sc' r : dget name (scans s) = Some sc ->
  run_on_scan m name sc s = (s', sc', r) -> same_view s s' /\ info sc' = info sc /\
  dget name (scans s') = Some sc' /\ fileName s' = fileName s /\ keys (scans s') = keys (scans s).
Proof.
  intros Hg H. unfold run_on_scan in H.
  destruct (m _) as [w r0] eqn:Em. inversion H; subst; clear H. split; [|split; [|split; [|split]]]; try reflexivity.
  - split; [|split]; try reflexivity.
    + unfold vs; simpl. eapply vd_dset; eauto.
    + unfold vh; simpl. destruct (peer w); auto. destruct (nth_error (headers s) (s_hdr sc)) eqn:En; auto.
      apply set_nth_raw; auto.
  - simpl. apply dget_dset_same.
  - simpl. rewrite keys_dset. assert (has name (scans s) = true) as -> by (unfold has; rewrite Hg; auto). auto.
Qed.

(* ------------------------------------------------------------------ *)
(** * Names of scans *)

Lemma dup_name_inj n i j : dup_name n i = dup_name n j -> i = j.
Proof. unfold dup_name. intros H. apply app_inv_head in H. inversion H. apply str_of_nat_inj; auto. Qed.
Lemma dup_name_neq n i : dup_name n i <> n.
Proof.
  unfold dup_name. intros H. assert (L : List.length (n ++ 46%N :: str_of_nat i) = List.length n) by congruence.
  rewrite app_length in L. simpl in L. lia.
Qed.
(** how a new scan with number [n0] is named when the names [ks] are taken *)
Definition named (ks : list str) (n0 n : str) : Prop :=
  (~ In n0 ks /\ n = n0) \/
  (In n0 ks /\ exists i, 1 <= i /\ n = dup_name n0 i /\ ~ In n ks /\ forall j, 1 <= j < i -> In (dup_name n0 j) ks).
Lemma named_fresh ks n0 n : named ks n0 n -> ~ In n ks.
Proof. intros [[H ->]|(_ & i & _ & _ & H & _)]; auto. Qed.

Lemma find_first {A} (f : A -> bool) l x : List.find f l = Some x ->
  exists a b, l = a ++ x :: b /\ f x = true /\ Forall (fun y => f y = false) a.
Proof.
  induction l as [|y l IH]; simpl; [discriminate|]. destruct (f y) eqn:E.
  - intros H; inversion H; subst. exists [], l; auto.
  - intros H. destruct (IH H) as (a & b & -> & ? & ?). exists (y :: a), b; auto.
Qed.
Lemma seq_split_In a k n i j b : seq k n = a ++ i :: b -> k <= j < i -> In j a.
Proof.
  revert k n; induction a as [|x a IH]; simpl; intros k n H Hj.
  - destruct n; simpl in H; inversion H; subst; lia.
  - destruct n; simpl in H; inversion H; subst. destruct (Nat.eq_dec x j); auto. right. eapply IH; eauto. lia.
Qed.

Lemma NoDup_map_inj {A B} (f : A -> B) l : (forall x y, f x = f y -> x = y) -> NoDup l -> NoDup (map f l).
Proof.
  intros Hf H; induction H; simpl; constructor; auto. rewrite in_map_iff. intros (y & Hy & Hin). apply Hf in Hy; subst; auto.
Qed.
Lemma free_name_named n0 s : In n0 (keys (scans s)) -> named (keys (scans s)) n0 (free_name n0 s).
Proof.
  intros Hin. right; split; auto. unfold free_name.
  destruct (List.find _ _) as [i|] eqn:E.
  - destruct (find_first _ _ _ E) as (a & b & Hs & Hf & Ha). exists i.
    assert (Hi : In i (seq 1 (List.length (scans s)))) by (rewrite Hs; apply in_or_app; simpl; auto).
    apply in_seq in Hi. split; [lia|]. split; auto. split.
    + apply has_not_In. destruct (has (dup_name n0 i) (scans s)); auto; discriminate.
    + intros j Hj. pose proof (seq_split_In _ _ _ _ j _ Hs Hj) as Hja. rewrite Forall_forall in Ha. apply Ha in Hja.
      cbv beta in Hja. apply has_In. destruct (has (dup_name n0 j) (scans s)); auto; discriminate.
  - exfalso. assert (Hall : incl (n0 :: map (dup_name n0) (seq 1 (List.length (scans s)))) (keys (scans s))).
    { intros x [<-|Hx]; auto. apply in_map_iff in Hx. destruct Hx as (i & <- & Hi).
      eapply find_none in E; [|exact Hi]. cbv beta in E. apply has_In. destruct (has (dup_name n0 i) (scans s)); auto; discriminate. }
    apply NoDup_incl_length in Hall.
    + simpl in Hall. rewrite map_length, seq_length in Hall. unfold keys in Hall. rewrite map_length in Hall. lia.
    + constructor.
      * rewrite in_map_iff. intros (i & Hi & _). revert Hi; apply dup_name_neq.
      * apply NoDup_map_inj; [apply dup_name_inj|apply seq_NoDup].
Qed.

Lemma store_scan_spec part hdr s : exists s' r, store_scan part hdr s = (s', r) /\
  ((r = None /\ exists l n0 t n sc, first_line part = Ok l /\
      words (strip_first_word (strip l)) = n0 :: t /\ named (keys (scans s)) n0 n /\
      s' = set_scans (scans s ++ [(n, sc)]) s /\
      sc = mk_scan part (strip_first_word (strip l)) n (strip_first_word (strip_first_word (strip l))) hdr
             (scan_init (fileName s)) true false)
   \/ (r = Some IndexError /\ s' = s)).
Proof.
  unfold store_scan. assert (FL : first_line part = Raise IndexError \/ exists l, first_line part = Ok l).
  { unfold first_line. rewrite index_0. destruct (splitlines part); eauto. }
  destruct FL as [->|[l Hl]]; [do 2 eexists; split; [reflexivity|auto]|]. rewrite Hl.
  rewrite index_0. destruct (words (strip_first_word (strip l))) as [|n0 t] eqn:Ew; [do 2 eexists; split; [reflexivity|auto]|].
  destruct (has n0 (scans s)) eqn:Eh.
  - apply has_In in Eh. pose proof (free_name_named n0 s Eh) as Hn. pose proof (named_fresh _ _ _ Hn) as Hf.
    apply has_not_In in Hf. rewrite Hf. apply has_not_In in Hf. rewrite dset_fresh by auto.
    do 2 eexists; split; [reflexivity|]. left; split; auto. exists l, n0, t. do 2 eexists. split; [auto|]. split; [auto|].
    split; [exact Hn|]. split; reflexivity.
  - rewrite Eh. apply has_not_In in Eh. rewrite dset_fresh by auto.
    do 2 eexists; split; [reflexivity|]. left; split; auto. exists l, n0, t. do 2 eexists. split; [auto|]. split; [auto|].
    split; [left; split; [exact Eh|reflexivity]|]. split; reflexivity.
Qed.

Lemma date_scan_view E s s' r : NoDup (keys (scans s)) -> date_scan E s = (s', r) ->
  same_view s s' /\ fileName s' = fileName s.
Proof.
  intros Hn H. unfold date_scan in H. destruct (rev (scans s)) as [|[name sc] t] eqn:Er.
  - inversion H; subst. split; [apply same_view_refl|auto].
  - destruct (find_D _) as [[l|]|e]; try (inversion H; subst; split; [apply same_view_refl|auto]; fail).
    destruct (run_on_scan (process_D E l) name sc s) as [[s1 sc1] r1] eqn:Eo. inversion H; subst.
    eapply run_on_scan_view in Eo; [destruct Eo as (H1 & _ & _ & H2 & _); auto|].
    apply In_dget; auto. apply in_rev. rewrite Er; simpl; auto.
Qed.

(** the scans are filed under their own numbers, which are distinct *)
Definition inv (s : sdf) : Prop := NoDup (keys (scans s)) /\ keys (scans s) = map s_num (values (scans s)).
Lemma inv_view s s' : vs s' = vs s -> inv s -> inv s'.
Proof.
  unfold inv, vs. intros H. rewrite <- (keys_vd (scans s)), <- (num_vd (scans s)), <- (keys_vd (scans s')), <- (num_vd (scans s')), H. auto.
Qed.
Lemma keys_view s s' : vs s' = vs s -> keys (scans s') = keys (scans s).
Proof. unfold vs. intros H. rewrite <- (keys_vd (scans s)), <- (keys_vd (scans s')), H. auto. Qed.
Lemma inv_snoc s n sc : inv s -> ~ In n (keys (scans s)) -> s_num sc = n -> inv (set_scans (scans s ++ [(n, sc)]) s).
Proof.
  intros [H1 H2] Hn Hs. unfold inv; simpl. unfold values in *. rewrite keys_app, !map_app. simpl. split; [apply NoDup_snoc; auto|].
  rewrite H2, Hs; auto.
Qed.

(* ------------------------------------------------------------------ *)
(** * Sections *)

Definition good_sec (b : str) : Prop :=
  exists h t, b = join [LF] (h :: t) /\ section_line h /\ Forall (free_of is_eol) (h :: t).
Lemma dissect_good p secs : dissect p = Ok secs -> Forall good_sec secs.
Proof.
  destruct p as [| |[content|] m z]; try discriminate. intros H. apply dissect_file_eq in H.
  rewrite dissect_text_groups in H. pose proof (group_concat (splitlines (universal_newlines content))) as G.
  pose proof (splitlines_free (universal_newlines content)) as F.
  destruct (group_lines (splitlines (universal_newlines content))) as [pre g]. destruct G as (G1 & _ & G3).
  rewrite G1 in F. apply Forall_app in F. destruct F as [_ F]. simpl snd in H.
  assert (secs = map (join [LF]) g) as -> by (destruct g; [discriminate|inversion H; auto]). clear H G1.
  induction G3 as [|x g (h & t & -> & Hh & _) G IH]; simpl in *; constructor.
  - exists h, t. split; auto. split; auto. inversion F as [|a l F1 F2]; subst. constructor; auto.
    apply Forall_app in F2. tauto.
  - apply IH. inversion F as [|a l F1 F2]; subst. apply Forall_app in F2. tauto.
Qed.
Lemma join_cons sep h t : join sep (h :: t) = h ++ match t with [] => [] | _ => sep ++ join sep t end.
Proof. destruct t; simpl; auto. rewrite app_nil_r; auto. Qed.
Lemma section_line_ne h : section_line h -> h <> [].
Proof.
  intros H ->. unfold section_line in H. rewrite !first_word_words in H.
  destruct H as [[? H]|[[? H]|[? H]]]; discriminate.
Qed.
Lemma splitlines_app_lf h t : free_of is_eol h -> splitlines (h ++ LF :: t) = h :: splitlines t.
Proof.
  intros H. rewrite !splitlines_splits. rewrite splits_free by auto. destruct h; simpl; auto.
  rewrite app_nil_r; auto.
Qed.
Lemma splitlines_one h : free_of is_eol h -> h <> [] -> splitlines h = [h].
Proof.
  intros H Hne. rewrite splitlines_splits. rewrite <- (app_nil_r h) at 1. rewrite splits_free by auto. destruct h; [congruence|auto].
Qed.
Lemma first_line_sec h t : h <> [] -> free_of is_eol h -> first_line (join [LF] (h :: t)) = Ok h.
Proof.
  intros Hne Hf. unfold first_line. rewrite join_cons, index_0. destruct t as [|x t].
  - rewrite app_nil_r, splitlines_one by auto. auto.
  - simpl app. rewrite splitlines_app_lf by auto. auto.
Qed.
Lemma words_sec h t : words (join [LF] (h :: t)) = words h ++ words (match t with [] => [] | _ => join [LF] t end).
Proof.
  rewrite join_cons. destruct t as [|x t].
  - rewrite !app_nil_r. auto.
  - simpl app. rewrite words_app_space by reflexivity. auto.
Qed.
Lemma first_word_sec h t w : section_line h -> first_word_is (join [LF] (h :: t)) w <-> first_word_is h w.
Proof.
  intros Hs. rewrite !first_word_words, words_sec.
  assert (Hne : words h <> []). { unfold section_line in Hs. rewrite !first_word_words in Hs. destruct Hs as [[? H]|[[? H]|[? H]]]; rewrite H; discriminate. }
  destruct (words h) as [|x ws]; [congruence|]. simpl. split; intros [v Hv]; inversion Hv; subst; eauto.
Qed.
Lemma free_eol_LF h : free_of is_eol h -> ~ In LF h.
Proof. intros H. eapply Forall_not_In; [exact H|]. intros Q; discriminate Q. Qed.

Section Known.
  Context (E : env) (known : list hid) (Hk : incl all_hids known).

  Lemma read_block_cases b s : good_sec b -> exists h t, b = join [LF] (h :: t) /\ section_line h /\
    free_of is_eol h /\ first_line b = Ok h /\ b <> [] /\
    ((exists e, read_block E known b s = (s, Some e)) \/
     (exists rest, h = L "#F" ++ SP :: rest /\ read_block E known b s = (process_file b s, None)) \/
     (exists rest, h = L "#E" ++ SP :: rest /\ read_block E known b s = process_epoch E known b s) \/
     (exists rest, h = L "#S" ++ SP :: rest /\
        read_block E known b s = match process_scan b s with
                                 | (s', Some e) => (s', Some e)
                                 | (s', None) => date_scan E s'
                                 end)).
  Proof.
    intros (h & t & Hb & Hh & Hf). inversion Hf as [|x l Hfh Hft]; subst x l.
    pose proof (section_line_ne h Hh) as Hne.
    assert (Hb0 : b <> []). { subst b. rewrite join_cons. destruct h; [congruence|discriminate]. }
    exists h, t. split; [auto|]. split; [auto|]. split; [auto|].
    assert (FL : first_line b = Ok h) by (subst b; apply first_line_sec; auto).
    split; [exact FL|]. split; [auto|].
    unfold read_block. rewrite FL. cbn [bind]. destruct b as [|c b]; [congruence|].
    destruct (get_control_key known h) as [[k|]|e] eqn:G; [|left; eauto|left; eauto].
    right. apply section_dispatch in G; auto; [|apply free_eol_LF; auto].
    destruct G as [Hin [rest Hr]]. cbn [In] in Hin. destruct Hin as [<-|[<-|[<-|[]]]]; [left|right; left|right; right]; exists rest; (split; [exact Hr|reflexivity]).
  Qed.

  Lemma fw_hash w rest h t : section_line h -> In w [L "#F"; L "#E"; L "#S"] -> h = w ++ SP :: rest ->
    forall w', first_word_is (join [LF] (h :: t)) w' <-> w' = w.
  Proof.
    intros Hs Hw -> w'. rewrite first_word_sec by auto. rewrite first_word_words.
    assert (W : words (w ++ SP :: rest) = w :: words rest).
    { cbn [In] in Hw. destruct Hw as [<-|[<-|[<-|[]]]]; apply words_word_space; try reflexivity; discriminate. }
    rewrite W. split; [intros [ws Q]; inversion Q; auto|intros ->; eauto].
  Qed.

  Definition same_but_specFile (s s' : sdf) : Prop :=
    scans s' = scans s /\ headers s' = headers s /\ last_scan s' = last_scan s /\ fileName s' = fileName s.
  Lemma process_file_view b s : same_but_specFile s (process_file b s).
  Proof. unfold process_file. destruct (specFile s) as [[|]|]; repeat split. Qed.

  Lemma process_epoch_spec b s s' r : process_epoch E known b s = (s', r) ->
    scans s' = scans s /\ last_scan s' = last_scan s /\ fileName s' = fileName s /\
    ((vh s' = vh s /\ ((In (strip b) (map strip (vh s)) /\ s' = s) \/ (r <> None /\ s' = s))) \/
     (vh s' = vh s ++ [b] /\ ~ In (strip b) (map strip (vh s)))).
  Proof.
    unfold process_epoch. destruct (existsb _ (headers s)) eqn:Ex.
    - intros H; inversion H; subst. repeat (split; auto). left; split; auto. left; split; auto.
      apply existsb_exists in Ex. destruct Ex as (h & Hin & Hh). apply seqb_eq in Hh. rewrite <- Hh.
      unfold vh. rewrite map_map. apply in_map_iff. eauto.
    - destruct (parse_epoch b); [|intros H; inversion H; subst; repeat (split; auto); left; split; auto; right; split; auto; discriminate].
      destruct (interpret_header _ _ _ _) as [w q]. intros H; inversion H; subst; clear H. repeat (split; auto).
      right. split; [unfold vh; simpl; rewrite map_app; auto|].
      unfold vh. rewrite map_map, in_map_iff. intros (h & Hh & Hin).
      assert (existsb (fun h => seqb (strip (h_raw h)) (strip b)) (headers s) = true); [|congruence].
      apply existsb_exists. exists h; split; auto. apply seqb_eq; auto.
  Qed.

  (** one section of a first read *)
  Definition hdrs (l : list str) : list str := match l with [] => [[]] | _ => l end.
  Inductive block_step (b : str) : list (str * (str * str * str * str * nat)) -> list str ->
                                   list (str * (str * str * str * str * nat)) -> list str -> Prop :=
  | BS_F v h : first_word_is b (L "#F") -> block_step b v h v h
  | BS_E_old v h : first_word_is b (L "#E") -> In (strip b) (map strip h) -> block_step b v h v h
  | BS_E_new v h : first_word_is b (L "#E") -> ~ In (strip b) (map strip h) -> block_step b v h v (h ++ [b])
  | BS_S v h l rest n0 t n : first_word_is b (L "#S") -> first_line b = Ok l -> l = L "#S" ++ SP :: rest ->
      words (strip_first_word (strip l)) = n0 :: t -> named (keys v) n0 n ->
      block_step b v h
        (v ++ [(n, (b, strip_first_word (strip l), n, strip_first_word (strip_first_word (strip l)),
                    List.length (hdrs h) - 1))]) (hdrs h).

  Lemma block_first b s s' : good_sec b -> last_scan s = None -> inv s -> read_block E known b s = (s', None) ->
    last_scan s' = None /\ inv s' /\ fileName s' = fileName s /\ block_step b (vs s) (vh s) (vs s') (vh s').
  Proof.
    intros Hg Hl Hi H. destruct (read_block_cases b s Hg) as (h & t & Hb & Hh & Hfh & FL & Hb0 & C).
    destruct C as [[e C]|[(rest & Hr & C)|[(rest & Hr & C)|(rest & Hr & C)]]]; rewrite C in H; clear C.
    - discriminate.
    - injection H as <-. destruct (process_file_view b s) as (S1 & S2 & S3 & S4).
      split; [congruence|]. split; [unfold inv in *; rewrite S1; auto|]. split; auto.
      unfold vs, vh. rewrite S1, S2. apply BS_F. subst b.
      apply (fw_hash (L "#F") rest h t); simpl; auto.
    - apply process_epoch_spec in H. destruct H as (S1 & S2 & S3 & S4).
      split; [congruence|]. split; [unfold inv in *; rewrite S1; auto|]. split; auto.
      assert (FW : first_word_is b (L "#E")) by (subst b; apply (fw_hash (L "#E") rest h t); simpl; auto).
      unfold vs. rewrite S1. destruct S4 as [[-> [[Q _]|[Q _]]]|[-> Q]]; [apply BS_E_old; auto|congruence|apply BS_E_new; auto].
    - unfold process_scan in H. set (s1 := match headers s with [] => _ | _ => s end) in H.
      assert (Hs1 : scans s1 = scans s /\ vh s1 = hdrs (vh s) /\ last_scan s1 = last_scan s /\ fileName s1 = fileName s).
      { unfold s1, vh. destruct (headers s) as [|h0 hs] eqn:Eh; [repeat split|]. rewrite Eh. repeat split. }
      destruct Hs1 as (V1 & V2 & V3 & V4). rewrite V3, Hl in H.
      assert (Hlen : List.length (headers s1) = List.length (hdrs (vh s))) by (rewrite <- V2; unfold vh; rewrite map_length; auto).
      rewrite Hlen in H.
      destruct (store_scan_spec b (List.length (hdrs (vh s)) - 1) s1) as (s2 & r & Hst & [(-> & l & n0 & tl & n & sc & Fl & Hw & Hn & Hs2 & Hsc)|(-> & _)]).
      + rewrite Hst in H. assert (l = h) by congruence. subst l.
        assert (I2 : inv s2).
        { subst s2. unfold inv in *. rewrite <- V1 in Hi. apply inv_snoc; [exact Hi|eapply named_fresh; eauto|subst sc; reflexivity]. }
        apply date_scan_view in H; [|apply I2]. destruct H as [(D1 & D2 & D3) D4].
        split; [rewrite D3; subst s2; simpl; congruence|]. split; [eapply inv_view; eauto|].
        split; [rewrite D4; subst s2; simpl; congruence|].
        rewrite D1, D2. replace (vh s2) with (hdrs (vh s)) by (subst s2; symmetry; exact V2).
        assert (Hv : vs s2 = vs s ++ [(n, info sc)]) by (subst s2; unfold vs; simpl; rewrite vd_app, V1; reflexivity).
        rewrite Hv. subst sc. cbn [info s_raw s_S s_num s_cmd s_hdr]. eapply BS_S; eauto.
        * subst b. apply (fw_hash (L "#S") rest h t); simpl; auto.
        * unfold vs. rewrite keys_vd, <- V1. auto.
      + rewrite Hst in H. discriminate.
  Qed.

  Inductive blocks_steps : list str -> list (str * (str * str * str * str * nat)) -> list str ->
                           list (str * (str * str * str * str * nat)) -> list str -> Prop :=
  | BSS_nil v h : blocks_steps [] v h v h
  | BSS_cons b bs v h v1 h1 v2 h2 : block_step b v h v1 h1 -> blocks_steps bs v1 h1 v2 h2 -> blocks_steps (b :: bs) v h v2 h2.

  Lemma blocks_first bs s s' : Forall good_sec bs -> last_scan s = None -> inv s -> read_blocks E known bs s = (s', None) ->
    last_scan s' = None /\ inv s' /\ fileName s' = fileName s /\ blocks_steps bs (vs s) (vh s) (vs s') (vh s').
  Proof.
    revert s; induction bs as [|b bs IH]; intros s Hg Hl Hi H; simpl in H.
    - inversion H; subst. split; [auto|split; [auto|split; [auto|constructor]]].
    - inversion Hg; subst. destruct (read_block E known b s) as [s1 [e|]] eqn:Eb; [discriminate|].
      apply block_first in Eb; auto. destruct Eb as (L1 & I1 & F1 & B1).
      destruct (IH s1) as (L2 & I2 & F2 & B2); auto. split; auto. split; auto. split; [congruence|].
      econstructor; eauto.
  Qed.

  Lemma open_first name p s : open_file E known name p = Ok s ->
    exists secs, dissect p = Ok secs /\ Forall good_sec secs /\ inv s /\ fileName s = name /\ blocks_steps secs [] [] (vs s) (vh s).
  Proof.
    unfold open_file. destruct (negb (exists_p p)); [discriminate|]. destruct (negb (is_spec_file p)); [discriminate|].
    destruct (read E known p (sdf_init name)) as [s1 [e|]] eqn:Er; [discriminate|]. intros H; inversion H; subst s1; clear H.
    unfold read in Er. destruct (dissect p) as [secs|] eqn:Ed; [|discriminate]. exists secs. split; auto.
    pose proof (dissect_good _ _ Ed) as Hg. split; auto.
    destruct (read_blocks E known secs (sdf_init name)) as [s1 [e|]] eqn:Eb; [discriminate|].
    apply blocks_first in Eb; auto; [|split; [constructor|reflexivity]].
    destruct Eb as (_ & I & F & B).
    set (s2 := match specFile s1 with Some _ => s1 | None => _ end) in Er.
    assert (V : scans s2 = scans s1 /\ headers s2 = headers s1 /\ fileName s2 = fileName s1) by (unfold s2; destruct (specFile s1); auto).
    destruct V as (V1 & V2 & V3).
    destruct (getLastScanNumber s2) as [k|]; [|discriminate]. destruct (stat p) as [[m z]|]; [|discriminate].
    inversion Er; subst s. unfold inv, vs, vh in *. simpl. rewrite V1, V2, V3. auto.
  Qed.
End Known.
