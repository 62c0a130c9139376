From Coq Require Import String Lia.
From Verif Require Import Py PyFacts Handlers Reader SpecText.
Import ListNotations.
Local Open Scope list_scope.

(* -- lines -- *)
Definition splits (nl : N -> bool) : str -> list str :=
  fix go s := match s with
  | [] => []
  | c :: t => if nl c then if (c =? CR)%N && hd_is LF t then go t else [] :: go t
              else cons_hd c (go t)
  end.
Lemma splits_spec nl s : nl CR = true -> nl LF = true -> Lines nl s (splits nl s).
Proof.
  intros HCR HLF. remember (List.length s) as n eqn:Hn. revert s Hn.
  induction n as [n IH] using lt_wf_ind. intros s Hn.
  destruct s as [|c t]; simpl; [constructor|].
  destruct (nl c) eqn:E.
  - destruct ((c =? CR)%N && hd_is LF t) eqn:E2.
    + apply andb_true_iff in E2; destruct E2 as [E2 E3]. apply N.eqb_eq in E2; subst c.
      destruct t as [|d t]; [discriminate|]. simpl in E3. apply N.eqb_eq in E3; subst d.
      simpl. rewrite HLF. simpl. apply (Lines_crlf nl [] t); [constructor|]. eapply IH; eauto. simpl in *; lia.
    + apply (Lines_one nl [] c t); auto; [constructor| |eapply IH; eauto; simpl in *; lia].
      intros -> t' ->. simpl in E2. discriminate.
  - assert (IHt : Lines nl t (splits nl t)) by (eapply IH; eauto; simpl in *; lia).
    destruct IHt as [|l Hl Hf|l t' ls Hf H|l d t' ls Hf Hd Hc H]; simpl.
    + apply Lines_last; [discriminate|]. constructor; auto; constructor.
    + apply Lines_last; [discriminate|]. constructor; auto.
    + apply (Lines_crlf nl (c :: l)); auto. constructor; auto.
    + apply (Lines_one nl (c :: l)); auto. constructor; auto.
Qed.
Lemma splits_free nl l t : free_of nl l ->
  splits nl (l ++ t) = match l with [] => splits nl t | _ => match splits nl t with [] => [l] | x :: r => (l ++ x) :: r end end.
Proof.
  induction l as [|c l IH]; intros H; auto. inversion H; subst. simpl. rewrite H2. rewrite IH by auto.
  destruct l as [|d l]; destruct (splits nl t); auto.
Qed.
Lemma splits_unique nl s ls : nl CR = true -> nl LF = true -> Lines nl s ls -> ls = splits nl s.
Proof.
  intros HCR HLF H. induction H as [|l Hl Hf|l t ls Hf H IH|l c t ls Hf Hc Hn H IH]; auto.
  - rewrite <- (app_nil_r l) at 2. rewrite splits_free by auto. destruct l; [congruence|auto].
  - rewrite splits_free by auto. simpl splits. rewrite HCR, HLF. simpl. rewrite IH.
    destruct l; simpl; rewrite ?app_nil_r; auto.
  - rewrite splits_free by auto. simpl splits. rewrite Hc.
    destruct ((c =? CR)%N && hd_is LF t) eqn:E2.
    + apply andb_true_iff in E2; destruct E2 as [E2 E3]. apply N.eqb_eq in E2.
      destruct t as [|d t]; [discriminate|]. simpl in E3. apply N.eqb_eq in E3; subst.
      exfalso. eapply Hn; eauto.
    + rewrite IH. destruct l; simpl; rewrite ?app_nil_r; auto.
Qed.
Lemma splitlines_splits s : splitlines s = splits is_eol s.
Proof. induction s as [|c s IH]; simpl; rewrite ?IH; auto. Qed.
Lemma splitlines_un s : splitlines (universal_newlines s) = splitlines s.
Proof.
  induction s as [|c t IH]; simpl; auto.
  destruct (c =? CR)%N eqn:E.
  - apply N.eqb_eq in E; subst. destruct (hd_is LF t) eqn:E2; simpl.
    + auto.
    + rewrite IH; auto.
  - simpl. rewrite E; simpl. rewrite IH; auto.
Qed.
Lemma text_lines_splits s : text_lines s = splits file_eol s.
Proof.
  unfold text_lines. induction s as [|c t IH]; simpl; auto.
  unfold file_eol at 1. destruct (c =? CR)%N eqn:E.
  - apply N.eqb_eq in E; subst. simpl. destruct (hd_is LF t) eqn:E2; simpl; rewrite ?IH; auto.
  - change ((c =? 13)%N) with ((c =? CR)%N). rewrite E, orb_false_r. simpl.
    change ((c =? 10)%N) with ((c =? LF)%N). destruct (c =? LF)%N; simpl; rewrite IH; auto.
Qed.
Lemma Lines_splitlines s ls : Lines py_eol s ls <-> ls = splitlines s.
Proof.
  rewrite splitlines_splits. split; [apply splits_unique; auto|intros ->; apply splits_spec; auto].
Qed.
Lemma Lines_text_lines s ls : Lines file_eol s ls <-> ls = text_lines s.
Proof.
  rewrite text_lines_splits. split; [apply splits_unique; auto|intros ->; apply splits_spec; auto].
Qed.
Lemma lines_exist_unique s : exists! ls, Lines py_eol s ls.
Proof.
  exists (splitlines s). split; [apply Lines_splitlines; auto|]. intros ls H. apply Lines_splitlines in H; auto.
Qed.
Lemma splitlines_free s : Forall (free_of is_eol) (splitlines s).
Proof.
  assert (H : Lines py_eol s (splitlines s)) by (apply Lines_splitlines; auto).
  induction H; constructor; auto; constructor.
Qed.

(* -- carriage returns -- *)
Lemma un_no_cr s : ~ In CR (universal_newlines s).
Proof.
  induction s as [|c t IH]; simpl; auto. destruct (c =? CR)%N eqn:E.
  - destruct (hd_is LF t); auto. simpl. intros [H|H]; [discriminate|auto].
  - apply N.eqb_neq in E. simpl; intros [H|H]; auto.
Qed.
Lemma replace_un s : replace [CR] [LF] (replace [CR; LF] [LF] (universal_newlines s)) = universal_newlines s.
Proof. rewrite (replace_none CR [LF]) by apply un_no_cr. apply (replace_none CR []); apply un_no_cr. Qed.

(* -- words -- *)
Lemma blank_forallb s : blank s <-> forallb is_space s = true.
Proof. unfold blank. rewrite forallb_forall, Forall_forall. tauto. Qed.
Lemma nospace_Forall s : nospace s = true <-> Forall (fun c => is_space c = false) s.
Proof.
  unfold nospace. rewrite forallb_forall, Forall_forall. split; intros H x Hx; specialize (H x Hx);
    destruct (is_space x); auto; discriminate.
Qed.
Lemma first_word_words l w : first_word_is l w <-> exists ws, words l = w :: ws.
Proof.
  split.
  - intros [[Hw Hn] (a & b & -> & Ha & Hb)]. apply blank_forallb in Ha. apply nospace_Forall in Hn.
    rewrite words_space_app by auto. destruct Hb as [->|(c & t & -> & Hc)].
    + rewrite app_nil_r, words_word; eauto.
    + rewrite words_word_space by auto; eauto.
  - intros [ws H]. destruct (words_cons _ _ _ H) as (a & b & -> & Ha & Hw & Hn & _ & Hb).
    split; [split; auto; apply nospace_Forall; auto|]. exists a, b. split; auto. split; [apply blank_forallb; auto|].
    destruct b as [|c t]; auto. right; eauto.
Qed.
Lemma section_start_spec l : is_section_start l = true <-> section_line l.
Proof.
  unfold is_section_start, section_line. rewrite !first_word_words.
  destruct (words l) as [|w ws]; [split; [discriminate|intros [[? H]|[[? H]|[? H]]]; discriminate]|].
  split.
  - destruct (Nat.eqb (List.length w) 2); simpl; [|discriminate].
    change (mem w section_keys = true -> (exists ws0, w :: ws = L "#F" :: ws0) \/
       (exists ws0, w :: ws = L "#E" :: ws0) \/ (exists ws0, w :: ws = L "#S" :: ws0)).
    rewrite mem_In. intros [<-|[<-|[<-|[]]]]; eauto.
  - intros [[? H]|[[? H]|[? H]]]; inversion H; subst; reflexivity.
Qed.
Lemma section_start_false l : is_section_start l = false <-> ~ section_line l.
Proof. rewrite <- section_start_spec. destruct (is_section_start l); split; congruence. Qed.

(* -- dissecting -- *)
Fixpoint group_lines (ls : list str) : list str * list (list str) :=
  match ls with
  | [] => ([], [])
  | l :: t => let '(p, g) := group_lines t in
              if is_section_start l then ([], (l :: p) :: g) else (l :: p, g)
  end.
Lemma group_concat ls : let '(p, g) := group_lines ls in ls = p ++ List.concat g /\
  Forall (fun l => ~ section_line l) p /\ Forall a_section g.
Proof.
  induction ls as [|l ls IH]; simpl; auto. destruct (group_lines ls) as [p g].
  destruct IH as (-> & Hp & Hg). destruct (is_section_start l) eqn:E; simpl.
  - repeat split; auto. constructor; auto. exists l, p. repeat split; auto. apply section_start_spec; auto.
  - repeat split; auto. constructor; auto. apply section_start_false; auto.
Qed.
(** slices between consecutive boundaries, relative to an offset *)
Lemma boundaries_group n ls pre : List.length pre = n ->
  let b := boundaries_from n ls ++ [n + List.length ls] in
  let '(p, g) := group_lines ls in
  map (fun sf => firstn (snd sf - fst sf) (skipn (fst sf) (pre ++ ls))) (combine (removelast b) (tl b)) = g
  /\ (forall x, hd 0 b = x -> x = n + List.length p).
Proof.
  revert n pre. induction ls as [|l ls IH]; intros n pre Hn.
  - simpl. split; auto.
  - simpl boundaries_from. simpl group_lines. specialize (IH (S n) (pre ++ [l])).
    rewrite app_length in IH; simpl in IH. specialize (IH ltac:(lia)). cbv zeta in IH |- *.
    replace (n + List.length (l :: ls)) with (S (n + List.length ls)) by (simpl; lia).
    rewrite <- app_assoc in IH; simpl in IH. pose proof (group_concat ls) as G.
    destruct (group_lines ls) as [p g] eqn:EG.
    remember (boundaries_from (S n) ls ++ [S (n + List.length ls)]) as b eqn:Hb.
    destruct IH as [IH1 IH2]. destruct (is_section_start l) eqn:E.
    + cbn [app]. rewrite <- Hb. split; [|simpl; intros; subst; lia].
      destruct b as [|b0 b]; [destruct (boundaries_from (S n) ls); discriminate|].
      specialize (IH2 b0 eq_refl).
      change (removelast (n :: b0 :: b)) with (n :: removelast (b0 :: b)).
      change (tl (n :: b0 :: b)) with (b0 :: b). 
      replace (combine (n :: removelast (b0 :: b)) (b0 :: b)) with ((n, b0) :: combine (removelast (b0 :: b)) (tl (b0 :: b))) by auto.
      cbn [map fst snd]. rewrite IH1. f_equal.
      rewrite skipn_app. replace (n - List.length pre) with 0 by lia. rewrite skipn_all2 by lia. simpl skipn.
      replace (b0 - n) with (S (List.length p)) by lia.
      simpl. f_equal. destruct G as [-> _]. rewrite firstn_app, Nat.sub_diag, firstn_all. simpl. apply app_nil_r.
    + rewrite <- Hb. split; auto. intros x Hx. specialize (IH2 x Hx). simpl; lia.
Qed.
Lemma dissect_text_groups buf :
  dissect_text buf = match snd (group_lines (splitlines buf)) with
                     | [] => Raise NotASpecDataFile
                     | g => Ok (map (join [LF]) g)
                     end.
Proof.
  unfold dissect_text. set (ls := splitlines buf).
  pose proof (boundaries_group 0 ls [] eq_refl) as H. cbv zeta in H. simpl app in H.
  destruct (group_lines ls) as [p g] eqn:EG. destruct H as [H _]. simpl snd.
  destruct (boundaries_from 0 ls) as [|b0 b] eqn:EB.
  - simpl in H. subst g. auto.
  - simpl plus in H. rewrite <- (map_map (fun sf => firstn (snd sf - fst sf) (skipn (fst sf) ls)) (join [LF])).
    rewrite H. destruct g as [|g0 g]; auto.
    exfalso. destruct b; discriminate.
Qed.

(* -- C01 -- *)
Lemma dissect_file_eq content m z secs :
  dissect (File (Some content) m z) = Ok secs ->
  dissect_text (universal_newlines content) = Ok secs.
Proof.
  unfold dissect, read_file. destruct (_ && _); simpl; [discriminate|]. rewrite replace_un; auto.
Qed.
Lemma split_join_section g : a_section g -> Forall (free_of is_eol) g -> split_c LF (join [LF] g) = g.
Proof.
  intros (h & t & -> & _) H. apply split_join; [discriminate|].
  eapply Forall_impl; [|exact H]. intros l Hl Hin. unfold free_of in Hl. rewrite Forall_forall in Hl.
  specialize (Hl _ Hin). discriminate.
Qed.
Lemma C01_lemma content m z ls secs :
  Lines py_eol content ls -> dissect (File (Some content) m z) = Ok secs ->
  exists pre groups,
    ls = pre ++ List.concat groups /\
    Forall (fun l => ~ section_line l) pre /\
    Forall a_section groups /\
    secs = map (join [LF]) groups /\
    map (split_c LF) secs = groups.
Proof.
  intros HL H. apply Lines_splitlines in HL. apply dissect_file_eq in H.
  rewrite dissect_text_groups, splitlines_un, <- HL in H.
  pose proof (group_concat ls) as G. destruct (group_lines ls) as [p g]. cbn [snd] in H.
  destruct G as (Hc & Hp & Hg). exists p, g. destruct g as [|g0 g]; [discriminate|].
  assert (Hs : secs = map (join [LF]) (g0 :: g)) by congruence. subst secs. clear H.
  repeat split; auto. rewrite map_map.
  assert (Hf : Forall (Forall (free_of is_eol)) (g0 :: g)).
  { pose proof (splitlines_free content) as F. rewrite <- HL, Hc in F. apply Forall_app in F; destruct F as [_ F].
    rewrite Forall_forall in *. intros x Hx. rewrite Forall_forall. intros y Hy. apply F. apply in_concat; eauto. }
  transitivity (map (fun x => x) (g0 :: g)); [|apply map_id]. apply map_ext_in. intros a Ha.
  rewrite Forall_forall in Hg, Hf. apply split_join_section; auto.
Qed.

(* -- C02 -- *)
Lemma count_groups ls : count section_line ls (List.length (snd (group_lines ls))).
Proof.
  induction ls as [|l ls IH]; simpl; [constructor|]. destruct (group_lines ls) as [p g].
  destruct (is_section_start l) eqn:E; simpl in *.
  - apply section_start_spec in E. constructor; auto.
  - apply section_start_false in E. constructor; auto.
Qed.
Lemma count_ex {A} (P : A -> Prop) l n x : count P l n -> In x l -> P x -> 0 < n.
Proof. intros H; induction H; simpl; intros [] ?; subst; try lia; try tauto; auto. Qed.
Lemma starts_with_prefixb p l : starts_with p l <-> prefixb (L p) l = true.
Proof. unfold starts_with. rewrite prefixb_spec. tauto. Qed.
Lemma existsb_starts p ls : existsb (prefixb (L p)) ls = true <-> exists l, In l ls /\ starts_with p l.
Proof.
  rewrite existsb_exists. split; intros [l [H1 H2]]; exists l; split; auto; apply starts_with_prefixb; auto.
Qed.
Lemma header_test content m z :
  is_spec_file_with_header (File (Some content) m z) = true <-> spec_header content.
Proof.
  unfold is_spec_file_with_header, spec_header. split.
  - destruct (text_lines content) as [|l1 [|l2 [|l3 [|l4 rest]]]] eqn:E; try discriminate.
    simpl firstn. simpl combine. cbn [List.length map Nat.eqb negb].
    intros H. exists l1, l2, l3, l4, rest. split; [apply Lines_text_lines; auto|].
    unfold forallb, fst, snd in H. rewrite !andb_true_iff in H. rewrite !starts_with_prefixb. tauto.
  - intros (l1 & l2 & l3 & l4 & rest & H & H1 & H2 & H3 & H4). apply Lines_text_lines in H. rewrite <- H.
    apply starts_with_prefixb in H1, H2, H3, H4. simpl firstn. simpl combine. cbn [List.length map Nat.eqb negb].
    unfold forallb, fst, snd. rewrite H1, H2, H3, H4. auto.
Qed.
Lemma recognised_read content m z :
  read_file (File (Some content) m z) =
  if existsb (prefixb (L "#S ")) (splitlines content) || is_spec_file_with_header (File (Some content) m z)
  then Ok (universal_newlines content) else Raise NotASpecDataFile.
Proof.
  unfold read_file. rewrite replace_un, splitlines_un. destruct (existsb _ _); cbn [negb andb orb]; auto.
  destruct (is_spec_file_with_header (File (Some content) m z)); auto.
Qed.
Lemma starts_with_section p l w : L p = w ++ [SP] -> a_word w -> In w [L "#F"; L "#E"; L "#S"] ->
  starts_with p l -> section_line l.
Proof.
  intros Hp Hw Hin [t ->]. assert (F : first_word_is (L p ++ t) w).
  { split; auto. exists [], (SP :: t). rewrite Hp, <- app_assoc. simpl. repeat split; auto; [constructor|].
    right; exists SP, t; auto. }
  unfold section_line. destruct Hin as [<-|[<-|[<-|[]]]]; auto.
Qed.
Lemma aw w : nospace w = true -> w <> [] -> a_word w.
Proof. intros; split; auto. apply nospace_Forall; auto. Qed.
Lemma Lines_prefix nl s l ls : Lines nl s (l :: ls) -> exists t, s = l ++ t.
Proof. intros H; inversion H; subst; eauto. exists []; rewrite app_nil_r; auto. Qed.
Lemma header_has_section content : spec_header content ->
  exists l, In l (splitlines content) /\ section_line l.
Proof.
  intros (l1 & l2 & l3 & l4 & rest & H & [t ->] & _). apply Lines_prefix in H. destruct H as [u ->].
  rewrite <- app_assoc. set (v := t ++ u). rewrite splitlines_splits.
  rewrite (splits_free is_eol (L "#F ")) by (repeat constructor).
  change (L "#F ") with [35; 70; 32]%N at 1. cbv iota beta.
  assert (S : forall x, section_line (L "#F " ++ x)).
  { intros x. apply (starts_with_section "#F " _ (L "#F")); simpl; auto; [apply aw; auto; discriminate|].
    exists x; auto. }
  destruct (splits is_eol v) as [|x r].
  - exists (L "#F "). split; [left; auto|]. specialize (S []). rewrite app_nil_r in S; auto.
  - exists (L "#F " ++ x). split; [left; auto|]. apply S.
Qed.
Lemma C02_lemma content m z ls :
  Lines py_eol content ls ->
  ((exists l, In l ls /\ starts_with "#S " l) \/ spec_header content ->
     exists secs n, dissect (File (Some content) m z) = Ok secs /\ count section_line ls n /\
                    List.length secs = n /\ 0 < n) /\
  (~ ((exists l, In l ls /\ starts_with "#S " l) \/ spec_header content) ->
     dissect (File (Some content) m z) = Raise NotASpecDataFile).
Proof.
  intros HL. apply Lines_splitlines in HL. subst ls.
  rewrite <- existsb_starts, <- (header_test content m z), <- orb_true_iff.
  unfold dissect. rewrite recognised_read.
  destruct (existsb _ _ || _) eqn:E; simpl.
  - split; [|intros H; exfalso; auto]. intros _.
    rewrite dissect_text_groups, splitlines_un. pose proof (count_groups (splitlines content)) as C.
    assert (Hpos : 0 < List.length (snd (group_lines (splitlines content)))).
    { apply orb_true_iff in E. assert (X : exists l, In l (splitlines content) /\ section_line l).
      { destruct E as [E|E].
        - apply existsb_starts in E. destruct E as (l & Hin & Hl). exists l; split; auto.
          apply (starts_with_section "#S " _ (L "#S")); simpl; auto. apply aw; auto; discriminate.
        - apply header_has_section. eapply header_test; eauto. }
      destruct X as (l & Hin & Hl). eapply count_ex; eauto. }
    destruct (snd (group_lines (splitlines content))) as [|g0 g]; [simpl in Hpos; lia|].
    exists (map (join [LF]) (g0 :: g)), (List.length (g0 :: g)).
    split; [reflexivity|]. split; [exact C|]. split; [apply map_length|exact Hpos].
  - split; auto. discriminate.
Qed.
Lemma C02_lemma2 content m z ls :
  Lines py_eol content ls -> Forall (fun l => ~ section_line l) ls ->
  dissect (File (Some content) m z) = Raise NotASpecDataFile.
Proof.
  intros HL HF. destruct (C02_lemma content m z ls HL) as [H1 H2]. apply H2. intros H.
  destruct (H1 H) as (secs & n & _ & C & _ & Hn). clear - C Hn HF.
  induction C; inversion HF; subst; auto; lia.
Qed.

(* -- C03 -- *)
Lemma un_free l s : free_of file_eol l -> universal_newlines (l ++ s) = l ++ universal_newlines s.
Proof.
  induction l as [|c l IH]; simpl; auto. intros H; inversion H; subst.
  unfold file_eol in H2. apply orb_false_iff in H2. destruct H2 as [_ H2].
  change ((c =? 13)%N) with ((c =? CR)%N) in H2. rewrite H2, IH; auto.
Qed.
Lemma render_head ls last : Forall (fun le => free_of file_eol (fst le)) ls -> free_of file_eol last ->
  hd_is LF (render ls last) = match ls with ([], E_LF) :: _ => true | _ => false end.
Proof.
  intros H Hl. destruct ls as [|[l e] t]; simpl.
  - destruct last as [|c last]; auto. simpl. inversion Hl; subst. unfold file_eol in H2.
    apply orb_false_iff in H2. destruct H2; auto.
  - inversion H; subst. simpl in *. destruct l as [|c l]; [destruct e; auto|]. simpl.
    inversion H2; subst. unfold file_eol in H4. apply orb_false_iff in H4. destruct H4 as [H4 ?].
    change (c =? LF)%N with (c =? 10)%N. rewrite H4. destruct e; auto.
Qed.
Lemma un_render ls last : Forall (fun le => free_of file_eol (fst le)) ls -> free_of file_eol last ->
  no_cr_lf_clash ls ->
  universal_newlines (render ls last) = List.concat (map (fun le => fst le ++ [LF]) ls) ++ last.
Proof.
  intros H Hl. induction ls as [|[l e] t IH]; simpl; intros Hc.
  - rewrite <- (app_nil_r last) at 1. rewrite un_free by auto. apply app_nil_r.
  - inversion H; subst. simpl in *. rewrite <- !app_assoc. rewrite un_free by auto. f_equal.
    assert (Hc' : no_cr_lf_clash t).
    { destruct e; auto. destruct t as [|[[|? ?] [| |]] t']; simpl in *; auto; tauto. }
    specialize (IH H3 Hc'). destruct e; simpl.
    + rewrite IH; auto.
    + rewrite IH; auto.
    + rewrite render_head by auto. destruct t as [|[[|? ?] [| |]] t']; try (rewrite IH; auto; fail). destruct Hc.
Qed.
Lemma C03_lemma a b last m z m' z' :
  map fst a = map fst b ->
  Forall (free_of file_eol) (map fst a) -> free_of file_eol last ->
  no_cr_lf_clash a -> no_cr_lf_clash b ->
  dissect (File (Some (render a last)) m z) = dissect (File (Some (render b last)) m' z').
Proof.
  intros Hab Hf Hl Ca Cb.
  assert (U : universal_newlines (render a last) = universal_newlines (render b last)).
  { rewrite !un_render; auto.
    - f_equal. assert (Q : forall x : list (str * eol), map (fun le => fst le ++ [LF]) x = map (fun l => l ++ [LF]) (map fst x))
        by (intros x; rewrite map_map; auto).
      rewrite !Q, Hab; auto.
    - rewrite Hab in Hf. rewrite Forall_map in Hf; auto.
    - rewrite Forall_map in Hf; auto. }
  unfold dissect, read_file, is_spec_file_with_header, text_lines. rewrite U. auto.
Qed.

(* -- C04 -- *)
Lemma C04_header p : is_spec_file_with_header p = true <->
  exists content m z, p = File (Some content) m z /\ spec_header content.
Proof.
  split.
  - intros H. destruct p as [| |[content|] m z]; try discriminate.
    exists content, m, z. split; auto. eapply header_test; eauto.
  - intros (content & m & z & -> & H). apply header_test; auto.
Qed.
Lemma C04_file p : is_spec_file p = true <->
  exists content m z, p = File (Some content) m z /\ (spec_header content \/ spec_scan_line content).
Proof.
  unfold is_spec_file. destruct p as [| |[content|] m z]; simpl exists_p; simpl isfile; simpl negb; cbn [orb].
  - split; [discriminate|]. intros (?&?&?&?&?); discriminate.
  - split; [discriminate|]. intros (?&?&?&?&?); discriminate.
  - assert (S : existsb (prefixb (L "#S ")) (text_lines content) = true <-> spec_scan_line content).
    { rewrite existsb_starts. unfold spec_scan_line. split.
      - intros (l & ? & ?). exists (text_lines content), l. split; auto. apply Lines_text_lines; auto.
      - intros (ls & l & H & ? & ?). apply Lines_text_lines in H; subst; eauto. }
    pose proof (header_test content m z) as HT.
    destruct (is_spec_file_with_header (File (Some content) m z)).
    + split; auto. intros _. exists content, m, z. split; auto. left; tauto.
    + rewrite S. split; [intros; exists content, m, z; auto|].
      intros (c & m' & z' & Heq & [H|H]); inversion Heq; subst; auto. apply HT in H; discriminate.
  - simpl. split; [discriminate|]. intros (?&?&?&?&?); discriminate.
Qed.
Lemma C04_open E known name p :
  (p = Absent -> open_file E known name p = Raise SpecDataFileNotFound) /\
  (p <> Absent -> is_spec_file p = false -> open_file E known name p = Raise NotASpecDataFile).
Proof.
  unfold open_file. split; [intros ->; auto|]. intros H H2. rewrite H2. destruct p; simpl; auto. congruence.
Qed.
