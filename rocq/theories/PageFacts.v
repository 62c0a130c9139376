(** Reading the pages of IndexPage.v. *)
From Coq Require Import String Lia.
From Verif Require Import Py PyFacts Keys Handlers Reader Cli Plot Gallery IndexPage SpecHtml SpecGallery GalleryFacts.
Import ListNotations.
Local Open Scope list_scope.

(** reading [s] in the state [st] gives [out] and the state [st'] *)
Definition goes (st : state) (s : str) (st' : state) (out : list token) : Prop := forall rest, read_from st (s ++ rest) = out ++ read_from st' rest.
Lemma goes_nil st : goes st [] st [].
Proof. intros r. reflexivity. Qed.
Lemma goes_app a b c s s' o o' : goes a s b o -> goes b s' c o' -> goes a (s ++ s') c (o ++ o').
Proof. intros H H' r. rewrite <- !app_assoc, H, H'. reflexivity. Qed.
Lemma goes_app0 a b c s s' o' : goes a s b [] -> goes b s' c o' -> goes a (s ++ s') c o'.
Proof. intros H H'. exact (goes_app _ _ _ _ _ _ _ H H'). Qed.
Lemma goes_cons a b c x s o' : (forall r, read_from a (x :: r) = read_from b r) -> goes b s c o' -> goes a (x :: s) c o'.
Proof. intros H H' r. cbn [app]. rewrite H. exact (H' r). Qed.

Lemma goes_text s : text_safe s -> forall t, goes (InText t) s (InText (rev s ++ t)) [].
Proof.
  induction s as [|c s IH]; intros H t; [exact (goes_nil _)|]. cbn [rev]. rewrite <- app_assoc. cbn [app].
  apply (goes_cons _ (InText (c :: t))). 
  - intros r. cbn [read_from step]. replace (N.eqb c 60) with false; [reflexivity|]. symmetry. apply N.eqb_neq. intros ->. apply H. left. reflexivity.
  - apply IH. intros Q. apply H. right. exact Q.
Qed.
Lemma goes_value q s : ~ In q s -> forall k n l a v, goes (Quoted k n l a q v) s (Quoted k n l a q (rev s ++ v)) [].
Proof.
  induction s as [|c s IH]; intros H k n l a v; [exact (goes_nil _)|]. cbn [rev]. rewrite <- app_assoc. cbn [app].
  apply (goes_cons _ (Quoted k n l a q (c :: v))).
  - intros r. cbn [read_from step]. replace (N.eqb c q) with false; [reflexivity|]. symmetry. apply N.eqb_neq. intros ->. apply H. left. reflexivity.
  - apply IH. intros Q. apply H. right. exact Q.
Qed.
Lemma goes_comment s : comment_safe s -> forall t, goes (InComment t) s (InComment (rev s ++ t)) [].
Proof.
  induction s as [|c s IH]; intros H t; [exact (goes_nil _)|]. cbn [rev]. rewrite <- app_assoc. cbn [app].
  apply (goes_cons _ (InComment (c :: t))).
  - intros r. cbn [read_from step]. assert (E : N.eqb c 62 = false). { apply N.eqb_neq. intros ->. apply H. left. reflexivity. }
    rewrite E. destruct t as [|x [|y t]]; reflexivity.
  - apply IH. intros Q. apply H. right. exact Q.
Qed.

(** blanks left from the line before *)
Lemma goes_link t v : ~ In 39%N v -> goes (InText t) (L "<a href='" ++ v ++ L "'>") (InText []) [Text (rev t); Open (L "a") [(L "href", v)]].
Proof.
  intros H. apply (goes_app _ (Quoted false (rev (L "a")) [] (L "href") 39%N []) _ _ _ [Text (rev t)] [Open (L "a") [(L "href", v)]]); [intros r; reflexivity|].
  pose proof (goes_value 39%N v H false (rev (L "a")) [] (L "href") []) as G. rewrite app_nil_r in G.
  apply (goes_app0 _ _ _ _ _ _ G). intros r. pose proof (rev_involutive v) as E. 
  assert (X : read_from (Quoted false (rev (L "a")) [] (L "href") 39 (rev v)) (L "'>" ++ r) = [Open (L "a") [(L "href", rev (rev v))]] ++ read_from (InText []) r) by reflexivity.
  rewrite E in X. exact X.
Qed.
Lemma goes_link2 t v : value_safe v -> goes (InText t) (L "<a href=""" ++ v ++ L """>") (InText []) [Text (rev t); Open (L "a") [(L "href", v)]].
Proof.
  intros H. apply (goes_app _ (Quoted false (rev (L "a")) [] (L "href") 34%N []) _ _ _ [Text (rev t)] [Open (L "a") [(L "href", v)]]); [intros r; reflexivity|].
  pose proof (goes_value 34%N v H false (rev (L "a")) [] (L "href") []) as G. rewrite app_nil_r in G.
  apply (goes_app0 _ _ _ _ _ _ G). intros r. pose proof (rev_involutive v) as E. 
  assert (X : read_from (Quoted false (rev (L "a")) [] (L "href") 34 (rev v)) (L """>" ++ r) = [Open (L "a") [(L "href", rev (rev v))]] ++ read_from (InText []) r) by reflexivity.
  rewrite E in X. exact X.
Qed.
Definition img (file alt : str) : token := Open (L "img") [(L "src", file); (L "width", L "150"); (L "height", L "75"); (L "alt", alt)].
Lemma goes_img t v alt : value_safe v -> value_safe alt ->
  goes (InText t) (L "<img src=""" ++ v ++ L """" ++ L " width=""150"" height=""75""" ++ L " alt=""" ++ alt ++ L """/>") (InText []) [Text (rev t); img v alt].
Proof.
  intros H H'. apply (goes_app _ (Quoted false (rev (L "img")) [] (L "src") 34%N []) _ _ _ [Text (rev t)] [img v alt]); [intros r; reflexivity|].
  pose proof (goes_value 34%N v H false (rev (L "img")) [] (L "src") []) as G. rewrite app_nil_r in G. apply (goes_app0 _ _ _ _ _ _ G). clear G.
  pose (l0 := [(L "height", L "75"); (L "width", L "150"); (L "src", rev (rev v))]).
  assert (G : goes (Quoted false (rev (L "img")) [] (L "src") 34%N (rev v)) (L """ width=""150"" height=""75"" alt=""") (Quoted false (rev (L "img")) l0 (L "alt") 34%N []) []) by (intros r; reflexivity).
  replace (L """" ++ L " width=""150"" height=""75""" ++ L " alt=""" ++ alt ++ L """/>") with (L """ width=""150"" height=""75"" alt=""" ++ alt ++ L """/>") by reflexivity.
  apply (goes_app0 _ _ _ _ _ _ G). clear G.
  pose proof (goes_value 34%N alt H' false (rev (L "img")) l0 (L "alt") []) as G. rewrite app_nil_r in G. apply (goes_app0 _ _ _ _ _ _ G). clear G.
  intros r.
  assert (X : read_from (Quoted false (rev (L "img")) l0 (L "alt") 34 (rev alt)) (L """/>" ++ r) = [img (rev (rev v)) (rev (rev alt))] ++ read_from (InText []) r) by reflexivity.
  rewrite !rev_involutive in X. exact X.
Qed.

(** ** What is seen *)
Definition blanks (s : str) : Prop := forallb blank_c s = true.
Lemma blanks_rev s : blanks s -> blanks (rev s).
Proof. unfold blanks. rewrite !forallb_forall. intros H x Hx. apply H. apply in_rev. exact Hx. Qed.
Lemma trim_blanks s s' : blanks s -> trim (s ++ s') = trim s'.
Proof.
  unfold blanks. induction s as [|c s IH]; [reflexivity|]. cbn [forallb app trim]. intros H. apply andb_true_iff in H. destruct H as [H1 H2]. rewrite H1. exact (IH H2).
Qed.
Lemma seen_blanks s : blanks s -> sees (Text s) = [].
Proof. intros H. cbn [sees]. rewrite <- (app_nil_r s), trim_blanks by exact H. reflexivity. Qed.
Lemma seen_after s s' : blanks s -> sees (Text (s ++ s')) = sees (Text s').
Proof. intros H. cbn [sees]. rewrite trim_blanks by exact H. reflexivity. Qed.
Lemma trim_visible s : visible s -> trim s <> [].
Proof.
  intros (c & H & H1 & H2 & H3). induction s as [|x s IH]; [destruct H|]. cbn [trim]. destruct (blank_c x) eqn:E; [|discriminate].
  apply IH. destruct H as [->|H]; [|exact H]. exfalso. unfold blank_c in E. rewrite !orb_true_iff, !N.eqb_eq in E. destruct E as [[E|E]|E]; contradiction.
Qed.
Lemma seen_visible s : visible s -> sees (Text s) = [Text (trim s)].
Proof. intros H. cbn [sees]. pose proof (trim_visible s H) as T. destruct (trim s); [exfalso; exact (T eq_refl)|reflexivity]. Qed.
(** after blanks, reading [s] shows [vis] and leaves blanks *)
Definition reads (s : str) (vis : list token) : Prop :=
  forall t, blanks t -> exists t' out, blanks t' /\ goes (InText t) s (InText t') out /\ flat_map sees out = vis.
Lemma reads_app s s' v v' : reads s v -> reads s' v' -> reads (s ++ s') (v ++ v').
Proof.
  intros H H' t Ht. destruct (H t Ht) as (t1 & o1 & H1 & G1 & V1). destruct (H' t1 H1) as (t2 & o2 & H2 & G2 & V2).
  exists t2, (o1 ++ o2). split; [exact H2|]. split; [exact (goes_app _ _ _ _ _ _ _ G1 G2)|]. rewrite flat_map_app, V1, V2. reflexivity.
Qed.
Lemma blanks_safe s : blanks s -> text_safe s.
Proof. unfold blanks. rewrite forallb_forall. intros H Q. pose proof (H _ Q) as E. discriminate E. Qed.
Lemma reads_blanks s : blanks s -> reads s [].
Proof.
  intros H t Ht. exists (rev s ++ t), []. split; [|split; [exact (goes_text s (blanks_safe s H) t)|reflexivity]].
  unfold blanks in *. rewrite forallb_app, (blanks_rev s H), Ht. reflexivity.
Qed.
Lemma reads_text s g toks : text_safe s -> (forall t, goes (InText t) g (InText []) (Text (rev t) :: toks)) -> reads (s ++ g) (sees (Text s) ++ flat_map sees toks).
Proof.
  intros Hs Hg t Ht. exists [], (Text (rev (rev s ++ t)) :: toks). split; [reflexivity|]. split; [exact (goes_app0 _ _ _ _ _ _ (goes_text s Hs t) (Hg _))|].
  cbn [flat_map]. rewrite rev_app_distr, rev_involutive, seen_after by exact (blanks_rev t Ht). reflexivity.
Qed.
Lemma reads_tag g toks : (forall t, goes (InText t) g (InText []) (Text (rev t) :: toks)) -> reads g (flat_map sees toks).
Proof. intros H. exact (reads_text [] g toks (fun Q => Q) H). Qed.
Lemma reads_html s v : reads s v -> read_html s = v.
Proof.
  intros H. destruct (H [] eq_refl) as (t & out & Ht & G & V). unfold read_html. rewrite <- (app_nil_r s), (G []), flat_map_app, V. cbn [read_from flat_map].
  rewrite (seen_blanks _ (blanks_rev t Ht)), !app_nil_r. reflexivity.
Qed.
Lemma reads_line l v : reads (List.concat l) v -> reads (line l) v.
Proof. intros H. unfold line. rewrite <- (app_nil_r v). apply reads_app; [exact H|apply reads_blanks; reflexivity]. Qed.
Lemma reads_concat l vs : Forall2 reads l vs -> reads (List.concat l) (List.concat vs).
Proof. induction 1 as [|s v l vs H _ IH]; cbn [List.concat]; [apply reads_blanks; reflexivity|apply reads_app; assumption]. Qed.
Lemma reads_join l vs : Forall2 reads l vs -> reads (join [LF] l) (List.concat vs).
Proof.
  induction 1 as [|s v l vs H F IH]; [apply reads_blanks; reflexivity|]. destruct F as [|s' v' l vs H' F].
  - cbn [join List.concat]. rewrite app_nil_r. exact H.
  - cbn [join List.concat]. apply reads_app; [exact H|]. change (reads ([LF] ++ join [LF] (s' :: l)) ([] ++ (v' ++ List.concat vs))).
    apply reads_app; [apply reads_blanks; reflexivity|exact IH].
Qed.
