(** What index.html shows: proofs. *)
From Coq Require Import String Lia.
From Verif Require Import Py PyFacts NumFacts Keys Handlers Reader Cli Plot Gallery IndexPage SpecPlot SpecGallery GalleryFacts GalleryFacts3 GalleryFacts7 SpecHtml SpecPage PageFacts.
Import ListNotations.
Local Open Scope list_scope.

Ltac tag_ := intros ?t ?r; reflexivity.
Lemma safe_app s s' : text_safe s -> text_safe s' -> text_safe (s ++ s').
Proof. intros H H' Q. apply in_app_or in Q. destruct Q; contradiction. Qed.
Lemma value_app s s' : value_safe s -> value_safe s' -> value_safe (s ++ s').
Proof. intros H H' Q. apply in_app_or in Q. destruct Q; contradiction. Qed.
Ltac lit_safe := let Q := fresh in intros Q; vm_compute in Q; intuition discriminate.
(** a line with a text in an element *)
Lemma reads_elem (pre post : str) s a b : text_safe s -> (forall t, goes (InText t) pre (InText []) [Text (rev t); a]) -> (forall t, goes (InText t) post (InText []) [Text (rev t); b]) ->
  reads (pre ++ s ++ post) (sees a ++ sees (Text s) ++ sees b).
Proof.
  intros H Ha Hb. apply reads_app.
  - rewrite <- (app_nil_r (sees a)). exact (reads_tag pre [a] Ha).
  - rewrite <- (app_nil_r (sees b)). exact (reads_text s post [b] H Hb).
Qed.
Lemma reads_plot sc l : quotable sc -> link_to sc l -> reads l (plot_shown sc).
Proof.
  intros [Hn Hc] ->. set (f := plot_name (s_num sc)). set (alt := L "#" ++ s_num sc ++ L ": " ++ s_cmd sc).
  assert (Hf : value_safe f). { unfold f, plot_name, value_safe. rewrite in_map_iff. intros (c & Q & Hi). destruct (N.eqb c 32); [discriminate Q|]. subst c. revert Hi. rewrite !in_app_iff.
    intros [Hi|[Hi|[Hi|Hi]]]; [revert Hi; lit_safe|apply repeat_spec in Hi; discriminate Hi|exact (Hn Hi)|revert Hi; lit_safe]. }
  assert (Ha : value_safe alt). { unfold alt. apply value_app; [lit_safe|]. apply value_app; [exact Hn|]. apply value_app; [lit_safe|exact Hc]. }
  replace (L "<a href=""" ++ f ++ L """><img src=""" ++ f ++ L """ width=""150"" height=""75"" alt=""#" ++ s_num sc ++ L ": " ++ s_cmd sc ++ L """/></a>")
    with ((L "<a href=""" ++ f ++ L """>") ++ (L "<img src=""" ++ f ++ L """" ++ L " width=""150"" height=""75""" ++ L " alt=""" ++ alt ++ L """/>") ++ L "</a>").
  2: { unfold alt. rewrite <- !app_assoc. reflexivity. }
  change (plot_shown sc) with ([Open (L "a") [(L "href", f)]] ++ [img f alt] ++ [Close (L "a")]).
  apply reads_app; [exact (reads_tag _ _ (fun t => goes_link2 t f Hf))|]. apply reads_app; [exact (reads_tag _ _ (fun t => goes_img t f alt Hf Ha))|].
  refine (reads_tag _ [Close (L "a")] _). tag_.
Qed.
Lemma reads_problem nm p : problem_fits nm p -> reads (problem_text nm p) (element "b" [] [Text (trim (nm (fst p)))] ++ [Text (L ": ")] ++ element "tt" [] [Text (L "#S " ++ snd p)]).
Proof.
  intros (H1 & H2 & H3). unfold problem_text.
  replace (L "<b>" ++ nm (fst p) ++ L "</b>" ++ L ": <tt>#S " ++ snd p ++ L "</tt>") with ((L "<b>" ++ nm (fst p) ++ L "</b>") ++ (L ": " ++ L "<tt>") ++ (L "#S " ++ snd p) ++ L "</tt>") by (rewrite <- !app_assoc; reflexivity).
  change (element "b" [] [Text (trim (nm (fst p)))] ++ [Text (L ": ")] ++ element "tt" [] [Text (L "#S " ++ snd p)])
    with ((sees (Open (L "b") []) ++ [Text (trim (nm (fst p)))] ++ sees (Close (L "b"))) ++ (sees (Text (L ": ")) ++ flat_map sees [Open (L "tt") []]) ++ (sees (Text (L "#S " ++ snd p)) ++ flat_map sees [Close (L "tt")])).
  rewrite <- (seen_visible _ H2).
  apply reads_app; [apply reads_elem; [exact H1|tag_|tag_]|]. apply reads_app; [apply reads_text; [lit_safe|tag_]|].
  apply reads_text; [apply safe_app; [lit_safe|exact H3]|tag_].
Qed.
Lemma digits_safe n : text_safe (str_of_nat n).
Proof.
  unfold str_of_nat. intros Q. pose proof (str_of_N_digits (N.of_nat n)) as D. rewrite Forall_forall in D. specialize (D _ Q). unfold ascii_digit in D. lia.
Qed.
Lemma digits_first n : exists c r, str_of_nat n = c :: r /\ blank_c c = false.
Proof.
  pose proof (str_of_N_digits (N.of_nat n)) as D. unfold str_of_nat. pose proof (str_of_N_ne (N.of_nat n)) as E. destruct (str_of_N (N.of_nat n)) as [|c r]; [exfalso; exact (E eq_refl)|].
  exists c, r. split; [reflexivity|]. inversion D as [|? ? D1 _]; subst. unfold ascii_digit in D1. unfold blank_c.
  apply orb_false_iff. split; [apply orb_false_iff; split|]; apply N.eqb_neq; lia.
Qed.
Lemma count_seen n s : sees (Text (str_of_nat n ++ s)) = [Text (str_of_nat n ++ s)].
Proof. destruct (digits_first n) as (c & r & -> & E). cbn [sees app trim]. rewrite E. reflexivity. Qed.
Lemma reads_item nm p : problem_fits nm p -> reads (line [L "    <li>"; problem_text nm p; L "</li>"]) (problem_shown nm p).
Proof.
  intros H. apply reads_line. cbn [List.concat]. rewrite app_nil_r.
  change (problem_shown nm p) with ((sees (Text (L "    ")) ++ flat_map sees [Open (L "li") []]) ++ (element "b" [] [Text (trim (nm (fst p)))] ++ [Text (L ": ")] ++ element "tt" [] [Text (L "#S " ++ snd p)]) ++ [Close (L "li")]).
  apply reads_app; [refine (reads_text (L "    ") (L "<li>") [Open (L "li") []] _ _); [lit_safe|tag_]|].
  apply reads_app; [exact (reads_problem nm p H)|]. refine (reads_tag _ [Close (L "li")] _). tag_.
Qed.
Lemma reads_h2 n s : text_safe (L s) -> reads (line [L "    <h2>"; str_of_nat n; L s ++ L "</h2>"]) (element "h2" [] [Text (str_of_nat n ++ L s)]).
Proof.
  intros H. apply reads_line. cbn [List.concat]. rewrite app_nil_r.
  replace (element "h2" [] [Text (str_of_nat n ++ L s)]) with ((sees (Text (L "    ")) ++ flat_map sees [Open (L "h2") []]) ++ (sees (Text (str_of_nat n ++ L s)) ++ flat_map sees [Close (L "h2")])).
  2: { rewrite count_seen. reflexivity. }
  apply reads_app; [refine (reads_text (L "    ") (L "<h2>") [Open (L "h2") []] _ _); [lit_safe|tag_]|].
  rewrite app_assoc. apply reads_text; [apply safe_app; [apply digits_safe|exact H]|tag_].
Qed.
Lemma reads_problems nm ps : Forall (problem_fits nm) ps -> reads
  (match map (problem_text nm) ps with
   | [] => []
   | _ => line [L "    <h2>"; str_of_nat (List.length (map (problem_text nm) ps)); L " scan(s) with plotting problems</h2>"] ++ line [] ++ line [L "    <ul>"] ++
          List.concat (map (fun item => line [L "    <li>"; item; L "</li>"]) (map (problem_text nm) ps)) ++ line [L "    </ul>"]
   end) (problems_shown nm ps).
Proof.
  intros H. rewrite map_length. unfold problems_shown.
  assert (X : reads (line [L "    <h2>"; str_of_nat (List.length ps); L " scan(s) with plotting problems</h2>"] ++ line [] ++ line [L "    <ul>"] ++
          List.concat (map (fun item => line [L "    <li>"; item; L "</li>"]) (map (problem_text nm) ps)) ++ line [L "    </ul>"])
     (element "h2" [] [Text (str_of_nat (List.length ps) ++ L " scan(s) with plotting problems")] ++ element "ul" [] (List.concat (map (problem_shown nm) ps)))).
  { apply reads_app; [apply (reads_h2 (List.length ps) " scan(s) with plotting problems"); lit_safe|].
    change (element "ul" [] (List.concat (map (problem_shown nm) ps))) with ([] ++ (sees (Text (L "    ")) ++ flat_map sees [Open (L "ul") []]) ++ (List.concat (map (problem_shown nm) ps)) ++ (sees (Text (L "    ")) ++ flat_map sees [Close (L "ul")])).
    apply reads_app; [apply reads_blanks; reflexivity|]. apply reads_app; [apply reads_line; cbn [List.concat]; rewrite app_nil_r; refine (reads_text (L "    ") (L "<ul>") [Open (L "ul") []] _ _); [lit_safe|tag_]|].
    apply reads_app; [|apply reads_line; cbn [List.concat]; rewrite app_nil_r; refine (reads_text (L "    ") (L "</ul>") [Close (L "ul")] _ _); [lit_safe|tag_]].
    apply reads_concat. clear - H. induction H as [|p ps Hp _ IH]; cbn [map]; constructor; [exact (reads_item nm p Hp)|exact IH]. }
  destruct ps; [apply reads_blanks; reflexivity|exact X].
Qed.
Lemma basename_safe (P : N -> Prop) s b : file_name s b -> (forall c, In c s -> P c) -> forall c, In c b -> P c.
Proof. intros [_ [->|(d & ->)]] H c Hc; [exact (H c Hc)|]. apply H. apply in_or_app. right. right. exact Hc. Qed.
Lemma comment_app s s' : comment_safe s -> comment_safe s' -> comment_safe (s ++ s').
Proof. intros H H' Q. apply in_app_or in Q. destruct Q; contradiction. Qed.
Lemma comment_line s f : comment_safe (L s) -> comment_safe f -> comment_safe (line [L s; f]).
Proof. intros H H'. unfold line. cbn [List.concat]. rewrite app_nil_r. apply comment_app; [apply comment_app; assumption|lit_safe]. Qed.
Lemma reads_comment c : comment_safe c -> reads (line [L "    <!-- "; c; L " -->"]) [].
Proof.
  intros H. apply reads_line. cbn [List.concat]. rewrite app_nil_r. intros t Ht. exists [], ([Text (rev (L "    " ++ t))] ++ [Comment (rev (32%N :: rev c ++ [32%N]))]). split; [reflexivity|]. split.
  - apply (goes_app _ (InComment [32%N])); [|apply (goes_app0 _ (InComment (rev c ++ [32%N]))); [exact (goes_comment c H [32%N])|]].
    2: { replace (L " -->") with (L " --" ++ L ">") by reflexivity. assert (C : comment_safe (L " --")) by lit_safe. apply (goes_app0 _ _ _ _ _ _ (goes_comment _ C (rev c ++ [32%N]))). intros r. reflexivity. }
    intros r. reflexivity.
  - cbn [flat_map app]. rewrite ?app_nil_r. change (sees (Comment (rev (32%N :: rev c ++ [32%N])))) with (@nil token). rewrite ?app_nil_r. apply seen_blanks. apply blanks_rev. unfold blanks. cbn. exact Ht.
Qed.

Lemma reads_line1 (s : string) toks : (forall t, goes (InText t) (L s) (InText []) (Text (rev t) :: toks)) -> reads (line [L s]) (flat_map sees toks).
Proof. intros H. apply reads_line. cbn [List.concat]. rewrite app_nil_r. exact (reads_tag _ toks H). Qed.
Lemma reads_ind (b s : string) toks : blanks (L b) -> (forall t, goes (InText t) (L s) (InText []) (Text (rev t) :: toks)) -> L (b ++ s) = L b ++ L s -> reads (line [L (b ++ s)]) (flat_map sees toks).
Proof.
  intros Hb H E. apply reads_line. cbn [List.concat]. rewrite app_nil_r, E. change (flat_map sees toks) with ([] ++ flat_map sees toks). apply reads_app; [apply reads_blanks; exact Hb|exact (reads_tag _ toks H)].
Qed.
Lemma page_lemma nm o specFile name links scs ps : file_name specFile name -> file_shown specFile -> outside_fits o -> Forall quotable scs -> Forall (problem_fits nm) ps -> Forall2 link_to scs links ->
  read_html (buildIndexHtml o specFile links (map (problem_text nm) ps)) = page_shown nm (o_now o) specFile name scs ps.
Proof.
  intros Hn (Hs1 & Hs2 & Hs3) [Ho Hnow] Hq Hp Hl. apply reads_html. unfold buildIndexHtml.
  rewrite (file_name_one specFile (basename specFile) name (basename_spec specFile) Hn).
  assert (Hb1 : text_safe name). { intros Q. refine (basename_safe (fun c => c <> 60%N) _ _ Hn _ _ Q eq_refl). intros c Hc ->. exact (Hs1 Hc). }
  assert (Hb3 : ~ In 39%N name). { intros Q. refine (basename_safe (fun c => c <> 39%N) _ _ Hn _ _ Q eq_refl). intros c Hc ->. exact (Hs3 Hc). }
  set (cm := line [] ++ line [L "   written by: "; o_argv0 o] ++ _).
  assert (Hcm : comment_safe cm).
  { unfold cm. rewrite !Forall_forall in Ho. apply comment_app; [lit_safe|].
    repeat (apply comment_app; [apply comment_line; [lit_safe|apply Ho; cbn [In]; tauto]|]). apply comment_line; [lit_safe|apply Ho; cbn [In]; tauto]. }
  clearbody cm.
  replace (page_shown nm (o_now o) specFile name scs ps) with (
    [Open (L "html") []] ++ [Open (L "head") []] ++
    ([Open (L "title") []] ++ [Text (L "SPEC scans from " ++ name)] ++ [Close (L "title")]) ++ [] ++ [Close (L "head")] ++ [Open (L "body") []] ++
    ([Open (L "h1") []] ++ [Text (L "SPEC scans from: " ++ name)] ++ [Close (L "h1")]) ++ [] ++
    ([Text (L "spec file: ")] ++ [Open (L "a") [(L "href", name)]] ++ [Text (trim specFile)] ++ [Close (L "a")]) ++ [Open (L "br") []] ++ [] ++
    problems_shown nm ps ++ [] ++
    element "h2" [] [Text (str_of_nat (List.length scs) ++ L " plotted scan(s)")] ++ [] ++
    List.concat (map plot_shown scs) ++ [] ++ [] ++ [Open (L "hr") []] ++
    ([Open (L "center") []; Open (L "small") []] ++ [Text (L "page created: " ++ o_now o ++ L ", specplot_gallery documentation: "); Open (L "a") [(L "href", DOC_URL)]] ++ [Text DOC_URL; Close (L "a")] ++ [Close (L "small"); Close (L "center")]) ++
    [] ++ [Close (L "body")] ++ [Close (L "html")]).
  2: { unfold page_shown, element, void. cbn [map app fst snd]. rewrite ?app_nil_r. repeat (rewrite <- !app_assoc; cbn [app]). reflexivity. }
  apply reads_app; [refine (reads_line1 "<html>" [Open (L "html") []] _); tag_|].
  apply reads_app; [refine (reads_ind "  " "<head>" [Open (L "head") []] _ _ _); [reflexivity|tag_|reflexivity]|].
  apply reads_app.
  { apply reads_line. cbn [List.concat]. rewrite app_nil_r.
    change ([Open (L "title") []] ++ [Text (L "SPEC scans from " ++ name)] ++ [Close (L "title")]) with ([] ++ (flat_map sees [Open (L "title") []]) ++ (sees (Text (L "SPEC scans from " ++ name)) ++ flat_map sees [Close (L "title")])).
    replace (L "    <title>SPEC scans from " ++ name ++ L "</title>") with (L "    " ++ L "<title>" ++ (L "SPEC scans from " ++ name) ++ L "</title>") by (rewrite <- !app_assoc; reflexivity).
    apply reads_app; [apply reads_blanks; reflexivity|]. apply reads_app; [refine (reads_tag _ [Open (L "title") []] _); tag_|]. apply reads_text; [apply safe_app; [lit_safe|exact Hb1]|tag_]. }
  apply reads_app; [apply reads_comment; exact Hcm|].
  apply reads_app; [refine (reads_ind "  " "</head>" [Close (L "head")] _ _ _); [reflexivity|tag_|reflexivity]|].
  apply reads_app; [refine (reads_ind "  " "<body>" [Open (L "body") []] _ _ _); [reflexivity|tag_|reflexivity]|].
  apply reads_app.
  { apply reads_line. cbn [List.concat]. rewrite app_nil_r.
    change ([Open (L "h1") []] ++ [Text (L "SPEC scans from: " ++ name)] ++ [Close (L "h1")]) with ([] ++ (flat_map sees [Open (L "h1") []]) ++ (sees (Text (L "SPEC scans from: " ++ name)) ++ flat_map sees [Close (L "h1")])).
    replace (L "    <h1>SPEC scans from: " ++ name ++ L "</h1>") with (L "    " ++ L "<h1>" ++ (L "SPEC scans from: " ++ name) ++ L "</h1>") by (rewrite <- !app_assoc; reflexivity).
    apply reads_app; [apply reads_blanks; reflexivity|]. apply reads_app; [refine (reads_tag _ [Open (L "h1") []] _); tag_|]. apply reads_text; [apply safe_app; [lit_safe|exact Hb1]|tag_]. }
  apply reads_app; [apply reads_blanks; reflexivity|].
  apply reads_app.
  { apply reads_line. cbn [List.concat]. rewrite app_nil_r.
    change ([Text (L "spec file: ")] ++ [Open (L "a") [(L "href", name)]] ++ [Text (trim specFile)] ++ [Close (L "a")]) with
      ((sees (Text (L "    spec file: ")) ++ flat_map sees [Open (L "a") [(L "href", name)]]) ++ ([Text (trim specFile)] ++ flat_map sees [Close (L "a")])).
    replace (L "    spec file: " ++ L "<a href='" ++ name ++ L "'>" ++ specFile ++ L "</a>") with ((L "    spec file: " ++ (L "<a href='" ++ name ++ L "'>")) ++ specFile ++ L "</a>") by (rewrite <- !app_assoc; reflexivity).
    apply reads_app; [apply reads_text; [lit_safe|exact (fun t => goes_link t name Hb3)]|]. rewrite <- (seen_visible _ Hs2). apply reads_text; [exact Hs1|tag_]. }
  apply reads_app; [refine (reads_ind "    " "<br />" [Open (L "br") []] _ _ _); [reflexivity|tag_|reflexivity]|].
  apply reads_app; [apply reads_blanks; reflexivity|].
  apply reads_app; [exact (reads_problems nm ps Hp)|].
  apply reads_app; [apply reads_blanks; reflexivity|].
  apply reads_app.
  { replace (List.length links) with (List.length scs) by (clear - Hl; induction Hl; cbn [List.length]; congruence). apply (reads_h2 (List.length scs) " plotted scan(s)"). lit_safe. }
  apply reads_app; [apply reads_blanks; reflexivity|].
  apply reads_app.
  { apply reads_join. clear - Hl Hq. induction Hl as [|sc l scs links H _ IH]; cbn [map]; constructor; inversion Hq; subst; [apply reads_plot; assumption|apply IH; assumption]. }
  apply reads_app; [apply reads_blanks; reflexivity|]. apply reads_app; [apply reads_blanks; reflexivity|].
  apply reads_app; [refine (reads_ind "    " "<hr />" [Open (L "hr") []] _ _ _); [reflexivity|tag_|reflexivity]|].
  apply reads_app.
  { apply reads_line. cbn [List.concat]. rewrite app_nil_r.
    replace (L "    <center><small>" ++ L "page created: " ++ o_now o ++ L ", specplot_gallery documentation: <a href=""" ++ DOC_URL ++ L """>" ++ DOC_URL ++ L "</a>" ++ L "</small></center>")
      with ((L "    " ++ L "<center><small>") ++ ((L "page created: " ++ o_now o ++ L ", specplot_gallery documentation: ") ++ (L "<a href=""" ++ DOC_URL ++ L """>")) ++ (DOC_URL ++ L "</a>") ++ L "</small></center>").
    2: { rewrite <- !app_assoc. reflexivity. }
    apply reads_app; [refine (reads_text (L "    ") (L "<center><small>") [Open (L "center") []; Text []; Open (L "small") []] _ _); [lit_safe|tag_]|].
    apply reads_app.
    { refine (reads_text _ _ [Open (L "a") [(L "href", DOC_URL)]] _ _); [apply safe_app; [lit_safe|apply safe_app; [exact Hnow|lit_safe]]|]. intros t. apply goes_link2. lit_safe. }
    apply reads_app; [refine (reads_text DOC_URL (L "</a>") [Close (L "a")] _ _); [lit_safe|tag_]|].
    refine (reads_tag _ [Close (L "small"); Text []; Close (L "center")] _). tag_. }
  apply reads_app; [apply reads_blanks; reflexivity|].
  apply reads_app; [refine (reads_ind "  " "</body>" [Close (L "body")] _ _ _); [reflexivity|tag_|reflexivity]|].
  refine (reads_line1 "</html>" [Close (L "html")] _); tag_.
Qed.
