(** C113: the reports of a diffractometer.  Theorems only; proofs are in ReportFacts.v and ReportRun.v. *)
From Coq Require Import String Lia.
From Verif Require Import Uni Py PyFacts Time Keys SpecKeys Geom GeomData Handlers Reader SpecText SpecReader SpecHistory SpecInterp SpecTables SpecGeom TextFacts InterpFacts ExampleFacts GeomFacts3
  Report SpecReport ReportFacts ReportRun PropData PropTables PropGeom PropEntry PropEntry3.
Import ListNotations.
Local Open Scope list_scope.

(** ** where a diffractometer comes from *)
Theorem C113_diffractometer_of_a_scan : forall E known, incl all_hids known -> forall s name sc s' sc' d, first_interpret E known s name sc s' sc' ->
  attr_is sc' A_diffractometer d -> exists i, made_of s' sc' i /\ diffr_of catalog i = Ok d.
Proof. intros E known Hk s name sc s' sc' d H Hd. exact (diffr_run E known Hk s name sc s' sc' d H Hd). Qed.
Print Assumptions C113_diffractometer_of_a_scan.
(** a scan with a line that a #G handler takes has one *)
Theorem C113_there_is_one : forall E known, incl all_hids known -> forall s name sc s' sc' ls l, first_interpret E known s name sc s' sc' -> lines_of (s_raw sc) ls ->
  In l ls -> control H_G l -> exists d, attr_is sc' A_diffractometer d.
Proof.
  intros E known Hk s name sc s' sc' ls l H Hl Hin Hc. apply InterpFacts.lines_of_scan_lines in Hl. subst ls.
  refine (has_diffr E known Hk s name sc s' sc' l H Hin _).
  apply (eff_control known Hk l H_G); [|discriminate|discriminate|exact Hc]. exact (proj1 (Forall_forall _ _) (InterpFacts.scan_lines_no_lf (s_raw sc)) l Hin).
Qed.
Print Assumptions C113_there_is_one.

(** ** [str]: name, wavelength, mode and sector, and the Miller indices of the geometry *)
Definition str_report (G : dict str) (g : geometry) (d : diffr) (t : text) : Prop := exists hkl w m z,
  Forall2 (fun nq v => q_value G g (snd nq) v) (index_names g) hkl /\ wavelength_text G g w /\ or_none (fun m => [Pc m]) (d_mode d) m /\ or_none (fun z => [Pc (str_of_Z z)]) (d_sector d) z /\
  t = [Pc (L "Diffractometer(")] ++ between ", " ([[Pc (L "geometry"); Pc (L "="); Pc (L "'"); Pc (d_name d); Pc (L "'")]; [Pc (L "wavelength"); Pc (L "=")] ++ w;
        [Pc (L "mode"); Pc (L "="); Pc (L "'")] ++ m ++ [Pc (L "'")]; [Pc (L "sector"); Pc (L "=")] ++ z] ++
        map (fun nv => equation (fst (fst nv), snd nv)) (combine (index_names g) hkl)) ++ [Pc (L ")")].
(** ** [print_brief]: name, Miller indices, angles and wavelength, and the first positioners *)
Definition brief_report (G : dict str) (g : geometry) (d : diffr) (p : dict fl) (lines : list text) : Prop := exists hkl a1 a2 w,
  Forall2 (fun nq v => q_value G g (snd nq) v) (index_names g) hkl /\
  listed G g [("alpha", "ALPHA"); ("beta", "BETA"); ("azimuth", "AZIMUTH")]%string a1 /\ listed G g [("omega", "OMEGA")]%string a2 /\ wavelength_text G g w /\
  lines = [Pc (d_name d)] ::
    (match index_names g with [] => [] | ns => [between " " (map (fun nq => [Pc (L (fst nq))]) ns) ++ [Pc (L " = ")] ++ between "  " (map (fun v => [Pn v]) hkl)] end) ++
    [between "  " (map equation a1); between "  " (map equation a2 ++ [[Pc (L "wavelength"); Pc (L "=")] ++ w])] ++
    map (fun mv => [Pc (fst mv); Pc (L " = "); Pn (snd mv)]) (firstn (g_numgeo g) p).
(** ** [print_all]: a line for each label, labels all different and centered to the same width; positioners come first where labels agree *)
Definition all_report (sc : scan) (G : dict str) (g : geometry) (d : diffr) (p : dict fl) (lines : list text) : Prop := exists (rep : list (str * text)) w,
  NoDup (map fst rep) /\ Forall2 (fun nt line => label_line w (fst nt) (snd nt) line) rep lines /\ (exists nt, In nt rep /\ List.length (fst nt) = w) /\
  forall n t, In (n, t) rep <-> (exists v, In (n, v) (firstn (g_numgeo g) p) /\ t = [Pn v]) \/ (~ In n (keys (firstn (g_numgeo g) p)) /\ entry sc G g d n t).

Theorem C113_reports_partial : forall E known, incl all_hids known -> forall s name sc s' sc' d, first_interpret E known s name sc s' sc' ->
  attr_is sc' A_diffractometer d -> exists G g p, attr_is sc' A_G G /\ In g catalog /\ g_name g = d_name d /\ attr_is sc' A_positioner p /\
  (has_indices G g -> (exists t, print_str d = Ok t /\ str_report G g d t) /\ (exists lines, print_brief d p = Ok lines /\ brief_report G g d p lines) /\
     (forall m, has_UB G m -> exists lines, print_all d sc' = Ok lines /\ all_report sc' G g d p lines)) /\
  (~ has_indices G g -> print_str d = Raise KeyError /\ print_brief d p = Raise KeyError /\ print_all d sc' = Raise KeyError) /\
  (has_indices G g -> (forall m, ~ has_UB G m) -> print_all d sc' = Raise AttributeError).
Proof.
  intros E known Hk s name sc s' sc' d H Hd. destruct (diffr_run E known Hk s name sc s' sc' d H Hd) as (i & (o & c & q & G & Ho & Hc & HG & Ei) & Ed).
  destruct (others E known Hk s name sc s' sc' H) as (f & p & Hf & Hp & ND). destruct (the_parts i d Ed) as (g & P).
  assert (EG : gi_G i = G) by (rewrite Ei; reflexivity).
  exists G, g, p. split; [exact HG|]. split; [exact (pa_in i d g P)|]. split; [exact (pa_name i d g P)|]. split; [exact Hp|]. rewrite <- EG. split; [|split].
  - intros I. destruct (indices_some i g I) as (hkl & F). split; [|split].
    + eexists. split; [exact (str_ok i d g P hkl F)|]. exists hkl, (opt_text (fun f => [Pn f]) (d_wavelength d)), (opt_text (fun m => [Pc m]) (d_mode d)), (opt_text (fun z => [Pc (str_of_Z z)]) (d_sector d)).
      split; [exact F|]. split; [apply (pa_wave i d g P); reflexivity|]. split; [destruct (d_mode d) as [x|]; [left; exists x; auto|right; auto]|]. split; [destruct (d_sector d) as [x|]; [left; exists x; auto|right; auto]|].
      rewrite map_app. unfold q_info. assert (X : map (fun kv : str * text => Pc (fst kv) :: Pc (L "=") :: snd kv) (combine (map (fun nq => L (fst nq)) (index_names g)) (map (fun v => [Pn v]) hkl : list text)) =
        map (fun nv : string * string * fl => equation (fst (fst nv), snd nv)) (combine (index_names g) hkl)); [|exact (f_equal (fun z => tx "Diffractometer(" ++ between ", " (map (fun kv : str * text => Pc (fst kv) :: Pc (L "=") :: snd kv) (info0 d) ++ z) ++ tx ")") X)].
      clear. revert hkl. induction (index_names g) as [|[a b] l IH]; intros [|v hkl]; cbn [map combine]; try reflexivity. rewrite IH. reflexivity.
    + destruct (brief_ok i d g P hkl p F) as (a1 & a2 & w & B1 & B2 & B3 & B4). eexists. split; [exact B4|]. exists hkl, a1, a2, w. split; [exact F|]. split; [exact B1|]. split; [exact B2|]. split; [exact B3|]. reflexivity.
    + intros m Hm. destruct (all_ok i d g P sc' f p Hf Hp ND m I Hm) as (lines & rep & w & A1 & A2 & A3 & A4 & A5). exists lines. split; [exact A1|]. exists rep, w. auto.
  - intros I. split; [|split].
    + unfold print_str. rewrite (reports_fail i d g P Lstr I). reflexivity.
    + exact (brief_fail i d g P p I).
    + exact (all_fail i d g P sc' f Hf I).
  - intros I X. exact (all_no_UB i d g P sc' f Hf I X).
Qed.
Print Assumptions C113_reports_partial.

(** ** an example, and lines that are missing *)
Definition only_scan (geo : list string) : path := file (head ++ ["#O0 2-theta  theta  chi  phi"; "#O1 x"; "#S 1 ascan x 0 1 1 1"; "#D Wed Nov 03 13:48:06 2010"; "#T 1  (Seconds)"]%string ++ geo ++
  ["#P0 1 2 3 4"; "#P1 5"; "#N 2"; "#L a  b"; "1 2"]%string) 5 6.
Definition all_G : path := only_scan with_geo.
(** without #G4, and without #G3 *)
Definition no_G4 : path := only_scan [("#G0 " ++ G0_line)%string; ("#G1 " ++ G1_line)%string; "#G3 1 2 3 4 5 6 7 8 9"%string].
Definition no_G3 : path := only_scan [("#G0 " ++ G0_line)%string; ("#G1 " ++ G1_line)%string; ("#G4 " ++ G4_line)%string].
Lemma all_G_good : good all_G. Proof. good_tac. Qed.
Lemma no_G4_good : good no_G4. Proof. good_tac. Qed.
Lemma no_G3_good : good no_G3. Proof. good_tac. Qed.

Definition d_of (p : path) : diffr := match s_obj (after p) A_diffractometer with Some d => d | None => new_diffr [] end.
Definition p_of (p : path) : dict fl := match s_obj (after p) A_positioner with Some d => d | None => [] end.
Definition brief_lines : list text := [[Pc (L "fourc")];
    [Pc (L "h"); Pc (L " "); Pc (L "k"); Pc (L " "); Pc (L "l"); Pc (L " = "); Pn (FDec 1 0); Pc (L "  "); Pn (FDec 2 0); Pc (L "  "); Pn (FDec 3 0)];
    [Pc (L "alpha"); Pc (L "="); Pn (FDec 0 0); Pc (L "  "); Pc (L "beta"); Pc (L "="); Pn (FDec 0 0); Pc (L "  "); Pc (L "azimuth"); Pc (L "="); Pn (FDec 0 0)];
    [Pc (L "omega"); Pc (L "="); Pn (FDec 0 0); Pc (L "  "); Pc (L "wavelength"); Pc (L "="); Pn (FDec 154 (-2))];
    [Pc (L "2-theta"); Pc (L " = "); Pn (FDec 1 0)]; [Pc (L "theta"); Pc (L " = "); Pn (FDec 2 0)]; [Pc (L "chi"); Pc (L " = "); Pn (FDec 3 0)]; [Pc (L "phi"); Pc (L " = "); Pn (FDec 4 0)]].
Example C113_example : attr_is (after all_G) A_diffractometer (d_of all_G) /\ d_name (d_of all_G) = L "fourc" /\
  print_brief (d_of all_G) (p_of all_G) = Ok brief_lines /\
  (exists lines, print_all (d_of all_G) (after all_G) = Ok lines /\ nth_error lines 0 = Some [Pc (L "    SPEC file     "); Pc (L " = "); Pc (L "f")] /\
     In [Pc (L "       chi        "); Pc (L " = "); Pn (FDec 3 0)] lines /\ In [Pc (L "        UB        "); Pc (L " = "); Pmat (map (fun z => FDec z 0) [1; 2; 3; 4; 5; 6; 7; 8; 9]%Z)] lines).
Proof.
  split; [vm_compute; reflexivity|]. split; [vm_compute; reflexivity|]. split; [vm_compute; reflexivity|]. vm_compute. eexists. split; [reflexivity|]. split; [reflexivity|].
  split; repeat (first [left; reflexivity|right]).
Qed.
(** the hypotheses of the theorem *)
Example C113_applies : exists G g, attr_is (after all_G) A_G G /\ In g catalog /\ has_indices G g /\ index_names g <> [] /\ exists m, has_UB G m.
Proof.
  destruct (C113_reports_partial E0 all_hids (incl_refl _) _ _ _ _ _ (d_of all_G) all_G_good ltac:(vm_compute; reflexivity)) as (G & g & p & HG & Hin & Hn & Hp & _ & F & A).
  exists G, g. split; [exact HG|]. split; [exact Hin|].
  assert (HP : p = p_of all_G) by (unfold attr_is in Hp; unfold p_of; rewrite Hp; reflexivity).
  assert (I : has_indices G g).
  { destruct (given_dec G "G4" (g_Q g)) as [X|X]; [right; exact X|]. destruct (index_names g) eqn:Ei; [left; exact Ei|]. exfalso.
    assert (N : ~ has_indices G g) by (intros [Y|Y]; [congruence|exact (X Y)]). destruct (F N) as (_ & Fb & _).
    rewrite HP in Fb. rewrite (proj1 (proj2 (proj2 C113_example))) in Fb. discriminate Fb. }
  split; [exact I|]. split.
  - intros E. assert (X : existsb (fun g => seqb (g_name g) (L "fourc") && match index_names g with [] => true | _ => false end) catalog = true).
    { apply existsb_exists. exists g. split; [exact Hin|]. rewrite Hn, E. vm_compute. reflexivity. }
    vm_compute in X. discriminate X.
  - assert (HG2 : exists g0 g1 g4, G = [(L "G0", g0); (L "G1", g1); (L "G3", L "1 2 3 4 5 6 7 8 9"); (L "G4", g4)]).
    { assert (Q : exists G', s_obj (after all_G) A_G = Some G' /\ exists g0 g1 g4, G' = [(L "G0", g0); (L "G1", g1); (L "G3", L "1 2 3 4 5 6 7 8 9"); (L "G4", g4)]).
      { vm_compute. eexists. split; [reflexivity|]. eexists. eexists. eexists. reflexivity. }
      destruct Q as (G' & Q1 & Q2). unfold attr_is in HG. rewrite HG in Q1. apply MonadFacts.Some_inj in Q1. rewrite Q1. exact Q2. }
    destruct HG2 as (g0 & g1 & g4 & ->). exists (numbers_of "1 2 3 4 5 6 7 8 9"). split; [|vm_compute; reflexivity].
    apply numbers_on_ok; [reflexivity|]. vm_compute. eexists. reflexivity.
Qed.
(** reports need #G4 (for a geometry with Miller indices) and the long one needs #G3 as well *)
Theorem C113_reports_refuted :
  (exists d p, attr_is (after no_G4) A_diffractometer d /\ attr_is (after no_G4) A_positioner p /\ print_str d = Raise KeyError /\ print_brief d p = Raise KeyError /\
     print_all d (after no_G4) = Raise KeyError) /\
  (exists d p lines, attr_is (after no_G3) A_diffractometer d /\ attr_is (after no_G3) A_positioner p /\ print_brief d p = Ok lines /\ print_all d (after no_G3) = Raise AttributeError).
Proof.
  split.
  - exists (d_of no_G4), (p_of no_G4). split; [vm_compute; reflexivity|]. split; [vm_compute; reflexivity|]. split; [vm_compute; reflexivity|]. split; vm_compute; reflexivity.
  - exists (d_of no_G3), (p_of no_G3), brief_lines. split; [vm_compute; reflexivity|]. split; [vm_compute; reflexivity|]. split; vm_compute; reflexivity.
Qed.
Print Assumptions C113_reports_refuted.
