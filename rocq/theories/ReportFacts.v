(** C113: proofs about the reports of a diffractometer *)
From Coq Require Import String Lia QArith.
From Verif Require Import Uni Py PyFacts NumFacts Utils Keys GeomData Geom MillerData Handlers Reader SpecText SpecReader SpecNum SpecHistory SpecInterp SpecData SpecGeom
  MonadFacts FrameFacts OrderFacts InterpFacts DataFacts GeomFacts GeomFacts2 GeomFacts3 Report SpecReport.
Import ListNotations.
Local Open Scope nat_scope.
Local Open Scope list_scope.

(** ** The Miller indices of the catalog *)
Definition q_names_of (g : geometry) : list str :=
  map (fun q => lower (fst q)) (List.filter (fun q => has_text (L "Miller index") (snd q)) (match dget (g_name g) q_table with Some l => l | None => [] end)).
Definition pairs_eqb (l : list str) (m : list (string * string)) : bool := strs_eqb l (map (fun nq => L (fst nq)) m).
Definition index_case (g : geometry) : bool :=
  pairs_eqb (q_names_of g) (index_names g) &&
  (pairs_eqb (map (fun nq => L (fst nq)) (index_names g)) [] ||
   pairs_eqb (map (fun nq => L (fst nq)) (index_names g)) [("h", "H"); ("k", "K")]%string ||
   pairs_eqb (map (fun nq => L (fst nq)) (index_names g)) [("h", "H"); ("k", "K"); ("l", "L")]%string).
Lemma index_catalog : forallb index_case catalog = true. Proof. vm_compute. reflexivity. Qed.
Definition three_cases : list (list (string * string)) := [[]; [("h", "H"); ("k", "K")]; [("h", "H"); ("k", "K"); ("l", "L")]]%string.
Lemma index_cases g : In g catalog -> q_names_of g = map (fun nq => L (fst nq)) (index_names g) /\ In (index_names g) three_cases.
Proof.
  intros Hg. pose proof index_catalog as H. rewrite forallb_forall in H. specialize (H _ Hg). unfold index_case in H. rewrite andb_true_iff, !orb_true_iff in H.
  destruct H as [H1 H2]. unfold pairs_eqb in H1. apply strs_eqb_eq in H1. split; [exact H1|]. clear H1.
  unfold three_cases. unfold index_names in *. cbn [List.filter snd fst] in *.
  destruct (in_dec (list_eq_dec N.eq_dec) (L "H") (g_Q g)); destruct (in_dec (list_eq_dec N.eq_dec) (L "K") (g_Q g)); destruct (in_dec (list_eq_dec N.eq_dec) (L "L") (g_Q g)); cbn in H2 |- *; intuition discriminate.
Qed.
(** names that the parameters of #G0 and #G1 do not have *)
Definition upper_names : list str := map L ["H"; "K"; "L"; "ALPHA"; "BETA"; "AZIMUTH"; "OMEGA"]%string.
Lemma upper_catalog : forallb (fun g => disj upper_names (g_G g) && disj upper_names (U_names g)) catalog = true. Proof. vm_compute. reflexivity. Qed.

Section D.
  Context (i : geo_in) (d : diffr) (Hd : diffr_of catalog i = Ok d).
  Notation G := (gi_G i).
  (** what the reports need *)
  Record parts (g : geometry) : Prop := mk_parts {
    pa_in : In g catalog;
    pa_name : g_name g = d_name d;
    pa_get : cat_get catalog (d_full d) = Some g;
    pa_some : forall n v, In (L n) upper_names -> q_value G g n v -> dget (L n) (d_gpar d) = Some (GNum v);
    pa_none : forall n, In (L n) upper_names -> (forall v, ~ q_value G g n v) -> dget (L n) (d_gpar d) = None;
    pa_wave : forall t, opt_text (fun f => [Pn f]) (d_wavelength d) = t -> wavelength_text G g t;
    pa_UB : forall m, has_UB G m <-> d_UB d = Some m }.
  Lemma q_dec g n : (exists v, q_value G g n v) \/ (forall v, ~ q_value G g n v).
  Proof.
    destruct (given_dec G "G4" (g_Q g)) as [(vals & Hv)|Hno].
    - destruct (in_dec (list_eq_dec N.eq_dec) (L n) (g_Q g)) as [Hin|Hn].
      + left. destruct (at_position_ex (g_Q g) vals (L n) (proj2 Hv) Hin) as (v & A). exists v, vals. auto.
      + right. intros v (vals' & _ & A). apply Hn. eapply at_position_in; exact A.
    - right. intros v (vals & Hv & _). apply Hno. exists vals. exact Hv.
  Qed.
  Lemma the_parts : exists g, parts g.
  Proof.
    destruct (diffr_parts i d Hd) as (nm & g & d1 & d2 & d3 & _ & Ec & So & Hin & Hnm & E0 & E1 & E3 & E4).
    destruct (params_lemma i d Hd) as (g' & Hin' & Hnm' & (_ & _ & P3 & P4 & _) & (_ & _ & _ & _ & S5 & S6 & S7 & S8)).
    destruct (new_split nm) as (N1 & N2 & N3 & N4 & N5 & N6 & N7 & N8 & N9 & N10 & N11).
    apply (G0_eff g So G) in E0. destruct E0 as (A1 & A2 & A3 & A4 & A5 & A6 & A7 & _).
    apply (G1_eff g So G) in E1. destruct E1 as (B1 & B2 & B3 & B4 & B5 & B6 & B7 & B8 & _).
    apply (G3_eff G) in E3. destruct E3 as (C1 & C2 & C3 & C4 & C5 & C6 & C7 & C8 & C9 & _).
    apply (G4_eff g So G) in E4. destruct E4 as (D1 & D2 & D3 & D4 & D5 & D6 & D7 & D8 & D9 & _).
    assert (En : g_name g = d_name d) by (rewrite D5, C5, B4, A5, N2; exact Hnm).
    assert (g' = g).
    { assert (ND : NoDup (map g_name catalog)) by (apply nodupb_spec; vm_compute; reflexivity).
      assert (X : g_name g' = g_name g) by congruence. revert ND Hin Hin' X. clear. generalize catalog. intros l. induction l as [|x l IH]; intros ND H1 H2 X; [destruct H1|].
      cbn [map] in ND. inversion ND as [|? ? Z1 Z2]; subst. destruct H1 as [<-|H1]; destruct H2 as [<-|H2]; auto.
      - exfalso. apply Z1. rewrite <- X. apply in_map. exact H2.
      - exfalso. apply Z1. rewrite X. apply in_map. exact H1. }
    subst g'. exists g. pose proof upper_catalog as U. rewrite forallb_forall in U. specialize (U _ Hin). rewrite andb_true_iff in U. destruct U as [U1 U2].
    constructor.
    - exact Hin.
    - exact En.
    - rewrite D4, C4, B3, A4, N1. exact Ec.
    - intros n v Hn (vals & Hv & Hp). exact (P3 vals (L n) v Hv Hp).
    - intros n Hn Hno. destruct (in_dec (list_eq_dec N.eq_dec) (L n) (g_Q g)) as [Hq|Hq].
      + apply (P4 ltac:(intros (vals & Hv); destruct (at_position_ex (g_Q g) vals (L n) (proj2 Hv) Hq) as (v & A); apply (Hno v); exists vals; auto) _ Hq).
      + rewrite D9 by exact Hq. rewrite C9; [|intros Q; rewrite Q in Hn; revert Hn; clear; intros Hn; unfold upper_names in Hn; cbn in Hn; intuition discriminate].
        rewrite B8 by exact (disj_spec _ _ _ U2 Hn). rewrite A7; [|exact (disj_spec _ _ _ U1 Hn)|intros Q; rewrite Q in Hn; revert Hn; clear; intros Hn; unfold upper_names in Hn; cbn in Hn; intuition discriminate].
        apply N10. revert Hn. clear. unfold upper_names, reserved. cbn. intuition congruence.
    - intros t <-. destruct (q_dec g "LAMBDA") as [(v & vals & Hv & Hp)|Hno].
      + left. exists v. split; [exists vals; auto|]. rewrite (S5 vals v Hv Hp). reflexivity.
      + right. split; [exact Hno|]. rewrite S6; [reflexivity|]. destruct (given_dec G "G4" (g_Q g)) as [(vals & Hv)|X]; [right|left; exact X].
        intros Hq. destruct (at_position_ex (g_Q g) vals (L "LAMBDA") (proj2 Hv) Hq) as (v & A). apply (Hno v). exists vals. auto.
    - intros m. split; [intros [H1 H2]; exact (S7 m H1 H2)|]. intros H.
      destruct (dget (L "G3") G) as [t|] eqn:Et.
      + destruct (floats t) as [vals|e] eqn:Ef.
        * assert (Hv : numbers_on G "G3" vals) by (apply numbers_on_get; eauto). destruct (Nat.eq_dec (List.length vals) 9) as [Q|Q].
          -- pose proof (S7 vals Hv Q) as X. assert (vals = m) by congruence. subst m. split; assumption.
          -- rewrite S8 in H; [discriminate|]. intros v Hv'. rewrite (numbers_on_fun _ _ _ _ Hv' Hv). exact Q.
        * rewrite S8 in H; [discriminate|]. intros v Hv'. apply numbers_on_get in Hv'. destruct Hv' as (t' & Q1 & Q2). congruence.
      + rewrite S8 in H; [discriminate|]. intros v Hv'. apply numbers_on_get in Hv'. destruct Hv' as (t' & Q1 & Q2). congruence.
  Qed.

  Section G.
    Context (g : geometry) (P : parts g).
    Lemma names_eq : q_names d = Ok (map (fun nq => L (fst nq)) (index_names g)).
    Proof. unfold q_names. rewrite (pa_get g P). cbn [of_opt bind]. apply f_equal. exact (proj1 (index_cases g (pa_in g P))). Qed.
    Lemma index_in n q : In (n, q) (index_names g) -> In (L q) (g_Q g) /\ In (L q) upper_names /\ upper (L n) = L q.
    Proof.
      intros H. assert (X : In (n, q) [("h", "H"); ("k", "K"); ("l", "L")]%string) by (unfold index_names in H; apply filter_In in H; apply H).
      split; [unfold index_names in H; apply filter_In in H; cbn [snd] in H; destruct (in_dec (list_eq_dec N.eq_dec) (L q) (g_Q g)); [assumption|destruct H; discriminate]|].
      destruct X as [X|[X|[X|[]]]]; injection X as <- <-; split; try reflexivity; unfold upper_names; cbn; tauto.
    Qed.
    (** all or none of the indices *)
    Lemma indices_some : has_indices G g -> exists hkl, Forall2 (fun nq v => q_value G g (snd nq) v) (index_names g) hkl.
    Proof.
      intros [H|(vals & Hv)]; [rewrite H; exists []; constructor|].
      assert (X : forall l, incl l (index_names g) -> exists hkl, Forall2 (fun nq v => q_value G g (snd nq) v) l hkl).
      { induction l as [|[n q] l IH]; intros Hl; [exists []; constructor|]. destruct IH as (hkl & IH); [intros x Hx; apply Hl; right; exact Hx|].
        destruct (index_in n q (Hl _ (or_introl eq_refl))) as (Q & _ & _). destruct (at_position_ex (g_Q g) vals (L q) (proj2 Hv) Q) as (v & A).
        exists (v :: hkl). constructor; [exists vals; auto|exact IH]. }
      apply X. apply incl_refl.
    Qed.
    Lemma indices_none : ~ has_indices G g -> exists n q l, index_names g = (n, q) :: l /\ forall v, ~ q_value G g q v.
    Proof.
      intros H. destruct (index_names g) as [|[n q] l] eqn:E; [exfalso; apply H; left; exact E|]. exists n, q, l. split; [reflexivity|].
      intros v (vals & Hv & _). apply H. right. exists vals. exact Hv.
    Qed.
    Lemma gpar_some n q v : In (n, q) (index_names g) -> q_value G g q v -> gpar d (L n) = Ok (GNum v).
    Proof. intros H Hv. destruct (index_in n q H) as (_ & U & E). unfold gpar. rewrite E, (pa_some g P q v U Hv). reflexivity. Qed.

    (** the first part of every report *)
    Definition info0 : dict text :=
      [(L "geometry", quoted [Pc (d_name d)]); (L "wavelength", opt_text (fun f => [Pn f]) (d_wavelength d));
       (L "mode", quoted (opt_text (fun m => [Pc m]) (d_mode d))); (L "sector", opt_text (fun z => [Pc (str_of_Z z)]) (d_sector d))].
    Definition q_info (hkl : list fl) : dict text := combine (map (fun nq => L (fst nq)) (index_names g)) (map (fun v => [Pn v]) hkl).
    Lemma fold_q hkl : Forall2 (fun nq v => q_value G g (snd nq) v) (index_names g) hkl ->
      foldM (add_q d) (map (fun nq => L (fst nq)) (index_names g)) info0 = Ok (info0 ++ q_info hkl).
    Proof.
      intros F. unfold q_info. pose proof gpar_some as X. destruct (index_cases g (pa_in g P)) as [_ [E|[E|[E|[]]]]]; rewrite <- E in *; cbn [map fst] in *.
      - inversion F; subst. cbn. reflexivity.
      - inversion F as [|? v1 ? l1 F1 F2]; subst. inversion F2 as [|? v2 ? l2 F3 F4]; subst. inversion F4; subst. cbn [snd] in *.
        cbn [foldM]. unfold add_q. rewrite (X _ _ v1 (or_introl eq_refl) F1), (X _ _ v2 (or_intror (or_introl eq_refl)) F3). reflexivity.
      - inversion F as [|? v1 ? l1 F1 F2]; subst. inversion F2 as [|? v2 ? l2 F3 F4]; subst. inversion F4 as [|? v3 ? l3 F5 F6]; subst. inversion F6; subst. cbn [snd] in *.
        cbn [foldM]. unfold add_q. rewrite (X _ _ v1 (or_introl eq_refl) F1), (X _ _ v2 (or_intror (or_introl eq_refl)) F3), (X _ _ v3 (or_intror (or_intror (or_introl eq_refl))) F5). reflexivity.
    Qed.
    Lemma fold_no : ~ has_indices G g -> foldM (add_q d) (map (fun nq => L (fst nq)) (index_names g)) info0 = Raise KeyError.
    Proof.
      intros H. destruct (indices_none H) as (n & q & l & E & Hn). rewrite E. cbn [map foldM fst]. unfold add_q, gpar.
      destruct (index_in n q) as (_ & U & Eu); [rewrite E; left; reflexivity|]. rewrite Eu, (pa_none g P q U Hn). reflexivity.
    Qed.
    Lemma info_eq lv : info_dict lv d = (do info <- foldM (add_q d) (map (fun nq => L (fst nq)) (index_names g)) info0;
      match lv with
      | Lstr => Ok info
      | _ =>
          let info := dset (L "lattice") (opt_text (fun l => [Plat l]) (d_lattice d)) info in
          let info := fold_left (add_angle d) (map L ["alpha"; "beta"; "azimuth"; "omega"]%string) info in
          match lv with
          | Lpa =>
              let info := dset (L "full_geometry_name") (quoted [Pc (d_full d)]) info in
              let info := match d_lattice d with Some l => dset (L "lattice") [Plat l] info | None => info end in
              let info := match d_UB d with Some m => dset (L "UB") [Pmat m] info | None => info end in
              let info := fold_left (fun i nr => dset (L "reflection " ++ str_of_nat (fst nr)) [Pref (snd nr)] i) (combine (seq 1 (List.length (d_refl d))) (d_refl d)) info in
              do m <- of_opt AttributeError (d_UB d);
              Ok (dset (L "UB") [Pmat m] info)
          | _ => Ok info
          end
      end).
    Proof. unfold info_dict. rewrite names_eq. reflexivity. Qed.
    Lemma reports_fail lv : ~ has_indices G g -> info_dict lv d = Raise KeyError.
    Proof. intros H. rewrite info_eq, (fold_no H). reflexivity. Qed.

    (** *** str *)
    Lemma str_ok hkl : Forall2 (fun nq v => q_value G g (snd nq) v) (index_names g) hkl ->
      print_str d = Ok (tx "Diffractometer(" ++ between ", " (map (fun kv => Pc (fst kv) :: Pc (L "=") :: snd kv) (info0 ++ q_info hkl)) ++ tx ")").
    Proof.
      intros F. unfold print_str. rewrite info_eq, (fold_q hkl F). cbn [bind].
      assert (J : forall l, joined ", " l = between ", " l).
      { induction l as [|t l IH]; [reflexivity|]. destruct l as [|u l]; [cbn; rewrite app_nil_r; reflexivity|].
        change (joined ", " (t :: u :: l)) with (t ++ tx ", " ++ joined ", " (u :: l)). rewrite IH. reflexivity. }
      rewrite J. reflexivity.
    Qed.

    (** *** brief *)
    Lemma dget_dset {V} k k' (v : V) m : dget k (dset k' v m) = if seqb k k' then Some v else dget k m.
    Proof. destruct (seqb k k') eqn:E; [apply seqb_eq in E; subst; apply dget_dset_same|apply dget_dset_other; apply seqb_neq; exact E]. Qed.
    Lemma dget_angles names info k : dget k (fold_left (add_angle d) names info) =
      match (if mem k names then dget (upper k) (d_gpar d) else None) with Some v => Some (gval_text v) | None => dget k info end.
    Proof.
      revert info. induction names as [|n names IH]; intros info; [reflexivity|]. cbn [fold_left]. rewrite IH. cbn [mem existsb].
      change (existsb (seqb k) names) with (mem k names).
      unfold add_angle. destruct (seqb k n) eqn:E.
      - apply seqb_eq in E. subst n. cbn [orb]. destruct (dget (upper k) (d_gpar d)) as [v|]; [|destruct (mem k names); reflexivity].
        rewrite dget_dset_same. destruct (mem k names); reflexivity.
      - cbn [orb]. destruct (dget (upper n) (d_gpar d)); [rewrite dget_dset, E|]; reflexivity.
    Qed.
    Definition lat_text : text := opt_text (fun l => [Plat l]) (d_lattice d).
    Definition four : list str := map L ["alpha"; "beta"; "azimuth"; "omega"]%string.
    Definition wh_info (hkl : list fl) : dict text := fold_left (add_angle d) four (dset (L "lattice") lat_text (info0 ++ q_info hkl)).
    Lemma wh_ok hkl : Forall2 (fun nq v => q_value G g (snd nq) v) (index_names g) hkl -> info_dict Lwh d = Ok (wh_info hkl).
    Proof. intros F. rewrite info_eq, (fold_q hkl F). reflexivity. Qed.
    Lemma q_info_none hkl k : ~ In k (map L ["h"; "k"; "l"]%string) -> dget k (q_info hkl) = None.
    Proof.
      intros H. unfold q_info. apply dget_none. intros X. apply keys_combine in X. apply in_map_iff in X. destruct X as ([n q] & <- & X).
      unfold index_names in X. apply filter_In in X. destruct X as [X _]. apply H. destruct X as [X|[X|[X|[]]]]; injection X as <- <-; cbn; tauto.
    Qed.
    Lemma wh_angle hkl k : In k four -> dget k (wh_info hkl) = match dget (upper k) (d_gpar d) with Some v => Some (gval_text v) | None => None end.
    Proof.
      intros H. unfold wh_info. rewrite dget_angles. apply mem_In in H. rewrite H. destruct (dget (upper k) (d_gpar d)); [reflexivity|].
      apply mem_In in H. rewrite dget_dset, dget_app, q_info_none.
      - destruct H as [<-|[<-|[<-|[<-|[]]]]]; reflexivity.
      - intros X. revert H X. unfold four. cbn. intuition congruence.
    Qed.
    Lemma wh_wave hkl : dget (L "wavelength") (wh_info hkl) = Some (opt_text (fun f => [Pn f]) (d_wavelength d)).
    Proof. unfold wh_info. rewrite dget_angles. reflexivity. Qed.
    Lemma wh_q hkl : Forall2 (fun nq v => q_value G g (snd nq) v) (index_names g) hkl ->
      mapM (fun k => of_opt KeyError (dget k (wh_info hkl))) (map (fun nq => L (fst nq)) (index_names g)) = Ok (map (fun v => [Pn v]) hkl).
    Proof.
      intros F. assert (X : forall k, In k (map L ["h"; "k"; "l"]%string) -> dget k (wh_info hkl) = dget k (q_info hkl)).
      { intros k H. unfold wh_info. rewrite dget_angles. assert (mem k four = false) as ->.
        { destruct H as [<-|[<-|[<-|[]]]]; reflexivity. }
        rewrite dget_dset, dget_app. destruct H as [<-|[<-|[<-|[]]]]; reflexivity. }
      destruct (index_cases g (pa_in g P)) as [_ C]. unfold q_info in X. cbn [map In] in X.
      destruct C as [E|[E|[E|[]]]]; rewrite <- E in *; cbn [map fst] in *.
      - inversion F; subst. reflexivity.
      - inversion F as [|? v1 ? l1 F1 F2]; subst. inversion F2 as [|? v2 ? l2 F3 F4]; subst. inversion F4; subst.
        cbn [mapM]. rewrite (X (L "h")), (X (L "k")) by tauto. reflexivity.
      - inversion F as [|? v1 ? l1 F1 F2]; subst. inversion F2 as [|? v2 ? l2 F3 F4]; subst. inversion F4 as [|? v3 ? l3 F5 F6]; subst. inversion F6; subst.
        cbn [mapM]. rewrite (X (L "h")), (X (L "k")), (X (L "l")) by tauto. reflexivity.
    Qed.
    Lemma joined_between sep l : joined sep l = between sep l.
    Proof.
      induction l as [|t l IH]; [reflexivity|]. destruct l as [|u l]; [cbn; rewrite app_nil_r; reflexivity|].
      change (joined sep (t :: u :: l)) with (t ++ tx sep ++ joined sep (u :: l)). rewrite IH. reflexivity.
    Qed.
    Lemma row_listed hkl names : (forall nq, In nq names -> In (L (fst nq)) four /\ upper (L (fst nq)) = L (snd nq) /\ In (L (snd nq)) upper_names) ->
      exists l, listed G g names l /\ flat_map (fun k => match dget (L k) (wh_info hkl) with Some v => [Pc (L k) :: tx "=" ++ v] | None => [] end) (map fst names) = map equation l.
    Proof.
      induction names as [|[n q] names IH]; intros H; [exists []; split; reflexivity|].
      destruct IH as (l & L1 & L2); [intros x Hx; apply H; right; exact Hx|]. destruct (H _ (or_introl eq_refl)) as (A & B & C). cbn [fst snd] in A, B, C.
      cbn [map flat_map fst]. rewrite (wh_angle hkl _ A), B. destruct (q_dec g q) as [(v & Hv)|Hno].
      - rewrite (pa_some g P q v C Hv). exists ((n, v) :: l). split; [left; exists v, l; auto|]. cbn [map app]. apply f_equal2; [reflexivity|exact L2].
      - rewrite (pa_none g P q C Hno). exists l. split; [right; auto|exact L2].
    Qed.
    Definition abz : list (string * string) := [("alpha", "ALPHA"); ("beta", "BETA"); ("azimuth", "AZIMUTH")]%string.
    Lemma brief_ok hkl p : Forall2 (fun nq v => q_value G g (snd nq) v) (index_names g) hkl -> exists a1 a2 w,
      listed G g abz a1 /\ listed G g [("omega", "OMEGA")]%string a2 /\ wavelength_text G g w /\
      print_brief d p = Ok ([Pc (d_name d)] ::
        (match index_names g with [] => [] | ns => [between " " (map (fun nq => [Pc (L (fst nq))]) ns) ++ [Pc (L " = ")] ++ between "  " (map (fun v => [Pn v]) hkl)] end) ++
        [between "  " (map equation a1); between "  " (map equation a2 ++ [Pc (L "wavelength") :: Pc (L "=") :: w])] ++
        map (fun mv => [Pc (fst mv); Pc (L " = "); Pn (snd mv)]) (firstn (g_numgeo g) p)).
    Proof.
      intros F. destruct (row_listed hkl abz) as (a1 & L1 & R1).
      { intros nq [<-|[<-|[<-|[]]]]; unfold four, upper_names; cbn; tauto. }
      destruct (row_listed hkl [("omega", "OMEGA")]%string) as (a2 & L2 & R2).
      { intros nq [<-|[]]; unfold four, upper_names; cbn; tauto. }
      exists a1, a2, (opt_text (fun f => [Pn f]) (d_wavelength d)). split; [exact L1|]. split; [exact L2|]. split; [apply (pa_wave g P); reflexivity|].
      unfold print_brief. rewrite (wh_ok hkl F). cbn [bind]. rewrite names_eq. cbn [bind]. rewrite (wh_q hkl F). cbn [bind].
      unfold positioners_dict. rewrite (pa_get g P). cbn [of_opt bind]. unfold compose_row.
      change ["alpha"; "beta"; "azimuth"]%string with (map fst abz). rewrite R1, !joined_between.
      change ["omega"; "wavelength"]%string with (map fst [("omega", "OMEGA")]%string ++ ["wavelength"]%string). rewrite flat_map_app, R2. cbn [flat_map]. rewrite wh_wave.
      rewrite map_map, map_map. cbn [app]. do 2 apply f_equal. destruct (index_names g); [reflexivity|]. cbn [map app]. rewrite ?map_map. reflexivity.
    Qed.
    Lemma brief_fail p : ~ has_indices G g -> print_brief d p = Raise KeyError.
    Proof. intros H. unfold print_brief. rewrite (reports_fail Lwh H). reflexivity. Qed.

    (** *** all *)
    Section All.
      Context (sc : scan) (f : str) (p : dict fl) (Hf : attr_is sc A_specFile f) (Hp : attr_is sc A_positioner p) (ND : NoDup (keys p)).
      Notation en := (entry sc G g d).
      Definition allD (D : dict text) : Prop := NoDup (keys D) /\ forall n t, dget n D = Some t -> en n t.
      Lemma allD_dset k v D : en k v -> allD D -> allD (dset k v D).
      Proof.
        intros H [N A]. split; [apply NoDup_dset; exact N|]. intros n t X. rewrite dget_dset in X. destruct (seqb n k) eqn:E; [|apply A; exact X].
        apply seqb_eq in E. subst n. assert (t = v) by congruence. subst t. exact H.
      Qed.
      Lemma or_none_text {A} (h : A -> text) o : or_none h o (opt_text h o).
      Proof. destruct o as [x|]; [left; exists x; auto|right; auto]. Qed.
      Lemma en_mode : en (L "mode") (quoted (opt_text (fun m => [Pc m]) (d_mode d))).
      Proof. apply (En_mode sc G g d _ (or_none_text (fun m => [Pc m]) (d_mode d))). Qed.
      Lemma allD_info hkl : Forall2 (fun nq v => q_value G g (snd nq) v) (index_names g) hkl -> allD (info0 ++ q_info hkl).
      Proof.
        intros F. assert (N : NoDup (keys (info0 ++ q_info hkl))).
        { assert (K : keys (info0 ++ q_info hkl) = map L ["geometry"; "wavelength"; "mode"; "sector"]%string ++ map (fun nq => L (fst nq)) (index_names g)).
          { unfold keys, info0, q_info. rewrite map_app. apply f_equal2; [reflexivity|]. pose proof (proj2 (index_cases g (pa_in g P))) as C.
            destruct C as [E|[E|[E|[]]]]; rewrite <- E in *.
            - reflexivity.
            - inversion F as [|? v1 ? l1 F1 F2]; subst. inversion F2 as [|? v2 ? l2 F3 F4]; subst. reflexivity.
            - inversion F as [|? v1 ? l1 F1 F2]; subst. inversion F2 as [|? v2 ? l2 F3 F4]; subst. inversion F4 as [|? v3 ? l3 F5 F6]; subst. reflexivity. }
          rewrite K. destruct (index_cases g (pa_in g P)) as [_ [E|[E|[E|[]]]]]; rewrite <- E; apply nodupb_spec; reflexivity. }
        split; [exact N|]. intros n t X. apply dget_In in X. apply in_app_iff in X. destruct X as [X|X].
        - unfold info0 in X. destruct X as [X|[X|[X|[X|[]]]]]; injection X as <- <-.
          + apply En_name.
          + apply En_wave. apply (pa_wave g P). reflexivity.
          + apply en_mode.
          + apply En_sector. apply or_none_text.
        - unfold q_info in X. assert (Y : exists nq v, In nq (index_names g) /\ q_value G g (snd nq) v /\ n = L (fst nq) /\ t = [Pn v]).
          { clear N. revert F X. generalize (index_names g). intros l F. induction F as [|nq v l vs F1 F2 IH]; [intros []|]. cbn [map combine]. intros [X|X].
            - exists nq, v. injection X as <- <-. split; [left; reflexivity|auto].
            - destruct (IH X) as (nq' & v' & Y1 & Y2). exists nq', v'. split; [right; exact Y1|exact Y2]. }
          destruct Y as ([n' q] & v & Y1 & Y2 & -> & ->). apply (En_q sc G g d n' q v); [|exact Y2].
          unfold index_names in Y1. apply filter_In in Y1. destruct Y1 as [Y1 _]. destruct Y1 as [Y1|[Y1|[Y1|[]]]]; injection Y1 as <- <-; unfold report_numbers; cbn; tauto.
      Qed.
      Lemma allD_angles names D : (forall n, In n names -> exists m q, n = L m /\ upper n = L q /\ In (m, q) report_numbers /\ In (L q) upper_names) ->
        allD D -> allD (fold_left (add_angle d) names D).
      Proof.
        revert D. induction names as [|n names IH]; intros D H A; [exact A|]. cbn [fold_left]. apply IH; [intros x Hx; apply H; right; exact Hx|].
        destruct (H n (or_introl eq_refl)) as (m & q & -> & E & Hin & U). unfold add_angle. rewrite E.
        destruct (q_dec g q) as [(v & Hv)|Hno].
        - rewrite (pa_some g P q v U Hv). apply allD_dset; [apply (En_q sc G g d m q v Hin Hv)|exact A].
        - rewrite (pa_none g P q U Hno). exact A.
      Qed.
      Lemma allD_refl l j D : (forall x r, nth_error l x = Some r -> nth_error (d_refl d) (j + x) = Some r) -> allD D ->
        allD (fold_left (fun a nr => dset (L "reflection " ++ str_of_nat (fst nr)) [Pref (snd nr)] a) (combine (seq (S j) (List.length l)) l) D).
      Proof.
        revert j D. induction l as [|r l IH]; intros j D H A; [exact A|]. cbn [List.length seq combine fold_left fst snd]. apply IH.
        - intros x r' Hx. replace (S j + x) with (j + S x) by lia. apply H. exact Hx.
        - apply allD_dset; [|exact A]. apply En_refl. rewrite <- (H 0 r eq_refl). f_equal. lia.
      Qed.
      (** keys are never lost *)
      Lemma key_dset {V} k k' (v : V) m : In k (keys m) \/ k = k' -> In k (keys (dset k' v m)).
      Proof.
        intros H. rewrite keys_dset. destruct (has k' m) eqn:E.
        - destruct H as [H| ->]; [exact H|]. apply has_In. exact E.
        - apply in_app_iff. destruct H as [H| ->]; [left; exact H|right; left; reflexivity].
      Qed.
      Lemma key_angle k n D : In k (keys D) -> In k (keys (add_angle d D n)).
      Proof. unfold add_angle. destruct (dget _ _); [|auto]. intros H. apply key_dset. left. exact H. Qed.
      Lemma key_angles k names D : In k (keys D) \/ (In k names /\ dget (upper k) (d_gpar d) <> None) -> In k (keys (fold_left (add_angle d) names D)).
      Proof.
        revert D. induction names as [|n names IH]; intros D H; cbn [fold_left]; [destruct H as [H|[[] _]]; exact H|].
        apply IH. destruct H as [H|[[->|H] X]].
        - left. apply key_angle. exact H.
        - left. unfold add_angle. destruct (dget (upper k) (d_gpar d)); [|congruence]. apply key_dset. right. reflexivity.
        - right. auto.
      Qed.
      Lemma key_refl k (l : list reflection) j D : In k (keys D) \/ (exists x, x < List.length l /\ k = L "reflection " ++ str_of_nat (S (j + x))) ->
        In k (keys (fold_left (fun a nr => dset (L "reflection " ++ str_of_nat (fst nr)) [Pref (snd nr)] a) (combine (seq (S j) (List.length l)) l) D)).
      Proof.
        revert j D. induction l as [|r l IH]; intros j D H; cbn [List.length seq combine fold_left fst snd].
        - destruct H as [H|(x & H & _)]; [exact H|inversion H].
        - apply IH. destruct H as [H|(x & H & ->)]; [left; apply key_dset; left; exact H|]. destruct x as [|x].
          + left. apply key_dset. right. replace (j + 0) with j by lia. reflexivity.
          + right. exists x. cbn [List.length] in H. split; [lia|]. replace (S j + x) with (j + S x) by lia. reflexivity.
      Qed.
      Definition pa_info (hkl : list fl) (m : list fl) : dict text :=
        let info := dset (L "full_geometry_name") (quoted [Pc (d_full d)]) (wh_info hkl) in
        let info := match d_lattice d with Some l => dset (L "lattice") [Plat l] info | None => info end in
        let info := dset (L "UB") [Pmat m] info in
        let info := fold_left (fun i nr => dset (L "reflection " ++ str_of_nat (fst nr)) [Pref (snd nr)] i) (combine (seq 1 (List.length (d_refl d))) (d_refl d)) info in
        dset (L "UB") [Pmat m] info.
      Lemma pa_ok hkl m : Forall2 (fun nq v => q_value G g (snd nq) v) (index_names g) hkl -> has_UB G m -> info_dict Lpa d = Ok (pa_info hkl m).
      Proof. intros F H. apply (pa_UB g P) in H. rewrite info_eq, (fold_q hkl F). cbn [bind]. unfold pa_info. rewrite H. reflexivity. Qed.
      Lemma pa_no : has_indices G g -> (forall m, ~ has_UB G m) -> info_dict Lpa d = Raise AttributeError.
      Proof.
        intros H X. destruct (indices_some H) as (hkl & F). rewrite info_eq, (fold_q hkl F). cbn [bind].
        destruct (d_UB d) as [m|] eqn:E; [exfalso; apply (X m); apply (pa_UB g P); exact E|]. reflexivity.
      Qed.
      Lemma allD_pa hkl m : Forall2 (fun nq v => q_value G g (snd nq) v) (index_names g) hkl -> has_UB G m -> allD (pa_info hkl m).
      Proof.
        intros F H. unfold pa_info. cbv zeta. apply allD_dset; [apply En_UB; exact H|]. apply (allD_refl (d_refl d) 0); [intros x r Hx; exact Hx|].
        apply allD_dset; [apply En_UB; exact H|].
        assert (A : allD (dset (L "full_geometry_name") (quoted [Pc (d_full d)]) (wh_info hkl))).
        { apply allD_dset; [apply En_full|]. unfold wh_info. apply allD_angles.
          - intros n [<-|[<-|[<-|[<-|[]]]]]; [exists "alpha"%string, "ALPHA"%string|exists "beta"%string, "BETA"%string|exists "azimuth"%string, "AZIMUTH"%string|exists "omega"%string, "OMEGA"%string];
            (split; [reflexivity|]; split; [reflexivity|]; split; [unfold report_numbers; cbn; tauto|unfold upper_names; cbn; tauto]).
          - apply allD_dset; [apply En_lattice; apply or_none_text|apply allD_info; exact F]. }
        destruct (d_lattice d) as [l|] eqn:El; [|exact A]. apply allD_dset; [apply En_lattice; left; exists l; rewrite El; auto|exact A].
      Qed.
      Lemma keys_pa hkl m n : Forall2 (fun nq v => q_value G g (snd nq) v) (index_names g) hkl ->
        In n (map L ["geometry"; "wavelength"; "mode"; "sector"; "lattice"; "full_geometry_name"; "UB"]%string) \/
        (exists m' q v, In (m', q) report_numbers /\ q_value G g q v /\ n = L m') \/ (exists x, x < List.length (d_refl d) /\ n = L "reflection " ++ str_of_nat (S x)) ->
        In n (keys (pa_info hkl m)).
      Proof.
        intros F H. unfold pa_info. cbv zeta. apply key_dset.
        assert (X : In n (keys (wh_info hkl)) \/ n = L "full_geometry_name" \/ n = L "UB" \/ (exists x, x < List.length (d_refl d) /\ n = L "reflection " ++ str_of_nat (S x))).
        { assert (B : forall k, In k (keys info0) \/ In k (keys (q_info hkl)) \/ k = L "lattice" -> In k (keys (wh_info hkl))).
          { intros k Hk. unfold wh_info. apply key_angles. left. apply key_dset. destruct Hk as [Hk|[Hk|Hk]]; [left|left|right; exact Hk]; unfold keys in *; rewrite map_app; apply in_app_iff; auto. }
          destruct H as [H|[(m' & q & v & H & Hv & ->)|H]]; [|left|auto].
          - cbn [map In] in H. destruct H as [<-|[<-|[<-|[<-|[<-|[<-|[<-|[]]]]]]]]; [left; apply B; left; cbn; tauto|left; apply B; left; cbn; tauto|left; apply B; left; cbn; tauto|left; apply B; left; cbn; tauto|left; apply B; auto|auto|auto].
          - assert (U : In (m', q) (index_names g) \/ (In (L m') four /\ upper (L m') = L q /\ In (L q) upper_names)).
            { destruct Hv as (vals & _ & A). apply at_position_in in A. unfold report_numbers in H. unfold index_names.
              destruct H as [H|[H|[H|[H|[H|[H|[H|[]]]]]]]]; injection H as <- <-;
                try (left; apply filter_In; split; [cbn; tauto|]; cbn [snd]; destruct (in_dec (list_eq_dec N.eq_dec) _ (g_Q g)); [reflexivity|contradiction]);
                right; split; try (unfold four; cbn; tauto); split; try reflexivity; unfold upper_names; cbn; tauto. }
            destruct U as [U|(U1 & U2 & U3)].
            + apply B. right. left. unfold q_info, keys. apply in_map_iff.
              assert (Z : exists w, In (L m', [Pn w]) (combine (map (fun nq => L (fst nq)) (index_names g)) (map (fun v => [Pn v]) hkl))).
              { revert F U. generalize (index_names g). intros l F. clear -F. induction F as [|nq w l vs F1 F2 IH]; [intros []|]. intros [U|U].
                - exists w. left. subst nq. reflexivity.
                - destruct (IH U) as (w' & Z). exists w'. right. exact Z. }
              destruct Z as (w & Z). exists (L m', [Pn w]). auto.
            + unfold wh_info. apply key_angles. right. split; [exact U1|]. rewrite U2, (pa_some g P q v U3 Hv). discriminate. }
        destruct X as [X|[->|[->|X]]]; [left|left|right; reflexivity|left].
        - apply (key_refl n (d_refl d) 0). left. apply key_dset. left. destruct (d_lattice d); [apply key_dset; left|]; apply key_dset; left; exact X.
        - apply (key_refl _ (d_refl d) 0). left. apply key_dset. left. destruct (d_lattice d); [apply key_dset; left|]; apply key_dset; right; reflexivity.
        - apply (key_refl n (d_refl d) 0). right. exact X.
      Qed.
      Lemma q_value_fun n v v' : q_value G g n v -> q_value G g n v' -> v = v'.
      Proof.
        intros (vals & (H1 & _) & A) (vals' & (H2 & _) & A'). rewrite (numbers_on_fun _ _ _ _ H2 H1) in A'.
        destruct A as (j & A1 & A2), A' as (j' & A3 & A4). assert (j = j').
        { apply (proj1 (NoDup_nth_error (g_Q g)) (so_Q g (sound_in g (pa_in g P)))); [apply nth_error_Some; congruence|congruence]. }
        subst j'. congruence.
      Qed.
      Lemma wave_fun t t' : wavelength_text G g t -> wavelength_text G g t' -> t = t'.
      Proof.
        intros [(v & H1 & ->)|[H1 ->]] [(v' & H2 & ->)|[H2 ->]]; [rewrite (q_value_fun _ _ _ H1 H2); reflexivity|destruct (H2 v H1)|destruct (H1 v' H2)|reflexivity].
      Qed.
      Lemma or_none_fun {A} (h : A -> text) o t t' : or_none h o t -> or_none h o t' -> t = t'.
      Proof. intros [(x & H1 & ->)|[H1 ->]] [(y & H2 & ->)|[H2 ->]]; congruence. Qed.
      (** a number for each label *)
      Lemma entry_label n t : en n t ->
        (n = L "SPEC file" /\ exists f, attr_is sc A_specFile f /\ t = [Pc f]) \/ (n = L "scan #" /\ t = [Pc (s_num sc)]) \/ (n = L "SPEC scanCmd" /\ t = [Pc (s_cmd sc)]) \/
        (n = L "date" /\ exists e, attr_is sc A_epoch e /\ t = [Pdate e]) \/ (n = L "geometry" /\ t = [Pc (L "'"); Pc (d_name d); Pc (L "'")]) \/
        (n = L "full_geometry_name" /\ t = [Pc (L "'"); Pc (d_full d); Pc (L "'")]) \/ (n = L "wavelength" /\ wavelength_text G g t) \/
        (n = L "mode" /\ exists t', or_none (fun m => [Pc m]) (d_mode d) t' /\ t = Pc (L "'") :: t' ++ [Pc (L "'")]) \/
        (n = L "sector" /\ or_none (fun z => [Pc (str_of_Z z)]) (d_sector d) t) \/ (exists m q v, n = L m /\ In (m, q) report_numbers /\ q_value G g q v /\ t = [Pn v]) \/
        (n = L "lattice" /\ or_none (fun l => [Plat l]) (d_lattice d) t) \/ (n = L "UB" /\ exists m, has_UB G m /\ t = [Pmat m]) \/
        (exists j r, n = L "reflection " ++ str_of_nat (S j) /\ nth_error (d_refl d) j = Some r /\ t = [Pref r]).
      Proof. intros H. destruct H; eauto 20. Qed.
      Lemma num_label m q n : In (m, q) report_numbers -> L m = n -> In n (map L ["h"; "k"; "l"; "alpha"; "beta"; "azimuth"; "omega"]%string).
      Proof. intros H <-. unfold report_numbers in H. destruct H as [H|[H|[H|[H|[H|[H|[H|[]]]]]]]]; injection H as <- <-; cbn; tauto. Qed.
      Ltac lab := match goal with
        | X : L _ = L _ |- _ => discriminate X
        | X : L "reflection " ++ _ = L _ |- _ => discriminate X
        | X : L _ = L "reflection " ++ _ |- _ => discriminate X
        | Y : In (?m, _) report_numbers, X : L ?m = _ |- _ => apply (num_label _ _ _ Y) in X; exfalso; cbn in X; intuition discriminate
        | Y : In (?m, _) report_numbers, X : _ = L ?m |- _ => symmetry in X; apply (num_label _ _ _ Y) in X; exfalso; cbn in X; intuition discriminate
        end.
      Lemma entry_fun n t t' : en n t -> en n t' -> t = t'.
      Proof.
        intros H1 H2. apply entry_label in H1. apply entry_label in H2.
        destruct H1 as [(-> & f1 & F1 & ->)|[(-> & ->)|[(-> & ->)|[(-> & f1 & F1 & ->)|[(-> & ->)|[(-> & ->)|[(-> & F1)|[(-> & t1 & F1 & ->)|[(-> & F1)|[(m & q & v & -> & M1 & F1 & ->)|[(-> & F1)|[(-> & m & F1 & ->)|(j & r & -> & F1 & ->)]]]]]]]]]]]];
        destruct H2 as [(X & f2 & F2 & ->)|[(X & ->)|[(X & ->)|[(X & f2 & F2 & ->)|[(X & ->)|[(X & ->)|[(X & F2)|[(X & t2 & F2 & ->)|[(X & F2)|[(m2 & q2 & v2 & X & M2 & F2 & ->)|[(X & F2)|[(X & m2 & F2 & ->)|(j2 & r2 & X & F2 & ->)]]]]]]]]]]]]; try lab.
        - unfold attr_is in F1, F2. congruence.
        - reflexivity.
        - reflexivity.
        - unfold attr_is in F1, F2. congruence.
        - reflexivity.
        - reflexivity.
        - exact (wave_fun _ _ F1 F2).
        - rewrite (or_none_fun _ _ _ _ F1 F2). reflexivity.
        - exact (or_none_fun _ _ _ _ F1 F2).
        - assert (Eq : q = q2).
          { unfold report_numbers in M1, M2. destruct M1 as [M1|[M1|[M1|[M1|[M1|[M1|[M1|[]]]]]]]]; injection M1 as <- <-;
              destruct M2 as [M2|[M2|[M2|[M2|[M2|[M2|[M2|[]]]]]]]]; injection M2 as <- <-; try reflexivity; discriminate X. }
          subst q2. rewrite (q_value_fun _ _ _ F1 F2). reflexivity.
        - exact (or_none_fun _ _ _ _ F1 F2).
        - destruct F1 as [F1 _], F2 as [F2 _]. rewrite (numbers_on_fun _ _ _ _ F1 F2). reflexivity.
        - apply app_inv_head in X. apply str_of_nat_inj in X. assert (j = j2) by lia. subst j2. congruence.
      Qed.
      (** *** the whole dictionary *)
      Definition s0 : dict text :=
        let s := [(L "SPEC file", [Pc f]); (L "scan #", [Pc (s_num sc)]); (L "SPEC scanCmd", [Pc (s_cmd sc)])] in
        match s_obj sc A_epoch with Some e => dset (L "date") [Pdate e] s | None => s end.
      Definition pos : dict text := map (fun kv => (fst kv, [Pn (snd kv)])) (firstn (g_numgeo g) p).
      Lemma allD_s0 : allD s0.
      Proof.
        unfold s0. cbv zeta. assert (A : allD [(L "SPEC file", [Pc f]); (L "scan #", [Pc (s_num sc)]); (L "SPEC scanCmd", [Pc (s_cmd sc)])]).
        { split; [apply nodupb_spec; reflexivity|]. intros n t X. apply dget_In in X. destruct X as [X|[X|[X|[]]]]; injection X as <- <-; [apply En_file; exact Hf|apply En_num|apply En_cmd]. }
        destruct (s_obj sc A_epoch) as [e|] eqn:Ee; [|exact A]. apply allD_dset; [apply En_date; exact Ee|exact A].
      Qed.
      Lemma nodup_dupdate {V} (e m : dict V) : NoDup (keys m) -> NoDup (keys (dupdate e m)).
      Proof. unfold dupdate. revert m. induction e as [|kv e IH]; intros m N; [exact N|]. cbn [fold_left]. apply IH. apply NoDup_dset. exact N. Qed.
      Definition rep (hkl m : list fl) : dict text := dupdate pos (dupdate (pa_info hkl m) s0).
      Lemma report_ok hkl m : Forall2 (fun nq v => q_value G g (snd nq) v) (index_names g) hkl -> has_UB G m -> report_dict d sc = Ok (rep hkl m).
      Proof.
        intros F H. unfold report_dict. rewrite Hf. cbn [of_opt bind]. rewrite (pa_ok hkl m F H). cbn [bind]. rewrite Hp. cbn [of_opt bind].
        unfold positioners_dict. rewrite (pa_get g P). reflexivity.
      Qed.
      Lemma firstn_nodup {A} n (l : list A) : NoDup l -> NoDup (firstn n l).
      Proof.
        revert l. induction n as [|n IH]; intros [|x l] N; cbn [firstn]; try constructor; inversion N as [|? ? N1 N2]; subst.
        - intros X. apply N1. rewrite <- (firstn_skipn n l). apply in_or_app. left. exact X.
        - apply IH. exact N2.
      Qed.
      Lemma keys_pos : keys pos = keys (firstn (g_numgeo g) p).
      Proof. unfold pos, keys. rewrite map_map. reflexivity. Qed.
      Lemma nodup_pos : NoDup (keys pos).
      Proof. rewrite keys_pos. unfold keys. rewrite <- firstn_map. apply firstn_nodup. exact ND. Qed.
      Lemma rep_spec hkl m n t : Forall2 (fun nq v => q_value G g (snd nq) v) (index_names g) hkl -> has_UB G m ->
        (In (n, t) (rep hkl m) <-> (exists v, In (n, v) (firstn (g_numgeo g) p) /\ t = [Pn v]) \/ (~ In n (keys (firstn (g_numgeo g) p)) /\ en n t)).
      Proof.
        intros F H. pose proof (allD_pa hkl m F H) as [N1 A1]. pose proof allD_s0 as [N0 A0].
        assert (NR : NoDup (keys (rep hkl m))) by (apply nodup_dupdate, nodup_dupdate; exact N0).
        assert (E : In (n, t) (rep hkl m) <-> dget n (rep hkl m) = Some t) by (split; [apply In_dget; exact NR|apply dget_In]). rewrite E. clear E.
        unfold rep. rewrite (dget_dupdate n _ _ nodup_pos), (dget_dupdate n _ _ N1).
        assert (Ep : forall v, dget n pos = Some [Pn v] <-> In (n, v) (firstn (g_numgeo g) p)).
        { intros v. unfold pos. split.
          - intros X. apply dget_In in X. apply in_map_iff in X. destruct X as ([k x] & X & Y). cbn [fst snd] in X. assert (k = n) by congruence. assert (x = v) by congruence. subst. exact Y.
          - intros X. apply In_dget; [exact nodup_pos|]. apply in_map_iff. exists (n, v). auto. }
        assert (Eq : forall x, dget n pos = Some x -> exists v, x = [Pn v]).
        { intros x X. apply dget_In in X. unfold pos in X. apply in_map_iff in X. destruct X as ([k y] & X & _). exists y. cbn [snd] in X. congruence. }
        assert (NIn : In n (keys (firstn (g_numgeo g) p)) <-> dget n pos <> None).
        { rewrite <- keys_pos. destruct (dget n pos) as [x|] eqn:X.
          - apply dget_In in X. split; [discriminate|]. intros _. unfold keys. apply in_map_iff. exists (n, x). auto.
          - split; [|congruence]. intros Y. exfalso. apply (dget_none n pos) in X; auto. }
        destruct (dget n pos) as [x|] eqn:X.
        - destruct (Eq x eq_refl) as (v & ->). split.
          + intros Y. left. exists v. split; [apply Ep; reflexivity|congruence].
          + intros [(v' & Y & ->)|[Y _]]; [apply Ep in Y; exact Y|]. exfalso. apply Y. apply NIn. discriminate.
        - split.
          + intros Y. right. split; [rewrite NIn; congruence|]. destruct (dget n (pa_info hkl m)) as [x|] eqn:Z; [assert (x = t) by congruence; subst x; apply A1; exact Z|apply A0; exact Y].
          + intros [(v & Y & _)|[_ Y]]; [apply Ep in Y; discriminate Y|].
            destruct (dget n (pa_info hkl m)) as [x|] eqn:Z; [rewrite (entry_fun n t x Y (A1 _ _ Z)); reflexivity|].
            assert (K : In n (keys s0) \/ In n (keys (pa_info hkl m))).
            { pose proof (keys_pa hkl m n F) as KP. assert (S0 : forall k, In k (map L ["SPEC file"; "scan #"; "SPEC scanCmd"]%string) -> In k (keys s0)).
              { intros k Hk. unfold s0. cbv zeta. destruct (s_obj sc A_epoch); [apply key_dset; left|]; exact Hk. }
              apply entry_label in Y. destruct Y as [(-> & _)|[(-> & _)|[(-> & _)|[(-> & e & Ee & _)|[(-> & _)|[(-> & _)|[(-> & _)|[(-> & _)|[(-> & _)|[(m1 & q & v & -> & M1 & F1 & ->)|[(-> & _)|[(-> & _)|(j & r & -> & F1 & ->)]]]]]]]]]]]];
                try (left; apply S0; cbn; tauto); try (right; apply KP; left; cbn; tauto).
              - left. unfold s0. unfold attr_is in Ee. rewrite Ee. apply key_dset. right. reflexivity.
              - right. apply KP. right. left. exists m1, q, v. auto.
              - right. apply KP. right. right. exists j. split; [apply nth_error_Some; congruence|reflexivity]. }
            destruct K as [K|K].
            * unfold keys in K. apply in_map_iff in K. destruct K as ([k x] & Ek & K). cbn [fst] in Ek. subst k. apply (In_dget _ _ _ N0) in K.
              rewrite K. rewrite (entry_fun n t x Y (A0 _ _ K)). reflexivity.
            * exfalso. apply (dget_none n (pa_info hkl m)) in Z; auto.
      Qed.
      Lemma max_le l : Forall (fun x => x <= fold_left Nat.max l 0) l /\ (l <> [] -> In (fold_left Nat.max l 0) l).
      Proof.
        assert (X : forall l a, a <= fold_left Nat.max l a /\ Forall (fun x => x <= fold_left Nat.max l a) l /\ (fold_left Nat.max l a = a \/ In (fold_left Nat.max l a) l)).
        { clear. induction l as [|x l IH]; intros a; cbn [fold_left]; [split; [lia|split; [constructor|left; reflexivity]]|].
          destruct (IH (Nat.max a x)) as (I1 & I2 & I3). split; [lia|]. split; [constructor; [lia|exact I2]|]. destruct I3 as [I3|I3]; [|right; right; exact I3].
          rewrite I3. destruct (Nat.max_dec a x) as [E|E]; rewrite E; [left; reflexivity|right; left; reflexivity]. }
        destruct (X l 0) as (_ & X2 & X3). split; [exact X2|]. intros N. destruct X3 as [X3|X3]; [|exact X3].
        destruct l as [|x l]; [congruence|]. left. inversion X2 as [|? ? Y _]; subst. rewrite X3 in *. lia.
      Qed.
      Lemma centered_line w n t : List.length n <= w -> label_line w n t (Pc (centered w n) :: tx " = " ++ t).
      Proof.
        intros H. set (k := w - List.length n). exists (Nat.div2 k), (k - Nat.div2 k).
        assert (D : 2 * Nat.div2 k <= k <= S (2 * Nat.div2 k)).
        { pose proof (Nat.div2_odd k) as O. destruct (Nat.odd k); cbn [Nat.b2n] in O; lia. }
        split; [lia|]. split; [unfold k in *; lia|]. reflexivity.
      Qed.
      Lemma all_ok m : has_indices G g -> has_UB G m -> exists lines rep w, print_all d sc = Ok lines /\ NoDup (map fst rep) /\
        Forall2 (fun nt line => label_line w (fst nt) (snd nt) line) rep lines /\ (exists nt, In nt rep /\ List.length (fst nt) = w) /\
        forall n t, In (n, t) rep <-> (exists v, In (n, v) (firstn (g_numgeo g) p) /\ t = [Pn v]) \/ (~ In n (keys (firstn (g_numgeo g) p)) /\ en n t).
      Proof.
        intros H Hm. destruct (indices_some H) as (hkl & F). unfold print_all. rewrite (report_ok hkl m F Hm). cbn [bind].
        set (R := rep hkl m). set (W := fold_left Nat.max (map (fun kv => List.length (fst kv)) R) 0).
        eexists. exists R, W. split; [reflexivity|]. split; [apply nodup_dupdate, nodup_dupdate; apply (proj1 allD_s0)|].
        assert (M1 : Forall (fun x => x <= W) (map (fun kv : str * text => List.length (fst kv)) R)) by exact (proj1 (max_le (map (fun kv : str * text => List.length (fst kv)) R))).
        assert (M2 : map (fun kv : str * text => List.length (fst kv)) R <> [] -> In W (map (fun kv : str * text => List.length (fst kv)) R)) by exact (proj2 (max_le (map (fun kv : str * text => List.length (fst kv)) R))).
        clearbody W. split; [|split].
        - clear M2. revert M1. clearbody R. clear. induction R as [|[n t] R IH]; intros M; cbn [map]; [constructor|]. inversion M as [|? ? M1 M2]; subst.
          constructor; [apply (centered_line W n t); exact M1|apply IH; exact M2].
        - assert (N : map (fun kv : str * text => List.length (fst kv)) R <> []).
          { intros X. assert (Y : In (L "scan #", [Pc (s_num sc)]) R \/ exists v, In (L "scan #", [Pn v]) R).
            { destruct (in_dec (list_eq_dec N.eq_dec) (L "scan #") (keys (firstn (g_numgeo g) p))) as [I|I].
              - right. unfold keys in I. apply in_map_iff in I. destruct I as ([k v] & Ek & I). cbn [fst] in Ek. subst k. exists v. apply (rep_spec hkl m _ _ F Hm). left. exists v. auto.
              - left. apply (rep_spec hkl m _ _ F Hm). right. split; [exact I|apply En_num]. }
            destruct R; [|discriminate X]. destruct Y as [[]|(v & [])]. }
          specialize (M2 N). apply in_map_iff in M2. destruct M2 as (nt & E & I). exists nt. auto.
        - intros n t. apply rep_spec; assumption.
      Qed.
      Lemma all_fail : ~ has_indices G g -> print_all d sc = Raise KeyError.
      Proof. intros H. unfold print_all, report_dict. rewrite Hf. cbn [of_opt bind]. rewrite (reports_fail Lpa H). reflexivity. Qed.
      Lemma all_no_UB : has_indices G g -> (forall m, ~ has_UB G m) -> print_all d sc = Raise AttributeError.
      Proof. intros H X. unfold print_all, report_dict. rewrite Hf. cbn [of_opt bind]. rewrite (pa_no H X). reflexivity. Qed.
    End All.
  End G.
End D.
