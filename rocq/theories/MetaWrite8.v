(** What is written about the diffractometer: the name of the instrument, the sample and the arrays of the geometry *)
From Coq Require Import String Lia.
From Verif Require Import Py PyFacts NumFacts Utils SpecUtils Keys Time Geom Handlers Reader SpecWriter NamesFacts
  H5 SpecH5 H5Facts FrameH5 H5Exact Writer DataWrite KeepFacts SaveFacts EntryData FrameK WriterFrame WriterFrameK GrowFacts ClaimFacts MetaWrite MetaWrite2 MetaWrite3 MetaWrite5 MetaWrite6 MetaWrite7.
Import ListNotations.
Local Open Scope list_scope.

(** ** The steps of the writer *)
Definition sampleG (e : handle) : WM handle := hdf (openGroup e (L "sample") (L "NXsample") []).
Definition p_name (ins : handle) (d : diffr) : WM unit := wds ins (L "name") (DText (d_full d)) [].
Definition p_lat (e : handle) (d : diffr) : WM unit := match d_lattice d with Some l => w_lattice e l | None => sret tt end.
Definition p_ub (e : handle) (d : diffr) : WM unit := match dget (L "ub_matrix") (d_gpar d) with
  | Some ub => let* s := sampleG e in wds s (L "ub_matrix") (gval_data ub) [] | None => sret tt end.
Definition p_mode (e : handle) (d : diffr) : WM unit := match d_mode d with
  | Some m => let* s := sampleG e in wds s (L "diffractometer_mode") (DText m) [] | None => sret tt end.
Definition p_sec (e : handle) (d : diffr) : WM unit := match d_sector d with
  | Some z => let* s := sampleG e in wds s (L "diffractometer_sector") (DNum (NI z)) [] | None => sret tt end.
Definition p_refl (e : handle) (d : diffr) : WM unit := match d_refl d with
  | [] => sret tt | rs => let* s := sampleG e in siter (w_refl s) (enum rs) end.
Definition p_wave (e ins : handle) (d : diffr) : WM unit := match d_wavelength d with
  | Some wl => let* m := hdf (openGroup ins (L "monochromator") (L "NXmonochromator") []) in
               let* ds := hdf (write_dataset m (L "wavelength") (DNum (NF wl)) [(L "units", t_ "angstrom")]) in
               let* s := sampleG e in
               let* b := hdf (openGroup s (L "beam") (L "NXbeam") []) in
               hdf (makeLink s ds (h_name b ++ L "/incident_wavelength"))
  | None => sret tt end.
Definition p_geo (ins : handle) (d : diffr) : WM unit :=
  let* n := hdf (openGroup ins (L "geometry_parameters") NOTE [desc "SPEC geometry arrays, interpreted"]) in
  siter (fun kv => wds n (fst kv) (gval_data (snd kv)) []) (d_gpar d).
Lemma w_diffr_eq e d : d_gpar d <> [] -> w_diffr e d = (let* ins := hdf (openGroup e (L "instrument") (L "NXinstrument") []) in
  p_name ins d >>> p_lat e d >>> p_ub e d >>> p_mode e d >>> p_sec e d >>> p_refl e d >>> p_wave e ins d >>> p_geo ins d).
Proof.
  intros H. unfold w_diffr, p_ub, p_geo. destruct (d_gpar d) as [|kv t] eqn:E; [destruct (H eq_refl)|]. reflexivity.
Qed.

Ltac bd := eapply WriterFrameK.wk_bind; [|intros ? ?].
Ltac fin := apply WriterFrameK.wk_ret; exact I.
(** *** what each step leaves alone *)
Section Steps.
  Context (P : nat -> Prop) (a : nat) (sk : str) (K : list str -> Prop) (II : nat -> str -> Prop)
          (K0 : ~ K []) (Hsk : plain_name sk) (Ask : is_ascii sk) (e ins : handle) (d : diffr)
          (He : FrameK.hat P a sk II [] e) (Hi : FrameK.hat P a sk II [INS] ins) (Dn : diffr_names d).
  Context (KS : ~ K [SAM]) (KI : ~ K [INS]).
  Notation wk := (WriterFrameK.wk P a sk K II).
  Lemma s_sam : wk (sampleG e) (FrameK.hat P a sk II [SAM]).
  Proof. apply (WriterFrameK.open_e P a sk K II K0 e SAM); [exact He|apply plainb_ok; reflexivity|exact KS]. Qed.
  Lemma s_name : ~ K [INS; L "name"] -> wk (p_name ins d) (fun _ => True).
  Proof. intros X. eapply WriterFrameK.wds_u; [exact K0|exact Hi|exact KI|exact X|apply plainb_ok; reflexivity]. Qed.
  Lemma s_wds s n x l : FrameK.hat P a sk II [SAM] s -> ~ K [SAM; n] -> plainb n = true -> wk (wds s n x l) (fun _ => True).
  Proof. intros Hs X Hn. eapply WriterFrameK.wds_u; [exact K0|exact Hs|exact KS|exact X|apply plainb_ok; exact Hn]. Qed.
  Lemma s_in n x l : ~ K [SAM; n] -> plainb n = true -> wk (let* s := sampleG e in wds s n x l) (fun _ => True).
  Proof. intros X Hn. eapply WriterFrameK.wk_bind; [apply s_sam|intros s Hs]. apply s_wds; auto. Qed.
  Definition lat_names : list str := map (fun n => fst n) lat_fields2 ++ [L "unit_cell_abc"; L "unit_cell_alphabetagamma"; L "unit_cell"].
  Lemma s_lat : (forall n, In n lat_names -> ~ K [SAM; n]) -> wk (p_lat e d) (fun _ => True).
  Proof.
    intros X. unfold p_lat. destruct (d_lattice d) as [l|]; [|fin]. unfold w_lattice. eapply WriterFrameK.wk_bind; [apply s_sam|intros s Hs].
    assert (Pn : forall n, In n lat_names -> plainb n = true) by (apply Forall_forall; repeat constructor).
    destruct l as [v|v].
    - apply WriterFrameK.wk_iter. intros kv Hin. destruct kv as [kv y]. apply in_combine_l in Hin. cbn [fst snd].
      assert (Y : In (fst kv) lat_names) by (apply in_app_iff; left; apply in_map_iff; exists kv; auto). apply s_wds; auto.
    - bd; [apply s_wds; [exact Hs|apply X; simpl; tauto|reflexivity]|]. bd; apply s_wds; try exact Hs; try reflexivity; apply X; simpl; tauto.
  Qed.
  Lemma s_ub : ~ K [SAM; L "ub_matrix"] -> wk (p_ub e d) (fun _ => True).
  Proof. intros X. unfold p_ub. destruct (dget _ _); [apply s_in; [exact X|reflexivity]|fin]. Qed.
  Lemma s_mode : ~ K [SAM; L "diffractometer_mode"] -> wk (p_mode e d) (fun _ => True).
  Proof. intros X. unfold p_mode. destruct (d_mode d); [apply s_in; [exact X|reflexivity]|fin]. Qed.
  Lemma s_sec : ~ K [SAM; L "diffractometer_sector"] -> wk (p_sec e d) (fun _ => True).
  Proof. intros X. unfold p_sec. destruct (d_sector d); [apply s_in; [exact X|reflexivity]|fin]. Qed.
  Lemma or_plain i : plain_name (L "or" ++ str_of_nat i).
  Proof.
    repeat split; [discriminate|discriminate|]. intros Hin. apply in_app_iff in Hin.
    destruct Hin as [[H|[H|[]]]|H]; [discriminate H|discriminate H|]. eapply digits_slash; exact H.
  Qed.
  Lemma s_refl : (forall i : nat, ~ K [SAM; L "or" ++ str_of_nat i]) -> wk (p_refl e d) (fun _ => True).
  Proof.
    intros X. unfold p_refl. destruct (d_refl d) as [|r rs] eqn:Er; [fin|]. rewrite <- Er.
    eapply WriterFrameK.wk_bind; [apply s_sam|intros s Hs]. apply WriterFrameK.wk_iter. intros ir Hir. apply enum_In in Hir.
    destruct Dn as (_ & Ha & _). rewrite Forall_forall in Ha. specialize (Ha _ Hir).
    unfold w_refl. cbv zeta. eapply WriterFrameK.wk_bind; [eapply WriterFrameK.open_u; [exact K0|exact Hs|exact KS|apply X|apply or_plain]|].
    intros n Hn. assert (Dp : WriterFrameK.deep K [SAM; L "or" ++ str_of_nat (fst ir)]) by (apply WriterFrameK.deep_two; auto).
    assert (F : forall kv, In kv (angles_of_refl (snd ir)) -> rel (fst kv)) by (intros kv Hkv; rewrite Forall_forall in Ha; apply Ha; apply in_map; exact Hkv).
    destruct ir as [i r0]. cbn [fst snd] in *. destruct r0 as [v x0|v x0]; cbn [angles_of_refl] in F.
    - bd.
      + apply WriterFrameK.wk_iter. intros [m y] Hin. cbn [fst snd]. apply in_combine_l in Hin. simpl in Hin.
        destruct Hin as [E|[E|[E|[]]]]; inversion E; subst; (eapply WriterFrameK.wds_in; [exact K0|exact Hn|exact Dp|reflexivity]).
      + apply WriterFrameK.wk_iter. intros y Hy. eapply WriterFrameK.wds_in; [exact K0|exact Hn|exact Dp|auto].
    - bd.
      + apply WriterFrameK.wk_iter. intros [m y] Hin. cbn [fst snd]. apply in_combine_l in Hin. simpl in Hin.
        destruct Hin as [E|[E|[E|[E|[]]]]]; inversion E; subst; (eapply WriterFrameK.wds_in; [exact K0|exact Hn|exact Dp|reflexivity]).
      + apply WriterFrameK.wk_iter. intros y Hy. eapply WriterFrameK.wds_in; [exact K0|exact Hn|exact Dp|auto].
  Qed.
  Lemma s_wave : ~ K [INS; L "monochromator"] -> ~ K [SAM; L "beam"] -> wk (p_wave e ins d) (fun _ => True).
  Proof.
    intros X Y. unfold p_wave. destruct (d_wavelength d) as [wl|]; [|fin].
    eapply WriterFrameK.wk_bind; [apply (WriterFrameK.open_u P a sk K II K0 INS ins (L "monochromator")); [exact Hi|exact KI|exact X|apply plainb_ok; reflexivity]|intros mono Hm].
    assert (Dm : WriterFrameK.deep K [INS; L "monochromator"]) by (apply WriterFrameK.deep_two; auto).
    eapply WriterFrameK.wk_bind; [apply WriterFrameK.wk_hdf; apply (FrameK.write_dataset_keeps P a sk K II K0 [INS; L "monochromator"]); [exact Hm|split; [reflexivity|apply Dm]]|intros ds Hds].
    eapply WriterFrameK.wk_bind; [apply s_sam|intros sm Hs].
    eapply WriterFrameK.wk_bind; [apply (WriterFrameK.open_u P a sk K II K0 SAM sm (L "beam")); [exact Hs|exact KS|exact Y|apply plainb_ok; reflexivity]|intros bm Hb].
    change (L "/incident_wavelength") with (SLASH :: L "incident_wavelength").
    eapply WriterFrameK.link_ok; [exact K0|exact Ask|exact Hds|repeat constructor|discriminate|apply Dm|intros u _; discriminate|exact Hb|repeat constructor| |apply plainb_ok; reflexivity|reflexivity|left; split; discriminate].
    apply WriterFrameK.clear_two; auto.
  Qed.
  Lemma s_geo : ~ K [INS; L "geometry_parameters"] -> wk (p_geo ins d) (fun _ => True).
  Proof.
    intros X. unfold p_geo.
    eapply WriterFrameK.wk_bind; [apply (WriterFrameK.open_u P a sk K II K0 INS ins (L "geometry_parameters")); [exact Hi|exact KI|exact X|apply plainb_ok; reflexivity]|intros gn Hn].
    apply WriterFrameK.wk_iter. intros y Hy. eapply WriterFrameK.wds_in; [exact K0|exact Hn|apply WriterFrameK.deep_two; auto|].
    destruct Dn as [Hg _]. rewrite Forall_forall in Hg. apply Hg. apply in_map. exact Hy.
  Qed.
End Steps.

(** ** The frame of a dataset in a special group *)
Lemma weakI a sk I1 f : FrameK.Inv (PO a) a sk noK I1 f -> BInv a sk f.
Proof.
  intros [A B C D F G H J K1 L1]. constructor; auto.
  - intros i n j N1 N2. destruct (J i n j N1 N2) as [X Y]. split; [auto|]. intros Z. destruct (Y Z) as [[_ []]|(g & _ & [])].
  - intros j g [].
Qed.
Section Diff.
  Context (a : nat) (sk : str) (Ha : 0 < a) (Hp : plain_name sk) (Has : is_ascii sk) (ins : handle).
  Context (Hins : FrameK.hat (PO a) a sk noI [INS] ins).
  Notation e := (mk_handle a (name_at [sk])).
  Definition IB : nat -> str -> Prop := I3 (h_id ins) INS.
  Definition BB (w : wst) : Prop := WriterFrameK.WInv (PO a) a sk noK IB w.
  Lemma ins_hat : FrameK.hat (PO a) a sk IB [INS] ins.
  Proof. destruct Hins as ((A & B & _) & C). split; [|exact C]. split; [exact A|split; [exact B|]]. intros g [_ ->]. reflexivity. Qed.
  Lemma BB_BW w : BB w -> BW a sk w.
  Proof. intros (I & N). split; [eapply weakI; exact I|exact N]. Qed.
  Lemma BB_ins w : BB w -> member (w_h5 w) a INS (h_id ins) /\ a < h_id ins < List.length (w_h5 w).
  Proof.
    intros (I & N). destruct (FrameK.inv_I _ _ _ _ _ _ I (h_id ins) INS) as (_ & X & Y & Z); [split; reflexivity|]. split; [exact Z|]. split; [unfold PO in X; lia|].
    destruct Z as (ms & at_ & M1 & M2). apply dget_In in M2. apply (FrameK.inv_bd _ _ _ _ _ _ I a ms at_ INS _ M1 M2).
  Qed.
  Lemma e_hat w : BB w -> FrameK.hat (PO a) a sk IB [] e.
  Proof. intros (I & _). eapply entry_hat; eauto. Qed.
  Lemma BB_keep {A} (m : WM A) Q w w' r : (FrameK.hat (PO a) a sk IB [] e -> FrameK.hat (PO a) a sk IB [INS] ins -> WriterFrameK.wk (PO a) a sk noK IB m Q) ->
    BB w -> m w = (w', r) -> BB w'.
  Proof. intros M B H. destruct (wk_step _ _ _ _ _ _ _ _ _ _ (M (e_hat w B) ins_hat) B H) as [X _]. exact X. Qed.

  Definition GG (P : nat -> Prop) (i : nat) (g n : str) (Phi : h5 -> Prop) (w : wst) : Prop :=
    WriterFrameK.WInv P a sk (K3 g n) (I3 i g) w /\ FrameK.hat P a sk (I3 i g) [INS] ins /\
    forall h, FrameK.Inv P a sk (K3 g n) (I3 i g) h -> FrameK.Fr P a (K3 g n) (I3 i g) (w_h5 w) h -> Phi h.
  Lemma GG_keep {A} P i g n Phi (m : WM A) Q w w' r :
    (FrameK.hat P a sk (I3 i g) [] e -> FrameK.hat P a sk (I3 i g) [INS] ins -> WriterFrameK.wk P a sk (K3 g n) (I3 i g) m Q) ->
    GG P i g n Phi w -> m w = (w', r) -> GG P i g n Phi w'.
  Proof.
    intros M (W & Hh & F) H. assert (He : FrameK.hat P a sk (I3 i g) [] e) by (destruct W as [I _]; eapply entry_hat; eauto).
    destruct (wk_step _ _ _ _ _ _ _ _ _ _ (M He Hh) W H) as [W' F']. split; [exact W'|]. split; [exact Hh|].
    intros h I1 F1. apply F; [exact I1|]. eapply FrameK.Fr_trans; [exact sk|exact F'|exact F1].
  Qed.
  Lemma GG_put g s n x l w w' u : Uq g -> plain_name n -> NoDup (keys l) -> BB w -> member (w_h5 w) a g (h_id s) -> FrameK.hat (PO a) a sk noI [g] s ->
    wds s n x l w = (w', Ok u) -> exists v P, to_hval x = Ok v /\ GG P (h_id s) g n (fun h => sub_holds h a g n v l) w' /\ FrameK.hat P a sk (I3 (h_id s) g) [g] s.
  Proof.
    intros U Hn ND B M Hs H. destruct (BB_ins w B) as [Mi Li]. pose proof (BB_BW w B) as W.
    destruct (sub_up a sk g s n x l w w' u Ha Hp U Hn ND W M Hs H) as (_ & _ & v & P & EP & V & _ & WI & _ & _ & _ & Hs' & F).
    exists v, P. split; [exact V|]. split; [|exact Hs']. split; [exact WI|]. split; [|exact F].
    rewrite EP. apply hat_up; [exact Hins|left; apply Li|destruct W as [I _]; apply (FrameK.inv_alt _ _ _ _ _ _ I)|].
    intros E. rewrite E in Mi. destruct W as [I _].
    destruct (FrameK.inv_uq _ _ _ _ _ _ I a INS (h_id s) g) as [_ X]; [apply (FrameK.inv_Pa _ _ _ _ _ _ I)|apply member_link; exact Mi|exact U|exact M|]. rewrite X. reflexivity.
  Qed.
  (** a dataset of the sample, with the group opened before *)
  Lemma BB_sam w w' s : BB w -> sampleG e w = (w', Ok s) -> BB w' /\ member (w_h5 w') a SAM (h_id s) /\ FrameK.hat (PO a) a sk noI [SAM] s /\ FrameK.hat (PO a) a sk IB [SAM] s.
  Proof.
    intros B H. assert (M : FrameK.hat (PO a) a sk IB [] e -> FrameK.hat (PO a) a sk IB [INS] ins -> WriterFrameK.wk (PO a) a sk noK IB (sampleG e) (FrameK.hat (PO a) a sk IB [SAM])).
    { intros He _. apply s_sam; auto. }
    split; [eapply BB_keep; [exact M|exact B|exact H]|].
    destruct (open_up a sk SAM _ _ w w' s Hp ltac:(apply plainb_ok; reflexivity) (BB_BW w B) H) as (_ & _ & _ & X & Y). split; [exact X|]. split; [exact Y|].
    destruct (M (e_hat w B) ins_hat w B) as (_ & _ & Z). rewrite H in Z. apply Z. reflexivity.
  Qed.
  Lemma sam_put s n x l w w' u : plain_name n -> BB w -> member (w_h5 w) a SAM (h_id s) -> FrameK.hat (PO a) a sk noI [SAM] s -> FrameK.hat (PO a) a sk IB [SAM] s ->
    NoDup (keys l) -> wds s n x l w = (w', Ok u) -> BB w' /\ member (w_h5 w') a SAM (h_id s).
  Proof.
    intros Hn B M H1 H2 ND H. assert (Us : Uq SAM) by (right; left; reflexivity). split.
    - eapply BB_keep; [|exact B|exact H]. intros _ _. eapply WriterFrameK.wds_u; [intros []|exact H2|intros []|intros []|exact Hn].
    - destruct (sub_up a sk SAM s n x l w w' u Ha Hp Us Hn ND (BB_BW w B) M H1 H) as (_ & _ & v & P & _ & _ & _ & _ & _ & _ & X & _). exact X.
  Qed.
  Lemma GG_sam n x l w w' u : plainb n = true -> NoDup (keys l) -> BB w -> (let* s := sampleG e in wds s n x l) w = (w', Ok u) ->
    exists v P i, to_hval x = Ok v /\ GG P i SAM n (fun h => sub_holds h a SAM n v l) w'.
  Proof.
    intros Hn ND B H. apply bind_ok in H. destruct H as (s & w1 & H1 & H). destruct (BB_sam w w1 s B H1) as (B1 & M1 & X1 & X2).
    destruct (GG_put SAM s n x l w1 w' u ltac:(right; left; reflexivity) ltac:(apply plainb_ok; exact Hn) ND B1 M1 X1 H) as (v & P & V & G & _). exists v, P, (h_id s). auto.
  Qed.
End Diff.

(** ** All datasets of the instrument and of the sample *)
Definition put : Type := str * pydata * attrs_t.
Definition lat_puts (l : lattice) : list put := match l with
  | Lat3 v => [(L "unit_cell_abc", DNums (nums (firstn 3 v)), [(L "units", t_ "angstrom")]);
               (L "unit_cell_alphabetagamma", DNums (nums (skipn 3 v)), [(L "units", t_ "degrees")]);
               (L "unit_cell", DNums (nums v), [])]
  | Lat2 v => map (fun kv => (fst (fst kv), DNum (NF (snd kv)), [(L "units", AText (snd (fst kv)))])) (combine lat_fields2 v) end.
Definition put_in (s : handle) (q : put) : WM unit := wds s (fst (fst q)) (snd (fst q)) (snd q).
Lemma siter_last {S A} (f : A -> St S unit) x w w' : f x w = (w', Ok tt) -> siter f [x] w = (w', Ok tt).
Proof. intros H. cbn [siter]. rewrite sbind_eq, H. reflexivity. Qed.
Lemma lat_siter e l w w' : w_lattice e l w = (w', Ok tt) -> exists s w1, sampleG e w = (w1, Ok s) /\ siter (put_in s) (lat_puts l) w1 = (w', Ok tt).
Proof.
  intros H. unfold w_lattice in H. apply bind_ok in H. destruct H as (s & w1 & H1 & H). exists s, w1. split; [exact H1|]. destruct l as [v|v].
  - unfold lat_puts. revert w1 H1 H. generalize (combine lat_fields2 v). induction l as [|q l IH]; intros w1 H1 H; [exact H|]. cbn [map siter] in *.
    rewrite sbind_eq in *. unfold put_in at 1. cbn [fst snd]. destruct (wds s _ _ _ w1) as [w2 [u|x]]; [|discriminate].
    clear H1. revert H. clear IH. revert w2. induction l as [|q' l IH]; intros w2 H; [exact H|]. cbn [map siter] in *.
    rewrite sbind_eq in *. unfold put_in at 1. cbn [fst snd]. destruct (wds s _ _ _ w2) as [w3 [u3|x]]; [|discriminate]. auto.
  - unfold lat_puts. cbn [siter]. apply bind_ok in H. destruct H as ([] & w2 & H2 & H). apply bind_ok in H. destruct H as ([] & w3 & H3 & H).
    rewrite sbind_eq. unfold put_in at 1. cbn [fst snd]. rewrite H2. rewrite sbind_eq. unfold put_in at 1. cbn [fst snd]. rewrite H3. apply (siter_last (put_in s)). exact H.
Qed.
Lemma lat_puts_nd l : NoDup (map (fun q : put => fst (fst q)) (lat_puts l)) /\ Forall (fun q : put => plainb (fst (fst q)) = true /\ NoDup (keys (snd q)) /\ In (fst (fst q)) lat_names) (lat_puts l).
Proof.
  destruct l as [v|v].
  - unfold lat_puts, lat_fields2. destruct v as [|x [|y [|z v]]]; cbn [combine map fst snd]; (split; [repeat constructor; simpl; intuition discriminate|]);
      repeat (constructor; [split; [reflexivity|split; [constructor; [intros []|constructor]|simpl; tauto]]|]); constructor.
  - split; [repeat constructor; simpl; intuition discriminate|].
    repeat (constructor; [split; [reflexivity|split; [repeat constructor; simpl; intuition discriminate|simpl; tauto]]|]); constructor.
Qed.
Section Puts.
  Context (a : nat) (sk : str) (Ha : 0 < a) (Hp : plain_name sk) (Has : is_ascii sk) (ins : handle).
  Context (Hins : FrameK.hat (PO a) a sk noI [INS] ins).
  Lemma GG_puts s qs : forall w w' u n x l, BB a sk ins w -> member (w_h5 w) a SAM (h_id s) -> FrameK.hat (PO a) a sk noI [SAM] s -> FrameK.hat (PO a) a sk (IB ins) [SAM] s ->
    NoDup (map (fun q : put => fst (fst q)) qs) -> Forall (fun q : put => plainb (fst (fst q)) = true /\ NoDup (keys (snd q)) /\ In (fst (fst q)) lat_names) qs ->
    In (n, x, l) qs -> siter (put_in s) qs w = (w', Ok u) ->
    exists v P i, to_hval x = Ok v /\ GG a sk ins P i SAM n (fun h => sub_holds h a SAM n v l) w'.
  Proof.
    induction qs as [|q qs IH]; intros w w' u n x l B M H1 H2 ND F Hin H; [destruct Hin|].
    cbn [siter] in H. apply bind_ok in H. destruct H as (u1 & w1 & G1 & H). inversion ND as [|? ? N1 N2]; subst. inversion F as [|? ? (F1 & F2 & _) F3]; subst.
    destruct Hin as [->|Hin].
    - cbn [fst snd] in *. unfold put_in in G1. cbn [fst snd] in G1.
      destruct (GG_put a sk Ha Hp ins Hins SAM s n x l w w1 u1 ltac:(right; left; reflexivity) ltac:(apply plainb_ok; exact F1) F2 B M H1 G1) as (v & P & V & G & Hs).
      exists v, P, (h_id s). split; [exact V|]. eapply GG_keep; [exact Hp| |exact G|exact H]. intros _ _. apply WriterFrameK.wk_iter. intros q Hq.
      rewrite Forall_forall in F3. destruct (F3 q Hq) as (Q1 & _). eapply WriterFrameK.wds_u; [apply K3_0|exact Hs|apply K3_1| |apply plainb_ok; exact Q1].
      intros X. apply N1. unfold K3 in X. assert (Y : fst (fst q) = n) by congruence. rewrite <- Y. apply (in_map (fun q : put => fst (fst q))). exact Hq.
    - destruct (sam_put a sk Ha Hp ins Hins s _ _ _ w w1 u1 ltac:(apply plainb_ok; exact F1) B M H1 H2 F2 G1) as [B1 M1]. eapply IH; eauto.
  Qed.
End Puts.

(** the datasets: group, name, data and attributes *)
Definition diff_ds (d : diffr) : list (str * put) :=
  (INS, (L "name", DText (d_full d), [])) ::
  map (pair SAM) (match d_lattice d with Some l => lat_puts l | None => [] end) ++
  (match dget (L "ub_matrix") (d_gpar d) with Some ub => [(SAM, (L "ub_matrix", gval_data ub, []))] | None => [] end) ++
  (match d_mode d with Some m => [(SAM, (L "diffractometer_mode", DText m, []))] | None => [] end) ++
  (match d_sector d with Some z => [(SAM, (L "diffractometer_sector", DNum (NI z), []))] | None => [] end).
Ltac n3 := intros; let X := fresh in intros X; unfold K3 in X; discriminate X.
Lemma lat_K3 n : ~ In n lat_names -> forall m, In m lat_names -> ~ K3 SAM n [SAM; m].
Proof. intros H m Hm X. apply H. unfold K3 in X. assert (m = n) by congruence. subst. exact Hm. Qed.
Lemma lat_first n : In n lat_names -> exists t, n = L "unit_cell" ++ t.
Proof. unfold lat_names, lat_fields2. simpl. intros H. repeat (destruct H as [<-|H]; [eexists; reflexivity|]). destruct H. Qed.
Lemma diffr_up a sk d w w' u g n x l : 0 < a -> plain_name sk -> is_ascii sk -> BW a sk w -> diffr_names d -> In (g, (n, x, l)) (diff_ds d) ->
  w_diffr (mk_handle a (name_at [sk])) d w = (w', Ok u) ->
  Uq g /\ exists v P i, to_hval x = Ok v /\ FrameK.Inv P a sk (K3 g n) (I3 i g) (w_h5 w') /\
    forall h, FrameK.Inv P a sk (K3 g n) (I3 i g) h -> FrameK.Fr P a (K3 g n) (I3 i g) (w_h5 w') h -> sub_holds h a g n v l.
Proof.
  intros Ha Hp Has W Dn Hin H. pose proof (proj2 (proj2 Dn)) as Gn. rewrite (w_diffr_eq _ d Gn) in H. set (e := mk_handle a (name_at [sk])) in *.
  apply bind_ok in H. destruct H as (ins & w0 & H0 & H).
  destruct (open_up a sk INS _ _ w w0 ins Hp INS_plain W H0) as (W0 & _ & _ & M0 & Hins).
  assert (Ui : Uq INS) by (left; reflexivity). assert (Us : Uq SAM) by (right; left; reflexivity).
  assert (B0 : BB a sk ins w0).
  { destruct W0 as [[A1 A2 A3 A4 A5 A6 A7 A8 A9 A10] N]. split; [|exact N]. constructor; auto.
    - intros i m j N1 N2. destruct (A8 i m j N1 N2) as [Y Z]. split; [exact Y|]. intros Q. destruct (Z Q) as [[_ []]|(q & [] & _)].
    - intros j q [-> ->]. split; [exact Ui|]. destruct Hins as ((P1 & P2 & _) & _). split; [exact P1|]. split; [intros X; specialize (P2 X); discriminate P2|exact M0]. }
  apply bind_ok in H. destruct H as ([] & w1 & H1 & H). apply bind_ok in H. destruct H as ([] & w2 & H2 & H). apply bind_ok in H. destruct H as ([] & w3 & H3 & H).
  apply bind_ok in H. destruct H as ([] & w4 & H4 & H). apply bind_ok in H. destruct H as ([] & w5 & H5 & H). apply bind_ok in H. destruct H as ([] & w6 & H6 & H).
  apply bind_ok in H. destruct H as ([] & w7 & H7 & H).
  assert (Z : forall P i n Phi w w', GG a sk ins P i g n Phi w -> (g = INS -> n = L "name") -> (g = SAM -> forall k : nat, n <> L "or" ++ str_of_nat k) -> (g = SAM -> n <> L "beam") ->
    (g = INS \/ g = SAM) -> forall r6 w6 w7, p_refl e d w = (w6, r6) -> forall r7, p_wave e ins d w6 = (w7, r7) -> forall r, p_geo ins d w7 = (w', r) -> GG a sk ins P i g n Phi w').
  { clear - Hp Has Dn. intros P i n Phi w w' G Ni No Nb Hg r6 w6 w7 H6 r7 H7 r H.
    eapply GG_keep; [exact Hp| |eapply GG_keep; [exact Hp| |eapply GG_keep; [exact Hp| |exact G|exact H6]|exact H7]|exact H].
    - intros He Hi. apply s_geo; auto; try apply K3_0; try apply K3_1. intros X. unfold K3 in X. assert (Y1 : INS = g) by congruence. assert (Y2 : (L "geometry_parameters" : str) = n) by congruence.
      rewrite <- Y2 in Ni. specialize (Ni (eq_sym Y1)). discriminate Ni.
    - intros He Hi. apply s_wave; auto; try apply K3_0; try apply K3_1.
      + intros X. unfold K3 in X. assert (Y1 : INS = g) by congruence. assert (Y2 : (L "monochromator" : str) = n) by congruence. rewrite <- Y2 in Ni. specialize (Ni (eq_sym Y1)). discriminate Ni.
      + intros X. unfold K3 in X. assert (Y1 : SAM = g) by congruence. apply (Nb (eq_sym Y1)). congruence.
    - intros He Hi. apply s_refl; auto; try apply K3_0; try apply K3_1. intros k X. unfold K3 in X. assert (Y1 : SAM = g) by congruence. apply (No (eq_sym Y1) k). congruence. }
  pose proof (BB_keep a sk Hp ins Hins _ _ w0 w1 _ (fun He Hi => s_name (PO a) a sk noK (IB ins) ltac:(auto) ins d Hi ltac:(auto) ltac:(auto)) B0 H1) as B1.
  pose proof (BB_keep a sk Hp ins Hins _ _ w1 w2 _ (fun He Hi => s_lat (PO a) a sk noK (IB ins) ltac:(auto) e d He ltac:(auto) ltac:(auto)) B1 H2) as B2.
  pose proof (BB_keep a sk Hp ins Hins _ _ w2 w3 _ (fun He Hi => s_ub (PO a) a sk noK (IB ins) ltac:(auto) e d He ltac:(auto) ltac:(auto)) B2 H3) as B3.
  pose proof (BB_keep a sk Hp ins Hins _ _ w3 w4 _ (fun He Hi => s_mode (PO a) a sk noK (IB ins) ltac:(auto) e d He ltac:(auto) ltac:(auto)) B3 H4) as B4.
  assert (Done : forall P i v, to_hval x = Ok v -> GG a sk ins P i g n (fun h => sub_holds h a g n v l) w' -> exists v P i, to_hval x = Ok v /\ FrameK.Inv P a sk (K3 g n) (I3 i g) (w_h5 w') /\
    forall h, FrameK.Inv P a sk (K3 g n) (I3 i g) h -> FrameK.Fr P a (K3 g n) (I3 i g) (w_h5 w') h -> sub_holds h a g n v l).
  { intros P i v V ((I' & _) & _ & F). exists v, P, i. auto. }
  unfold diff_ds in Hin. destruct Hin as [Hin|Hin]; [|apply in_app_iff in Hin; destruct Hin as [Hin|Hin]; [|apply in_app_iff in Hin; destruct Hin as [Hin|Hin]; [|apply in_app_iff in Hin; destruct Hin as [Hin|Hin]]]].
  - assert (g = INS) by congruence. assert (n = L "name") by congruence. assert (x = DText (d_full d)) by congruence. assert (l = []) by congruence. subst g n x l. split; [exact Ui|].
    destruct (GG_put a sk Ha Hp ins Hins INS ins (L "name") (DText (d_full d)) [] w0 w1 _ Ui ltac:(apply plainb_ok; reflexivity) ltac:(constructor) B0 M0 Hins H1) as (v & P & V & G & _).
    apply (Done P (h_id ins) v V). eapply (Z P (h_id ins) _ _ w5 w'); [|auto|discriminate|discriminate|auto|exact H6|exact H7|exact H].
    eapply GG_keep; [exact Hp| |eapply GG_keep; [exact Hp| |eapply GG_keep; [exact Hp| |eapply GG_keep; [exact Hp| |exact G|exact H2]|exact H3]|exact H4]|exact H5]; intros He Hi;
      [apply s_sec|apply s_mode|apply s_ub|apply s_lat]; auto; n3.
  - apply in_map_iff in Hin. destruct Hin as (q & Eq & Hq). assert (g = SAM) by congruence. assert (q = (n, x, l)) by congruence. subst g q. split; [exact Us|].
    unfold p_lat in H2. destruct (d_lattice d) as [lt|]; [|destruct Hq].
    destruct (lat_siter e lt w1 w2 H2) as (s & ws & S1 & S2). destruct (BB_sam a sk Hp ins Hins w1 ws s B1 S1) as (Bs & Ms & X1 & X2).
    destruct (lat_puts_nd lt) as [L1 L2]. destruct (GG_puts a sk Ha Hp ins Hins s (lat_puts lt) ws w2 tt n x l Bs Ms X1 X2 L1 L2 Hq S2) as (v & P & i & V & G).
    rewrite Forall_forall in L2. destruct (L2 _ Hq) as (_ & _ & Ln). cbn [fst] in Ln. destruct (lat_first n Ln) as (t & En).
    apply (Done P i v V). eapply (Z P i _ _ w5 w'); [|discriminate|rewrite En; discriminate|rewrite En; discriminate|auto|exact H6|exact H7|exact H].
    eapply GG_keep; [exact Hp| |eapply GG_keep; [exact Hp| |eapply GG_keep; [exact Hp| |exact G|exact H3]|exact H4]|exact H5]; intros He Hi;
      [apply s_sec|apply s_mode|apply s_ub]; auto; try apply K3_0; try apply K3_1; intros X; unfold K3 in X; rewrite En in X; discriminate X.
  - unfold p_ub in H3. destruct (dget (L "ub_matrix") (d_gpar d)) as [ub|]; [|destruct Hin]. destruct Hin as [Hin|[]].
    assert (g = SAM) by congruence. assert (n = L "ub_matrix") by congruence. assert (x = gval_data ub) by congruence. assert (l = []) by congruence. subst g n x l. split; [exact Us|].
    destruct (GG_sam a sk Ha Hp ins Hins (L "ub_matrix") (gval_data ub) [] w2 w3 _ ltac:(reflexivity) ltac:(constructor) B2 H3) as (v & P & i & V & G).
    apply (Done P i v V). eapply (Z P i _ _ w5 w'); [|discriminate|discriminate|discriminate|auto|exact H6|exact H7|exact H].
    eapply GG_keep; [exact Hp| |eapply GG_keep; [exact Hp| |exact G|exact H4]|exact H5]; intros He Hi; [apply s_sec|apply s_mode]; auto; n3.
  - unfold p_mode in H4. destruct (d_mode d) as [ub|]; [|destruct Hin]. destruct Hin as [Hin|[]].
    assert (g = SAM) by congruence. assert (n = L "diffractometer_mode") by congruence. assert (x = DText ub) by congruence. assert (l = []) by congruence. subst g n x l. split; [exact Us|].
    destruct (GG_sam a sk Ha Hp ins Hins (L "diffractometer_mode") (DText ub) [] w3 w4 _ ltac:(reflexivity) ltac:(constructor) B3 H4) as (v & P & i & V & G).
    apply (Done P i v V). eapply (Z P i _ _ w5 w'); [|discriminate|discriminate|discriminate|auto|exact H6|exact H7|exact H].
    eapply GG_keep; [exact Hp| |exact G|exact H5]; intros He Hi; apply s_sec; auto; n3.
  - unfold p_sec in H5. destruct (d_sector d) as [ub|]; [|destruct Hin]. destruct Hin as [Hin|[]].
    assert (g = SAM) by congruence. assert (n = L "diffractometer_sector") by congruence. assert (x = DNum (NI ub)) by congruence. assert (l = []) by congruence. subst g n x l. split; [exact Us|].
    destruct (GG_sam a sk Ha Hp ins Hins (L "diffractometer_sector") (DNum (NI ub)) [] w4 w5 _ ltac:(reflexivity) ltac:(constructor) B4 H5) as (v & P & i & V & G).
    apply (Done P i v V). eapply (Z P i _ _ w5 w'); [exact G|discriminate|discriminate|discriminate|auto|exact H6|exact H7|exact H].
Qed.

(* ------------------------------------------------------------------ *)
(** ** The writer *)
Definition Gdesc : attrs_t := [desc "SPEC geometry arrays, meanings defined by SPEC diffractometer support"].
Definition g_nums (G : dict str) : res (list (str * pydata)) := mapM (fun kv => do v <- floats (snd kv); Ok (fst kv, DNums (nums v))) G.
Lemma G_plain : plain_name (L "G"). Proof. apply plainb_ok; reflexivity. Qed.
Lemma G_nuq : ~ Uq (L "G"). Proof. nuq. Qed.
Lemma w_G_parts a sk w w' u : 0 < a -> plain_name sk -> BW a sk w -> w_G (mk_handle a (name_at [sk])) Scn w = (w', Ok u) ->
  exists g w1 w2 u2 G vs d, hdf (makeGroup (mk_handle a (name_at [sk])) (L "G") NOTE Gdesc) w = (w1, Ok g) /\ w_scan w A_G = Some G /\ g_nums G = Ok vs /\
    save_dict g vs w1 = (w2, Ok u2) /\ w_scan w A_diffractometer = Some d /\ diffr_names d /\ w_diffr (mk_handle a (name_at [sk])) d w2 = (w', Ok u) /\ BW a sk w2.
Proof.
  intros Ha Hp W H. unfold w_G in H. apply bind_ok in H. destruct H as (g & w1 & H1 & H).
  apply bind_ok in H. destruct H as (G & w1' & H2 & H). apply rd_ok in H2. destruct H2 as [-> H2].
  apply bind_ok in H. destruct H as (vs & w1' & H3 & H). apply lift_ok in H3. destruct H3 as [-> H3].
  apply bind_ok in H. destruct H as (u2 & w2 & H4 & H). apply bind_ok in H. destruct H as (d & w2' & H5 & H). apply rd_ok in H5. destruct H5 as [-> H5].
  assert (Hs : w_scan w1 = w_scan w).
  { unfold hdf in H1. destruct (makeGroup _ _ _ _ (w_h5 w)) as [f1 r1]. injection H1; intros _ <-. reflexivity. }
  destruct (dict_made a sk (L "G") "NXnote" Gdesc vs _ w w2 g w1 u2 Ha eq_refl G_plain W ltac:(nodup) ltac:(simpl; intuition discriminate) ltac:(simpl; intuition discriminate) H1 H4)
    as (_ & _ & _ & _ & Es & Eh & _).
  pose proof (base_dict a sk (L "G") "NXnote" Gdesc vs w w1 w2 g u2 Hp G_plain G_nuq W H1 H4) as I2.
  cbn [obj_of] in H2, H5. rewrite Hs in H2. rewrite Es in H5. destruct W as (I & N1 & N2).
  exists g, w1, w2, u2, G, vs, d. do 5 (split; [assumption|]). split; [apply (no_d _ N1 d H5)|]. split; [exact H|]. split; [exact I2|]. rewrite Es, Eh. auto.
Qed.
Definition ds_key (q : str * put) : str * str := (fst q, fst (fst (snd q))).
Lemma diff_where d q : In q (diff_ds d) -> (fst q = INS /\ fst (fst (snd q)) = L "name") \/ (fst q = SAM /\ (In (fst (fst (snd q))) lat_names \/
  In (fst (fst (snd q))) [L "ub_matrix"; L "diffractometer_mode"; L "diffractometer_sector"])).
Proof.
  unfold diff_ds. intros [<-|H]; [left; split; reflexivity|]. right. rewrite !in_app_iff in H. destruct H as [H|[H|[H|H]]].
  - apply in_map_iff in H. destruct H as (p & <- & H). cbn [fst snd]. split; [reflexivity|]. left. destruct (d_lattice d) as [lt|]; [|destruct H].
    destruct (lat_puts_nd lt) as [_ L2]. rewrite Forall_forall in L2. apply (L2 p H).
  - destruct (dget _ _); [|destruct H]. destruct H as [<-|[]]. split; [reflexivity|right; left; reflexivity].
  - destruct (d_mode d); [|destruct H]. destruct H as [<-|[]]. split; [reflexivity|right; right; left; reflexivity].
  - destruct (d_sector d); [|destruct H]. destruct H as [<-|[]]. split; [reflexivity|right; right; right; left; reflexivity].
Qed.
Lemma nodup_one {A B} (g : A -> B) l x y : NoDup (map g l) -> In x l -> In y l -> g x = g y -> x = y.
Proof.
  induction l as [|z l IH]; intros N Hx Hy E; [destruct Hx|]. cbn [map] in N. inversion N as [|? ? N1 N2]; subst. destruct Hx as [<-|Hx]; destruct Hy as [<-|Hy]; auto.
  - exfalso. apply N1. rewrite E. apply in_map. exact Hy.
  - exfalso. apply N1. rewrite <- E. apply in_map. exact Hx.
Qed.
Lemma nodup_app {A} (l m : list A) : NoDup l -> NoDup m -> (forall x, In x l -> ~ In x m) -> NoDup (l ++ m).
Proof.
  induction l as [|x l IH]; intros N1 N2 D; [exact N2|]. inversion N1 as [|? ? A1 A2]; subst. constructor.
  - rewrite in_app_iff. intros [X|X]; [auto|]. apply (D x); [left; auto|exact X].
  - apply IH; auto. intros y Hy. apply D. right. exact Hy.
Qed.
Lemma diff_nd d : NoDup (map ds_key (diff_ds d)).
Proof.
  unfold diff_ds. cbn [map]. constructor.
  - intros H. rewrite !map_app, !in_app_iff, map_map in H. destruct H as [H|[H|[H|H]]].
    + apply in_map_iff in H. destruct H as (p & H & _). discriminate H.
    + destruct (dget _ _); [|destruct H]. destruct H as [H|[]]. discriminate H.
    + destruct (d_mode d); [|destruct H]. destruct H as [H|[]]. discriminate H.
    + destruct (d_sector d); [|destruct H]. destruct H as [H|[]]. discriminate H.
  - rewrite map_app. apply nodup_app.
    + rewrite map_map. destruct (d_lattice d) as [lt|]; [|constructor]. destruct (lat_puts_nd lt) as [L1 _].
      clear - L1. induction (lat_puts lt) as [|q l IH]; [constructor|]. cbn [map] in *. inversion L1 as [|? ? A1 A2]; subst. constructor; [|auto].
      intros H. apply A1. apply in_map_iff in H. destruct H as (p & E & H). unfold ds_key in E. cbn [fst snd] in E. apply in_map_iff. exists p. split; [congruence|exact H].
    + destruct (dget _ _); destruct (d_mode d); destruct (d_sector d); cbn [app map]; repeat constructor; simpl; intuition discriminate.
    + intros x Hx Hy. rewrite map_map in Hx. apply in_map_iff in Hx. destruct Hx as (p & <- & Hp). unfold ds_key in Hy. cbn [fst snd] in Hy.
      assert (Ln : In (fst (fst p)) lat_names).
      { destruct (d_lattice d) as [lt|]; [|destruct Hp]. destruct (lat_puts_nd lt) as [_ L2]. rewrite Forall_forall in L2. apply (L2 p Hp). }
      destruct (lat_first _ Ln) as (t & En). rewrite En in Hy. rewrite !map_app, !in_app_iff in Hy. destruct Hy as [H|[H|H]].
      * destruct (dget _ _); [|destruct H]. destruct H as [H|[]]. discriminate H.
      * destruct (d_mode d); [|destruct H]. destruct H as [H|[]]. discriminate H.
      * destruct (d_sector d); [|destruct H]. destruct H as [H|[]]. discriminate H.
Qed.
Lemma diff_one d p q : In p (diff_ds d) -> In q (diff_ds d) -> fst p = fst q -> fst (fst (snd p)) = fst (fst (snd q)) -> p = q.
Proof. intros H1 H2 E1 E2. apply (nodup_one ds_key _ p q (diff_nd d) H1 H2). unfold ds_key. congruence. Qed.
Definition Psi_diff (g n : str) (o : obj) (f : h5) (a : nat) : Prop := forall d x l, o A_diffractometer = Some d -> In (g, (n, x, l)) (diff_ds d) ->
  exists v, to_hval x = Ok v /\ sub_holds f a g n v l.
Lemma str_dec (s t : str) : {s = t} + {s <> t}. Proof. decide equality. apply N.eq_dec. Qed.
Lemma est_diff g n : est H_G (Psi_diff g n).
Proof.
  intros cmd a sk w w' u Ha Hp Has W H. pose proof (base_writer _ _ _ _ _ _ _ Hp Has W H) as WE. cbn [writer_of] in H.
  destruct (w_G_parts a sk w w' u Ha Hp W H) as (_ & _ & w2 & _ & _ & _ & d & _ & _ & _ & _ & Hd & Dn & H2 & W2).
  destruct (in_dec (fun p q : str * str => ltac:(decide equality; apply str_dec)) (g, n) (map (fun q : str * put => (fst q, fst (fst (snd q)))) (diff_ds d))) as [Hin|Nin].
  2:{ apply (est_none H_G _ a sk w w' Ha WE). intros f d' x l X Y. exfalso. apply Nin. rewrite Hd in X. injection X; intros <-.
      apply in_map_iff. exists (g, (n, x, l)). auto. }
  apply in_map_iff in Hin. destruct Hin as ([g' [[n' x] l]] & Eq & Hin). cbn [fst snd] in Eq. injection Eq; intros -> ->.
  destruct (diffr_up a sk d w2 w' u g n x l Ha Hp Has W2 Dn Hin H2) as (U & v & P & i & V & I' & F).
  exists P, (K3 g n), (I3 i g). split; [apply K3_0|]. split; [apply K3_2; exact U|]. split; [|split; [exact I'|]].
  - destruct (diff_where d _ Hin) as [[E1 E2]|[E1 _]]; cbn [fst snd] in E1; [cbn [fst snd] in E2; rewrite E1, E2|rewrite E1]; okk3.
  - intros f If Ff d' x' l' X Y. rewrite Hd in X. injection X; intros <-.
    pose proof (diff_one d _ _ Hin Y eq_refl eq_refl) as Z. injection Z; intros <- <-. exists v. split; [exact V|]. apply F; auto.
Qed.

(** *** the arrays *)
Definition Psi_G (o : obj) (f : h5) (a : nat) : Prop := forall G, o A_G = Some G -> exists vs, g_nums G = Ok vs /\ dict_in f a (L "G") "NXnote" Gdesc vs.
Lemma est_G : est H_G Psi_G.
Proof.
  intros cmd a sk w w' u Ha Hp Has W H. cbn [writer_of] in H.
  destruct (w_G_parts a sk w w' u Ha Hp W H) as (g & w1 & w2 & u2 & G & vs & d & H1 & EG & Ev & H3 & Hd & Dn & H2 & W2).
  destruct (dict_made a sk (L "G") "NXnote" Gdesc vs _ w w2 g w1 u2 Ha eq_refl G_plain W ltac:(nodup) ltac:(simpl; intuition discriminate) ltac:(simpl; intuition discriminate) H1 H3)
    as (ms & at_ & Fi & Eg & Es & Eh & (mg & Ng) & _ & Dc).
  pose proof W as [I _]. pose proof W2 as [I2 N2]. destruct (filled_up a sk _ ms at_ _ _ Ha I I2 Fi) as (IU & Mb & Hab).
  set (P := PP a (List.length (w_h5 w)) (List.length (w_h5 w2))) in *.
  assert (M : WriterFrameK.wk P a sk (K1 (L "G")) noI (w_diffr (mk_handle a (name_at [sk])) d) (fun _ => True)).
  { assert (He : FrameK.hat P a sk noI [] (mk_handle a (name_at [sk]))) by (eapply entry_hat; [exact Hp|exact IU]).
    rewrite (w_diffr_eq _ d (proj2 (proj2 Dn))). assert (K0 : ~ K1 (L "G") []) by apply K1_0.
    assert (KI : ~ K1 (L "G") [INS]) by (apply not_eq_sym; discriminate). assert (KS : ~ K1 (L "G") [SAM]) by (apply not_eq_sym; discriminate).
    assert (K2' : forall p q, ~ K1 (L "G") [p; q]) by (intros p q X; discriminate X).
    eapply WriterFrameK.wk_bind; [apply (WriterFrameK.open_e P a sk (K1 (L "G")) noI K0 _ INS); [exact He|apply INS_plain|exact KI]|intros ins Hi].
    bd; [apply s_name; auto|]. bd; [apply s_lat; auto|]. bd; [apply s_ub; auto|]. bd; [apply s_mode; auto|]. bd; [apply s_sec; auto|]. bd; [apply s_refl; auto|]. bd; [apply s_wave; auto|]. apply s_geo; auto. }
  destruct (wk_step _ _ _ _ _ _ _ _ _ _ M (conj IU N2) H2) as [[I' _] F'].
  exists P, (K1 (L "G")), noI. split; [apply K1_0|]. split; [apply K1_2|]. split; [okk|]. split; [exact I'|].
  intros f If Ff G' X. rewrite EG in X. injection X; intros <-. exists vs. split; [exact Ev|].
  assert (FF : FrameK.Fr P a (K1 (L "G")) noI (w_h5 w2) f) by (eapply FrameK.Fr_trans; [exact sk|exact F'|exact Ff]).
  destruct FF as [G1 G2 G3 G4]. apply Dc.
  - eapply near_same; [rewrite Eg; apply (fi_len _ _ _ _ _ _ Fi)| |exact Ng]. intros i Hi. apply G2. right. rewrite Eg in Hi. exact Hi.
  - rewrite Eg. apply G3; [reflexivity|exact Mb].
Qed.
