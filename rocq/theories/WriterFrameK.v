(** The writers of one NXentry keep the frame of FrameK.v: the objects protected there stay as they are. *)
From Coq Require Import String Lia.
From Verif Require Import Py PyFacts NumFacts Utils SpecUtils Keys Geom Handlers Reader NamesFacts H5 SpecH5 H5Facts FrameH5 Writer WriterFrame FrameK UxmlFacts.
Import ListNotations.
Local Open Scope list_scope.

Section Frame.
  Context (P : nat -> Prop) (a : nat) (sk : str) (K : list str -> Prop) (II : nat -> str -> Prop)
          (K0 : ~ K []) (K2 : forall g n, K [g; n] -> Uq g) (Hsk : plain_name sk) (Ask : is_ascii sk).
  Notation Inv := (FrameK.Inv P a sk K II). Notation Fr := (FrameK.Fr P a K II). Notation hk := (FrameK.hk P a sk K II).
  Notation hat := (FrameK.hat P a sk II). Notation clear := (FrameK.clear K).

  Definition WInv (w : wst) : Prop := Inv (w_h5 w) /\ names_ok (w_scan w) /\ names_ok (w_hdr w).
  Definition wk {A} (m : WM A) (Q : A -> Prop) : Prop := forall w, WInv w ->
    WInv (fst (m w)) /\ Fr (w_h5 w) (w_h5 (fst (m w))) /\ (forall x, snd (m w) = Ok x -> Q x).

  Lemma wk_id {A} (m : WM A) (Q : A -> Prop) :
    (forall w, fst (m w) = w) -> (forall w x, WInv w -> snd (m w) = Ok x -> Q x) -> wk m Q.
  Proof. intros H1 H2 w I. rewrite H1. split; [auto|split; [apply FrameK.Fr_refl|eauto]]. Qed.
  Lemma wk_ret {A} (x : A) (Q : A -> Prop) : Q x -> wk (sret x) Q.
  Proof. intros H. apply wk_id; auto. intros w y _ E. inversion E; subst; auto. Qed.
  Lemma wk_raise {A} e (Q : A -> Prop) : wk (sraise e) Q.
  Proof. apply wk_id; auto. discriminate. Qed.
  Lemma wk_lift {A} (r : res A) (Q : A -> Prop) : (forall x, r = Ok x -> Q x) -> wk (slift r) Q.
  Proof. intros H. apply wk_id; auto. Qed.
  Lemma wk_bind {A B} (m : WM A) (k : A -> WM B) Q R :
    wk m Q -> (forall x, Q x -> wk (k x) R) -> wk (sbind m k) R.
  Proof.
    intros Hm Hk w I. rewrite sbind_eq. destruct (Hm w I) as [I1 [F1 Q1]].
    destruct (m w) as [w1 [x|e]]; simpl in *.
    - destruct (Hk x (Q1 x eq_refl) w1 I1) as [I2 [F2 Q2]].
      split; [auto|split; [eapply FrameK.Fr_trans; eauto|auto]].
    - split; [auto|split; [auto|discriminate]].
  Qed.
  Lemma wk_iter {A} (g : A -> WM unit) l : (forall x, In x l -> wk (g x) (fun _ => True)) ->
    wk (siter g l) (fun _ => True).
  Proof.
    induction l as [|x l IH]; simpl; intros H.
    - apply wk_ret; auto.
    - eapply wk_bind; [apply H; auto|]. intros _ _. apply IH. intros y Hy; apply H; auto.
  Qed.
  Lemma wk_weak {A} (m : WM A) (Q R : A -> Prop) : wk m Q -> (forall x, Q x -> R x) -> wk m R.
  Proof. intros Km H w I. destruct (Km w I) as [X [Y Z]]. auto. Qed.
  Lemma wk_hdf {A} (m : HM A) Q : hk m Q -> wk (hdf m) Q.
  Proof.
    intros Km w [I [N1 N2]]. unfold hdf. destruct (Km _ I) as [X [Y Z]].
    destruct (m (w_h5 w)) as [f r]; simpl in *. split; [split; auto|auto].
  Qed.

  (** attributes *)
  Lemma names_of o w : WInv w -> names_ok (obj_of o w).
  Proof. intros [_ [A B]]. destruct o; auto. Qed.
  Lemma rd_any o x : wk (rd o x) (fun _ => True).
  Proof. apply wk_id; auto. Qed.
  Lemma rd_cx o : wk (rd o A_counter_xref) (fun x => Forall rel (keys x)).
  Proof.
    apply wk_id; auto. intros w x I. unfold rd. cbn [snd]. intros E.
    destruct (obj_of o w A_counter_xref) as [v|] eqn:V; [|discriminate]. injection E; intros <-.
    apply (no_cx _ (names_of o w I)); auto.
  Qed.
  Lemma rd_px o : wk (rd o A_positioner_xref) (fun x => Forall rel (keys x)).
  Proof.
    apply wk_id; auto. intros w x I. unfold rd. cbn [snd]. intros E.
    destruct (obj_of o w A_positioner_xref) as [v|] eqn:V; [|discriminate]. injection E; intros <-.
    apply (no_px _ (names_of o w I)); auto.
  Qed.
  Lemma rd_d o : wk (rd o A_diffractometer) diffr_names.
  Proof.
    apply wk_id; auto. intros w x I. unfold rd. cbn [snd]. intros E.
    destruct (obj_of o w A_diffractometer) as [v|] eqn:V; [|discriminate]. injection E; intros <-.
    apply (no_d _ (names_of o w I)); auto.
  Qed.
  Lemma has_any o x : wk (hasW o x) (fun _ => True).
  Proof. apply wk_id; auto. Qed.
  Lemma wr_ok o x v : (forall ob, names_ok ob -> names_ok (upd x v ob)) -> wk (wr o x v) (fun _ => True).
  Proof.
    intros H w [I [N1 N2]]. unfold wr. simpl. split; [|split; [destruct o; apply FrameK.Fr_refl|auto]].
    destruct o; (split; [|split]); simpl; auto.
  Qed.
  Lemma upd_L l o : names_ok o -> names_ok (upd A_L l o).
  Proof. intros [A B C D F]. constructor; auto. Qed.
  Lemma upd_cx o : names_ok o -> names_ok (upd A_counter_xref [] o).
  Proof. apply upd_cxv. constructor. Qed.
  Lemma upd_px o : names_ok o -> names_ok (upd A_positioner_xref [] o).
  Proof. apply upd_pxv. constructor. Qed.

  (** groups and datasets *)
  Definition deep (ps : list str) : Prop := forall x, clear (ps ++ x) /\ forall g, Uq g -> ps ++ x <> [g].
  Lemma deep_top p : ~ Uq p -> ~ K [p] -> deep [p].
  Proof.
    intros U N x. split.
    - unfold FrameK.clear. destruct x as [|y x]; cbn [firstn app]; [auto|]. split; [auto|]. intros H. apply U. eapply K2; eauto.
    - intros g Hg H. inversion H; subst. auto.
  Qed.
  Lemma deep_two g q : ~ K [g] -> ~ K [g; q] -> deep [g; q].
  Proof. intros N M x. split; [|discriminate]. split; cbn [firstn app]; auto. Qed.
  Lemma deep_app ps x : deep ps -> deep (ps ++ x).
  Proof. intros D y. rewrite <- app_assoc. apply D. Qed.
  Lemma deep_clear ps : deep ps -> clear ps.
  Proof. intros D. destruct (D []) as [C _]. rewrite app_nil_r in C. exact C. Qed.
  Lemma clear_one n : ~ K [n] -> clear [n].
  Proof. intros N. split; auto. Qed.
  Lemma clear_two g n : ~ K [g] -> ~ K [g; n] -> clear [g; n].
  Proof. intros N. split; auto. Qed.

  Lemma wds_e e n d l : hat [] e -> plain_name n -> ~ Uq n -> ~ K [n] -> wk (wds e n d l) (fun _ => True).
  Proof.
    intros He Hn U N. unfold wds, unit_of. apply wk_hdf. eapply FrameK.hk_unit.
    apply (FrameK.write_dataset_keeps P a sk K II K0 []); [auto|]. split; [apply plain_rel; auto|].
    rewrite parts_plain by auto. split; [apply clear_one; auto|]. intros g Hg H. inversion H; subst; auto.
  Qed.
  Lemma wds_in ps g n d l : hat ps g -> deep ps -> rel n -> wk (wds g n d l) (fun _ => True).
  Proof.
    intros Hg D Hn. unfold wds, unit_of. apply wk_hdf. eapply FrameK.hk_unit.
    apply (FrameK.write_dataset_keeps P a sk K II K0 ps); [auto|]. split; [auto|apply D].
  Qed.
  Lemma wds_u p g n d l : hat [p] g -> ~ K [p] -> ~ K [p; n] -> plain_name n -> wk (wds g n d l) (fun _ => True).
  Proof.
    intros Hg N M Hn. unfold wds, unit_of. apply wk_hdf. eapply FrameK.hk_unit.
    apply (FrameK.write_dataset_keeps P a sk K II K0 [p]); [auto|]. split; [apply plain_rel; auto|].
    rewrite parts_plain by auto. split; [apply clear_two; auto|discriminate].
  Qed.
  Lemma write_ds_in ps g n d l : hat ps g -> deep ps -> wk (write_ds g n d l) (fun _ => True).
  Proof.
    intros Hg D. unfold write_ds. eapply wk_bind; [apply wk_lift with (Q := plain_name); apply clean_plain|].
    intros c Hc. eapply wds_in; eauto. apply plain_rel; auto.
  Qed.
  Lemma save_dict_in ps g d : hat ps g -> deep ps -> wk (save_dict g d) (fun _ => True).
  Proof. intros Hg D. apply wk_iter. intros x _. eapply write_ds_in; eauto. Qed.
  Lemma open_any ps g n c l : hat ps g -> plain_name n -> clear (ps ++ [n]) -> wk (hdf (openGroup g n c l)) (hat (ps ++ [n])).
  Proof.
    intros He Hp C. apply wk_hdf. rewrite <- (parts_plain n Hp).
    apply FrameK.openGroup_keeps; [auto|auto|apply plain_rel; auto| |]; rewrite parts_plain by auto; [discriminate|auto].
  Qed.
  Lemma open_e e n c l : hat [] e -> plain_name n -> ~ K [n] -> wk (hdf (openGroup e n c l)) (hat [n]).
  Proof. intros He Hp N. apply (open_any [] e n c l); [auto|auto|]. apply clear_one; auto. Qed.
  Lemma open_in ps g n c l : hat ps g -> deep ps -> plain_name n -> wk (hdf (openGroup g n c l)) (hat (ps ++ [n])).
  Proof. intros He D Hp. apply open_any; auto. apply D. Qed.
  Lemma open_u p g n c l : hat [p] g -> ~ K [p] -> ~ K [p; n] -> plain_name n -> wk (hdf (openGroup g n c l)) (hat [p; n]).
  Proof. intros He N M Hp. apply (open_any [p] g n c l); [auto|auto|]. apply clear_two; auto. Qed.
  Lemma make_e e n c l : hat [] e -> plain_name n -> wk (hdf (makeGroup e n c l)) (hat [n]).
  Proof.
    intros He Hp. apply wk_hdf. rewrite <- (parts_plain n Hp). change (parts n) with ([] ++ parts n).
    apply FrameK.makeGroup_keeps; [auto|]. split; [apply plain_rel; auto|].
    rewrite parts_plain by auto. cbn [app removelast]. split; exact K0.
  Qed.
  Lemma link_ok g s ps ins q qs n : hat ps s -> Forall (fun x => asciib x = true) ps ->
    ps <> [] -> clear ps -> (forall u, Uq u -> ps <> [u]) -> hat (q :: qs) ins -> Forall (fun x => asciib x = true) (q :: qs) ->
    clear (q :: qs) -> plain_name n -> asciib n = true -> (ps <> [MCAn] /\ ps <> [INS; MCAn]) \/ (n = MCAn /\ q :: qs = [INS]) ->
    wk (hdf (makeLink g s (h_name ins ++ SLASH :: n))) (fun _ => True).
  Proof.
    intros [A1 [A2 [A3 A4]]] As Ne Cs Us [B1 [B2 [B3 B4]]] Bs Cq Hn An Hm. apply wk_hdf. rewrite B3.
    change (name_at (sk :: q :: qs) ++ SLASH :: n) with (name_at (sk :: q :: qs) ++ [SLASH] ++ n).
    apply (FrameK.makeLink_keeps P a sk K II K0 g s ps n (q :: qs)); auto; try discriminate.
    - apply A1.
    - constructor; auto. eapply Forall_impl; [|exact As]. apply asciib_ok.
    - constructor; auto. eapply Forall_impl; [|exact Bs]. apply asciib_ok.
    - apply asciib_ok; auto.
  Qed.
  Lemma wk_unit_of {A} (m : WM A) Q : wk m Q -> wk (unit_of m) (fun _ => True).
  Proof. intros H. eapply wk_bind; [exact H|]. intros; apply wk_ret; auto. Qed.
  Lemma addattr_in ps g l : hat ps g -> wk (hdf (addAttributes g l)) (fun _ => True).
  Proof. intros [A _]. apply wk_hdf. apply FrameK.addAttributes_keeps; auto. apply A. Qed.

  Ltac lit := first [reflexivity | apply plainb_ok; reflexivity | (apply seqb_neq; reflexivity)].
  Ltac nuq := let H := fresh in unfold Uq; intros H; simpl in H; repeat (destruct H as [H|H]; [discriminate H|]); destruct H.
  Ltac bd := eapply wk_bind; [|intros ? ?].
  Ltac any := first [ apply rd_any | apply has_any | (apply wk_lift with (Q := fun _ => True); auto) ].
  Ltac fin := first [ apply wk_ret; exact I | apply wk_raise ].
  (* ---------------------------------------------------------------- *)
  (** ** the data group *)
  Section Data.
    Context (ps : list str) (g : handle) (Hg : hat ps g) (Dp : deep ps).

    Lemma mca_oneD_ok axis cal ks : wk (mca_oneD g axis cal ks) (fun _ => True).
    Proof.
      unfold mca_oneD. destruct cal as [[x y] z].
      bd; [eapply write_ds_in; eauto|]. bd; [any|].
      bd; [eapply write_ds_in; eauto|]. eapply write_ds_in; eauto.
    Qed.
    Lemma mca_spectra_ok axis : wk (mca_spectra g axis) (fun _ => True).
    Proof.
      unfold mca_spectra. bd; [any|]. destruct (dget (L "_mca_") x) as [[vs|m]|]; [fin| |fin].
      intros w I. refine (wk_iter _ _ _ w I). intros ks _. apply mca_oneD_ok.
    Qed.
    Lemma oneD_ok : wk (oneD g) (fun _ => True).
    Proof.
      unfold oneD. bd; [any|]. bd.
      { apply wk_iter. intros c _. bd; [any|]. bd; [any|]. eapply write_ds_in; eauto. }
      bd; [any|]. bd; [any|]. bd; [any|]. bd; [any|]. bd; [apply mca_spectra_ok|]. fin.
    Qed.
    Lemma mca_mesh_ok axes sh l : wk (mca_mesh g axes sh l) (fun _ => True).
    Proof.
      revert sh. induction l as [|[k s] l IH]; intros sh; cbn [mca_mesh]; [fin|].
      bd; [any|]. bd; [any|]. bd; [eapply write_ds_in; eauto|]. bd; [eapply write_ds_in; eauto|]. apply IH.
    Qed.
    Lemma mesh_grid_ok cmd l1 l2 n : wk (mesh_grid g cmd l1 l2 n) (fun _ => True).
    Proof.
      unfold mesh_grid. bd; [any|]. bd; [any|]. bd; [any|].
      destruct (n + 1 <=? 0)%Z; [fin|]. cbv zeta.
      bd; [any|]. bd; [any|]. bd; [apply wr_ok; apply upd_L|]. bd; [any|]. bd; [apply wr_ok; apply upd_L|].
      bd. { instantiate (1 := fun _ => True). destruct (prefixb (L "hkl") cmd); [|fin].
        bd; [any|]. bd; [any|]. eapply write_ds_in; eauto. }
      bd; [eapply write_ds_in; eauto|]. bd; [eapply write_ds_in; eauto|].
      bd. { apply wk_iter. intros c _. bd; [apply wk_hdf; apply FrameK.hin_keeps|].
        match goal with |- wk (if ?b then _ else _) _ => destruct b end; [fin|].
        bd; [any|]. eapply write_ds_in; eauto. }
      bd; [any|]. bd; [any|]. fin.
    Qed.
    Lemma mesh_ok cmd : wk (mesh g cmd) (fun _ => True).
    Proof.
      unfold mesh. destruct (skipn 1 (words cmd)) as [|l1 [|x1 [|x2 [|i1 [|l2 [|x3 [|x4 [|i2 [|x5 [|]]]]]]]]]];
        try fin.
      bd; [any|]. bd; [any|]. bd; [any|]. bd; [any|]. bd; [any|]. bd; [any|]. bd; [any|].
      bd.
      { instantiate (1 := fun _ => True). match goal with |- wk (if ?b then _ else _) _ => destruct b end.
        - bd; [apply oneD_ok|]. fin.
        - bd; [apply mesh_grid_ok|]. match goal with |- wk (let '(_, _) := ?r in _) _ => destruct r as [[? ?] ?] end. fin. }
      match goal with |- wk (let '(_, _) := ?r in _) _ => destruct r as [[? ?] sh] end.
      bd. { instantiate (1 := fun _ => True). destruct (dget (L "_mca_") x) as [[vs|m]|]; [fin| |fin].
        destruct sh; [apply mca_mesh_ok|]. destruct m; fin. }
      fin.
    Qed.
    Lemma save_data_ok cmd : wk (save_data g cmd) (fun _ => True).
    Proof.
      unfold save_data. bd; [any|].
      bd.
      { instantiate (1 := fun _ => True).
        match goal with |- wk (if ?b then _ else _) _ => destruct b end; [apply mesh_ok|].
        match goal with |- wk (if ?b then _ else _) _ => destruct b end; [|apply oneD_ok].
        bd; [apply oneD_ok|]. bd; [any|]. fin. }
      match goal with |- wk (let '(_, _) := ?r in _) _ => destruct r as [signal axes] end. cbv zeta.
      destruct (find_c 58%N axes).
      - bd; [eapply addattr_in; eauto|]. apply wk_iter. intros y _. eapply addattr_in; eauto.
      - bd; [eapply addattr_in; eauto|]. eapply addattr_in; eauto.
    Qed.
  End Data.

  (* ---------------------------------------------------------------- *)
  (** ** the plugins *)
  Section Entry.
    Context (e : handle) (He : hat [] e).

    (** none of the protected paths is one of writer [h] *)
    Definition okw (h : hid) : Prop :=
      let t n := ~ K [L n] in
      let ins n := ~ K [INS] /\ ~ K [INS; L n] in
      match h with
      | H_D => t "date" | H_UXML => t "UXML" | H_C => t "comments"
      | H_G => t "G" /\ ins "name" /\ ins "monochromator" /\ ins "geometry_parameters" /\ ~ K [SAM] /\ forall n, ~ K [SAM; n]
      | H_J | H_j => t "counter_cross_reference"
      | H_o => t "positioner_cross_reference"
      | H_M => t "counting_basis" /\ t "M"
      | H_T => t "counting_basis" /\ t "T"
      | H_P => t "positioners" /\ ins "positioners"
      | H_Q => t "Q"
      | H_R => ~ K [URES] /\ forall n, ~ K [URES; n]
      | H_U => ~ K [URSV] /\ forall n, ~ K [URSV; n]
      | H_X => t "TEMP_SP" /\ t "DEGC_SP"
      | H_data => ~ K [DATA]
      | H_CALIB => t "MCA"
      | H_CHANN | H_CTIME => t "MCA" /\ ins "MCA"
      | H_VA => t "VA" | H_VD => t "VD" | H_VE => t "VE"
      | H_MD => t "bluesky_metadata"
      | H_unrec => forall i : nat, ~ K [(L "unrecognized_" ++ str_of_nat i)%list]
      | H_V => t "metadata" /\ ins "metadata"
      | _ => True
      end%string.

    Ltac wde := apply wds_e; [exact He|lit|nuq|assumption].
    Ltac wdi := eapply wds_in; [eassumption|assumption|try reflexivity].
    Ltac ope := apply open_e; [exact He|lit|assumption].
    Ltac mke := apply make_e; [exact He|lit].

    Lemma w_D_ok o : okw H_D -> wk (w_D e o) (fun _ => True).
    Proof. intros X. cbn in X. unfold w_D. bd; [any|]. bd; [any|]. wde. Qed.
    Lemma w_C_ok o : okw H_C -> wk (w_C e o) (fun _ => True).
    Proof. intros X. cbn in X. unfold w_C. bd; [any|]. wde. Qed.

    Lemma deep_sam n : ~ K [SAM] -> (forall n, ~ K [SAM; n]) -> deep [SAM; n].
    Proof. intros A B. apply deep_two; auto. Qed.
    Lemma wds_sam s n d l : ~ K [SAM] -> (forall n, ~ K [SAM; n]) -> hat [SAM] s -> plainb n = true -> wk (wds s n d l) (fun _ => True).
    Proof. intros A B Hs Hn. eapply wds_u; [exact Hs|auto|apply B|apply plainb_ok; auto]. Qed.
    Lemma w_lattice_ok l : ~ K [SAM] -> (forall n, ~ K [SAM; n]) -> wk (w_lattice e l) (fun _ => True).
    Proof.
      intros Ks Ksn. unfold w_lattice. eapply wk_bind; [apply (open_e e SAM); [exact He|lit|assumption]|intros s Hs].
      destruct l as [v|v].
      - apply wk_iter. intros [[n u] y] Hin. cbn [fst snd].
        apply in_combine_l in Hin. simpl in Hin.
        destruct Hin as [E|[E|[E|[]]]]; inversion E; subst; (apply wds_sam; [auto|auto|auto|reflexivity]).
      - bd; [apply wds_sam; [auto|auto|auto|reflexivity]|]. bd; apply wds_sam; solve [auto|reflexivity].
    Qed.
    Lemma w_refl_ok s ir : ~ K [SAM] -> (forall n, ~ K [SAM; n]) -> hat [SAM] s -> Forall rel (keys (angles_of_refl (snd ir))) ->
      wk (w_refl s ir) (fun _ => True).
    Proof.
      intros Ks Ksn Hs Ha. unfold w_refl. cbv zeta. eapply wk_bind.
      { eapply open_u; [exact Hs|auto|auto|].
        repeat split; [discriminate|discriminate|]. intros Hin. apply in_app_iff in Hin.
        destruct Hin as [[H|[H|[]]]|H]; [discriminate H|discriminate H|]. eapply digits_slash; exact H. }
      intros n Hn.
      match type of Hn with FrameK.hat _ _ _ _ ?q _ => assert (Dn : deep q) by (apply deep_two; auto) end.
      destruct ir as [i r]. cbn [fst snd] in *. destruct r as [v x0|v x0]; cbn [angles_of_refl] in Ha.
      - bd.
        + apply wk_iter. intros [m y] Hin. cbn [fst snd]. apply in_combine_l in Hin. simpl in Hin.
          destruct Hin as [E|[E|[E|[]]]]; inversion E; subst; wdi.
        + apply wk_iter. intros y Hy. eapply wds_in; [eassumption|assumption|]. eapply Forall_keys; eauto.
      - bd.
        + apply wk_iter. intros [m y] Hin. cbn [fst snd]. apply in_combine_l in Hin. simpl in Hin.
          destruct Hin as [E|[E|[E|[E|[]]]]]; inversion E; subst; wdi.
        + apply wk_iter. intros y Hy. eapply wds_in; [eassumption|assumption|]. eapply Forall_keys; eauto.
    Qed.
    Lemma open_sam : ~ K [SAM] -> wk (hdf (openGroup e (L "sample") (L "NXsample") [])) (hat [SAM]).
    Proof. intros A. apply (open_e e SAM); [exact He|lit|exact A]. Qed.
    Lemma open_ins : ~ K [INS] -> wk (hdf (openGroup e (L "instrument") (L "NXinstrument") [])) (hat [INS]).
    Proof. intros A. apply (open_e e INS); [exact He|lit|exact A]. Qed.
    Lemma w_diffr_ok d : okw H_G -> diffr_names d -> wk (w_diffr e d) (fun _ => True).
    Proof.
      intros X (Hg & Ha & _). cbn [okw] in X. cbv zeta in X. destruct X as (XG & (XI & X1) & (_ & X2) & (_ & X3) & XS & XSn).
      unfold w_diffr. destruct (d_gpar d) as [|kv t] eqn:Eg; [fin|]. cbv zeta.
      set (gpar := kv :: t) in *. clearbody gpar.
      eapply wk_bind; [apply open_ins; exact XI|intros ins Hins].
      bd; [eapply wds_u; [exact Hins|exact XI|exact X1|lit]|].
      bd. { instantiate (1 := fun _ => True). destruct (d_lattice d); [apply w_lattice_ok; auto|fin]. }
      bd. { instantiate (1 := fun _ => True). destruct (dget (L "ub_matrix") gpar); [|fin].
        bd; [apply open_sam; exact XS|apply wds_sam; auto]. }
      bd. { instantiate (1 := fun _ => True). destruct (d_mode d); [|fin]. bd; [apply open_sam; exact XS|apply wds_sam; auto]. }
      bd. { instantiate (1 := fun _ => True). destruct (d_sector d); [|fin]. bd; [apply open_sam; exact XS|apply wds_sam; auto]. }
      bd. { instantiate (1 := fun _ => True). destruct (d_refl d) as [|r rs] eqn:Er; [fin|].
        bd; [apply open_sam; exact XS|]. apply wk_iter. intros ir Hir. apply w_refl_ok; auto.
        apply enum_In in Hir. rewrite Forall_forall in Ha. apply Ha; auto. }
      bd. { instantiate (1 := fun _ => True). destruct (d_wavelength d) as [wl|]; [|fin].
        eapply wk_bind; [apply (open_u INS ins (L "monochromator")); [exact Hins|exact XI|exact X2|lit]|intros mono Hm].
        assert (Dm : deep [INS; L "monochromator"]) by (apply deep_two; auto).
        eapply wk_bind; [apply wk_hdf; apply (FrameK.write_dataset_keeps P a sk K II K0 [INS; L "monochromator"]);
                [exact Hm|split; [reflexivity|apply Dm]]|intros ds Hds].
        eapply wk_bind; [apply open_sam; exact XS|intros sm Hs].
        eapply wk_bind; [apply (open_u SAM sm (L "beam")); [exact Hs|exact XS|apply XSn|lit]|intros bm Hb].
        change (L "/incident_wavelength") with (SLASH :: L "incident_wavelength").
        eapply link_ok; [exact Hds|repeat constructor|discriminate|apply Dm|intros u _; discriminate|exact Hb|repeat constructor| |lit|lit|left; split; discriminate].
        apply clear_two; auto. }
      eapply wk_bind; [apply (open_u INS ins (L "geometry_parameters")); [exact Hins|exact XI|exact X3|lit]|intros gn Hn].
      apply wk_iter. intros y Hy. eapply wds_in; [exact Hn|apply deep_two; auto|]. eapply Forall_keys; eauto.
    Qed.
    Lemma w_G_ok o : okw H_G -> wk (w_G e o) (fun _ => True).
    Proof.
      intros X. unfold w_G. bd; [mke|]. bd; [any|]. bd; [any|].
      bd; [eapply save_dict_in; [eassumption|apply deep_top; [nuq|apply X]]|].
      bd; [apply rd_d|]. apply w_diffr_ok; auto.
    Qed.

    Lemma ensure_cx o : wk (ensureW o A_counter_xref []) (fun _ => True).
    Proof. unfold ensureW. bd; [any|]. destruct x; [fin|apply wr_ok; apply upd_cx]. Qed.
    Lemma ensure_px o : wk (ensureW o A_positioner_xref []) (fun _ => True).
    Proof. unfold ensureW. bd; [any|]. destruct x; [fin|apply wr_ok; apply upd_px]. Qed.
    Lemma w_counters_ok x : okw H_J -> Forall rel (keys x) -> wk (w_counters e x) (fun _ => True).
    Proof.
      intros X Hx. cbn in X. unfold w_counters. bd; [mke|]. apply wk_iter. intros kv Hkv.
      eapply wds_in; [eassumption|apply deep_top; [nuq|exact X]|]. apply sorted_In in Hkv. eapply Forall_keys; eauto.
    Qed.
    Lemma w_J_ok o : okw H_J -> wk (w_J e o) (fun _ => True).
    Proof. intros X. unfold w_J. bd; [apply ensure_cx|]. bd; [apply rd_cx|]. destruct x0; [fin|apply w_counters_ok; auto]. Qed.
    Lemma w_j_ok o : okw H_j -> wk (w_j e o) (fun _ => True).
    Proof. intros X. unfold w_j. bd; [apply ensure_cx|]. bd; [apply rd_cx|]. apply w_counters_ok; auto. Qed.
    Lemma w_o_ok o : okw H_o -> wk (w_o e o) (fun _ => True).
    Proof.
      intros X. cbn in X. unfold w_o. bd; [apply ensure_px|]. bd; [apply rd_px|]. rename H0 into Hx.
      destruct x0 as [|y t]; [fin|]. set (d := y :: t) in *. clearbody d.
      bd; [mke|]. apply wk_iter. intros kv Hkv. bd; [any|].
      eapply wds_in; [eassumption|apply deep_top; [nuq|exact X]|]. apply sorted_In in Hkv. eapply Forall_keys; eauto.
    Qed.
    Lemma w_M_ok o : okw H_M -> wk (w_M e o) (fun _ => True).
    Proof. intros [X Y]. unfold w_M. cbv zeta. bd; [wde|]. bd; [any|]. bd; [any|]. wde. Qed.
    Lemma w_T_ok o : okw H_T -> wk (w_T e o) (fun _ => True).
    Proof. intros [X Y]. unfold w_T. cbv zeta. bd; [wde|]. bd; [any|]. bd; [any|]. wde. Qed.
    Lemma w_positioner_ok g iv : deep [L "positioners"] -> hat [L "positioners"] g -> wk (w_positioner g iv) (fun _ => True).
    Proof.
      intros D Hg. unfold w_positioner. destruct iv as [i [nm v]].
      bd; [apply wk_lift with (Q := plain_name); apply clean_plain|].
      bd; [eapply open_in; [exact Hg|exact D|eassumption]|]. bd; [any|].
      bd. { instantiate (1 := fun l => True).
        match goal with |- wk (if ?b then _ else _) _ => destruct b end; [|apply wk_ret; exact I].
        bd; [any|]. bd; [any|]. apply wk_ret; exact I. }
      cbv zeta. bd; [eapply wds_in; [eassumption|apply deep_app; exact D|reflexivity]|].
      eapply wds_in; [eassumption|apply deep_app; exact D|reflexivity].
    Qed.
    Lemma w_P_ok o : okw H_P -> wk (w_P e o) (fun _ => True).
    Proof.
      intros X. cbn [okw] in X. cbv zeta in X. destruct X as (X & XI & Y).
      assert (D : deep [L "positioners"]) by (apply deep_top; [nuq|exact X]).
      unfold w_P. bd; [mke|]. rename H into Hg. bd; [any|].
      bd. { instantiate (1 := fun _ => True). destruct o; [fin|]. apply wk_iter. intros iv _. apply w_positioner_ok; auto. }
      bd; [apply open_ins; exact XI|]. change (L "/positioners") with (SLASH :: L "positioners").
      eapply link_ok; [exact Hg|repeat constructor|discriminate|apply deep_clear; exact D| |eassumption|repeat constructor| |lit|lit|left; split; discriminate].
      - intros u Hu E. injection E; intros <-. revert Hu. nuq.
      - apply clear_one; auto.
    Qed.
    Lemma w_Q_ok o : okw H_Q -> wk (w_Q e o) (fun _ => True).
    Proof. intros X. cbn in X. unfold w_Q. bd; [any|]. wde. Qed.
    Lemma w_user_ok o name ds line l : plainb (L name) = true -> ~ K [L name] -> (forall n, ~ K [L name; n]) ->
      wk (w_user e o name ds line l) (fun _ => True).
    Proof.
      intros Hn X Y. unfold w_user. bd; [apply open_e; [exact He|apply plainb_ok; exact Hn|exact X]|]. cbv zeta.
      apply wk_iter. intros it _. eapply wds_u; [eassumption|exact X|apply Y|].
      destruct o; (split; [discriminate|split; [discriminate|]]); intros Hin; apply in_app_iff in Hin;
        (destruct Hin as [Hin|[Hin|Hin]]; [|discriminate Hin|eapply digits_slash; exact Hin]);
        revert Hin; apply (plainb_ok (L "header")) || apply (plainb_ok (L "item")); reflexivity.
    Qed.
    Lemma w_R_ok o : okw H_R -> wk (w_R e o) (fun _ => True).
    Proof. intros [X Y]. unfold w_R. bd; [any|]. apply w_user_ok; [reflexivity|exact X|exact Y]. Qed.
    Lemma w_U_ok o : okw H_U -> wk (w_U e o) (fun _ => True).
    Proof. intros [X Y]. unfold w_U. bd; [any|]. apply w_user_ok; [reflexivity|exact X|exact Y]. Qed.
    Lemma w_X_ok o : okw H_X -> wk (w_X e o) (fun _ => True).
    Proof.
      intros [X Y]. unfold w_X. bd; [any|].
      bd. { instantiate (1 := fun _ => True). destruct x; [|fin]. bd; [any|]. wde. }
      bd; [any|]. match goal with |- wk (if ?b then _ else _) _ => destruct b end; [|fin]. bd; [any|]. wde.
    Qed.
    Lemma mca_group_ok : ~ K [L "MCA"] -> wk (mca_group e) (hat [L "MCA"]).
    Proof. intros X. unfold mca_group. ope. Qed.
    Lemma deep_mca : ~ K [L "MCA"] -> deep [L "MCA"].
    Proof. intros X. apply deep_top; [nuq|exact X]. Qed.
    Lemma w_CALIB_ok o : okw H_CALIB -> wk (w_CALIB e o) (fun _ => True).
    Proof.
      intros X. cbn in X. unfold w_CALIB. bd; [any|]. destruct x; [|fin]. bd; [any|].
      destruct (dget (L "CALIB") x) as [[n|d|d]|]; try fin. bd; [apply mca_group_ok; exact X|].
      apply wk_iter. intros k Hk. destruct (dget k d); [|fin]. eapply wds_in; [eassumption|apply deep_mca; exact X|reflexivity].
    Qed.
    Lemma w_mca_nums_ok g m l ks : hat [L "MCA"] g -> deep [L "MCA"] -> forallb (fun k => negb (prefixb [SLASH] k)) (map L ks) = true ->
      wk (w_mca_nums g m l ks) (fun _ => True).
    Proof.
      intros Hg D Hk. rewrite forallb_forall in Hk. unfold w_mca_nums. apply wk_iter. intros k Hin.
      destruct (dget k m) as [[n|d|d]|]; try fin. eapply wds_in; [eassumption|assumption|].
      apply Hk in Hin. apply negb_true_iff in Hin. exact Hin.
    Qed.
    Lemma link_mca_ok g : ~ K [L "MCA"] -> ~ K [INS] -> hat [L "MCA"] g -> wk (link_mca e g) (hat [INS]).
    Proof.
      intros X XI Hg. unfold link_mca. bd; [apply open_ins; exact XI|]. rename H into Hi. bd; [apply wk_hdf; apply FrameK.hin_keeps|].
      bd. { instantiate (1 := fun _ => True). match goal with |- wk (if ?b then _ else _) _ => destruct b end; [fin|].
        change (L "/MCA") with (SLASH :: L "MCA").
        eapply link_ok; [exact Hg|repeat constructor|discriminate|apply clear_one; exact X| |eassumption|repeat constructor|apply clear_one; exact XI|lit|lit|right; split; reflexivity].
        intros u Hu E. injection E; intros <-. revert Hu. nuq. }
      apply wk_ret; auto.
    Qed.
    Lemma w_CHANN_ok o : okw H_CHANN -> wk (w_CHANN e o) (fun _ => True).
    Proof.
      intros X. cbn [okw] in X. cbv zeta in X. destruct X as (X & XI & Y).
      unfold w_CHANN. bd; [any|]. destruct x; [|fin]. bd; [apply mca_group_ok; exact X|]. rename H0 into Hg. bd; [any|].
      bd; [apply w_mca_nums_ok; [exact Hg|apply deep_mca; exact X|reflexivity]|]. bd; [apply link_mca_ok; [exact X|exact XI|exact Hg]|].
      eapply wk_bind; [apply wk_hdf; eapply (FrameK.hget_keeps P a sk K II [INS]); [eassumption|reflexivity|discriminate|apply clear_two; auto]|intros o1 Ho].
      apply wk_hdf. apply FrameK.set_attr_keeps. apply Ho.
    Qed.
    Lemma w_CTIME_ok o : okw H_CTIME -> wk (w_CTIME e o) (fun _ => True).
    Proof.
      intros X. cbn [okw] in X. cbv zeta in X. destruct X as (X & XI & Y).
      unfold w_CTIME. bd; [any|]. destruct x; [|fin]. bd; [apply mca_group_ok; exact X|]. rename H0 into Hg. bd; [any|].
      bd; [apply w_mca_nums_ok; [exact Hg|apply deep_mca; exact X|reflexivity]|].
      eapply wk_unit_of. apply link_mca_ok; [exact X|exact XI|exact Hg].
    Qed.
    Lemma w_V__ok name ds d : plainb (L name) = true -> ~ Uq (L name) -> ~ K [L name] -> wk (w_V_ e name ds d) (fun _ => True).
    Proof.
      intros Hn U X. unfold w_V_. bd; [apply make_e; [exact He|apply plainb_ok; exact Hn]|].
      eapply save_dict_in; [eassumption|]. apply deep_top; auto.
    Qed.
    Lemma w_VA_ok o : okw H_VA -> wk (w_VA e o) (fun _ => True).
    Proof. intros X. unfold w_VA. bd; [any|]. apply w_V__ok; [reflexivity|nuq|exact X]. Qed.
    Lemma w_VD_ok o : okw H_VD -> wk (w_VD e o) (fun _ => True).
    Proof. intros X. unfold w_VD. bd; [any|]. apply w_V__ok; [reflexivity|nuq|exact X]. Qed.
    Lemma w_VE_ok o : okw H_VE -> wk (w_VE e o) (fun _ => True).
    Proof. intros X. unfold w_VE. bd; [any|]. apply w_V__ok; [reflexivity|nuq|exact X]. Qed.
    Lemma w_MD_ok o : okw H_MD -> wk (w_MD e o) (fun _ => True).
    Proof.
      intros X. unfold w_MD. bd; [any|]. destruct x; [|fin]. bd; [any|]. destruct x; [fin|]. bd; [mke|].
      eapply save_dict_in; [eassumption|]. apply deep_top; [nuq|exact X].
    Qed.
    Lemma free_unrec_ok : wk (hdf (free_unrec e)) (fun x => plain_name x /\ ~ Uq x /\ exists i, x = L "unrecognized_" ++ str_of_nat i).
    Proof.
      apply wk_hdf. intros f I. unfold free_unrec. cbn [fst snd].
      split; [auto|split; [apply FrameK.Fr_refl|]]. intros x.
      destruct (List.find _ _) as [i|]; [|discriminate]. intros E; injection E; intros <-.
      split; [split; [discriminate|split; [discriminate|]]|split; [nuq|exists i; reflexivity]]. intros Hin.
      apply (in_app_iff (L "unrecognized_") (str_of_nat i)) in Hin.
      destruct Hin as [Hin|Hin]; [|eapply digits_slash; exact Hin].
      revert Hin. apply (plainb_ok (L "unrecognized_")). reflexivity.
    Qed.
    Lemma w_unrec_ok o : okw H_unrec -> wk (w_unrec e o) (fun _ => True).
    Proof.
      intros X. unfold w_unrec. eapply wk_bind; [apply free_unrec_ok|]. intros x (Hp & U & i & ->).
      bd; [apply make_e; [exact He|exact Hp]|].
      bd; [any|]. eapply save_dict_in; [eassumption|]. apply deep_top; [exact U|apply X].
    Qed.
    Lemma w_V_ok o : okw H_V -> wk (w_V e o) (fun _ => True).
    Proof.
      intros X. cbn [okw] in X. cbv zeta in X. destruct X as (X & XI & Y).
      assert (D : deep [L "metadata"]) by (apply deep_top; [nuq|exact X]).
      unfold w_V. bd; [any|]. destruct x; [|fin]. bd; [any|]. destruct x; [fin|]. bd; [mke|]. rename H1 into Hg.
      bd; [eapply save_dict_in; [exact Hg|exact D]|]. bd; [apply open_ins; exact XI|].
      change (L "/metadata") with (SLASH :: L "metadata").
      eapply link_ok; [exact Hg|repeat constructor|discriminate|apply deep_clear; exact D| |eassumption|repeat constructor| |lit|lit|left; split; discriminate].
      - intros u Hu E. injection E; intros <-. revert Hu. nuq.
      - apply clear_one; auto.
    Qed.
    Lemma w_data_ok cmd : okw H_data -> wk (w_data e cmd) (fun _ => True).
    Proof. intros X. unfold w_data. bd; [mke|]. eapply save_data_ok; [eassumption|]. apply deep_top; [nuq|exact X]. Qed.

    (** *** uxml.py *)
    Notation hkk := (FrameK.hk P a sk K II).
    Definition underk (h : handle) : Prop := exists qs, hat (UX :: qs) h.
    Definition uokk (d : uids) : Prop :=
      (forall k o, dget k (u_unique d) = Some o -> underk o) /\
      (forall k t, In (k, t) (u_target d) -> underk (fst t) /\ ~ In SLASH (snd t)).
    Lemma uokk_unique u o d : underk o -> uokk d -> uokk (ux_unique u o d).
    Proof.
      intros Ho [A B]. destruct u as [i|]; [|split; auto]. split; [|exact B]. cbn [u_unique ux_unique]. intros k x H.
      destruct (seqb k i) eqn:E.
      - apply seqb_eq in E. subst k. rewrite dget_dset_same in H. injection H; intros <-. exact Ho.
      - rewrite dget_dset_other in H; [eauto|]. apply seqb_neq in E. exact E.
    Qed.
    Lemma deep_ux qs : ~ K [UX] -> deep (UX :: qs).
    Proof. intros X. change (UX :: qs) with ([UX] ++ qs). apply deep_app. apply deep_top; [nuq|exact X]. Qed.
    Lemma ux_ppath qs n : ~ K [UX] -> plain_name n -> FrameK.ppath K (UX :: qs) n.
    Proof. intros X Hn. split; [apply no_slash_rel, plain_no, Hn|]. apply (deep_ux qs X). Qed.
    Lemma ux_link g s ps qs n : ~ K [UX] -> hat (UX :: ps) s -> hat (UX :: qs) g -> ~ In SLASH n -> hkk (makeLink g s n) (fun _ => True).
    Proof.
      intros X (A1 & _ & A3 & A4) (B1 & B2 & _ & _) Hn. unfold makeLink.
      eapply FrameK.hk_bind with (Q := fun _ => True).
      { intros f I. destruct (has (L "target") (attrs_at (h_id s) f)).
        - simpl. split; [auto|split; [apply FrameK.Fr_refl|auto]].
        - apply FrameK.set_attr_keeps; [apply A1|exact I]. }
      intros _ _. rewrite A3.
      assert (Au : is_ascii UX) by (unfold UX, is_ascii; repeat constructor).
      assert (Pu : plain_name UX) by (apply plainb_ok; reflexivity).
      destruct (parts_ascii sk UX ps Hsk Ask Pu Au) as [qs' EP].
      intros f I. rewrite sbind_eq. unfold hget.
      destruct (resolve (h_id g) (ascii (name_at (sk :: UX :: ps))) f) as [j|] eqn:E; [|cbn [fst snd]; split; [auto|split; [apply FrameK.Fr_refl|discriminate]]].
      cbn [h_id fst snd].
      change (walk (parts (ascii (name_at (sk :: UX :: ps)))) (start (h_id g) (ascii (name_at (sk :: UX :: ps)))) f = Some j) in E.
      rewrite EP, start_ascii in E. cbn [walk] in E. destruct (FrameK.inv_root _ _ _ _ _ f I) as [ms [at_ [H0 D]]]. rewrite H0, D in E.
      pose proof (deep_ux qs' X []) as [Cq Uq']. rewrite app_nil_r in Cq, Uq'.
      destruct (FrameK.walk_ok P a sk K II f (UX :: qs') a [] j I (FrameK.pos_a P a II (FrameK.inv_Pa _ _ _ _ _ f I) (FrameK.Ia P a sk K II f I)) Cq E) as [(NPj & _) B].
      destruct (B ltac:(discriminate)) as [Nj Uj].
      unfold H5.link_at. pose proof (ascii_slash n Hn) as Hs. rewrite (start_rel _ _ (no_slash_rel _ Hs)).
      assert (PN : parts (ascii n) = [] \/ exists m, parts (ascii n) = [m]).
      { unfold parts. rewrite split_c_none by exact Hs. cbn [List.filter]. destruct (negb _); eauto. }
      destruct PN as [PN|[m PN]]; rewrite PN; cbn [rev app]; [cbn [sraise fst snd]; split; [auto|split; [apply FrameK.Fr_refl|auto]]|].
      rewrite sbind_eq. cbn [dig].
      destruct (FrameK.add_member_keeps P a sk K II (h_id g) m j f I (proj1 B1) NPj Nj) as [I2 F2].
      { right. split; [intros g0 Ug M; apply (Uq' g0 Ug); exact (Uj g0 Ug M)|]. split; [intros Ea; destruct B1 as (_ & Ba & _); discriminate (Ba Ea)|].
        intros M. exfalso. destruct (FrameK.walk_mca P a sk K II K0 f (UX :: qs') j I Cq ltac:(discriminate) E M) as [Q|Q]; discriminate Q. }
      destruct (add_member (h_id g) m j f) as [f2 r]. cbn [fst snd] in *. split; [auto|split; [auto|auto]].
    Qed.
    Lemma ux_item_okk x : ~ K [UX] -> xvalid x = true -> forall g d, underk g -> uokk d -> hkk (ux_item g x d) uokk.
    Proof.
      intros X. induction x as [|n t u l y|n c u l b IH|n t] using xnode_ind2; intros V g d [qs Hg] U.
      - apply FrameK.hk_raise.
      - cbn [xvalid] in V. apply andb_true_iff in V. destruct V as [V1 V2]. apply ncname_plain in V1. cbn [ux_item].
        eapply FrameK.hk_bind; [apply FrameK.hk_lift with (Q := fun _ => True); auto|]. intros v _.
        eapply FrameK.hk_bind; [apply (FrameK.makeDataset_keeps P a sk K II (UX :: qs)); [exact Hg|apply ux_ppath; auto]|].
        intros o Ho. apply FrameK.hk_ret. apply uokk_unique; [|exact U]. exists (qs ++ parts n). exact Ho.
      - cbn [xvalid] in V. rewrite !andb_true_iff in V. destruct V as [[V1 V2] V3]. apply ncname_plain in V1.
        assert (KK : hkk (let* o := makeGroup g n c (ux_attrs l) in ux_items o b (ux_unique u o d)) uokk).
        { eapply FrameK.hk_bind; [apply (FrameK.makeGroup_keeps P a sk K II (UX :: qs)); [exact Hg|apply ux_ppath; auto]|].
          intros o Ho. assert (Uo : underk o) by (exists (qs ++ parts n); exact Ho). clear Ho Hg.
          pose proof (uokk_unique u o d Uo U) as U1. revert U1. generalize (ux_unique u o d). clear - IH V3 Uo.
          rewrite forallb_forall in V3. induction b as [|y b IB]; intros d U1; cbn [ux_items]; [apply FrameK.hk_ret; exact U1|].
          inversion IH as [|? ? H1 H2]; subst. eapply FrameK.hk_bind; [apply H1; [apply V3; left; reflexivity|exact Uo|exact U1]|].
          intros d2 U2. apply IB; [exact H2|intros z Hz; apply V3; right; exact Hz|exact U2]. }
        intros f I. rewrite ux_group_eq. apply KK. exact I.
      - cbn [xvalid] in V. apply ncname_plain in V. cbn [ux_item]. apply FrameK.hk_ret. destruct U as [A B]. split; [exact A|].
        cbn [u_target]. intros k y H. apply in_dset in H. destruct H as [H|H]; [|eauto]. injection H; intros -> ->. cbn [fst snd].
        split; [exists qs; exact Hg|apply plain_no, V].
    Qed.
    Lemma ux_items_okk b : ~ K [UX] -> forallb xvalid b = true -> forall g d, underk g -> uokk d -> hkk (ux_items g b d) uokk.
    Proof.
      intros X. rewrite forallb_forall. induction b as [|y b IB]; intros V g d G U; cbn [ux_items]; [apply FrameK.hk_ret; exact U|].
      eapply FrameK.hk_bind; [apply ux_item_okk; [exact X|apply V; left; reflexivity|exact G|exact U]|].
      intros d2 U2. apply IB; [intros z Hz; apply V; right; exact Hz|exact G|exact U2].
    Qed.
    Lemma ux_links_okk d : ~ K [UX] -> uokk d -> hkk (ux_links d) (fun _ => True).
    Proof.
      intros X [A B]. unfold ux_links. apply FrameK.hk_iter. intros [k [g n]] Hin. cbn [fst snd].
      destruct (dget k (u_unique d)) as [s|] eqn:E; [|apply FrameK.hk_ret; exact I].
      destruct (A k s E) as [ps Hs]. destruct (B k (g, n) Hin) as [[qs Hq] Hn]. eapply ux_link; eauto.
    Qed.
    Lemma w_UXML_ok o : okw H_UXML -> wk (w_UXML e o) (fun _ => True).
    Proof.
      intros X. cbn in X. unfold w_UXML. bd; [any|]. rename x into root. destruct (forallb xvalid root) eqn:V; [|fin].
      apply wk_hdf. eapply FrameK.hk_bind.
      { change (L "UXML") with UX. instantiate (1 := hat [UX]).
        assert (PU : parts UX = [UX]) by (apply parts_plain; apply plainb_ok; reflexivity).
        pose proof (FrameK.makeGroup_keeps P a sk K II [] e UX (L "NXnote") [(L "desc", t_ "UXML metadata")] He) as G.
        rewrite PU in G. apply G. split; [reflexivity|]. rewrite PU. cbn [app removelast]. split; exact K0. }
      intros g Hg. eapply FrameK.hk_bind; [apply (ux_items_okk root X V); [exists []; exact Hg|split; [discriminate|intros ? ? []]]|].
      intros d Hd. apply ux_links_okk; auto.
    Qed.

    Lemma writer_of_ok cmd h o : okw h -> wk (writer_of cmd h e o) (fun _ => True).
    Proof.
      intros X. destruct h; cbn [writer_of]; try fin.
      - apply w_D_ok; exact X. - apply w_C_ok; exact X. - apply w_G_ok; exact X. - apply w_J_ok; exact X.
      - apply w_j_ok; exact X. - apply w_M_ok; exact X. - apply w_o_ok; exact X. - apply w_P_ok; exact X.
      - apply w_Q_ok; exact X. - apply w_R_ok; exact X. - apply w_T_ok; exact X. - apply w_U_ok; exact X.
      - apply w_X_ok; exact X. - destruct o; [fin|apply w_data_ok; exact X]. - apply w_CALIB_ok; exact X.
      - apply w_CHANN_ok; exact X. - apply w_CTIME_ok; exact X. - apply w_VA_ok; exact X. - apply w_VD_ok; exact X.
      - apply w_VE_ok; exact X. - apply w_MD_ok; exact X. - apply w_unrec_ok; exact X. - apply w_V_ok; exact X.
      - apply w_UXML_ok; exact X.
    Qed.
    Lemma writers_ok cmd o hs : Forall okw hs -> wk (siter (fun h => writer_of cmd h e o) hs) (fun _ => True).
    Proof. intros H. apply wk_iter. intros h Hh. apply writer_of_ok. rewrite Forall_forall in H. auto. Qed.
  End Entry.
End Frame.
