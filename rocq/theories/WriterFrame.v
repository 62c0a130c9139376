(** The writers of one NXentry keep the frame of FrameH5.v. *)
From Coq Require Import String Lia.
From Verif Require Import Py PyFacts NumFacts Utils SpecUtils Keys Geom Handlers Reader NamesFacts H5 SpecH5 H5Facts FrameH5 Writer UxmlFacts.
Import ListNotations.
Local Open Scope list_scope.

Definition ncb (l : attrs_t) : bool := forallb (fun kv => negb (seqb (fst kv) NXC)) l.
Lemma ncb_ok l : ncb l = true -> no_class l.
Proof.
  unfold ncb, no_class. rewrite forallb_forall, Forall_forall. intros H x Hx.
  specialize (H x Hx). apply negb_true_iff, seqb_neq in H. auto.
Qed.
(** a constant name at the entry that does not lead into its data group *)
Definition enb (n : str) : bool := plainb n && negb (seqb n DATA).

Section Frame.
  Context (P : nat -> Prop) (a : nat) (sk : str) (HPa : ~ P a) (Hsk : plain_name sk) (Ask : is_ascii sk).
  Notation Inv := (Inv P a sk). Notation Fr := (Fr P a). Notation hk := (hk P a sk).
  Notation sub := (sub P a sk). Notation ent := (ent a sk).

  Definition WInv (w : wst) : Prop := Inv (w_h5 w) /\ names_ok (w_scan w) /\ names_ok (w_hdr w).
  Definition wk {A} (m : WM A) (Q : A -> Prop) : Prop := forall w, WInv w ->
    WInv (fst (m w)) /\ Fr (w_h5 w) (w_h5 (fst (m w))) /\ (forall x, snd (m w) = Ok x -> Q x).

  Lemma wk_id {A} (m : WM A) (Q : A -> Prop) :
    (forall w, fst (m w) = w) -> (forall w x, WInv w -> snd (m w) = Ok x -> Q x) -> wk m Q.
  Proof. intros H1 H2 w I. rewrite H1. split; [auto|split; [apply Fr_refl|eauto]]. Qed.
  Lemma wk_ret {A} (x : A) (Q : A -> Prop) : Q x -> wk (sret x) Q.
  Proof. intros H. apply wk_id; auto. intros w y _ E. inversion E; subst; auto. Qed.
  Lemma wk_raise {A} e (Q : A -> Prop) : wk (sraise e) Q.
  Proof. apply wk_id; auto. discriminate. Qed.
  Lemma wk_lift {A} (r : res A) (Q : A -> Prop) : (forall x, r = Ok x -> Q x) -> wk (slift r) Q.
  Proof. intros H. apply wk_id; auto. Qed.
  Lemma wk_bind {A B} (m : WM A) (k : A -> WM B) Q R :
    wk m Q -> (forall x, Q x -> wk (k x) R) -> wk (sbind m k) R.
  Proof.
    intros Hm Hk w I. rewrite sbind_eq. destruct (Hm w I) as [I1 [F1 Q1]].
    destruct (m w) as [w1 [x|e]]; simpl in *.
    - destruct (Hk x (Q1 x eq_refl) w1 I1) as [I2 [F2 Q2]].
      split; [auto|split; [eapply Fr_trans; eauto|auto]].
    - split; [auto|split; [auto|discriminate]].
  Qed.
  Lemma wk_iter {A} (g : A -> WM unit) l : (forall x, In x l -> wk (g x) (fun _ => True)) ->
    wk (siter g l) (fun _ => True).
  Proof.
    induction l as [|x l IH]; simpl; intros H.
    - apply wk_ret; auto.
    - eapply wk_bind; [apply H; auto|]. intros _ _. apply IH. intros y Hy; apply H; auto.
  Qed.
  Lemma wk_weak {A} (m : WM A) (Q R : A -> Prop) : wk m Q -> (forall x, Q x -> R x) -> wk m R.
  Proof. intros K H w I. destruct (K w I) as [X [Y Z]]. auto. Qed.
  Lemma wk_hdf {A} (m : HM A) Q : hk m Q -> wk (hdf m) Q.
  Proof.
    intros K w [I [N1 N2]]. unfold hdf. destruct (K _ I) as [X [Y Z]].
    destruct (m (w_h5 w)) as [f r]; simpl in *. split; [split; auto|auto].
  Qed.

  (** attributes *)
  Lemma names_of o w : WInv w -> names_ok (obj_of o w).
  Proof. intros [_ [A B]]. destruct o; auto. Qed.
  Lemma rd_any o x : wk (rd o x) (fun _ => True).
  Proof. apply wk_id; auto. Qed.
  Lemma rd_cx o : wk (rd o A_counter_xref) (fun x => Forall rel (keys x)).
  Proof.
    apply wk_id; auto. intros w x I. unfold rd. cbn [snd]. intros E.
    destruct (obj_of o w A_counter_xref) as [v|] eqn:V; [|discriminate]. injection E; intros <-.
    apply (no_cx _ (names_of o w I)); auto.
  Qed.
  Lemma rd_px o : wk (rd o A_positioner_xref) (fun x => Forall rel (keys x)).
  Proof.
    apply wk_id; auto. intros w x I. unfold rd. cbn [snd]. intros E.
    destruct (obj_of o w A_positioner_xref) as [v|] eqn:V; [|discriminate]. injection E; intros <-.
    apply (no_px _ (names_of o w I)); auto.
  Qed.
  Lemma rd_d o : wk (rd o A_diffractometer) diffr_names.
  Proof.
    apply wk_id; auto. intros w x I. unfold rd. cbn [snd]. intros E.
    destruct (obj_of o w A_diffractometer) as [v|] eqn:V; [|discriminate]. injection E; intros <-.
    apply (no_d _ (names_of o w I)); auto.
  Qed.
  Lemma has_any o x : wk (hasW o x) (fun _ => True).
  Proof. apply wk_id; auto. Qed.
  Lemma wr_ok o x v : (forall ob, names_ok ob -> names_ok (upd x v ob)) -> wk (wr o x v) (fun _ => True).
  Proof.
    intros H w [I [N1 N2]]. unfold wr. simpl. split; [|split; [destruct o; apply Fr_refl|auto]].
    destruct o; (split; [|split]); simpl; auto.
  Qed.
  Lemma upd_L l o : names_ok o -> names_ok (upd A_L l o).
  Proof. intros [A B C D F]. constructor; auto. Qed.
  Lemma upd_cx o : names_ok o -> names_ok (upd A_counter_xref [] o).
  Proof. apply upd_cxv. constructor. Qed.
  Lemma upd_px o : names_ok o -> names_ok (upd A_positioner_xref [] o).
  Proof. apply upd_pxv. constructor. Qed.

  (** groups and datasets *)
  Lemma ent_known e : ent e -> known_at P a sk [] e.
  Proof. intros [A B]. split; [repeat constructor; apply Hsk|split; [auto|split; [congruence|congruence]]]. Qed.
  Lemma enb_plain n : enb n = true -> plain_name n /\ n <> DATA.
  Proof. unfold enb. rewrite andb_true_iff, negb_true_iff. intros [A B]. split; [apply plainb_ok; auto|apply seqb_neq; auto]. Qed.
  Lemma ent_usable e n : ent e -> plain_name n -> n <> DATA -> usable P a (h_id e) n.
  Proof.
    intros [A _] Hn Hd. split; [apply plain_rel; auto|split; [congruence|]]. intros _.
    rewrite parts_plain by auto. exact Hd.
  Qed.
  Lemma ent_makeable e n : ent e -> plain_name n -> makeable P a (h_id e) n.
  Proof.
    intros [A _] Hn. split; [apply plain_rel; auto|split; [congruence|]]. intros _.
    rewrite parts_plain by auto. simpl. lia.
  Qed.
  Lemma sub_usable ps g n : sub ps g -> rel n -> usable P a (h_id g) n.
  Proof. intros [A [B _]] R. split; [auto|split; [auto|congruence]]. Qed.

  Lemma wds_e e n d l : ent e -> enb n = true -> ncb l = true -> wk (wds e n d l) (fun _ => True).
  Proof.
    intros He Hn Hl. destruct (enb_plain n Hn). unfold wds, unit_of. apply wk_hdf. eapply hk_unit.
    apply (write_dataset_keeps P a sk []); [apply ent_known; auto|apply ent_usable; auto|apply ncb_ok; auto].
  Qed.
  Lemma wds_in ps g n d l : sub ps g -> rel n -> ncb l = true -> wk (wds g n d l) (fun _ => True).
  Proof.
    intros Hg Hn Hl. unfold wds, unit_of. apply wk_hdf. eapply hk_unit.
    apply (write_dataset_keeps P a sk ps); [apply sub_known; auto|eapply sub_usable; eauto|apply ncb_ok; auto].
  Qed.
  Lemma write_ds_in ps g n d l : sub ps g -> ncb l = true -> wk (write_ds g n d l) (fun _ => True).
  Proof.
    intros Hg Hl. unfold write_ds. eapply wk_bind; [apply wk_lift with (Q := plain_name); apply clean_plain|].
    intros c Hc. eapply wds_in; eauto. apply plain_rel; auto.
  Qed.
  Lemma save_dict_in ps g d : sub ps g -> wk (save_dict g d) (fun _ => True).
  Proof. intros Hg. apply wk_iter. intros x _. eapply write_ds_in; eauto. Qed.
  Lemma hk_parts n ps (m : HM handle) : plain_name n -> hk m (sub (ps ++ parts n)) -> hk m (sub (ps ++ [n])).
  Proof. intros Hp. rewrite (parts_plain n Hp). auto. Qed.
  Lemma open_e e n c l : ent e -> enb n = true -> ncb l = true -> wk (hdf (openGroup e n c l)) (sub [n]).
  Proof.
    intros He Hn Hl. destruct (enb_plain n Hn) as [Hp Hd]. apply wk_hdf. apply (hk_parts n []); [auto|].
    apply openGroup_keeps; [apply ent_known; auto|apply ent_usable; auto| |apply ncb_ok; auto].
    rewrite parts_plain by auto. discriminate.
  Qed.
  Lemma open_in ps g n c l : sub ps g -> plain_name n -> ncb l = true ->
    wk (hdf (openGroup g n c l)) (sub (ps ++ [n])).
  Proof.
    intros He Hp Hl. apply wk_hdf. apply (hk_parts n ps); [auto|].
    apply openGroup_keeps; [apply sub_known; auto|eapply sub_usable; [eauto|apply plain_rel; auto]| |apply ncb_ok; auto].
    rewrite parts_plain by auto. discriminate.
  Qed.
  Lemma make_e e n c l : ent e -> plain_name n -> n <> DATA \/ c = L "NXdata" -> ncb l = true -> wk (hdf (makeGroup e n c l)) (sub [n]).
  Proof.
    intros He Hp Hc Hl. apply wk_hdf. apply (hk_parts n []); [auto|].
    apply makeGroup_keeps; [apply ent_known; auto| |apply ncb_ok; auto].
    destruct Hc; [left; apply ent_usable; auto|right; split; [apply ent_makeable; auto|auto]].
  Qed.
  Definition asciib (s : str) : bool := forallb (fun c => (c <? 128)%N) s.
  Lemma asciib_ok s : asciib s = true -> is_ascii s.
  Proof.
    unfold asciib, is_ascii. rewrite forallb_forall, Forall_forall. intros H x Hx. apply N.ltb_lt. auto.
  Qed.
  Lemma link_ok g s p ps ins q qs n : sub (p :: ps) s -> Forall (fun x => asciib x = true) (p :: ps) ->
    p <> DATA -> sub (q :: qs) ins -> Forall (fun x => asciib x = true) (q :: qs) -> q <> DATA ->
    plain_name n -> asciib n = true ->
    wk (hdf (makeLink g s (h_name ins ++ SLASH :: n))) (fun _ => True).
  Proof.
    intros [A1 [A2 [A3 A4]]] As Nd [B1 [B2 [B3 B4]]] Bs Nd' Hn An. apply wk_hdf. rewrite B3.
    change (name_at (sk :: q :: qs) ++ SLASH :: n) with (name_at (sk :: q :: qs) ++ [SLASH] ++ n).
    apply (makeLink_keeps P a sk g s (p :: ps) n (q :: qs)); auto; try discriminate.
    - constructor; auto. eapply Forall_impl; [|exact As]. apply asciib_ok.
    - constructor; auto. eapply Forall_impl; [|exact Bs]. apply asciib_ok.
    - apply asciib_ok; auto.
  Qed.
  Lemma wk_unit_of {A} (m : WM A) Q : wk m Q -> wk (unit_of m) (fun _ => True).
  Proof. intros H. eapply wk_bind; [exact H|]. intros; apply wk_ret; auto. Qed.

  Lemma addattr_in ps g l : sub ps g -> ncb l = true -> wk (hdf (addAttributes g l)) (fun _ => True).
  Proof. intros [A _] H. apply wk_hdf. apply addAttributes_keeps; auto. apply ncb_ok; auto. Qed.

  Ltac lit := first [reflexivity | apply plainb_ok; reflexivity | (apply seqb_neq; reflexivity)].
  Ltac bd := eapply wk_bind; [|intros ? ?].
  Ltac any := first [ apply rd_any | apply has_any | (apply wk_lift with (Q := fun _ => True); auto) ].
  Ltac fin := first [ apply wk_ret; exact I | apply wk_raise ].

  (* ---------------------------------------------------------------- *)
  (** ** the data group *)
  Section Data.
    Context (ps : list str) (g : handle) (Hg : sub ps g).

    Lemma mca_oneD_ok axis cal ks : wk (mca_oneD g axis cal ks) (fun _ => True).
    Proof.
      unfold mca_oneD. destruct cal as [[x y] z].
      bd; [eapply write_ds_in; eauto|]. bd; [any|].
      bd; [eapply write_ds_in; eauto|]. eapply write_ds_in; eauto.
    Qed.
    Lemma mca_spectra_ok axis : wk (mca_spectra g axis) (fun _ => True).
    Proof.
      unfold mca_spectra. bd; [any|]. destruct (dget (L "_mca_") x) as [[vs|m]|]; [fin| |fin].
      intros w I. refine (wk_iter _ _ _ w I). intros ks _. apply mca_oneD_ok.
    Qed.
    Lemma oneD_ok : wk (oneD g) (fun _ => True).
    Proof.
      unfold oneD. bd; [any|]. bd.
      { apply wk_iter. intros c _. bd; [any|]. bd; [any|]. eapply write_ds_in; eauto. }
      bd; [any|]. bd; [any|]. bd; [any|]. bd; [any|]. bd; [apply mca_spectra_ok|]. fin.
    Qed.
    Lemma mca_mesh_ok axes sh l : wk (mca_mesh g axes sh l) (fun _ => True).
    Proof.
      revert sh. induction l as [|[k s] l IH]; intros sh; cbn [mca_mesh]; [fin|].
      bd; [any|]. bd; [any|]. bd; [eapply write_ds_in; eauto|]. bd; [eapply write_ds_in; eauto|]. apply IH.
    Qed.
    Lemma mesh_grid_ok cmd l1 l2 n : wk (mesh_grid g cmd l1 l2 n) (fun _ => True).
    Proof.
      unfold mesh_grid. bd; [any|]. bd; [any|]. bd; [any|].
      destruct (n + 1 <=? 0)%Z; [fin|]. cbv zeta.
      bd; [any|]. bd; [any|]. bd; [apply wr_ok; apply upd_L|]. bd; [any|]. bd; [apply wr_ok; apply upd_L|].
      bd. { instantiate (1 := fun _ => True). destruct (prefixb (L "hkl") cmd); [|fin].
        bd; [any|]. bd; [any|]. eapply write_ds_in; eauto. }
      bd; [eapply write_ds_in; eauto|]. bd; [eapply write_ds_in; eauto|].
      bd. { apply wk_iter. intros c _. bd; [apply wk_hdf; apply hin_keeps|].
        match goal with |- wk (if ?b then _ else _) _ => destruct b end; [fin|].
        bd; [any|]. eapply write_ds_in; eauto. }
      bd; [any|]. bd; [any|]. fin.
    Qed.
    Lemma mesh_ok cmd : wk (mesh g cmd) (fun _ => True).
    Proof.
      unfold mesh. destruct (skipn 1 (words cmd)) as [|l1 [|x1 [|x2 [|i1 [|l2 [|x3 [|x4 [|i2 [|x5 [|]]]]]]]]]];
        try fin.
      bd; [any|]. bd; [any|]. bd; [any|]. bd; [any|]. bd; [any|]. bd; [any|]. bd; [any|].
      bd.
      { instantiate (1 := fun _ => True). match goal with |- wk (if ?b then _ else _) _ => destruct b end.
        - bd; [apply oneD_ok|]. fin.
        - bd; [apply mesh_grid_ok|]. match goal with |- wk (let '(_, _) := ?r in _) _ => destruct r as [[? ?] ?] end. fin. }
      match goal with |- wk (let '(_, _) := ?r in _) _ => destruct r as [[? ?] sh] end.
      bd. { instantiate (1 := fun _ => True). destruct (dget (L "_mca_") x) as [[vs|m]|]; [fin| |fin].
        destruct sh; [apply mca_mesh_ok|]. destruct m; fin. }
      fin.
    Qed.
    Lemma ncb_indices s v : ncb [(s ++ L "_indices", v)] = true.
    Proof.
      unfold ncb. cbn [forallb fst]. rewrite andb_true_r. apply negb_true_iff, seqb_neq. intros H.
      assert (E : List.length (s ++ L "_indices") = List.length NXC) by (rewrite H; reflexivity).
      rewrite app_length in E. change (List.length (L "_indices")) with 8 in E.
      change (List.length NXC) with 8 in E. destruct s; [|simpl in E; lia]. vm_compute in H. discriminate H.
    Qed.
    Lemma save_data_ok cmd : wk (save_data g cmd) (fun _ => True).
    Proof.
      unfold save_data. bd; [any|].
      bd.
      { instantiate (1 := fun _ => True).
        match goal with |- wk (if ?b then _ else _) _ => destruct b end; [apply mesh_ok|].
        match goal with |- wk (if ?b then _ else _) _ => destruct b end; [|apply oneD_ok].
        bd; [apply oneD_ok|]. bd; [any|]. fin. }
      match goal with |- wk (let '(_, _) := ?r in _) _ => destruct r as [signal axes] end. cbv zeta.
      destruct (find_c 58%N axes).
      - bd; [eapply addattr_in; eauto|]. apply wk_iter. intros y _. eapply addattr_in; [eauto|apply ncb_indices].
      - bd; [eapply addattr_in; eauto|]. eapply addattr_in; [eauto|apply ncb_indices].
    Qed.
  End Data.

  (* ---------------------------------------------------------------- *)
  (** ** the plugins *)
  Section Entry.
    Context (e : handle) (He : ent e).

    Ltac wde := apply wds_e; [exact He|reflexivity|reflexivity].
    Ltac wdi := eapply wds_in; [eassumption|try reflexivity|reflexivity].
    Ltac ope := apply open_e; [exact He|reflexivity|reflexivity].
    Ltac mke := apply make_e; [exact He|lit|(left; lit)||(right; reflexivity)|reflexivity].

    Lemma w_D_ok o : wk (w_D e o) (fun _ => True).
    Proof. unfold w_D. bd; [any|]. bd; [any|]. wde. Qed.
    Lemma w_C_ok o : wk (w_C e o) (fun _ => True).
    Proof. unfold w_C. bd; [any|]. wde. Qed.

    Lemma w_lattice_ok l : wk (w_lattice e l) (fun _ => True).
    Proof.
      unfold w_lattice. bd; [ope|]. destruct l as [v|v].
      - apply wk_iter. intros [[n u] y] Hin. cbn [fst snd].
        apply in_combine_l in Hin. simpl in Hin.
        destruct Hin as [E|[E|[E|[]]]]; inversion E; subst; wdi.
      - bd; [wdi|]. bd; [wdi|]. wdi.
    Qed.
    Lemma Forall_keys {V} (Q : str -> Prop) (d : dict V) kv : Forall Q (keys d) -> In kv d -> Q (fst kv).
    Proof. intros H Hin. rewrite Forall_forall in H. apply H. unfold keys. apply in_map; auto. Qed.
    Lemma digits_slash n : ~ In SLASH (str_of_nat n).
    Proof.
      intros H. unfold str_of_nat in H. pose proof (str_of_N_digits (N.of_nat n)) as D.
      rewrite Forall_forall in D. specialize (D _ H). vm_compute in D. intuition discriminate.
    Qed.
    Lemma w_refl_ok s ir : sub [L "sample"] s -> Forall rel (keys (angles_of_refl (snd ir))) ->
      wk (w_refl s ir) (fun _ => True).
    Proof.
      intros Hs Ha. unfold w_refl. cbv zeta. bd.
      { eapply open_in; [exact Hs| |reflexivity].
        repeat split; [discriminate|discriminate|]. intros Hin. apply in_app_iff in Hin.
        destruct Hin as [[H|[H|[]]]|H]; [discriminate H|discriminate H|]. eapply digits_slash; exact H. }
      destruct ir as [i r]. cbn [fst snd] in *. destruct r as [v x0|v x0]; cbn [angles_of_refl] in Ha.
      - bd.
        + apply wk_iter. intros [n y] Hin. cbn [fst snd]. apply in_combine_l in Hin. simpl in Hin.
          destruct Hin as [E|[E|[E|[]]]]; inversion E; subst; wdi.
        + apply wk_iter. intros y Hy. eapply wds_in; [eassumption| |reflexivity]. eapply Forall_keys; eauto.
      - bd.
        + apply wk_iter. intros [n y] Hin. cbn [fst snd]. apply in_combine_l in Hin. simpl in Hin.
          destruct Hin as [E|[E|[E|[E|[]]]]]; inversion E; subst; wdi.
        + apply wk_iter. intros y Hy. eapply wds_in; [eassumption| |reflexivity]. eapply Forall_keys; eauto.
    Qed.
    Lemma enum_In {A} (l : list A) ix : In ix (enum l) -> In (snd ix) l.
    Proof. destruct ix. intros H. apply in_combine_r in H. exact H. Qed.
    Lemma w_diffr_ok d : diffr_names d -> wk (w_diffr e d) (fun _ => True).
    Proof.
      intros (Hg & Ha & _). unfold w_diffr. destruct (d_gpar d) as [|kv t] eqn:Eg; [fin|]. cbv zeta.
      set (gpar := kv :: t) in *. clearbody gpar.
      eapply wk_bind; [ope|intros ins Hins]. bd; [wdi|].
      bd. { instantiate (1 := fun _ => True). destruct (d_lattice d); [apply w_lattice_ok|fin]. }
      bd. { instantiate (1 := fun _ => True). destruct (dget (L "ub_matrix") gpar); [|fin]. bd; [ope|wdi]. }
      bd. { instantiate (1 := fun _ => True). destruct (d_mode d); [|fin]. bd; [ope|wdi]. }
      bd. { instantiate (1 := fun _ => True). destruct (d_sector d); [|fin]. bd; [ope|wdi]. }
      bd. { instantiate (1 := fun _ => True). destruct (d_refl d) as [|r rs] eqn:Er; [fin|].
        bd; [ope|]. apply wk_iter. intros ir Hir. apply w_refl_ok; auto.
        apply enum_In in Hir. rewrite Forall_forall in Ha. apply Ha; auto. }
      bd. { instantiate (1 := fun _ => True). destruct (d_wavelength d) as [wl|]; [|fin].
        eapply wk_bind; [eapply open_in; [exact Hins|lit|reflexivity]|intros mono Hm].
        eapply wk_bind; [apply wk_hdf; apply (write_dataset_keeps P a sk _ _ _ _ _ (sub_known _ _ _ _ _ Hm));
                [eapply sub_usable; [exact Hm|reflexivity]|apply ncb_ok; reflexivity]|intros ds Hds].
        eapply wk_bind; [ope|intros sm Hs].
        eapply wk_bind; [eapply open_in; [exact Hs|lit|reflexivity]|intros bm Hb].
        change (L "/incident_wavelength") with (SLASH :: L "incident_wavelength").
        eapply link_ok; [exact Hds|repeat constructor|lit|exact Hb|repeat constructor|lit|lit|lit]. }
      eapply wk_bind; [eapply open_in; [exact Hins|lit|reflexivity]|intros gn Hn].
      apply wk_iter. intros y Hy. eapply wds_in; [exact Hn| |reflexivity]. eapply Forall_keys; eauto.
    Qed.
    Lemma w_G_ok o : wk (w_G e o) (fun _ => True).
    Proof.
      unfold w_G. bd; [mke|]. bd; [any|]. bd; [any|]. bd; [eapply save_dict_in; eauto|].
      bd; [apply rd_d|]. apply w_diffr_ok; auto.
    Qed.

    Lemma sorted_In {V} (d : dict V) kv : In kv (sorted_items d) -> In kv d.
    Proof.
      unfold sorted_items. set (leb := fun _ _ => _).
      assert (X : forall l y, In y (isort leb l) -> In y l).
      { assert (Y : forall l x y, In y (insert leb x l) -> y = x \/ In y l).
        { induction l as [|z l IH]; simpl; intros x y H; [destruct H as [<-|[]]; auto|].
          destruct (leb x z); simpl in H; [destruct H as [<-|[<-|H]]; auto|].
          destruct H as [<-|H]; auto. apply IH in H. tauto. }
        induction l as [|z l IH]; simpl; intros y H; auto. apply Y in H. destruct H as [->|H]; auto. }
      apply X.
    Qed.
    Lemma ensure_cx o : wk (ensureW o A_counter_xref []) (fun _ => True).
    Proof. unfold ensureW. bd; [any|]. destruct x; [fin|apply wr_ok; apply upd_cx]. Qed.
    Lemma ensure_px o : wk (ensureW o A_positioner_xref []) (fun _ => True).
    Proof. unfold ensureW. bd; [any|]. destruct x; [fin|apply wr_ok; apply upd_px]. Qed.
    Lemma w_counters_ok x : Forall rel (keys x) -> wk (w_counters e x) (fun _ => True).
    Proof.
      intros Hx. unfold w_counters. bd; [mke|]. apply wk_iter. intros kv Hkv.
      eapply wds_in; [eassumption| |reflexivity]. apply sorted_In in Hkv. eapply Forall_keys; eauto.
    Qed.
    Lemma w_J_ok o : wk (w_J e o) (fun _ => True).
    Proof. unfold w_J. bd; [apply ensure_cx|]. bd; [apply rd_cx|]. destruct x0; [fin|apply w_counters_ok; auto]. Qed.
    Lemma w_j_ok o : wk (w_j e o) (fun _ => True).
    Proof. unfold w_j. bd; [apply ensure_cx|]. bd; [apply rd_cx|]. apply w_counters_ok; auto. Qed.
    Lemma w_o_ok o : wk (w_o e o) (fun _ => True).
    Proof.
      unfold w_o. bd; [apply ensure_px|]. bd; [apply rd_px|]. rename H0 into Hx.
      destruct x0 as [|y t]; [fin|]. set (d := y :: t) in *. clearbody d.
      bd; [mke|]. apply wk_iter. intros kv Hkv. bd; [any|].
      eapply wds_in; [eassumption| |reflexivity]. apply sorted_In in Hkv. eapply Forall_keys; eauto.
    Qed.
    Lemma w_M_ok o : wk (w_M e o) (fun _ => True).
    Proof. unfold w_M. cbv zeta. bd; [wde|]. bd; [any|]. bd; [any|]. wde. Qed.
    Lemma w_T_ok o : wk (w_T e o) (fun _ => True).
    Proof. unfold w_T. cbv zeta. bd; [wde|]. bd; [any|]. bd; [any|]. wde. Qed.
    Lemma w_positioner_ok g iv : sub [L "positioners"] g -> wk (w_positioner g iv) (fun _ => True).
    Proof.
      intros Hg. unfold w_positioner. destruct iv as [i [nm v]].
      bd; [apply wk_lift with (Q := plain_name); apply clean_plain|].
      bd; [eapply open_in; [exact Hg|eassumption|reflexivity]|]. bd; [any|].
      bd. { instantiate (1 := fun l => ncb l = true).
        match goal with |- wk (if ?b then _ else _) _ => destruct b end; [|apply wk_ret; reflexivity].
        bd; [any|]. bd; [any|]. apply wk_ret; reflexivity. }
      cbv zeta. bd; [eapply wds_in; [eassumption|reflexivity|assumption]|].
      eapply wds_in; [eassumption|reflexivity|assumption].
    Qed.
    Lemma w_P_ok o : wk (w_P e o) (fun _ => True).
    Proof.
      unfold w_P. bd; [mke|]. rename H into Hg. bd; [any|].
      bd. { instantiate (1 := fun _ => True). destruct o; [fin|]. apply wk_iter. intros iv _. apply w_positioner_ok; auto. }
      bd; [ope|]. change (L "/positioners") with (SLASH :: L "positioners").
      eapply link_ok; [exact Hg|repeat constructor|lit|eassumption|repeat constructor|lit|lit|lit].
    Qed.
    Lemma w_Q_ok o : wk (w_Q e o) (fun _ => True).
    Proof. unfold w_Q. bd; [any|]. wde. Qed.
    Lemma w_user_ok o name ds line l : enb (L name) = true -> wk (w_user e o name ds line l) (fun _ => True).
    Proof.
      intros Hn. unfold w_user. bd; [apply open_e; [exact He|exact Hn|reflexivity]|]. cbv zeta.
      apply wk_iter. intros it _. eapply wds_in; [eassumption| |reflexivity]. destruct o; reflexivity.
    Qed.
    Lemma w_R_ok o : wk (w_R e o) (fun _ => True).
    Proof. unfold w_R. bd; [any|]. apply w_user_ok; reflexivity. Qed.
    Lemma w_U_ok o : wk (w_U e o) (fun _ => True).
    Proof. unfold w_U. bd; [any|]. apply w_user_ok; reflexivity. Qed.
    Lemma w_X_ok o : wk (w_X e o) (fun _ => True).
    Proof.
      unfold w_X. bd; [any|].
      bd. { instantiate (1 := fun _ => True). destruct x; [|fin]. bd; [any|]. wde. }
      bd; [any|]. match goal with |- wk (if ?b then _ else _) _ => destruct b end; [|fin]. bd; [any|]. wde.
    Qed.
    Lemma mca_group_ok : wk (mca_group e) (sub [L "MCA"]).
    Proof. unfold mca_group. ope. Qed.
    Lemma w_CALIB_ok o : wk (w_CALIB e o) (fun _ => True).
    Proof.
      unfold w_CALIB. bd; [any|]. destruct x; [|fin]. bd; [any|].
      destruct (dget (L "CALIB") x) as [[n|d|d]|]; try fin. bd; [apply mca_group_ok|].
      apply wk_iter. intros k Hk. destruct (dget k d); [|fin]. eapply wds_in; [eassumption|reflexivity|reflexivity].
    Qed.
    Lemma w_mca_nums_ok g m l ks : sub [L "MCA"] g -> ncb l = true -> forallb (fun k => negb (prefixb [SLASH] k)) (map L ks) = true ->
      wk (w_mca_nums g m l ks) (fun _ => True).
    Proof.
      intros Hg Hl Hk. rewrite forallb_forall in Hk. unfold w_mca_nums. apply wk_iter. intros k Hin.
      destruct (dget k m) as [[n|d|d]|]; try fin. eapply wds_in; [eassumption| |assumption].
      apply Hk in Hin. apply negb_true_iff in Hin. exact Hin.
    Qed.
    Lemma link_mca_ok g : sub [L "MCA"] g -> wk (link_mca e g) (sub [L "instrument"]).
    Proof.
      intros Hg. unfold link_mca. bd; [ope|]. rename H into Hi. bd; [apply wk_hdf; apply hin_keeps|].
      bd. { instantiate (1 := fun _ => True). match goal with |- wk (if ?b then _ else _) _ => destruct b end; [fin|].
        change (L "/MCA") with (SLASH :: L "MCA").
        eapply link_ok; [exact Hg|repeat constructor|lit|eassumption|repeat constructor|lit|lit|lit]. }
      apply wk_ret; auto.
    Qed.
    Lemma w_CHANN_ok o : wk (w_CHANN e o) (fun _ => True).
    Proof.
      unfold w_CHANN. bd; [any|]. destruct x; [|fin]. bd; [apply mca_group_ok|]. rename H0 into Hg. bd; [any|].
      bd; [apply w_mca_nums_ok; [exact Hg|reflexivity|reflexivity]|]. bd; [apply link_mca_ok; exact Hg|].
      eapply wk_bind; [apply wk_hdf; apply hget_keeps; eapply sub_usable; [eassumption|reflexivity]|intros o1 Ho].
      apply wk_hdf. apply set_attr_keeps; [exact (proj1 Ho)|lit].
    Qed.
    Lemma w_CTIME_ok o : wk (w_CTIME e o) (fun _ => True).
    Proof.
      unfold w_CTIME. bd; [any|]. destruct x; [|fin]. bd; [apply mca_group_ok|]. rename H0 into Hg. bd; [any|].
      bd; [apply w_mca_nums_ok; [exact Hg|reflexivity|reflexivity]|]. eapply wk_unit_of. apply link_mca_ok; exact Hg.
    Qed.
    Lemma w_V__ok name ds d : plainb (L name) = true -> seqb (L name) DATA = false -> wk (w_V_ e name ds d) (fun _ => True).
    Proof.
      intros Hn Hd. unfold w_V_. bd; [apply make_e; [exact He|apply plainb_ok; exact Hn|left; apply seqb_neq; auto|reflexivity]|].
      eapply save_dict_in; eauto.
    Qed.
    Lemma w_VA_ok o : wk (w_VA e o) (fun _ => True).
    Proof. unfold w_VA. bd; [any|]. apply w_V__ok; reflexivity. Qed.
    Lemma w_VD_ok o : wk (w_VD e o) (fun _ => True).
    Proof. unfold w_VD. bd; [any|]. apply w_V__ok; reflexivity. Qed.
    Lemma w_VE_ok o : wk (w_VE e o) (fun _ => True).
    Proof. unfold w_VE. bd; [any|]. apply w_V__ok; reflexivity. Qed.
    Lemma w_MD_ok o : wk (w_MD e o) (fun _ => True).
    Proof.
      unfold w_MD. bd; [any|]. destruct x; [|fin]. bd; [any|]. destruct x; [fin|]. bd; [mke|].
      eapply save_dict_in; eauto.
    Qed.
    Lemma free_unrec_ok : wk (hdf (free_unrec e)) (fun x => plain_name x /\ x <> DATA).
    Proof.
      apply wk_hdf. intros f I. unfold free_unrec. cbn [fst snd].
      split; [auto|split; [apply Fr_refl|]]. intros x.
      destruct (List.find _ _) as [i|]; [|discriminate]. intros E; injection E; intros <-.
      split; [split; [discriminate|split; [discriminate|]]|discriminate]. intros Hin.
      apply (in_app_iff (L "unrecognized_") (str_of_nat i)) in Hin.
      destruct Hin as [Hin|Hin]; [|eapply digits_slash; exact Hin].
      revert Hin. apply (plainb_ok (L "unrecognized_")). reflexivity.
    Qed.
    Lemma w_unrec_ok o : wk (w_unrec e o) (fun _ => True).
    Proof.
      unfold w_unrec. bd; [apply free_unrec_ok|]. bd; [apply make_e; [exact He|apply H|left; apply H|reflexivity]|].
      bd; [any|]. eapply save_dict_in; eauto.
    Qed.
    Lemma w_V_ok o : wk (w_V e o) (fun _ => True).
    Proof.
      unfold w_V. bd; [any|]. destruct x; [|fin]. bd; [any|]. destruct x; [fin|]. bd; [mke|]. rename H1 into Hg.
      bd; [eapply save_dict_in; eauto|]. bd; [ope|].
      change (L "/metadata") with (SLASH :: L "metadata").
      eapply link_ok; [exact Hg|repeat constructor|lit|eassumption|repeat constructor|lit|lit|lit].
    Qed.
    Lemma w_data_ok cmd : wk (w_data e cmd) (fun _ => True).
    Proof. unfold w_data. bd; [mke|]. eapply save_data_ok; eauto. Qed.

    Lemma w_UXML_ok o : wk (w_UXML e o) (fun _ => True).
    Proof.
      unfold w_UXML. bd; [any|]. rename x into root. destruct (forallb xvalid root) eqn:V; [|fin].
      apply wk_hdf. eapply hk_bind.
      { apply (hk_parts (L "UXML") []); [lit|]. apply makeGroup_keeps; [apply ent_known; auto| |apply ncb_ok; reflexivity].
        left. apply ent_usable; [auto|lit|lit]. }
      intros g Hg. eapply hk_bind.
      { apply (ux_items_ok P a sk root V); [exists []; exact Hg|]. split; [discriminate|intros ? ? []]. }
      intros d Hd. apply ux_links_ok; auto.
    Qed.

    Lemma writer_of_ok cmd h o : wk (writer_of cmd h e o) (fun _ => True).
    Proof.
      destruct h; cbn [writer_of]; try fin.
      - apply w_D_ok. - apply w_C_ok. - apply w_G_ok. - apply w_J_ok. - apply w_j_ok. - apply w_M_ok.
      - apply w_o_ok. - apply w_P_ok. - apply w_Q_ok. - apply w_R_ok. - apply w_T_ok. - apply w_U_ok.
      - apply w_X_ok. - destruct o; [fin|apply w_data_ok]. - apply w_CALIB_ok. - apply w_CHANN_ok.
      - apply w_CTIME_ok. - apply w_VA_ok. - apply w_VD_ok. - apply w_VE_ok. - apply w_MD_ok.
      - apply w_unrec_ok. - apply w_V_ok. - apply w_UXML_ok.
    Qed.

    (** *** links made at the end *)
    Ltac hbd := eapply hk_bind; [|intros ? ?].
    Ltac hfin := apply hk_ret; exact I.
    Definition inside (o : handle) : Prop := ~ P (h_id o) /\ h_id o <> a.
    Lemma hget_e n : enb n = true -> hk (hget e n) (fun o => sub [n] o).
    Proof.
      intros Hn. destruct (enb_plain n Hn) as [Hp Hd].
      eapply hk_weak; [|apply hget_keeps; apply ent_usable; auto].
      intros o [A [B C]]. rewrite parts_plain in B by auto. split; [auto|split; [apply B; discriminate|split]].
      - rewrite C. destruct He as [_ Hname]. rewrite Hname. rewrite sub_name_at; [|repeat constructor; apply Hsk|apply plain_rel; auto].
        rewrite parts_plain by auto. reflexivity.
      - repeat constructor; auto; apply Hsk || apply Hp.
    Qed.
    Lemma hget_in ps g n : sub ps g -> plain_name n -> hk (hget g n) (fun o => sub (ps ++ [n]) o).
    Proof.
      intros Hg Hp. pose proof Hg as [A [B [C D]]].
      eapply hk_weak; [|apply hget_keeps; eapply sub_usable; [exact Hg|apply plain_rel; auto]].
      intros o [A' [B' C']]. rewrite parts_plain in B' by auto. split; [auto|split; [apply B'; discriminate|split]].
      - rewrite C', C. rewrite sub_name_at; [|auto|apply plain_rel; auto]. rewrite parts_plain by auto. reflexivity.
      - change (sk :: ps ++ [n]) with ((sk :: ps) ++ [n]). apply Forall_app; auto.
    Qed.
    Lemma target_ok ps o v : sub ps o -> hk (set_attr (h_id o) (L "target") v) (fun _ => True).
    Proof. intros [A _]. apply set_attr_keeps; [auto|lit]. Qed.
    Lemma link_at_in ps g n qs o : sub ps g -> plain_name n -> sub qs o -> hk (link_at (h_id g) n (h_id o)) (fun _ => True).
    Proof.
      intros Hg Hn [A [B _]]. apply link_at_keeps; auto.
      eapply sub_usable; [exact Hg|apply plain_rel; auto].
    Qed.
    Lemma link_diffractometer_ok : hk (link_diffractometer e) (fun _ => True).
    Proof.
      unfold link_diffractometer. hbd; [apply hin_keeps|]. destruct x; [|hfin].
      hbd; [apply hget_e; reflexivity|]. rename H0 into Hi. hbd; [eapply hget_in; [exact Hi|lit]|].
      hbd; [eapply link_at_in; [exact Hi|lit|eassumption]|]. hbd; [eapply hget_in; [exact Hi|lit]|].
      eapply target_ok; eauto.
    Qed.
    Lemma link_positioners_ok : hk (link_positioners e) (fun _ => True).
    Proof.
      unfold link_positioners. hbd; [apply hin_keeps|]. hbd; [apply hin_keeps|]. destruct (x && x0); [|hfin].
      hbd.
      { apply hget_keeps. split; [reflexivity|]. destruct He as [-> _]. split; [auto|]. intros _. lit. }
      destruct H1 as [A _]. apply set_attr_keeps; [auto|lit].
    Qed.
    Lemma link_in_ok ps g n qs t : sub ps g -> plain_name n -> sub qs t -> hk (link_in g n t) (fun _ => True).
    Proof.
      intros Hg Hn Ht. unfold link_in. hbd; [eapply link_at_in; eauto|]. hbd; [eapply hget_in; eauto|].
      eapply target_ok; eauto.
    Qed.
    Lemma link_monitor_ok : hk (link_monitor e) (fun _ => True).
    Proof.
      unfold link_monitor. hbd; [apply hin_keeps|]. hbd; [apply hin_keeps|]. destruct (x || x0); [|hfin].
      eapply hk_bind with (Q := fun o => exists qs, sub qs o).
      { destruct x; (eapply hk_weak; [|apply hget_e; reflexivity]); eauto. }
      intros t [qs Ht].
      hbd. { apply (makeGroup_keeps P a sk []); [apply ent_known; auto|left; apply ent_usable; [auto|lit|lit]|constructor]. }
      eapply link_in_ok; [eassumption|lit|exact Ht].
    Qed.
    Lemma link_temperature_ok : hk (link_temperature e) (fun _ => True).
    Proof.
      unfold link_temperature. hbd; [apply hin_keeps|]. hbd; [apply hin_keeps|]. destruct (x || x0); [|hfin].
      hbd; [apply hget_e; reflexivity|]. rename H1 into Hs.
      hbd. { apply (makeGroup_keeps P a sk _ _ _ _ _ (sub_known _ _ _ _ _ Hs)); [|constructor].
        left. eapply sub_usable; [exact Hs|reflexivity]. }
      rename H1 into Hg.
      hbd. { instantiate (1 := fun _ => True). destruct x; [|hfin]. hbd; [apply hget_e; reflexivity|].
        eapply link_in_ok; [exact Hg|lit|eassumption]. }
      destruct x0; [|hfin]. hbd; [apply hget_e; reflexivity|]. eapply link_in_ok; [exact Hg|lit|eassumption].
    Qed.
    Lemma final_links_ok : hk (final_links e) (fun _ => True).
    Proof.
      unfold final_links. hbd; [apply link_diffractometer_ok|]. hbd; [apply link_positioners_ok|].
      hbd; [apply link_monitor_ok|]. apply link_temperature_ok.
    Qed.
    Lemma write_e n d l : enb n = true -> ncb l = true -> hk (write_dataset e n d l) (fun o => sub [n] o).
    Proof.
      intros Hn Hl. destruct (enb_plain n Hn) as [Hp Hd]. apply (hk_parts n []); [auto|].
      apply write_dataset_keeps; [apply ent_known; auto|apply ent_usable; auto|apply ncb_ok; auto].
    Qed.
    Lemma entry_fields_ok S num cmd : hk (entry_fields e S num cmd) (fun _ => True).
    Proof.
      unfold entry_fields. hbd.
      { apply addAttributes_keeps; [destruct He as [-> _]; auto|apply ncb_ok; reflexivity]. }
      hbd; [eapply hk_unit; apply write_e; reflexivity|].
      hbd; [apply hk_lift with (Q := fun _ => True); auto|].
      destruct x1 as [|n [|r t]]; [apply hk_raise|apply hk_raise|].
      hbd; [apply write_e; reflexivity|]. destruct H2 as [A _].
      hbd; [apply addAttributes_keeps; [auto|apply ncb_ok; reflexivity]|].
      hbd. { instantiate (1 := fun _ => True). destruct (0 <? r)%Z; [|hfin].
        apply addAttributes_keeps; [auto|apply ncb_ok; reflexivity]. }
      eapply hk_unit; apply write_e; reflexivity.
    Qed.
    Lemma save_objs_ok sc : wk (save_objs e sc) (fun _ => True).
    Proof.
      unfold save_objs. bd; [apply wk_hdf; apply entry_fields_ok|]. bd; [any|].
      bd; [apply wk_iter; intros; apply writer_of_ok|]. bd; [any|].
      bd; [apply wk_iter; intros; apply writer_of_ok|]. apply wk_hdf. apply final_links_ok.
    Qed.
    Lemma ensure_data_ok : hk (ensure_data e) (fun _ => True).
    Proof.
      unfold ensure_data. hbd; [apply hin_keeps|]. destruct x; [hfin|].
      hbd. { apply (makeGroup_keeps P a sk []); [apply ent_known; auto|right; split; [apply ent_makeable; [auto|lit]|reflexivity]|apply ncb_ok; reflexivity]. }
      cbv zeta. rename H0 into Hg.
      hbd. { apply (makeDataset_keeps P a sk _ _ _ _ _ (sub_known _ _ _ _ _ Hg)); [|apply ncb_ok; reflexivity].
        eapply sub_usable; [exact Hg|reflexivity]. }
      unfold unit_of. eapply hk_unit.
      apply (makeDataset_keeps P a sk _ _ _ _ _ (sub_known _ _ _ _ _ Hg)); [|apply ncb_ok; reflexivity].
      eapply sub_usable; [exact Hg|reflexivity].
    Qed.
  End Entry.
End Frame.
