(** Groups that are linked into the instrument: metadata of UNICAT *)
From Coq Require Import String Lia.
From Verif Require Import Py PyFacts NumFacts Utils SpecUtils Keys Time Geom Handlers Reader SpecWriter NamesFacts
  H5 SpecH5 H5Facts FrameH5 H5Exact Writer DataWrite KeepFacts SaveFacts EntryData FrameK WriterFrame WriterFrameK GrowFacts ClaimFacts MetaWrite MetaWrite2 MetaWrite3.
Import ListNotations.
Local Open Scope list_scope.

Lemma walk_member f i n j ps : member f i n j -> walk (n :: ps) i f = walk ps j f.
Proof. intros (ms & at_ & A & B). cbn [walk]. rewrite A, B. reflexivity. Qed.
Lemma dig_member f i n j ps : member f i n j -> dig (n :: ps) i f = dig ps j f.
Proof. intros (ms & at_ & A & B). cbn [dig]. rewrite A, B. reflexivity. Qed.
Lemma start_name i ps : start i (name_at ps) = 0.
Proof. unfold start, name_at. cbn [app prefixb]. rewrite N.eqb_refl. reflexivity. Qed.
Lemma sub_name_at ps n : Forall plain_name ps -> plain_name n -> sub_name (name_at ps) n = name_at (ps ++ [n]).
Proof.
  intros Hp Hn. unfold sub_name. pose proof (plain_rel n Hn) as R. rewrite R, parts_name_at, parts_plain by auto. reflexivity.
Qed.
Lemma name_at_snoc (sk q n : str) : name_at [sk; q] ++ [SLASH] ++ n = name_at [sk; q; n].
Proof. unfold name_at. cbn [join app]. rewrite <- !app_assoc. reflexivity. Qed.

Definition K2 (n : str) (p : list str) : Prop := p = [n] \/ p = [INS; n].
Definition I2 (i : nat) (j : nat) (g : str) : Prop := j = i /\ g = INS.

Lemma INS_plain : plain_name INS. Proof. apply plainb_ok. reflexivity. Qed.
Lemma filled_links a sk n ms at_ f f2 : BInv a sk f -> filled a n ms at_ f f2 -> forall i m j, link f2 i m j -> i < List.length f -> List.length f <= j -> i = a /\ m = n.
Proof.
  intros I [A1 A2 A3 A4] i m j (ms1 & at1 & B1 & B2) Li Hj. rewrite A4 in B1 by auto. destruct (Nat.eqb_spec i a) as [->|Ne].
  - split; [auto|]. inversion B1; subst. apply in_app_iff in B2. destruct B2 as [B2|[B2|[]]]; [|inversion B2; reflexivity].
    pose proof (FrameK.inv_bd _ _ _ _ _ f I a ms at1 m j A2 B2). lia.
  - pose proof (FrameK.inv_bd _ _ _ _ _ f I i ms1 at1 m j B1 B2). lia.
Qed.

(** after the instrument has been opened *)
Record ins_open (a : nat) (n : str) (b c i : nat) (f2 f3 : h5) : Prop := mk_ins_open {
  io_len : c <= List.length f3;
  io_i : i < b /\ a < i \/ i = c;
  io_mem : member f3 a INS i;
  io_n : member f3 a n b;
  io_same : forall j, b <= j < c -> nth_error f3 j = nth_error f2 j;
  io_links : forall k m j, ~ (b <= k < c) -> link f3 k m j -> b <= j < c -> k = a /\ m = n }.

Lemma ins_opened a sk n ms at_ f f2 f3 o : 0 < a -> plain_name sk -> ~ Uq n -> BInv a sk f -> BInv a sk f2 -> filled a n ms at_ f f2 ->
  openGroup (mk_handle a (name_at [sk])) INS (L "NXinstrument") [] f2 = (f3, Ok o) ->
  ins_open a n (List.length f) (List.length f2) (h_id o) f2 f3 /\ h_name o = name_at [sk; INS].
Proof.
  intros Ha Hp Un I IB Fi H. pose proof (filled_links a sk n ms at_ f f2 I Fi) as FL. pose proof Fi as [A1 A2 A3 A4].
  assert (Hab : a < List.length f) by apply (FrameK.inv_alt _ _ _ _ _ f I). set (b := List.length f) in *. set (c := List.length f2) in *.
  assert (Na : nth_error f2 a = Some (Group (ms ++ [(n, b)]) at_)) by (rewrite A4, Nat.eqb_refl by auto; reflexivity).
  assert (Nn : n <> INS) by (intros ->; apply Un; left; reflexivity).
  assert (NDm : NoDup (keys (ms ++ [(n, b)]))) by apply (FrameK.inv_wf _ _ _ _ _ f2 IB a _ _ Na).
  assert (Mn : dget n (ms ++ [(n, b)]) = Some b) by (apply dget_none_app; auto).
  assert (Lnk : forall k m j, ~ (b <= k < c) -> link f2 k m j -> b <= j < c -> k = a /\ m = n).
  { intros k m j Nk Hl Hj. apply (FL k m j Hl); [|lia]. destruct Hl as (m1 & x1 & X1 & _). assert (k < c) by (apply nth_error_Some; congruence). lia. }
  unfold openGroup in H. cbn [h_id h_name] in H. rewrite (resolve_plain a INS _ _ f2 INS_plain Na) in H.
  destruct (dget INS (ms ++ [(n, b)])) as [i|] eqn:Di.
  - cbv zeta in H. unfold addAttributes in H. cbn [siter] in H. rewrite sbind_eq in H. unfold sret in H. assert (f3 = f2) by congruence. assert (o = mk_handle i (sub_name (name_at [sk]) INS)) by congruence. subst f3 o.
    cbn [h_id h_name]. split; [|apply (sub_name_at [sk] INS); [constructor; [exact Hp|constructor]|apply INS_plain]].
    assert (Hi : i < b).
    { rewrite dget_app in Di. destruct (dget INS ms) as [x|] eqn:Dx.
      - injection Di; intros ->. apply dget_In in Dx. apply (FrameK.inv_bd _ _ _ _ _ f I a ms at_ INS i A2 Dx).
      - cbn [dget] in Di. destruct (seqb INS n) eqn:E; [apply seqb_eq in E; congruence|discriminate]. }
    assert (Mi : member f2 a INS i) by (exists (ms ++ [(n, b)]), at_; auto).
    assert (Hai : a < i).
    { destruct (FrameK.inv_link _ _ _ _ _ f2 IB a INS i) as [N1 N2]; [apply (FrameK.inv_Pa _ _ _ _ _ f2 IB)|apply member_link; auto|].
      destruct (Nat.lt_ge_cases a i); [auto|]. assert (PI : PO a i) by (unfold PO; lia). destruct (N2 PI) as [[_ []]|(g & [] & _)]. }
    constructor; auto. exists (ms ++ [(n, b)]), at_. auto.
  - destruct (group_of_make (mk_handle a (name_at [sk])) INS (L "NXinstrument") [] f2 f3 o INS_plain ltac:(cbn [h_id]; lia) H) as (ms' & at' & Na' & Hh & Ef & Eo).
    cbn [h_id h_name] in *. rewrite Na in Na'. injection Na'; intros <- <-. rewrite Eo. cbn [h_id h_name].
    split; [|apply (sub_name_at [sk] INS); [constructor; [exact Hp|constructor]|apply INS_plain]].
    assert (NN : forall j, nth_error f3 j = if Nat.eqb j a then Some (Group ((ms ++ [(n, b)]) ++ [(INS, c)]) at_) else if Nat.eqb j c then Some (with_attrs (Group [] [(NXC, AText (L "NXinstrument"))]) []) else nth_error f2 j).
    { intros j. rewrite Ef. apply (made_nth _ _ _ _ _ _ _ Na). }
    fold c. constructor; auto.
    + rewrite Ef, made_length. lia.
    + exists ((ms ++ [(n, b)]) ++ [(INS, c)]), at_. split; [rewrite NN, Nat.eqb_refl; reflexivity|]. apply dget_none_app. auto.
    + exists ((ms ++ [(n, b)]) ++ [(INS, c)]), at_. split; [rewrite NN, Nat.eqb_refl; reflexivity|]. rewrite dget_app, Mn. reflexivity.
    + intros j Hj. rewrite NN. destruct (Nat.eqb_spec j a); [lia|]. destruct (Nat.eqb_spec j c); [lia|]. reflexivity.
    + intros k m j Nk (m1 & x1 & X1 & X2) Hj. rewrite NN in X1. destruct (Nat.eqb_spec k a) as [->|Na1].
      * injection X1; intros <- <-. apply in_app_iff in X2. destruct X2 as [X2|[X2|[]]]; [|inversion X2; lia].
        apply (Lnk a m j); auto. exists (ms ++ [(n, b)]), at_. auto.
      * destruct (Nat.eqb_spec k c) as [->|Nc]; [cbn in X1; injection X1; intros <- <-; destruct X2|]. apply (Lnk k m j); auto. exists m1, x1. auto.
Qed.

Lemma link_up a sk n ms at_ mg atg f w2 w' g u : 0 < a -> plain_name sk -> is_ascii sk -> plain_name n -> is_ascii n -> ~ Uq n ->
  BInv a sk f -> BInv a sk (w_h5 w2) -> filled a n ms at_ f (w_h5 w2) -> h_id g = List.length f -> h_name g = name_at [sk; n] ->
  nth_error (w_h5 w2) (List.length f) = Some (Group mg atg) -> has TGT atg = false ->
  (let* ins := hdf (openGroup (mk_handle a (name_at [sk])) INS (L "NXinstrument") []) in hdf (makeLink (mk_handle a (name_at [sk])) g (h_name ins ++ [SLASH] ++ n))) w2 = (w', Ok u) ->
  BInv a sk (w_h5 w') ->
  exists i, FrameK.Inv (PP a (List.length f) (List.length (w_h5 w2))) a sk (K2 n) (I2 i) (w_h5 w') /\ w_scan w' = w_scan w2 /\ a < List.length f /\ a < i /\
    member (w_h5 w') a n (List.length f) /\ member (w_h5 w') i n (List.length f) /\
    nth_error (w_h5 w') (List.length f) = Some (Group mg (dset TGT (AText (name_at [sk; n])) atg)) /\
    forall j, List.length f < j < List.length (w_h5 w2) -> nth_error (w_h5 w') j = nth_error (w_h5 w2) j.
Proof.
  intros Ha Hp Has Hn An Un I IB Fi Eg Hg Nb Ht H I'. set (f2 := w_h5 w2) in *. set (b := List.length f) in *.
  apply bind_ok in H. destruct H as (ins & w3 & H1 & H). unfold hdf in H1.
  destruct (openGroup (mk_handle a (name_at [sk])) INS (L "NXinstrument") [] (w_h5 w2)) as [f3 [o|x]] eqn:Eo; [|discriminate].
  assert (w3 = mk_ws (w_scan w2) (w_hdr w2) f3) by congruence. assert (o = ins) by congruence. subst w3 o. clear H1.
  destruct (ins_opened a sk n ms at_ f (w_h5 w2) f3 ins Ha Hp Un I IB Fi Eo) as [[O1 O2 O3 O4 O5 O6] Hi].
  fold f2 b in O1, O2, O3, O4, O5, O6. set (i := h_id ins) in *. set (c := List.length f2) in *.
  assert (Hab : a < b) by apply (FrameK.inv_alt _ _ _ _ _ f I). assert (Hbc : b < c) by apply (fi_len _ _ _ _ _ _ Fi).
  assert (Nb3 : nth_error f3 b = Some (Group mg atg)) by (rewrite O5; auto).
  assert (I3 : BInv a sk f3).
  { destruct (FrameK.openGroup_keeps (PO a) a sk noK noI ltac:(auto) [] (mk_handle a (name_at [sk])) INS (L "NXinstrument") [] (entry_hat _ a sk noK noI f2 Hp IB)) with (f := f2) as [X _]; auto.
    - discriminate. - split; auto. - unfold f2 in X. rewrite Eo in X. exact X. }
  rewrite Hi, name_at_snoc in H. unfold hdf in H. cbn [w_scan w_hdr w_h5] in H.
  match type of H with context [makeLink ?x ?y ?z ?t] => destruct (makeLink x y z t) as [f4 [u4|x4]] eqn:Em end; [|discriminate H].
  assert (w' = mk_ws (w_scan w2) (w_hdr w2) f4) by congruence. subst w'. clear H. cbn [w_scan w_hdr w_h5] in *.
  unfold makeLink in Em. rewrite sbind_eq in Em. unfold attrs_at in Em. rewrite Eg in Em. fold b in Em. rewrite Nb3 in Em. change (L "target") with TGT in Em. rewrite Ht in Em.
  unfold set_attr in Em. rewrite Nb3 in Em. set (nb := Group mg (dset TGT (AText (h_name g)) atg)) in *.
  set (f3' := put_nth b nb f3) in *.
  assert (P3 : forall j, nth_error f3' j = if Nat.eqb j b then Some nb else nth_error f3 j) by (intros j; apply (put_nth_error _ _ _ _ Nb3)).
  assert (M3 : forall k m j, link f3' k m j <-> link f3 k m j).
  { intros k m j. unfold link. split; intros (m1 & x1 & X1 & X2).
    - rewrite P3 in X1. destruct (Nat.eqb_spec k b) as [->|]; [injection X1; intros <- <-; exists mg, atg; auto|exists m1, x1; auto].
    - destruct (Nat.eqb_spec k b) as [->|Ne]; [|exists m1, x1; rewrite P3; destruct (Nat.eqb_spec k b); [contradiction|auto]].
      rewrite Nb3 in X1. injection X1; intros <- <-. exists mg, (dset TGT (AText (h_name g)) atg). rewrite P3, Nat.eqb_refl. auto. }
  assert (MM : forall k m j, k <> b -> member f3 k m j -> member f3' k m j).
  { intros k m j Nk (m1 & x1 & X1 & X2). exists m1, x1. rewrite P3. destruct (Nat.eqb_spec k b); [contradiction|auto]. }
  assert (R0 : member f3' 0 sk a) by (apply MM; [lia|apply (FrameK.inv_root _ _ _ _ _ f3 I3)]).
  assert (Ra : member f3' a n b) by (apply MM; [lia|auto]). assert (Ri : member f3' a INS i) by (apply MM; [lia|auto]).
  assert (As1 : Forall is_ascii [sk; n]) by (constructor; [auto|constructor; auto]). assert (Pl1 : Forall plain_name [sk; n]) by (constructor; [auto|constructor; auto]).
  assert (AI : is_ascii INS) by (repeat constructor).
  assert (As2 : Forall is_ascii [sk; INS; n]) by (constructor; [auto|constructor; [auto|constructor; auto]]). assert (Pl2 : Forall plain_name [sk; INS; n]) by (constructor; [auto|constructor; [apply INS_plain|constructor; auto]]).
  rewrite sbind_eq in Em. unfold hget in Em. rewrite Hg in Em. rewrite (ascii_id (name_at [sk; n])) in Em by (apply is_ascii_name_at; auto).
  unfold resolve in Em. unfold name_at in Em at 1. cbn [app] in Em. rewrite start_name, parts_name_at in Em by auto.
  rewrite (walk_member _ _ _ _ _ R0), (walk_member _ _ _ _ _ Ra) in Em. cbn [walk h_id] in Em.
  rewrite (ascii_id (name_at [sk; INS; n])) in Em by (apply is_ascii_name_at; auto).
  unfold H5.link_at in Em. rewrite parts_name_at in Em by auto. cbn [rev app] in Em. rewrite start_name, sbind_eq in Em.
  rewrite (dig_member _ _ _ _ _ R0), (dig_member _ _ _ _ _ Ri) in Em. cbn [dig] in Em.
  unfold add_member in Em. destruct (nth_error f3' i) as [[mi ai|]|] eqn:Ni; try discriminate. destruct (has n mi) eqn:Hni; [discriminate|].
  destruct (Nat.leb (List.length f3') b); [discriminate|]. assert (E4 : f4 = put_nth i (Group (mi ++ [(n, b)]) ai) f3') by congruence. clear Em.
  assert (P4 : forall j, nth_error f4 j = if Nat.eqb j i then Some (Group (mi ++ [(n, b)]) ai) else nth_error f3' j) by (intros j; rewrite E4; apply (put_nth_error _ _ _ _ Ni)).
  assert (Nia : i <> a).
  { destruct (FrameK.inv_link _ _ _ _ _ f3 I3 a INS i) as [N1 N2]; [apply (FrameK.inv_Pa _ _ _ _ _ f3 I3)|apply member_link; auto|auto]. }
  assert (Mem4 : forall m j, member f3' a m j -> member f4 a m j).
  { intros m j (m1 & x1 & X1 & X2). exists m1, x1. rewrite P4. destruct (Nat.eqb_spec a i); [lia|auto]. }
  assert (MI : member f4 i n b). { exists (mi ++ [(n, b)]), ai. rewrite P4, Nat.eqb_refl. split; [auto|]. apply dget_none_app; auto. }
  assert (Ei : i <> b /\ a < i /\ ~ (b <= i < c)) by lia. destruct Ei as (E1 & E2 & E3).
  exists i. split; [|split; [auto|split; [auto|split; [auto|split; [auto|split; [auto|split]]]]]].
  - apply upgrade; auto; [split; [lia|]; rewrite E4, put_length; unfold f3'; rewrite put_length; exact O1| |].
    + intros k m j Hk Nk (m1 & x1 & X1 & X2) Hj. rewrite P4 in X1. destruct (Nat.eqb_spec k i) as [->|Nki].
      * injection X1; intros <- <-. apply in_app_iff in X2. destruct X2 as [X2|[X2|[]]].
        -- exfalso. apply Nia. apply (O6 i m j E3); [|lia]. apply M3. exists mi, ai. auto.
        -- inversion X2; subst. right. exists INS. split; [split; reflexivity|right; reflexivity].
      * left. destruct (O6 k m j Nk) as [X Y]; [apply M3; exists m1, x1; auto|lia|]. split; [exact X|left; congruence].
    + intros j q [-> ->]. split; [left; reflexivity|]. split; [exact E2|]. split; [exact E3|]. apply Mem4; auto.
  - rewrite P4. destruct (Nat.eqb_spec b i); [lia|]. rewrite P3, Nat.eqb_refl. unfold nb. rewrite Hg. reflexivity.
  - intros j Hj. rewrite P4. destruct (Nat.eqb_spec j i) as [->|]; [lia|]. rewrite P3. destruct (Nat.eqb_spec j b); [lia|]. apply O5. lia.
Qed.

(** group [n] of the entry is in the instrument, too *)
Definition in_instrument (f : h5) (a : nat) (n : str) : Prop := exists g i, a < g /\ a < i /\ member f a n g /\ member f a INS i /\ member f i n g.
Lemma in_instrument_grow f f' a n : 1 <= a -> grow f f' -> in_instrument f a n -> in_instrument f' a n.
Proof.
  intros Ha G (g & i & A & B & C & D & F). exists g, i. split; [auto|]. split; [auto|].
  split; [eapply grow_member; eauto|]. split; [eapply grow_member; eauto|]. eapply grow_member; eauto. lia.
Qed.

Lemma base_dict a sk n c l d w w1 w2 g u : plain_name sk -> plain_name n -> ~ Uq n -> BW a sk w ->
  hdf (makeGroup (mk_handle a (name_at [sk])) n (L c) l) w = (w1, Ok g) -> save_dict g d w1 = (w2, Ok u) -> BInv a sk (w_h5 w2).
Proof.
  intros Hp Hn Un W H1 H2. pose proof W as [I _].
  assert (M : WriterFrameK.wk (PO a) a sk noK noI (hdf (makeGroup (mk_handle a (name_at [sk])) n (L c) l)) (FrameK.hat (PO a) a sk noI [n])).
  { apply (WriterFrameK.make_e (PO a) a sk noK noI); auto. eapply entry_hat; eauto. }
  destruct (wk_step _ _ _ _ _ _ _ _ _ _ M W H1) as [W1 _]. destruct (M w W) as (_ & _ & Hh). rewrite H1 in Hh. specialize (Hh g eq_refl).
  assert (D : WriterFrameK.wk (PO a) a sk noK noI (save_dict g d) (fun _ => True)).
  { eapply (WriterFrameK.save_dict_in (PO a) a sk noK noI); [auto|exact Hh|]. apply (WriterFrameK.deep_top noK); auto; intros ? ? []. }
  destruct (wk_step _ _ _ _ _ _ _ _ _ _ D W1 H2) as [[I2 _] _]. exact I2.
Qed.
Definition Vdesc : attrs_t := [desc "SPEC metadata (UNICAT-style #H & #V lines)"].
Definition Psi_V (o : obj) (f : h5) (a : nat) : Prop := forall d, o A_metadata = Some d -> d <> [] ->
  dict_in f a (L "metadata") "NXnote" Vdesc (map (fun kv => (fst kv, md_data (snd kv))) d) /\ in_instrument f a (L "metadata").
Lemma K2_0 n : ~ K2 n []. Proof. intros [X|X]; discriminate. Qed.
Lemma K2_2 n g m : K2 n [g; m] -> Uq g. Proof. intros [X|X]; [discriminate|]. injection X; intros _ ->. left. reflexivity. Qed.
Ltac okk2 := let h' := fresh in let N := fresh in intros h' N; unfold okw, K2; destruct h'; try congruence;
  repeat split; try exact I; try (intros ? [?|?]; discriminate); try (intros [?|?]; discriminate).
Lemma est_V : est H_V Psi_V.
Proof.
  intros cmd a sk w w' u Ha Hp Has W H. pose proof (base_writer _ _ _ _ _ _ _ Hp Has W H) as WE. cbn [writer_of] in H. unfold w_V in H.
  apply bind_ok in H. destruct H as (b1 & w1 & H1 & H). apply has_ok in H1. destruct H1 as [-> B1]. cbn [obj_of] in B1. destruct b1.
  2:{ apply (est_none H_V _ a sk w w' Ha WE). intros f x X. exfalso. rewrite X in B1. destruct B1 as [_ B1]. discriminate B1. discriminate. }
  apply bind_ok in H. destruct H as (d & w1 & H1 & H). apply rd_ok in H1. destruct H1 as [-> H1]. cbn [obj_of] in H1.
  destruct d as [|kv d].
  { apply (est_none H_V _ a sk w w' Ha WE). intros f x X Nx. exfalso. apply Nx. congruence. }
  apply bind_ok in H. destruct H as (g & w1 & H2 & H). apply bind_ok in H. destruct H as (u1 & w2 & H3 & H).
  destruct (dict_made a sk (L "metadata") "NXnote" Vdesc _ _ w w2 g w1 u1 Ha eq_refl ltac:(apply plainb_ok; reflexivity) W ltac:(nodup) ltac:(simpl; intuition discriminate) ltac:(simpl; intuition discriminate) H2 H3)
    as (ms & at_ & Fi & Eg & Es & _ & (mg & Ng) & Hg & Dc).
  assert (W2 : BInv a sk (w_h5 w2)).
  { eapply base_dict; [exact Hp| | |exact W|exact H2|exact H3]; [apply plainb_ok; reflexivity|nuq]. }
  destruct W as [I _]. destruct WE as [I' _].
  assert (Hgn : h_name g = name_at [sk; L "metadata"]) by (rewrite Hg; apply (sub_name_at [sk]); [constructor; [auto|constructor]|apply plainb_ok; reflexivity]).
  destruct (link_up a sk (L "metadata") ms at_ mg _ (w_h5 w) w2 w' g u Ha Hp Has ltac:(apply plainb_ok; reflexivity) ltac:(repeat constructor) ltac:(nuq) I W2 Fi Eg Hgn
    ltac:(rewrite <- Eg; exact Ng) eq_refl H I') as (i & IU & Es' & Hab & Hai & Ma & Mi & Nb & Nj).
  eexists. exists (K2 (L "metadata")), (I2 i). split; [apply K2_0|]. split; [apply K2_2|]. split; [okk2|]. split; [exact IU|].
  intros f Inv' G d' Hd _. rewrite H1 in Hd. injection Hd; intros <-. destruct G as [G1 G2 G3 G4].
  assert (Mf : member f a (L "metadata") (List.length (w_h5 w))) by (apply G3; [left; reflexivity|exact Ma]). split.
  - apply Dc; rewrite Eg; [|exact Mf]. pose proof (fi_len _ _ _ _ _ _ Fi). split.
    + intros j Hj. rewrite G2 by (right; lia). apply Nj. exact Hj.
    + eexists. eexists. eexists. split; [rewrite <- Eg; exact Ng|]. split; [rewrite G2 by (right; lia); exact Nb|]. intros k Nk. apply dget_dset_other. exact Nk.
  - exists (List.length (w_h5 w)), i. split; [auto|]. split; [auto|]. split; [exact Mf|]. split.
    + apply (FrameK.inv_I _ _ _ _ _ f Inv' i INS). split; reflexivity.
    + apply (G4 i INS); [split; reflexivity|right; reflexivity|exact Mi].
Qed.
