(** From the group UXML of a saved file to its paths *)
From Coq Require Import String Lia.
From Verif Require Import Py PyFacts NumFacts Utils SpecUtils Keys Time Geom Handlers Reader SpecHistory SpecInterp SpecWriter SpecEntry SpecUxml UtilsFacts NamesFacts
  H5 SpecH5 H5Facts FrameH5 H5Exact Writer DataWrite KeepFacts SaveFacts EntryData FrameFacts RegFacts FrameK UxmlFacts WriterFrame WriterFrameK GrowFacts ClaimFacts
  WriterFacts TableFacts MetaWrite MetaWrite2 MetaWrite3 UxmlWrite RegAll RegAll2 RegAll3 RegUxml EntryFacts.
Import ListNotations.
Local Open Scope list_scope.

(** the object of an element *)
Lemma elem_in c f b ps x : elem b ps x -> forall i, c <= i -> Forall (node_in c f i) b -> x <> XComment /\ exists qs n k, ps = qs ++ [n] /\ lead1 c f i qs k /\ c <= k /\ node_in c f k x /\
  match x with XData m _ _ _ _ | XGroup m _ _ _ _ | XLink m _ => m = n | XComment => False end.
Proof.
  induction 1 as [b Hin|b n t u l y Hin|b n cl u l y Hin|b n t Hin|b n cl u l y ps x Hin _ IH]; intros i Hi F; pose proof (proj1 (Forall_forall _ _) F _ Hin) as N.
  - destruct N.
  - split; [discriminate|]. exists [], n, i. split; [reflexivity|]. split; [constructor; exact Hi|]. split; [exact Hi|split; [exact N|reflexivity]].
  - split; [discriminate|]. exists [], n, i. split; [reflexivity|]. split; [constructor; exact Hi|]. split; [exact Hi|split; [exact N|reflexivity]].
  - split; [discriminate|]. exists [], n, i. split; [reflexivity|]. split; [constructor; exact Hi|]. split; [exact Hi|split; [exact N|reflexivity]].
  - cbn [node_in] in N. destruct N as (j & J1 & J2 & _ & _ & _ & _ & _ & J3). apply all_Forall in J3.
    destruct (IH j J1 J3) as (Nc & qs & m & k & -> & K1 & K2 & K3 & K4). split; [exact Nc|]. exists (n :: qs), m, k. split; [reflexivity|].
    split; [econstructor; eauto|auto].
Qed.

Section Saved.
  Context (E : env) (known : list hid) (Hk : incl all_hids known).
  Context (s0 s s' : sdf) (versions : list (str * aval)) (ks : list skey) (f : h5) (k : skey) (sc : scan).
  Context (SV : saved E known s0 s versions ks s' f k sc).
  Context (root : list xnode) (Hr : s_obj sc A_UXML_root = Some root).
  Lemma e_UXML : exists a g, member f 0 (entry_name k) a /\ member f a UX g /\ in_UXML f g root.
  Proof.
    destruct (saved_done _ _ _ _ _ _ _ _ _ _ SV) as (n & Hn).
    destruct (saved_writer E known H_UXML Psi_UXML s0 s versions ks s' f k sc est_UXML) as (a & M & P).
    - discriminate.
    - intros o o' f0 a0 S H r0 H0. apply (H r0). rewrite (psi_same A_UXML_root o o'); [exact H0|discriminate|discriminate|discriminate|exact S].
    - intros o f0 f1 a0 Ha G H. eapply Psi_UXML_grow; eauto.
    - exact SV.
    - intros D. destruct SV as (Hh & Hp & Hs & _ & H & _). eapply (reg_UXML E known Hk); eauto.
    - destruct (P root Hr) as (g & G1 & G2 & G3). exists a, g. auto.
  Qed.
  Lemma to_path a g ps j : member f 0 (entry_name k) a -> member f a UX g -> leads f g ps j -> at_path f (entry_name k :: L "UXML" :: ps) j.
  Proof. intros A B C. econstructor; [exact A|]. econstructor; [exact B|exact C]. Qed.
  Lemma e_UXML_group : exists j, at_path f [entry_name k; L "UXML"] j /\ nx_group f j "NXnote" /\ attribute f j (L "desc") (AText (L "UXML metadata")).
  Proof. destruct e_UXML as (a & g & A & B & C & D & _). exists g. split; [|auto]. apply (to_path a g [] g A B). constructor. Qed.
  Lemma e_UXML_elem ps x : elem root ps x -> x <> XComment /\ shown f (entry_name k :: L "UXML" :: ps) x.
  Proof.
    intros H. destruct e_UXML as (a & g & A & B & C & D & [F _] & _). destruct (elem_in g f root ps x H g (le_n g) F) as (Nc & qs & n & i & -> & L1 & L2 & N & En).
    split; [exact Nc|]. apply lead1_leads in L1.
    assert (LS : forall j, member f i n j -> at_path f (entry_name k :: L "UXML" :: qs ++ [n]) j).
    { intros j M. apply (to_path a g _ j A B). clear - L1 M. induction L1; cbn [app]; econstructor; eauto. constructor. }
    destruct x as [|m t u l y|m cl u l b|m t]; cbn [shown]; auto; cbn [node_in] in N; subst m.
    - destruct N as (j & v & _ & M & X & Y & _ & Z). exists j, v. split; [apply LS; exact M|auto].
    - destruct N as (j & _ & M & X & Y & _ & Z & _). exists j. split; [apply LS; exact M|auto].
  Qed.
  Lemma e_UXML_links t p q : last_of t (ids_of root) p -> last_of t (links_of root) q -> ascii_path p -> ascii_path q ->
    same_object f (entry_name k :: L "UXML" :: p) (entry_name k :: L "UXML" :: q).
  Proof.
    intros Lp Lq Ap Aq. destruct e_UXML as (a & g & A & B & C & D & _ & F). destruct (F t q p Lq Lp Ap Aq) as (j & J1 & J2). exists j.
    split; apply (to_path a g _ j A B); eapply lead1_leads; eassumption.
  Qed.
  Lemma e_UXML_names : NoDup (sibling_names root) /\ forall ps n c u l b, elem root ps (XGroup n c u l b) -> NoDup (sibling_names b).
  Proof.
    destruct e_UXML as (a & g & A & B & C & D & [F F'] & _). split; [exact F'|]. intros ps n c u l b H.
    destruct (elem_in g f root ps _ H g (le_n g) F) as (_ & qs & m & i & _ & _ & _ & N & _). cbn [node_in] in N. destruct N as (j & _ & _ & _ & _ & _ & _ & N & _). exact N.
  Qed.
End Saved.
