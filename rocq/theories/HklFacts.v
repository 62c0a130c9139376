(** The axes of scans along h, k, l *)
From Coq Require Import String Lia.
From Verif Require Import Py PyFacts Utils SpecUtils Keys Handlers Reader SpecHistory SpecInterp InterpFacts SpecWriter SpecEntry TextFacts
  H5 SpecH5 Writer DataWrite EntryData TableFacts TableFacts2 WriterFacts SpectraFacts.
Import ListNotations.
Local Open Scope list_scope.

Lemma moving_filter l axes : moving l axes -> axes = flat_map (fun nab => if seqb (snd (fst nab)) (snd nab) then [] else [fst (fst nab)]) l.
Proof.
  induction 1 as [|n a b t u N _ IH|n a t u _ IH]; cbn [flat_map fst snd]; [reflexivity| |].
  - assert (X : seqb a b = false) by (apply not_true_is_false; intros X; apply seqb_eq in X; auto). rewrite X, IH. reflexivity.
  - rewrite seqb_refl, IH. reflexivity.
Qed.
Section Hkl.
  Context (E : env) (known : list hid).
  Lemma saved_hkl s0 s versions ks s' f k sc : saved E known s0 s versions ks s' f k sc ->
    forall table labels w h0 hN k0 kN l0 lN rest axes, attr_is sc A_data table -> table <> [] -> attr_is sc A_L labels ->
      In w (map L ["hscan"; "kscan"; "lscan"; "hklscan"]%string) -> fields (s_cmd sc) (w :: h0 :: hN :: k0 :: kN :: l0 :: lN :: rest) ->
      moving [(L "H", h0, hN); (L "K", k0, kN); (L "L", l0, lN)] axes ->
    exists b, at_path f [entry_name k; L "data"] b /\ attribute f b (L "axes") (axes_attr axes) /\
      forall a, In a axes -> In a labels -> exists j, member f b a j.
  Proof.
    intros (Hh & Hp & Hs & Hk & H & Hin & sc0 & Hg & Hd) table labels w h0 hN k0 kN l0 lN rest axes Ht Nt Hl Hw F M.
    assert (Od : one_dim (s_cmd sc)).
    { intros ws w' F' H'. apply fields_words in F. apply fields_words in F'. rewrite F', <- F in H'. cbn [hd_error] in H'. injection H'; intros <-.
      cbn [map In] in Hw. split; intros ->; revert Hw; clear; intros [X|[X|[X|[X|[]]]]]; discriminate X. }
    destruct (saved_table2 E known s0 s versions ks s' f Hh Hp Hs Hk H k sc0 sc table Hin Hg Hd Ht Nt Od) as (b & c & items & sg & axv & P & T & St).
    exists b. split; [exact P|]. pose proof T as (ls & dd & cols & its & ax & axs & cl & cf & A1 & A2 & A3 & A4 & A5 & A6 & A7 & A8 & A9 & A10 & A11).
    assert (HW : words (s_cmd sc) = w :: h0 :: hN :: k0 :: kN :: l0 :: lN :: rest) by (apply fields_words in F; auto).
    assert (Hq : hkl_scan_w (s_cmd sc)) by (exists w; eexists; split; [exact HW|exact Hw]).
    destruct A11 as [[_ A11]|[_ A11]]; [|contradiction]. unfold hkl_axes in A11. rewrite HW in A11. cbn [skipn firstn] in A11.
    apply moving_filter in M. cbn [flat_map fst snd] in M. rewrite app_nil_r in M. 
    assert (Ax : axs = join (L ":") axes) by (rewrite M; injection A11; intros <-; reflexivity).
    split.
    - pose proof (so_ax _ _ _ _ _ _ St) as X. rewrite A10, Ax in X. replace (axes_attr axes) with (axes_value (join (L ":") axes)); [exact X|].
      rewrite M. clear. destruct (seqb h0 hN), (seqb k0 kN), (seqb l0 lN); vm_compute; reflexivity.
    - intros a Ha Hla. apply (stored_name _ _ _ _ _ _ _ _ _ T St Hl a a Hla). apply ds_name_iff. rewrite M in Ha. clear - Ha.
      assert (X : In a (map L ["H"; "K"; "L"]%string)).
      { destruct (seqb h0 hN), (seqb k0 kN), (seqb l0 lN); cbn [app In map] in *; intuition. }
      cbn [map In] in X. destruct X as [<-|[<-|[<-|[]]]]; reflexivity.
  Qed.
End Hkl.
