(** C103: the links that are made at the end of an entry.  Theorems only; proofs are in EndLinks.v and LinkClaim.v. *)
From Coq Require Import String Lia.
From Verif Require Import Uni Py PyFacts Time SpecTime Utils SpecUtils Keys SpecKeys Geom Handlers Reader SpecText SpecReader SpecHistory SpecInterp SpecDecimal InterpFacts TextFacts ExampleFacts
  H5 SpecH5 H5Exact Writer SpecWriter SpecEntry SpecLinks NumFacts TableFacts TableFacts2 RoundFacts2 EntryFacts EntryFacts2 EndLinks LinkClaim PropWriter PropGeom PropEntry PropEntry2 PropEntry3.
Import ListNotations.
Local Open Scope list_scope.

Lemma two_members f e a n j : member f 0 e a -> at_path f [e; n] j -> member f a n j.
Proof.
  intros M H. inversion H as [|? ? i ? ? A B]; subst. inversion B as [|? ? i2 ? ? C D]; subst. inversion D; subst. rewrite (member_fun _ _ _ _ _ M A). exact C.
Qed.
Lemma tok_target f e a j : member f 0 e a -> tok a e f j -> target_ok f j.
Proof. intros M (_ & qs & _ & B & C). exists (e :: qs). split; [exact B|]. econstructor; [exact M|]. apply down_leads. exact C. Qed.
(** the claim: [e] is the name of the entry *)
Theorem C103_links : forall E known s0 s versions ks s' f k sc, saved E known s0 s versions ks s' f k sc -> forall e, e = entry_name k ->
  (forall j, at_path f [e; L "M"] j -> link_to f [e; L "monitor"] "NXmonitor" "preset" j) /\
  (forall j, at_path f [e; L "T"] j -> (forall i, ~ at_path f [e; L "M"] i) -> link_to f [e; L "monitor"] "NXmonitor" "preset" j) /\
  (forall j, at_path f [e; L "TEMP_SP"] j -> link_to f [e; L "sample"; L "temperature"] "NXlog" "target_value" j) /\
  (forall j, at_path f [e; L "DEGC_SP"] j -> link_to f [e; L "sample"; L "temperature"] "NXlog" "value" j) /\
  (forall j, at_path f [e; L "instrument"; L "geometry_parameters"] j -> at_path f [e; L "instrument"; L "diffractometer"] j /\ target_ok f j).
Proof.
  intros E known s0 s versions ks s' f k sc SV e ->. destruct (saved_links E known _ _ _ _ _ _ _ _ SV) as (a & M & Hp & Ha & f0 & I0 & R0 & G & (M1 & M2) & T).
  assert (ML : forall j, (exists g, member f a MONI g /\ linked a (entry_name k) f g "NXmonitor"%string (L "preset") j) -> link_to f [entry_name k; L "monitor"] "NXmonitor" "preset" j).
  { intros j (g & A & B & C & D & F). exists g. split; [econstructor; [exact M|]; econstructor; [exact A|]; constructor|]. split; [exact C|]. split; [exact D|]. eapply tok_target; eauto. }
  assert (TL : forall n m j, (L n, L m) = (L "TEMP_SP", L "target_value") \/ (L n, L m) = (L "DEGC_SP", L "value") -> at_path f [entry_name k; L n] j ->
    link_to f [entry_name k; L "sample"; L "temperature"] "NXlog" m j).
  { intros n m j Hn A. destruct (T (L n) (L m) j Hn (two_members _ _ _ _ _ M A)) as (s1 & g & H1 & H2 & H3 & H4 & H5 & H6 & H7). exists g.
    split; [econstructor; [exact M|]; econstructor; [exact H2|]; econstructor; [exact H3|]; constructor|]. split; [exact H5|]. split; [exact H6|]. eapply tok_target; eauto. }
  split; [|split; [|split; [|split]]].
  - intros j A. apply ML. apply M1. eapply two_members; eauto.
  - intros j A N. apply ML. apply M2; [|eapply two_members; eauto]. intros j' A'. apply (N j'). econstructor; [exact M|]. econstructor; [exact A'|]. constructor.
  - intros j A. apply (TL "TEMP_SP"%string "target_value"%string); [left; reflexivity|exact A].
  - intros j A. apply (TL "DEGC_SP"%string "value"%string); [right; reflexivity|exact A].
  - intros j A. inversion A as [|? ? i ? ? A1 A2]; subst. pose proof (member_fun _ _ _ _ _ M A1) as X. subst i. inversion A2 as [|? ? i2 ? ? A3 A4]; subst. inversion A4 as [|? ? i3 ? ? A5 A6]; subst. inversion A6; subst.
    destruct (G i2 j A3 A5) as [B1 B2]. split; [econstructor; [exact M|]; econstructor; [exact A3|]; econstructor; [exact B1|]; constructor|]. eapply tok_target; eauto.
Qed.
Print Assumptions C103_links.
(** what that means for a scan with a line #M: the preset of the monitor is its number *)
Theorem C103_preset : forall E known s0 s versions ks s' f k sc, saved E known s0 s versions ks s' f k sc -> forall v x, attr_is sc A_M v -> v <> [] -> py_float v = Ok x ->
  number_at f [entry_name k; L "monitor"; L "preset"] (NF x) [att "units" "counts"] /\ same_object f [entry_name k; L "monitor"; L "preset"] [entry_name k; L "M"].
Proof.
  intros E known s0 s versions ks s' f k sc SV v x H1 H2 H3. destruct (e_M E known s0 s s' versions ks f k sc SV v x H1 H2 H3) as (j & A & B & C).
  destruct (proj1 (C103_links _ _ _ _ _ _ _ _ _ _ SV _ eq_refl) j A) as (g & G1 & G2 & G3 & G4).
  assert (P : at_path f [entry_name k; L "monitor"; L "preset"] j).
  { clear - G1 G3. inversion G1 as [|? ? i ? ? X1 X2]; subst. inversion X2 as [|? ? i2 ? ? X3 X4]; subst. inversion X4; subst.
    econstructor; [exact X1|]. econstructor; [exact X3|]. econstructor; [exact G3|]. constructor. }
  split; [|exists j; split; [exact P|exact A]]. exists j. split; [exact P|]. split; [exact B|]. inversion C; subst. constructor; [assumption|constructor].
Qed.
Print Assumptions C103_preset.

(** scans with all of that *)
Definition counted : path := one "ascan x 0 1 1 1" ["#M 500  (I0)"; "#N 2"; "#L a  b"; "1 2"]%string.
Lemma counted_saved : exists sc, saved E0 all_hids (opened counted) (opened counted) versions0 [k1] (after_save counted [k1]) (nxfile counted [k1]) k1 sc /\ attr_is sc A_M (L "500").
Proof. one_tac. Qed.
Example C103_preset_example : number_at (nxfile counted [k1]) [L "S1"; L "monitor"; L "preset"] (NF (FDec 500 0)) [att "units" "counts"].
Proof.
  destruct counted_saved as (sc & SV & H). apply (C103_preset _ _ _ _ _ _ _ _ _ _ SV (L "500") (FDec 500 0) H); [discriminate|vm_compute; reflexivity].
Qed.
Lemma frozen_saved : exists sc, saved E0 all_hids (opened (cold with_geo)) (opened (cold with_geo)) versions0 [k1] (after_save (cold with_geo) [k1]) (nxfile (cold with_geo) [k1]) k1 sc /\ s_done sc = true.
Proof. one_tac. Qed.
Definition finds (f : h5) (ps : list str) : bool := match walk ps 0 f with Some _ => true | None => false end.
Lemma finds_ok f ps : finds f ps = true -> exists j, at_path f ps j.
Proof. unfold finds. destruct (walk ps 0 f) as [j|] eqn:E; [|discriminate]. intros _. exists j. apply H5Facts.walk_leads. exact E. Qed.
Lemma finds_not f ps : finds f ps = false -> forall j, ~ at_path f ps j.
Proof. unfold finds. destruct (walk ps 0 f) as [j|] eqn:E; [discriminate|]. intros _ j A. apply H5Facts.walk_leads in A. congruence. Qed.
Definition frozen : h5 := nxfile (cold with_geo) [k1].
Example C103_example : exists jt jh jc jg, link_to frozen [L "S1"; L "monitor"] "NXmonitor" "preset" jt /\
  link_to frozen [L "S1"; L "sample"; L "temperature"] "NXlog" "target_value" jh /\
  link_to frozen [L "S1"; L "sample"; L "temperature"] "NXlog" "value" jc /\ at_path frozen [L "S1"; L "instrument"; L "diffractometer"] jg /\ target_ok frozen jg.
Proof.
  destruct frozen_saved as (sc & SV & _). fold frozen in SV. destruct (C103_links _ _ _ _ _ _ _ _ _ _ SV (L "S1") eq_refl) as (A & B & C & D & F).
  destruct (finds_ok frozen [L "S1"; L "T"]) as (jt & Jt); [vm_compute; reflexivity|].
  destruct (finds_ok frozen [L "S1"; L "TEMP_SP"]) as (jh & Jh); [vm_compute; reflexivity|].
  destruct (finds_ok frozen [L "S1"; L "DEGC_SP"]) as (jc & Jc); [vm_compute; reflexivity|].
  destruct (finds_ok frozen [L "S1"; L "instrument"; L "geometry_parameters"]) as (jg & Jg); [vm_compute; reflexivity|].
  exists jt, jh, jc, jg. split; [apply B; [exact Jt|apply finds_not; vm_compute; reflexivity]|]. split; [apply C; exact Jh|]. split; [apply D; exact Jc|]. apply F; exact Jg.
Qed.
