(** C45, C46: scanf.  Theorems only; proofs are in ScanfFacts.v. *)
From Coq Require Import String Lia.
From Verif Require Import Uni Py PyFacts NumFacts Scanf SpecText SpecReader SpecDecimal DecimalFacts SpecScanf ScanfFacts.
Import ListNotations.
Local Open Scope list_scope.

(** [calls ca]: the cache after any sequence of calls, whatever they returned *)
Theorem C45_history_does_not_matter : forall ca, calls ca -> (forall fmt s, snd (scanf ca fmt s) = snd (scanf [] fmt s)) /\ (len ca <= 1001)%Z.
Proof. exact C45_lemma. Qed.
Print Assumptions C45_history_does_not_matter.
Definition used_cache : cache := fst (scanf (fst (scanf [] (L "%d") (L "5"))) (L "%s = %d") (L "x = 7")).
Example C45_applies : calls used_cache /\ List.length used_cache = 2 /\ snd (scanf used_cache (L "%s = %d") (L "abc = -12")) = Ok (Some [VStr (L "abc"); VInt (-12)]).
Proof. split; [apply Calls_more; apply Calls_more; apply Calls_none|]. split; vm_compute; reflexivity. Qed.

(** all conversions but %o *)
Theorem C46_scanf_reads_back_partial : forall ca fmt text vs, calls ca -> printed fmt text vs -> snd (scanf ca fmt text) = Ok (Some vs).
Proof. exact C46_lemma. Qed.
Print Assumptions C46_scanf_reads_back_partial.
Example C46_applies : printed (L "x=%d, %g m") (L "x=-5, 1.5e3 m and more") [VInt (-5); VFloat (FDec 15 2)].
Proof.
  apply (Pr_lit 120%N (L "=%d, %g m") (L "=-5, 1.5e3 m and more")); [cbn; lia|]. apply (Pr_lit 61%N (L "%d, %g m") (L "-5, 1.5e3 m and more")); [cbn; lia|].
  apply (Pr_field (L "%d") (L "-5") (VInt (-5)) (L ", %g m") (L ", 1.5e3 m and more")).
  { apply Shows_d; [auto|]. exists (L "-"), true, (L "5"). split; [right; right; auto|]. split; [discriminate|]. split; [repeat constructor; discriminate|]. split; reflexivity. }
  { split; [|repeat split; intros Q; decompose [or] Q; discriminate]. intros _ (c & t & E & H). injection E as <- _. discriminate H. }
  apply (Pr_lit 44%N (L " %g m") (L " 1.5e3 m and more")); [cbn; lia|]. apply (Pr_lit 32%N (L "%g m") (L "1.5e3 m and more")); [cbn; lia|].
  apply (Pr_field (L "%g") (L "1.5e3") (VFloat (FDec 15 2)) (L " m") (L " m and more")).
  { apply Shows_g; [auto|]. right. exists (L "1.5"), (L "3"), (-1)%Z, 3%Z. split; [|split; [|split; [left; reflexivity|reflexivity]]].
    - exists [], false, (L "1"), (L "."), (L "5"). split; [left; auto|]. split; [repeat constructor; discriminate|]. split; [repeat constructor; discriminate|]. split; [auto|].
      split; [discriminate|]. split; [reflexivity|split; reflexivity].
    - exists [], false, (L "3"). split; [left; auto|]. split; [discriminate|]. split; [repeat constructor; discriminate|split; reflexivity]. }
  { split; [intros Q; decompose [or] Q; discriminate|]. split; [discriminate|]. split; [|split; intros Q; decompose [or] Q; discriminate].
    intros _ (c & t & E & H). injection E as <- _. decompose [or] H; discriminate. }
  apply (Pr_lit 32%N (L "m") (L "m and more")); [cbn; lia|]. apply (Pr_lit 109%N [] (L " and more")); [cbn; lia|]. apply Pr_end.
Qed.
(** %o reads octal numbers in base 7: 0123 is 83 in octal; 017 cannot be read *)
Theorem C46_octal_refuted : snd (scanf [] (L "%o") (L "0123")) = Ok (Some [VInt 66]) /\ (8 * (8 * 1 + 2) + 3 = 83)%Z /\
  snd (scanf [] (L "%o") (L "017")) = Raise ValueError.
Proof. split; [|split]; vm_compute; reflexivity. Qed.
Print Assumptions C46_octal_refuted.
