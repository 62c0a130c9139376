(** C20-C23: interpretation on demand, dispatch of lines, collected lines.
    Theorems only; proofs are in DispatchFacts.v, InterpFacts.v, HandlerFacts.v. *)
From Coq Require Import String Lia.
From Verif Require Import Uni Py PyFacts Time Utils Keys Handlers Reader SpecText SpecReader SpecHistory SpecLookup SpecKeys SpecInterp
  KeyFacts DispatchFacts InterpFacts HandlerFacts ExampleFacts.
Import ListNotations.
Local Open Scope list_scope.

(** a scan with all kinds of lines *)
Definition rich : path := file (head ++
  ["#O0 chi  phi"; "#S 1 ascan x 0 1 1 1"; "#D Wed Nov 03 13:48:06 2010"; "#C first"; "#G0 1 2 3"; "#G0 4 5"; "#Z odd line"; "#P0 1.5 2.5";
   "#R result 1"; "#U user 1"; "#N 2"; "#L x  y"; "1 2"; "#C second"; "  noise"; "@A 1 2\"; " 3 4"; "3 4"; "#R result 2"]%string) 5 6.
Lemma rich_interpreted : first_interpret E0 all_hids (opened rich) (L "1") (scan_of "1" (opened rich)) (interpreted "1" (opened rich)) (scan_of "1" (interpreted "1" (opened rich))).
Proof. apply interpreted_ok; vm_compute; reflexivity. Qed.

(* ------------------------------------------------------------------ *)
(** * C20 *)

(** after a successful interpret(), nothing that is done with the scans changes this scan, and
    interpret() does nothing and succeeds *)
Theorem C20_interpreted_once : forall E known name s sc s1 s2,
  dget name (scans s) = Some sc -> interpret E known name s = (s1, None) -> uses E known s1 s2 ->
  dget name (scans s2) = dget name (scans s1) /\ interpret E known name s2 = (s2, None).
Proof. exact C20_once. Qed.
Print Assumptions C20_interpreted_once.

(** reading an attribute of a fresh scan is interpret() and then reading it *)
Theorem C20_first_use_interprets : forall E known, incl all_hids known -> forall s name sc h nm a,
  dget name (scans s) = Some sc -> s_lazy sc = true -> In nm (attrs_of h) ->
  get_attr E known nm a name s =
    match interpret E known name s with
    | (s', Some e) => (s', Raise e)
    | (s', None) => get_attr E known nm a name s'
    end.
Proof. exact C20_lazy. Qed.
Print Assumptions C20_first_use_interprets.

(** so the value read is the one interpret() left *)
Theorem C20_first_read_value : forall E known, incl all_hids known -> forall s name sc s' sc' nm h a,
  first_interpret E known s name sc s' sc' -> In nm (attrs_of h) ->
  get_attr E known nm a name s = (s', of_opt AttributeError (s_obj sc' a)).
Proof. exact C20_read. Qed.
Print Assumptions C20_first_read_value.

Example C20_applies : snd (get_attr E0 all_hids (L "P") A_P (L "1") (opened rich)) = Ok [[L "1.5"; L "2.5"]] /\
  In (L "P") (attrs_of H_P) /\ uses E0 all_hids (interpreted "1" (opened rich)) (fst (get_attr E0 all_hids (L "data") A_data (L "1") (interpreted "1" (opened rich)))).
Proof. split; [vm_compute; reflexivity|]. split; [left; reflexivity|]. apply Uses_attr. apply Uses_none. Qed.

(** a scan whose interpretation failed is not interpreted on reading, but is by a second interpret(), which
    doubles its data lines: "at most once" holds only for successful interpretations *)
Definition broken : path := file (head ++ ["#S 1 ascan x 0 1 1 1"; "#D Wed Nov 03 13:48:06 2010"; "#N 2"; "#L x  y"; "1 2 3"]%string) 5 6.
Theorem C20_after_failure_refuted : exists s1 e1 s2 e2 sc,
  interpret E0 all_hids (L "1") (opened broken) = (s1, Some e1) /\ interpret E0 all_hids (L "1") s1 = (s2, Some e2) /\
  dget (L "1") (scans s2) = Some sc /\ s_obj sc A_data_lines = Some [L "1 2 3"; L "1 2 3"].
Proof.
  exists (fst (interpret E0 all_hids (L "1") (opened broken))), IndexError.
  exists (fst (interpret E0 all_hids (L "1") (fst (interpret E0 all_hids (L "1") (opened broken))))), IndexError.
  exists (scan_of "1" (fst (interpret E0 all_hids (L "1") (fst (interpret E0 all_hids (L "1") (opened broken)))))).
  split; [apply step_ok; vm_compute; reflexivity|]. split; [apply step_ok; vm_compute; reflexivity|]. split; [|vm_compute; reflexivity].
  unfold scan_of. destruct (dget (L "1") _) eqn:Eg; [reflexivity|].
  assert (Q : has (L "1") (scans (fst (interpret E0 all_hids (L "1") (fst (interpret E0 all_hids (L "1") (opened broken)))))) = true) by (vm_compute; reflexivity).
  unfold has in Q. rewrite Eg in Q. discriminate.
Qed.
Print Assumptions C20_after_failure_refuted.

(* ------------------------------------------------------------------ *)
(** * C21 *)

(** whatever the order of the handlers, with or without repetitions *)
Theorem C21_order_of_plugins_irrelevant : forall known known' line,
  incl all_hids known -> incl all_hids known' -> get_control_key known line = get_control_key known' line.
Proof. exact C21_lemma. Qed.
Print Assumptions C21_order_of_plugins_irrelevant.

(** at most one handler knows a line *)
Theorem C21_one_handler : forall line h h', ~ In LF line -> control h line -> control h' line -> h = h'.
Proof. exact control_unique. Qed.
Print Assumptions C21_one_handler.

(** and it is the one that gets it *)
Theorem C21_dispatch : forall known line, incl all_hids known -> ~ In LF line ->
  (forall h, get_control_key known (lstrip line) = Ok (Some h) <-> control h line) /\
  (get_control_key known (lstrip line) = Ok None <-> no_control line).
Proof. intros known line H1 H2. split; [intros h; apply dispatch_some; auto|apply dispatch_none; auto]. Qed.
Print Assumptions C21_dispatch.
Example C21_applies : control H_P (L "#P12 1 2") /\ control H_data (L " 1.5e3 2") /\ get_control_key (rev all_hids) (L "#VA3 x") = Ok (Some H_VA).
Proof.
  split; [|split; [|vm_compute; reflexivity]]; apply (dispatch_some all_hids); auto using incl_refl; try (vm_compute; reflexivity);
    vm_compute; intros Q; decompose [or] Q; try discriminate; auto.
Qed.

(* ------------------------------------------------------------------ *)
(** * C22 *)

Theorem C22_unknown_lines_are_kept : forall E known, incl all_hids known -> forall s name sc s' sc' ls,
  first_interpret E known s name sc s' sc' -> lines_of (s_raw sc) ls ->
  exists us, Keeps unknown_line ls us /\ if_any (s_obj sc' A_unrec) us.
Proof. exact C22_lemma. Qed.
Print Assumptions C22_unknown_lines_are_kept.
Example C22_applies : s_obj (scan_of "1" (interpreted "1" (opened rich))) A_unrec = Some [L "#Z odd line"; L "  noise"].
Proof. vm_compute. reflexivity. Qed.

(* ------------------------------------------------------------------ *)
(** * C23 *)

Theorem C23_comments : forall E known, incl all_hids known -> forall s name sc s' sc' ls,
  first_interpret E known s name sc s' sc' -> lines_of (s_raw sc) ls ->
  exists cs ts, Keeps (control H_C) ls cs /\ Forall2 content cs ts /\ s_obj sc' A_comments = Some ts.
Proof. exact C23_comments_lemma. Qed.
Print Assumptions C23_comments.
Theorem C23_results : forall E known, incl all_hids known -> forall s name sc s' sc' ls,
  first_interpret E known s name sc s' sc' -> lines_of (s_raw sc) ls ->
  exists cs ts, Keeps (control H_R) ls cs /\ Forall2 content cs ts /\ if_any (s_obj sc' A_R) ts.
Proof. exact C23_R_lemma. Qed.
Print Assumptions C23_results.
Theorem C23_user_lines : forall E known, incl all_hids known -> forall s name sc s' sc' ls,
  first_interpret E known s name sc s' sc' -> lines_of (s_raw sc) ls ->
  exists cs ts, Keeps (control H_U) ls cs /\ Forall2 content cs ts /\ if_any (s_obj sc' A_U) ts.
Proof. exact C23_U_lemma. Qed.
Print Assumptions C23_user_lines.
Theorem C23_data_lines : forall E known, incl all_hids known -> forall s name sc s' sc' ls,
  first_interpret E known s name sc s' sc' -> lines_of (s_raw sc) ls ->
  exists ds, Keeps (fun l => control H_data l \/ control H_atA l) ls ds /\ s_obj sc' A_data_lines = Some ds.
Proof. exact C23_data_lines_lemma. Qed.
Print Assumptions C23_data_lines.
Theorem C23_positions : forall E known, incl all_hids known -> forall s name sc s' sc' ls,
  first_interpret E known s name sc s' sc' -> lines_of (s_raw sc) ls ->
  exists cs rows, Keeps (control H_P) ls cs /\ Forall2 (fun l ws => exists t, content l t /\ fields t ws) cs rows /\ s_obj sc' A_P = Some rows.
Proof. exact C23_P_lemma. Qed.
Print Assumptions C23_positions.
Theorem C23_geometry_lines : forall E known, incl all_hids known -> forall s name sc s' sc' ls,
  first_interpret E known s name sc s' sc' -> lines_of (s_raw sc) ls ->
  exists gs G, Keeps (control H_G) ls gs /\ s_obj sc' A_G = Some G /\ NoDup (keys G) /\
    forall k v, dget k G = Some v <-> exists l, last_with (fun l k => first_word_is l (L "#" ++ k)) k gs l /\ content l v.
Proof. exact C23_G_lemma. Qed.
Print Assumptions C23_geometry_lines.
Example C23_applies : let sc := scan_of "1" (interpreted "1" (opened rich)) in
  s_obj sc A_comments = Some [L "first"; L "second"] /\ s_obj sc A_R = Some [L "result 1"; L "result 2"] /\ s_obj sc A_U = Some [L "user 1"] /\
  s_obj sc A_data_lines = Some [L "1 2"; L "@A 1 2  3 4"; L "3 4"] /\ s_obj sc A_G = Some [(L "G0", L "4 5")].
Proof. repeat split; vm_compute; reflexivity. Qed.
