(** C33, C35-C39: the helper functions of utils.py.  Theorems only. *)
From Coq Require Import String.
From Verif Require Import Py Time Utils SpecText SpecUtils SpecTime TextFacts UtilsFacts TimeFacts.
Import ListNotations.
Local Open Scope list_scope.

(** * C33 *)
Theorem C33_empty_name_raises : clean_name [] = Raise IndexError.
Proof. exact C33_empty_lemma. Qed.
Theorem C33_clean_name_valid : forall s, s <> [] ->
  exists t u p, clean_name s = Ok t /\ valid_name t /\
    cleaned s u /\ t = p ++ u /\ (p = [] \/ (p = [95%N] /\ exists c r, u = c :: r /\ is_digit c = true)).
Proof. exact C33_lemma. Qed.
Print Assumptions C33_clean_name_valid.
Theorem C33_valid_name_kept : forall s, valid_name s -> clean_name s = Ok s.
Proof. exact C33_id_lemma. Qed.
Print Assumptions C33_valid_name_kept.
Theorem C33_idempotent : forall s t, clean_name s = Ok t -> clean_name t = Ok t.
Proof. exact C33_idem_lemma. Qed.
Print Assumptions C33_idempotent.
Example C33_applies : clean_name (L "2-theta (deg)") = Ok (L "_2_theta__deg_") /\ valid_name (L "two_theta").
Proof.
  split; [reflexivity|]. split; [discriminate|]. split; [repeat constructor|].
  intros c t H. vm_compute in H. inversion H; reflexivity.
Qed.

(** * C35 *)
Theorem C35_labels_survive : forall first more,
  good_label first -> Forall (fun sl => good_sep (fst sl) /\ good_label (snd sl)) more ->
  split_column_labels (joined first more) = first :: map snd more.
Proof. exact C35_lemma. Qed.
Print Assumptions C35_labels_survive.
Theorem C35_no_separator_in_label : forall text l, In l (split_column_labels text) ->
  ~ In TAB l /\ forall a b, l <> a ++ SP :: SP :: b.
Proof. exact C35_no_double_lemma. Qed.
Print Assumptions C35_no_separator_in_label.
Example C35_applies :
  split_column_labels (joined (L "Two Theta") [(L "  ", L "det"); ([TAB], L "I0 cps")]) =
  map L ["Two Theta"; "det"; "I0 cps"]%string /\ good_sep [TAB] /\ good_sep (L "   ").
Proof.
  split; [reflexivity|]. split; split; simpl; auto; repeat constructor; auto.
Qed.

(** * C36 *)
Theorem C36_number_and_repeat : forall n k,
  split_scan_number_string (str_of_N n ++ L "." ++ str_of_N k) = Ok [Z.of_N n; Z.of_N k] /\
  split_scan_number_string (str_of_N n) = Ok [Z.of_N n; 0%Z] /\
  split_scan_number_string (str_of_N n ++ L ".") = Ok [Z.of_N n; 0%Z].
Proof. exact (fun n k => conj (C36_pair n k) (conj (C36_single n) (C36_trailing n))). Qed.
Print Assumptions C36_number_and_repeat.
(** the names given to scans on reading are n and n.k with k >= 1 (see C06) *)
Theorem C36_distinct : forall n k n' k',
  split_scan_number_string (if (k =? 0)%N then str_of_N n else str_of_N n ++ L "." ++ str_of_N k) =
  split_scan_number_string (if (k' =? 0)%N then str_of_N n' else str_of_N n' ++ L "." ++ str_of_N k') ->
  n = n' /\ k = k'.
Proof. exact C36_inj. Qed.
Print Assumptions C36_distinct.
Theorem C36_accepts_exactly : forall s,
  (exists ps, split_scan_number_string s = Ok ps) <->
  exists dots parts, s = join (L ".") parts ++ repeat 46%N dots /\ parts <> [] /\
    Forall (fun p => ~ In 46%N p /\ exists z, py_int p = Ok z) parts.
Proof. exact C36_parts. Qed.
Print Assumptions C36_accepts_exactly.
Theorem C36_else_ValueError : forall s,
  (exists ps, split_scan_number_string s = Ok ps) \/ split_scan_number_string s = Raise ValueError.
Proof. exact split_scan_total. Qed.
Print Assumptions C36_else_ValueError.
Example C36_applies : split_scan_number_string (L "12.3") = Ok [12; 3]%Z /\
  split_scan_number_string (L "x") = Raise ValueError.
Proof. split; reflexivity. Qed.

(** * C37 *)
Theorem C37_spec_style : forall s y m d h mi se,
  calendar y m d -> clock h mi se -> spec_date s y m d h mi se -> iso8601 s = Ok (iso y m d h mi se).
Proof. exact C37_spec_lemma. Qed.
Print Assumptions C37_spec_style.
Theorem C37_spock_style : forall s y m d h mi se,
  calendar y m d -> clock h mi se -> spock_date s y m d h mi se -> iso8601 s = Ok (iso y m d h mi se).
Proof. exact C37_spock_lemma. Qed.
Print Assumptions C37_spock_style.
Theorem C37_nothing_else : forall s,
  iso8601 s = Raise ValueError \/
  exists y m d h mi se, iso8601 s = Ok (iso y m d h mi se) /\ calendar y m d /\ clock h mi se /\
    (any_spec_date s y m d h mi se \/ any_spock_date s y m d h mi se).
Proof. exact C37_only_lemma. Qed.
Print Assumptions C37_nothing_else.
Example C37_applies :
  calendar 2012 2 29 /\ clock 23 59 5 /\ spec_date (L "WED Feb 29  23:59:5 2012") 2012 2 29 23 59 5 /\
  spock_date (L "2/29/12 23:59:05") 2012 2 29 23 59 5 /\
  iso8601 (L "WED Feb 29  23:59:5 2012") = Ok (L "2012-02-29T23:59:05") /\
  iso8601 (L "Wed Feb 30 23:59:05 2012") = Raise ValueError.
Proof.
  assert (F2 : field 29 (L "29")) by (apply (field_two 29); split; discriminate).
  assert (F3 : field 23 (L "23")) by (apply (field_two 23); split; discriminate).
  assert (F4 : field 59 (L "59")) by (apply (field_two 59); split; discriminate).
  assert (F5 : field 5 (L "5")) by (apply (field_one 5); split; discriminate).
  assert (F6 : field 5 (L "05")) by (apply (field_two 5); split; discriminate).
  assert (F7 : field 2 (L "2")) by (apply (field_one 2); split; discriminate).
  assert (G1 : gap (L " ")) by (split; [discriminate|repeat constructor]).
  assert (G2 : gap (L "  ")) by (split; [discriminate|repeat constructor]).
  split; [|split; [|split; [|split; [|split; reflexivity]]]].
  - split; [split; discriminate|]. exists 29%Z. split; [|split; discriminate].
    right; right; left. repeat split. left. split; [exists 503%Z; reflexivity|].
    intros [q H]. assert (H2 : (2012 mod 100 = 0)%Z) by (rewrite H; apply Z.mod_mul; discriminate). discriminate H2.
  - repeat split; discriminate.
  - exists (L "WED"), (L " "), (L "Feb"), (L " "), (L "29"), (L "  "), (L "23"), (L "59"), (L "5"), (L " ").
    repeat split; auto; try discriminate; try apply G1; try apply G2.
    right; right; left; reflexivity.
  - exists (L "2"), (L "29"), (L " "), (L "23"), (L "59"), (L "05").
    repeat split; auto; try discriminate; apply G1.
Qed.

(** * C38 *)
Theorem C38_reshape : forall (A : Type) (nan : A) (d : array A) (sh : list nat),
  let r := reshape_data nan d sh in
  shape r = sh /\ List.length (flat r) = fold_right Nat.mul 1 sh /\
  forall i, i < fold_right Nat.mul 1 sh ->
    nth_error (flat r) i = Some (match nth_error (flat d) i with Some x => x | None => nan end).
Proof. exact @C38_lemma. Qed.
Print Assumptions C38_reshape.
Example C38_applies : flat (reshape_data 0 (mk_array [4] [1; 2; 3; 4]) [2; 3]) = [1; 2; 3; 4; 0; 0] /\
  flat (reshape_data 0 (mk_array [4] [1; 2; 3; 4]) [3]) = [1; 2; 3].
Proof. split; reflexivity. Qed.

(** * C39 *)
Theorem C39_strip_first_word : forall w u t v, ~ In SP w -> blank u -> tight t -> blank v ->
  strip_first_word (w ++ L " " ++ u ++ t ++ v) = t.
Proof. exact C39_lemma. Qed.
Print Assumptions C39_strip_first_word.
(** what happens to a line without a blank: only its last character is left *)
Theorem C39_no_blank_keeps_last_char : forall line, ~ In SP line ->
  strip_first_word line = match rev line with [] => [] | c :: _ => if is_space c then [] else [c] end.
Proof. exact strip_first_word_none. Qed.
Print Assumptions C39_no_blank_keeps_last_char.
Example C39_applies : strip_first_word (L "#S  12  ascan  th ") = L "12  ascan  th" /\
  ~ In SP (L "#S") /\ tight (L "12  ascan  th") /\ strip_first_word (L "#S") = L "S".
Proof.
  split; [reflexivity|]. split; [intros H; vm_compute in H; intuition discriminate|].
  split; [apply tight_tight_by; split; reflexivity|reflexivity].
Qed.
