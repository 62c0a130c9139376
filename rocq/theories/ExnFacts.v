(** DuplicateSpecScanNumber is never raised. *)
From Coq Require Import String Lia.
From Verif Require Import Uni Py PyFacts NumFacts Time Utils Keys Scanf GeomData Geom Handlers Reader
  SpecText SpecReader SpecHistory TextFacts KeyFacts ReaderFacts ReaderFacts2 ReaderFacts3 ReaderFacts4.
Import ListNotations.
Local Open Scope list_scope.

Definition nd {A} (r : res A) : Prop := r <> Raise DuplicateSpecScanNumber.
Definition ndo (o : option exn) : Prop := o <> Some DuplicateSpecScanNumber.
Definition ndM {A} (m : M A) : Prop := forall w, nd (snd (m w)).

Lemma nd_ok {A} (a : A) : nd (Ok a). Proof. discriminate. Qed.
Lemma nd_raise {A} e : e <> DuplicateSpecScanNumber -> nd (@Raise A e). Proof. intros H Q; inversion Q; auto. Qed.
Lemma nd_bind {A B} (m : res A) (k : A -> res B) : nd m -> (forall a, nd (k a)) -> nd (bind m k).
Proof. unfold nd; destruct m; simpl; auto. intros H _ Q. inversion Q; subst; apply H; auto. Qed.
Lemma nd_rmap {A B} (f : A -> B) m : nd m -> nd (rmap f m).
Proof. unfold nd; destruct m; simpl; intros H Q; inversion Q; subst; auto. Qed.
Lemma nd_of_opt {A} e (o : option A) : e <> DuplicateSpecScanNumber -> nd (of_opt e o).
Proof. intros H. destruct o; [apply nd_ok|apply nd_raise; auto]. Qed.
Lemma nd_mapM {A B} (f : A -> res B) l : (forall x, nd (f x)) -> nd (mapM f l).
Proof. intros H; induction l as [|x l IH]; simpl; [apply nd_ok|]. apply nd_bind; auto. intros; apply nd_bind; auto. intros; apply nd_ok. Qed.
Lemma nd_foldM {A B} (f : A -> B -> res A) l a : (forall a x, nd (f a x)) -> nd (foldM f l a).
Proof. intros H; revert a; induction l as [|x l IH]; simpl; intros a; [apply nd_ok|]. apply nd_bind; auto. Qed.
Lemma nd_index {A} i (l : list A) : nd (index i l).
Proof. unfold index. destruct (_ <? 0)%Z; [apply nd_raise; discriminate|apply nd_of_opt; discriminate]. Qed.
Lemma nd_py_int s : nd (py_int s). Proof. destruct (py_int_total s) as [[? ->]| ->]; discriminate. Qed.
Lemma nd_py_float s : nd (py_float s). Proof. destruct (py_float_total s) as [[? ->]| ->]; discriminate. Qed.
Lemma nd_int_of_fl f : nd (int_of_fl f). Proof. destruct f; discriminate. Qed.
Lemma nd_strptime s : nd (strptime s). Proof. apply nd_of_opt; discriminate. Qed.

Create HintDb nd.
#[export] Hint Resolve nd_ok nd_py_int nd_py_float nd_int_of_fl nd_index nd_strptime : nd.
#[export] Hint Extern 1 (_ <> DuplicateSpecScanNumber) => discriminate : nd.

Ltac ndr := repeat first
  [ progress (eauto with nd) | apply nd_bind; intros | apply nd_rmap | apply nd_of_opt; discriminate | apply nd_raise; discriminate
  | apply nd_mapM; intros | apply nd_foldM; intros
  | match goal with |- nd (match ?x with _ => _ end) => destruct x end ].

Lemma nd_int_of_num n : nd (int_of_num n). Proof. unfold int_of_num; ndr. Qed.
Lemma nd_compile_aux n f : nd (compile_aux n f).
Proof. revert f; induction n as [|n IH]; simpl; intros f; ndr. unfold take_conv. ndr. Qed.
Lemma nd_int_base b s : nd (int_base b s). Proof. unfold int_base; ndr. Qed.
#[export] Hint Resolve nd_int_of_num nd_int_base : nd.
Lemma nd_cast c g : nd (cast c g). Proof. unfold cast; ndr. Qed.
#[export] Hint Resolve nd_cast : nd.
Lemma nd_scanf ca f s : nd (snd (scanf ca f s)).
Proof.
  unfold scanf, scanf_compile. destruct (dget f ca); simpl.
  - unfold scanf_with. ndr.
  - pose proof (nd_compile_aux (List.length f) f) as H. unfold compile. destruct (compile_aux _ f); simpl; [unfold scanf_with; ndr|].
    intros Q; inversion Q; subst. apply H; auto.
Qed.
#[export] Hint Resolve nd_scanf : nd.
Lemma nd_diffr_of db i : nd (diffr_of db i).
Proof.
  unfold diffr_of, geo_name_of, parse_diffr, parse_G0, parse_G1, parse_G3, parse_G4, floats, get_variant, g0_step, refl3, uget. ndr.
Qed.
#[export] Hint Resolve nd_diffr_of : nd.

(** monadic programs *)
Lemma ndM_ret {A} (a : A) : ndM (ret a). Proof. intros w; apply nd_ok. Qed.
Lemma ndM_raise {A} e : e <> DuplicateSpecScanNumber -> ndM (@raise A e). Proof. intros H w; apply nd_raise; auto. Qed.
Lemma ndM_lift {A} (r : res A) : nd r -> ndM (lift r). Proof. intros H w; exact H. Qed.
Lemma ndM_bind {A B} (m : M A) (k : A -> M B) : ndM m -> (forall a, ndM (k a)) -> ndM (mbind m k).
Proof.
  intros H1 H2 w. unfold mbind. specialize (H1 w). destruct (m w) as [w' [a|e]]; simpl in *; [apply H2|].
  intros Q; inversion Q; subst; apply H1; auto.
Qed.
Lemma ndM_getA a : ndM (getA a). Proof. intros w; unfold getA; simpl. destruct (me w a); discriminate. Qed.
Lemma ndM_setA a v : ndM (setA a v). Proof. intros w; apply nd_ok. Qed.
Lemma ndM_hasA a : ndM (hasA a). Proof. intros w; apply nd_ok. Qed.
Lemma ndM_getP a : ndM (getP a).
Proof. intros w; unfold getP; simpl. destruct (peer w) as [p|]; [destruct (is_scan w); [destruct (p a)|]|]; discriminate. Qed.
Lemma ndM_setP a v : ndM (setP a v). Proof. intros w; unfold setP. destruct (peer w); [destruct (is_scan w)|]; discriminate. Qed.
Lemma ndM_askScan : ndM askScan. Proof. intros w; apply nd_ok. Qed.
Lemma ndM_iterM {A} (f : A -> M unit) l : (forall x, ndM (f x)) -> ndM (iterM f l).
Proof. intros H; induction l; simpl; [apply ndM_ret|]. apply ndM_bind; auto. Qed.
Lemma ndM_ensure a i : ndM (ensure a i).
Proof. apply ndM_bind; [apply ndM_hasA|]. intros []; [apply ndM_ret|apply ndM_setA]. Qed.
Lemma ndM_addPost l f : ndM (addPost l f).
Proof. apply ndM_bind; [apply ndM_getA|]. intros; apply ndM_setA. Qed.
Lemma ndM_addH5 l f : ndM (addH5 l f).
Proof. apply ndM_bind; [apply ndM_getA|]. intros; apply ndM_setA. Qed.
Lemma ndM_whenScan m : ndM m -> ndM (whenScan m).
Proof. intros H; apply ndM_bind; [apply ndM_askScan|]. intros []; [auto|apply ndM_ret]. Qed.
Lemma ndM_whenHeader m : ndM m -> ndM (whenHeader m).
Proof. intros H; apply ndM_bind; [apply ndM_askScan|]. intros []; [apply ndM_ret|auto]. Qed.
#[export] Hint Resolve ndM_ret ndM_getA ndM_setA ndM_hasA ndM_getP ndM_setP ndM_askScan ndM_ensure ndM_addPost ndM_addH5 : nd.

Ltac ndm := repeat first
  [ progress (eauto with nd) | apply ndM_whenScan | apply ndM_whenHeader | apply ndM_raise; discriminate
  | apply ndM_iterM; intros
  | apply ndM_bind; [|intros] | apply ndM_lift; ndr; fail
  | match goal with |- ndM (match ?x with _ => _ end) => destruct x end
  | match goal with |- ndM (let '(_, _) := ?x in _) => destruct x end ].

Section Env.
  Context (E : env).
  (** the library functions raise nothing of the sort *)
  Definition quiet_env : Prop :=
    (forall t, nd (mktime E t)) /\ (forall f, nd (fromtimestamp E f)) /\ (forall s, nd (uxml_parse E s)).
  Context (HE : quiet_env).

  Lemma ndM_check_ts n : ndM (check_ts E n).
  Proof. destruct HE as (_ & H & _). unfold check_ts. ndm. Qed.
  Lemma ndM_process_D text : ndM (process_D E text).
  Proof.
    pose proof HE as (H1 & H2 & _). pose proof ndM_check_ts as HC. unfold process_D. ndm; try (apply ndM_lift; auto; fail).
  Qed.
  Lemma ndM_process_X f text : ndM (process_X_fmts f text).
  Proof. induction f as [|x f IH]; simpl; ndm. Qed.
  Lemma nd_N0 n : nd (N0 n). Proof. unfold N0; ndr. Qed.
  Hint Resolve nd_N0 ndM_process_D : nd.
  Lemma ndM_process h text : ndM (process E h text).
  Proof.
    destruct h; cbn [process]; try (apply ndM_process_D).
    all: unfold process_F, process_C, process_G, process_I, process_J, process_j, process_L, process_M, process_T, process_N, process_O, process_o,
      process_Q, process_R, process_U, process_X, process_data, process_CALIB, process_CHANN, process_CTIME, process_ROI,
      process_VA, process_VD, process_VE, process_XPCS, process_CCD, process_MD, process_unrec, process_UIM, process_H, process_V, process_UXML, first_word.
    all: try (apply ndM_process_X). all: ndm.
    unfold process_P. ndm. intros w; simpl. destruct (peer w); discriminate.
  Qed.
  Lemma nd_xref_row row mnes x : nd (snd (xref_row row mnes x)).
  Proof.
    unfold xref_row. set (l := combine _ _). clearbody l.
    assert (H : forall acc : dict str * res unit, nd (snd acc) -> nd (snd (fold_left (fun acc im =>
               match acc with
               | (x, Ok _) => match index (Z.of_nat (fst im)) row with
                              | Ok nm => (dset (snd im) nm x, Ok tt)
                              | Raise e => (x, Raise e)
                              end
               | _ => acc
               end) l acc))).
    { induction l as [|im l IH]; simpl; auto. intros acc Ha. apply IH. destruct acc as [y [u|e]]; auto.
      pose proof (nd_index (Z.of_nat (fst im)) row) as Q. destruct (index _ row); [apply nd_ok|].
      intros Q2; inversion Q2; subst; apply Q; auto. }
    apply H. apply nd_ok.
  Qed.
  Lemma nd_xref_table names mnes x : nd (snd (xref_table names mnes x)).
  Proof.
    unfold xref_table. set (l := combine _ _). clearbody l.
    assert (H : forall acc : dict str * res unit, nd (snd acc) -> nd (snd (fold_left (fun acc im =>
               match acc with
               | (x, Ok _) => match index (Z.of_nat (fst im)) names with
                              | Ok row => xref_row row (snd im) x
                              | Raise e => (x, Raise e)
                              end
               | _ => acc
               end) l acc))).
    { induction l as [|im l IH]; simpl; auto. intros acc Ha. apply IH. destruct acc as [y [u|e]]; auto.
      pose proof (nd_index (Z.of_nat (fst im)) names) as Q. destruct (index _ names); [apply nd_xref_row|].
      intros Q2; inversion Q2; subst; apply Q; auto. }
    apply H. apply nd_ok.
  Qed.
  Lemma nd_unique_key_from f i l ks : nd (unique_key_from f i l ks).
  Proof. revert i; induction f as [|f IH]; simpl; intros i; ndr. Qed.
  Lemma nd_unique_labels done ls : nd (snd (unique_labels done ls)).
  Proof.
    revert done; induction ls as [|l ls IH]; simpl; intros done; [apply nd_ok|].
    pose proof (nd_unique_key_from 1000 0 l done) as Q. unfold unique_key. destruct (unique_key_from _ _ _ _) as [k|e].
    - specialize (IH (done ++ [k])). destruct (unique_labels _ ls) as [[a b] r]. auto.
    - intros Q2; inversion Q2; subst; apply Q; auto.
  Qed.
  Lemma nd_combine_nm n buf lines : nd (combine_nm n buf lines).
  Proof. revert buf; induction lines as [|l t IH]; simpl; intros buf; ndr. Qed.
  Lemma nd_interpret_row ls c vals buf : nd (interpret_row_from ls c vals buf).
  Proof. revert c buf; induction vals as [|v t IH]; simpl; intros; ndr. Qed.
  Hint Resolve nd_combine_nm nd_interpret_row : nd.
  Lemma nd_data_line ls n v d : nd (data_line ls n v d).
  Proof.
    unfold data_line, mca_line, append_val. destruct (prefixb (L "@A") v); [ndr|].
    pose proof (nd_interpret_row ls 0 (words v) []) as H. unfold interpret_data_row. destruct (interpret_row_from _ _ _ _) as [b|e]; [ndr|].
    destruct e; ndr. exfalso. apply H; auto.
  Qed.
  Hint Resolve nd_data_line : nd.
  Lemma ndM_run_post p : ndM (run_post E p).
  Proof.
    destruct p; cbn [run_post].
    - unfold post_geo. apply ndM_bind; [ndm|intros g]. apply ndM_bind; [ndm|intros _]. apply ndM_bind; [ndm|intros c]. apply ndM_bind; [ndm|intros p].
      intros w. cbv zeta. match goal with |- nd (snd (?m w)) => assert (H : ndM m); [ndm|apply H] end.
    - unfold post_counter. apply ndM_bind; [ndm|intros b1]. apply ndM_bind; [ndm|intros b2]. apply ndM_bind; [|intros; ndm].
      destruct (b1 && b2); [|ndm]. apply ndM_bind; [ndm|intros _]. apply ndM_bind; [ndm|intros mnes]. apply ndM_bind; [ndm|intros names].
      apply ndM_bind; [ndm|intros x]. pose proof (nd_xref_table names mnes x) as Q. destruct (xref_table names mnes x). ndm.
    - unfold post_posx. apply ndM_bind; [ndm|intros b1]. apply ndM_bind; [ndm|intros b2]. apply ndM_bind; [|intros; ndm].
      destruct (b1 && b2); [|ndm]. apply ndM_bind; [ndm|intros _]. apply ndM_bind; [ndm|intros mnes]. apply ndM_bind; [ndm|intros names].
      apply ndM_bind; [ndm|intros x]. pose proof (nd_xref_table names mnes x) as Q. destruct (xref_table names mnes x). ndm.
    - unfold post_motor, motor_row, motor_cell, add_icomment. ndm.
    - unfold post_data. apply ndM_bind; [ndm|intros ls]. destruct (one_space_labels ls); [ndm|].
      apply ndM_bind; [ndm|intros n]. apply ndM_bind; [ndm|intros n0].
      pose proof (nd_unique_labels [] ls) as Q. destruct (unique_labels [] ls) as [[ls' ks] r]. simpl in Q.
      apply ndM_bind; [ndm|intros _]. apply ndM_bind; [ndm|intros _]. apply ndM_bind; [apply ndM_lift; auto|intros _].
      unfold combine_split_NM_lines. ndm.
    - unfold post_unicat, unicat_row, unicat_cell. ndm.
    - unfold post_uxml. apply ndM_bind; [ndm|intros u]. cbv zeta. destruct HE as (_ & _ & H).
      apply ndM_bind; [apply ndM_lift; apply H|intros root]. ndm.
  Qed.
  Context (known : list hid).
  Lemma nd_get_control_key k line : nd (get_control_key k line).
  Proof.
    unfold get_control_key. destruct (find_c SP line); [|ndr]. destruct (direct_key _ _); [ndr|].
    induction k as [|h k IH]; simpl; [ndr|]. apply nd_bind; [|intros []; ndr].
    assert (D : nd (match_data (firstn n line))).
    { unfold match_data. apply nd_bind; [ndr|]. intros w. destruct (py_float_total w) as [[f ->]| ->]; ndr. }
    unfold match_key. destruct h; ndr.
  Qed.
  Hint Resolve nd_get_control_key ndM_process ndM_run_post : nd.
  Lemma ndM_run_posts : ndM (run_posts E). Proof. unfold run_posts. ndm. Qed.
  Lemma ndM_header_line line : ndM (header_line E known line).
  Proof. unfold header_line. destruct line; [ndm|]. apply ndM_bind; [ndm|]. intros [h|]; [destruct h|]; ndm. Qed.
  Lemma ndM_interpret_header raw : ndM (interpret_header E known raw).
  Proof. unfold interpret_header. apply ndM_bind; [apply ndM_iterM; apply ndM_header_line|intros; apply ndM_run_posts]. Qed.
  Lemma ndM_scan_line line : ndM (scan_line E known line).
  Proof. unfold scan_line. destruct line; [ndm|]. apply ndM_bind; [ndm|]. intros [h|]; [destruct h|]; ndm. Qed.
  Lemma ndM_interpret_scan raw : ndM (interpret_scan E known raw).
  Proof. unfold interpret_scan. apply ndM_bind; [apply ndM_iterM; apply ndM_scan_line|intros; apply ndM_run_posts]. Qed.

  (** reading *)
  Lemma nd_getScanNumbers s : nd (getScanNumbers s).
  Proof.
    unfold getScanNumbers. pose proof (nd_mapM py_int (keys (scans s)) nd_py_int) as Q. destruct (mapM py_int _) as [z|e]; [ndr|].
    destruct e; ndr. exfalso; apply Q; auto.
  Qed.
  Hint Resolve nd_getScanNumbers : nd.
  Lemma nd_getScan k s : nd (getScan k s). Proof. unfold getScan, key_float, key_int. ndr. Qed.
  Lemma nd_chron s : nd (getScanNumbersChronological s). Proof. unfold getScanNumbersChronological, date_of. ndr. Qed.
  Lemma nd_last_raw k s : nd (last_raw k s).
  Proof. unfold last_raw. apply nd_bind; [apply nd_getScan|]. intros []; ndr. Qed.
  Lemma ndo_store part hdr s : ndo (snd (store_scan part hdr s)).
  Proof. destruct (store_scan_spec part hdr s) as (s' & r & -> & [(-> & _)|(-> & _)]); discriminate. Qed.
  Lemma ndo_process_scan part s : ndo (snd (process_scan part s)).
  Proof.
    unfold process_scan. cbv zeta. destruct (headers s); cbv iota.
    all: match goal with |- context [last_scan ?x] => set (s1 := x); destruct (last_scan s1) as [k|] eqn:El end; [|apply ndo_store].
    all: pose proof (nd_last_raw k s1) as Q; destruct (last_raw k s1) as [r|e];
      [|destruct (existsb _ (scans s1)); cbn [bind]; intros Q2; inversion Q2; subst; apply Q; auto].
    all: match goal with |- ndo (snd (match ?c with _ => _ end)) => destruct c as [[|]|e] eqn:Em end; try discriminate.
    all: try (destruct (existsb _ (scans s1)) in Em; discriminate Em).
    all: destruct (seqb _ _); [|apply ndo_store]; destruct k as [n| |]; try discriminate; destruct (has n (scans s1)); [apply ndo_store|discriminate].
  Qed.
  Lemma ndo_run_on_scan m name sc s : ndM m -> ndo (snd (run_on_scan m name sc s)).
  Proof.
    intros H. unfold run_on_scan. match goal with |- context [m ?w] => specialize (H w); destruct (m w) as [w' [a|e]] end; simpl in *; [discriminate|].
    intros Q; inversion Q; subst; apply H; auto.
  Qed.
  Lemma ndo_date_scan s : ndo (snd (date_scan E s)).
  Proof.
    unfold date_scan. destruct (rev (scans s)) as [|[name sc] t]; [discriminate|].
    assert (Q : forall l, nd (find_D l)).
    { induction l as [|x l IH]; simpl; [ndr|]. destruct x; auto. apply nd_bind; [ndr|]. intros w. destruct (seqb w (L "#D")); ndr. }
    specialize (Q (tl (splitlines (s_raw sc)))). destruct (find_D _) as [[l|]|e]; [|discriminate|].
    - pose proof (ndo_run_on_scan (process_D E l) name sc s (ndM_process_D l)) as R. destruct (run_on_scan _ _ _ _) as [[s1 sc1] r]. auto.
    - intros Q2; inversion Q2; subst; apply Q; auto.
  Qed.
  Lemma ndo_process_epoch b s : ndo (snd (process_epoch E known b s)).
  Proof.
    unfold process_epoch. destruct (existsb _ _); [discriminate|].
    assert (Q : nd (parse_epoch b)). { unfold parse_epoch, first_line. ndr. }
    destruct (parse_epoch b) as [ep|e]; [|intros Q2; inversion Q2; subst; apply Q; auto].
    match goal with |- context [interpret_header E known b ?w] => pose proof (ndM_interpret_header b w) as H; destruct (interpret_header E known b w) as [w' [u|e]] end;
      simpl in *; [discriminate|]. intros Q2; inversion Q2; subst; apply H; auto.
  Qed.
  Lemma ndo_read_block b s : ndo (snd (read_block E known b s)).
  Proof.
    unfold read_block. destruct b as [|c b]; [discriminate|].
    assert (Q : nd (do l <- first_line (c :: b); get_control_key known l)). { apply nd_bind; [apply nd_index|]. intros; apply nd_get_control_key. }
    destruct (do l <- first_line (c :: b); get_control_key known l) as [[h|]|e]; [|discriminate|intros Q2; inversion Q2; subst; apply Q; auto].
    destruct (negb _); [discriminate|]. destruct h; try discriminate.
    - apply ndo_process_epoch.
    - pose proof (ndo_process_scan (c :: b) s) as R. destruct (process_scan (c :: b) s) as [s1 [e|]]; [exact R|]. apply ndo_date_scan.
  Qed.
  Lemma ndo_read_blocks bs s : ndo (snd (read_blocks E known bs s)).
  Proof.
    revert s; induction bs as [|b bs IH]; simpl; intros s; [discriminate|].
    pose proof (ndo_read_block b s) as R. destruct (read_block E known b s) as [s1 [e|]]; [exact R|]. apply IH.
  Qed.
  Lemma ndo_read p s : ndo (snd (read E known p s)).
  Proof.
    unfold read. assert (Q : nd (dissect p)).
    { unfold dissect, dissect_text. apply nd_bind; [destruct p as [| |[c|] m z]; try discriminate; unfold read_file; destruct (_ && _); discriminate|].
      intros buf. destruct (boundaries_from _ _); discriminate. }
    destruct (dissect p) as [secs|e]; [|intros Q2; inversion Q2; subst; apply Q; auto].
    pose proof (ndo_read_blocks secs s) as R. destruct (read_blocks E known secs s) as [s1 [e|]]; [exact R|]. cbv zeta.
    set (s2 := match specFile s1 with None => _ | Some _ => _ end).
    assert (Q1 : nd (getLastScanNumber s2)) by (unfold getLastScanNumber; apply nd_bind; [apply nd_chron|intros; ndr]).
    destruct (getLastScanNumber s2) as [k|e]; [|intros Q2; inversion Q2; subst; apply Q1; auto].
    destruct (stat p) as [[m z]|e] eqn:Es; [discriminate|]. destruct p; inversion Es; subst; discriminate.
  Qed.
  Lemma nd_open name p : nd (open_file E known name p).
  Proof.
    unfold open_file. destruct (negb (exists_p p)); [discriminate|]. destruct (negb (is_spec_file p)); [discriminate|].
    pose proof (ndo_read p (sdf_init name)) as R. destruct (read E known p _) as [s1 [e|]]; [|discriminate].
    intros Q2; inversion Q2; subst; apply R; auto.
  Qed.
  Lemma nd_refresh p s : nd (snd (refresh E known p s)).
  Proof.
    unfold refresh. destruct (update_available p s) as [[|]|e] eqn:Eu; [| discriminate|].
    - pose proof (ndo_read p s) as R. destruct (read E known p s) as [s1 [e|]]; [|discriminate]. intros Q2; inversion Q2; subst; apply R; auto.
    - unfold update_available in Eu. destruct p; simpl in Eu; inversion Eu; discriminate.
  Qed.
End Env.
