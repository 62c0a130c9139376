(** C45, C46: proofs about scanf. *)
From Coq Require Import String Lia.
From Verif Require Import Uni Py PyFacts NumFacts Scanf SpecText SpecReader SpecDecimal DecimalFacts SpecScanf.
Import ListNotations.
Local Open Scope list_scope.

(* ------------------------------------------------------------------ *)
(** * The cache *)

Definition valid (ca : cache) : Prop := (forall fmt ps, dget fmt ca = Some ps -> compile fmt = Ok ps) /\ (len ca <= 1001)%Z.
Lemma length_dset1 {V} k (v : V) d : (len (dset k v d) <= len d + 1)%Z.
Proof.
  unfold len. enough (List.length (dset k v d) <= List.length d + 1) by lia.
  induction d as [|[k' v'] d IH]; cbn [dset List.length]; [lia|]. destruct (seqb k k'); cbn [List.length]; lia.
Qed.
Lemma scanf_valid ca fmt s : valid ca -> valid (fst (scanf ca fmt s)) /\ snd (scanf ca fmt s) = snd (scanf [] fmt s).
Proof.
  intros [Hv Hl]. unfold scanf, scanf_compile. cbn [dget]. destruct (dget fmt ca) as [ps|] eqn:Eg.
  - pose proof (Hv _ _ Eg) as Hc. rewrite Hc. cbn [fst snd]. split; [split; auto|reflexivity].
  - destruct (compile fmt) as [ps|e] eqn:Ec; cbn [fst snd]; [|split; [split; auto|reflexivity]]. split; [|reflexivity].
    assert (G : forall d, (forall f ps, dget f d = Some ps -> compile f = Ok ps) -> (len d <= 1000)%Z -> valid (dset fmt ps d)).
    { intros d Hd Hn. split; [|pose proof (length_dset1 fmt ps d); lia]. intros f ps' Hg. destruct (str_eq_dec f fmt) as [->|Hne].
      - rewrite dget_dset_same in Hg. injection Hg as <-. exact Ec.
      - rewrite dget_dset_other in Hg by auto. apply Hd; auto. }
    unfold cache_size. destruct (1000 <? len ca)%Z eqn:El; apply G; auto; [discriminate|cbn; lia|apply Z.ltb_ge in El; auto].
Qed.
Lemma calls_valid ca : calls ca -> valid ca.
Proof. induction 1 as [|ca fmt s H IH]; [split; [discriminate|cbn; lia]|apply scanf_valid; auto]. Qed.
Lemma C45_lemma ca : calls ca -> (forall fmt s, snd (scanf ca fmt s) = snd (scanf [] fmt s)) /\ (len ca <= 1001)%Z.
Proof. intros H. apply calls_valid in H. split; [intros fmt s; apply scanf_valid; auto|apply H]. Qed.

(* ------------------------------------------------------------------ *)
(** * Compilation *)

Definition compiles (fmt : str) (ps : list piece) : Prop := forall n, List.length fmt <= n -> compile_aux n fmt = Ok ps.
Lemma compiles_nil : compiles [] [].
Proof. intros [|n] _; reflexivity. Qed.
Lemma take_lit c t : c <> 37%N -> take_conv (c :: t) = Ok None.
Proof. intros H. destruct t as [|d t]; [reflexivity|]. cbn [take_conv]. destruct (c =? 37)%N eqn:E; [apply N.eqb_eq in E; congruence|reflexivity]. Qed.
Lemma compiles_lit c fmt ps : ~ In c (L "%^$|") -> compiles fmt ps -> compiles (c :: fmt) (PChar c :: ps).
Proof.
  intros Hc H [|n] Hn; [cbn in Hn; lia|]. cbn [compile_aux]. rewrite take_lit by (intros ->; apply Hc; cbn; auto). cbn [bind].
  assert (M : meta c = false).
  { unfold meta. destruct (c =? 94)%N eqn:E1; [apply N.eqb_eq in E1; subst; exfalso; apply Hc; cbn; auto|].
    destruct (c =? 36)%N eqn:E2; [apply N.eqb_eq in E2; subst; exfalso; apply Hc; cbn; auto|].
    destruct (c =? 124)%N eqn:E3; [apply N.eqb_eq in E3; subst; exfalso; apply Hc; cbn; tauto|]. reflexivity. }
  rewrite M, H by (cbn in Hn; lia). reflexivity.
Qed.
Lemma compiles_conv f k fmt ps : f <> [] -> take_conv (f ++ fmt) = Ok (Some (k, fmt)) -> compiles fmt ps -> compiles (f ++ fmt) (PConv k :: ps).
Proof.
  intros Hf Ht H n Hn. destruct f as [|c f]; [congruence|]. destruct n as [|n]; [cbn in Hn; lia|]. cbn [compile_aux app]. cbn [app] in Ht. rewrite Ht. cbn [bind].
  rewrite H; [reflexivity|]. cbn [app List.length] in Hn. rewrite app_length in Hn. lia.
Qed.

(* ------------------------------------------------------------------ *)
(** * Matching *)

Section Greedy.
  Context {R : Type} (K : str -> option R) (r : R).
  Definition stops (p : N -> bool) (t : str) : Prop := forall c t', t = c :: t' -> p c = false.
  Lemma star_greedy p w t : Forall (fun c => p c = true) w -> stops p t -> K t = Some r -> m_star p K (w ++ t) = Some r.
  Proof.
    intros Hw Ht Hk. induction Hw as [|c w Hc Hw IH].
    - cbn [app]. destruct t as [|c t]; cbn [m_star]; [exact Hk|]. rewrite (Ht _ _ eq_refl). exact Hk.
    - cbn [app m_star]. rewrite Hc, IH. reflexivity.
  Qed.
  Lemma plus_greedy p w t : w <> [] -> Forall (fun c => p c = true) w -> stops p t -> K t = Some r -> m_plus p K (w ++ t) = Some r.
  Proof.
    intros Hne Hw Ht Hk. destruct Hw as [|c w Hc Hw]; [congruence|]. unfold m_plus. cbn [app m_one]. rewrite Hc. apply star_greedy; auto.
  Qed.
  Lemma opt_yes p c t : p c = true -> K t = Some r -> m_opt p K (c :: t) = Some r.
  Proof. intros Hc Hk. unfold m_opt. cbn [m_one]. rewrite Hc, Hk. reflexivity. Qed.
  Lemma opt_no p t : stops p t -> K t = Some r -> m_opt p K t = Some r.
  Proof. intros Ht Hk. unfold m_opt. destruct t as [|c t]; cbn [m_one]; [exact Hk|]. rewrite (Ht _ _ eq_refl). exact Hk. Qed.
  Lemma rep_all p w t : Forall (fun c => p c = true) w -> K t = Some r -> m_rep (List.length w) p K (w ++ t) = Some r.
  Proof. intros Hw Hk. induction Hw as [|c w Hc Hw IH]; [exact Hk|]. cbn [List.length m_rep app m_one]. rewrite Hc. exact IH. Qed.
End Greedy.

Lemma sign_stop t : stops is_dec t -> True. Proof. auto. Qed.
Lemma digits_dec ds : Forall digit ds -> Forall (fun c => is_dec c = true) ds.
Proof. intros H. eapply Forall_impl; [|exact H]. intros c Hc. apply is_dec_ascii. exact Hc. Qed.
Lemma digits_no_sign ds t : ds <> [] -> Forall digit ds -> stops is_sign (ds ++ t).
Proof.
  intros Hne Hd c t' E. destruct Hd as [|x ds Hx Hd]; [congruence|]. cbn [app] in E. injection E as <- _. unfold is_sign. destruct (digit_not_sign _ Hx) as [H1 H2].
  apply N.eqb_neq in H1, H2. rewrite H1, H2. reflexivity.
Qed.
(** an optional sign *)
Lemma signed_match {R} (K : str -> option R) r sg neg b : sign_text sg neg -> stops is_sign b -> K b = Some r -> m_opt is_sign K (sg ++ b) = Some r.
Proof.
  intros [[-> _]|[[-> _]|[-> _]]] Hb Hk.
  - apply opt_no; auto.
  - apply (opt_yes K r is_sign 43%N b); auto.
  - apply (opt_yes K r is_sign 45%N b); auto.
Qed.
Lemma stops_starts p (P : N -> Prop) t : ~ starts_with P t -> (forall c, p c = true -> P c) -> stops p t.
Proof. intros H Hp c t' ->. destruct (p c) eqn:E; [|reflexivity]. exfalso. apply H. exists c, t'. auto. Qed.

Definition shown (f w : str) (v : sval) (k : conv) : Prop :=
  f <> [] /\ (forall fmt, take_conv (f ++ fmt) = Ok (Some (k, fmt))) /\
  (forall R (K : str -> option R) t r, ends f t -> K t = Some r -> m_conv k K (w ++ t) = Some r) /\
  cast k w = Ok v.

Lemma int_match {R} (K : str -> option R) r t z rest : int_text t z -> stops is_dec rest -> K rest = Some r -> m_opt is_sign (m_plus is_dec K) (t ++ rest) = Some r.
Proof.
  intros (sg & neg & ds & Hs & Hne & Hd & -> & _) Hr Hk. rewrite <- app_assoc. apply (signed_match _ r sg neg); auto; [apply digits_no_sign; auto|].
  apply plus_greedy; auto. apply digits_dec; auto.
Qed.
Lemma shown_d f t z : f = L "%d" \/ f = L "%i" -> int_text t z -> shown f t (VInt z) Cd.
Proof.
  intros Hf Ht. split; [destruct Hf as [->| ->]; discriminate|]. split; [intros fmt; destruct Hf as [->| ->]; reflexivity|]. split.
  - intros R K rest r (He & _) Hk. cbn [m_conv]. apply (int_match K r t z); auto. apply (stops_starts _ _ _ (He ltac:(destruct Hf; auto))). auto.
  - cbn [cast]. rewrite (py_int_text _ _ Ht). reflexivity.
Qed.
Lemma shown_u ds : ds <> [] -> Forall digit ds -> shown (L "%u") ds (VInt (Z.of_N (decimal_value ds))) Cu.
Proof.
  intros Hne Hd. split; [discriminate|]. split; [intros fmt; reflexivity|]. split.
  - intros R K rest r (He & _) Hk. cbn [m_conv]. apply plus_greedy; auto; [apply digits_dec; auto|]. apply (stops_starts _ _ _ (He ltac:(auto))). auto.
  - cbn [cast]. rewrite py_int_digits by (auto; apply digit_ascii; auto). rewrite decimal_dval. reflexivity.
Qed.
(** mantissa and exponent *)
Lemma mant_match {R} (K : str -> option R) r ip dot fp rest : Forall digit ip -> Forall digit fp -> (dot = L "." \/ (dot = [] /\ fp = [])) -> ip ++ fp <> [] ->
  stops is_dec rest -> stops (is_c 46%N) rest -> K rest = Some r -> m_mant K (ip ++ dot ++ fp ++ rest) = Some r.
Proof.
  intros Hi Hf Hd Hne Hr Hdot Hk. unfold m_mant. destruct ip as [|x ip].
  - destruct Hd as [->|[-> ->]]; [|cbn in Hne; congruence]. cbn [app]. change (L "." ++ fp ++ rest) with (46%N :: fp ++ rest).
    unfold m_plus at 1. cbn [m_one]. change (is_dec 46%N) with false. change (is_c 46%N 46%N) with true. cbv iota. cbn [orelse].
    apply plus_greedy; auto. apply digits_dec; auto.
  - set (K1 := fun s => orelse (m_one (is_c 46%N) (m_star is_dec K) s) (K s)).
    assert (E1 : K1 (dot ++ fp ++ rest) = Some r).
    { unfold K1. destruct Hd as [->|[-> ->]].
      - change (L "." ++ fp ++ rest) with (46%N :: fp ++ rest). cbn [m_one]. change (is_c 46%N 46%N) with true. cbv iota.
        rewrite (star_greedy K r) by (auto; apply digits_dec; auto). reflexivity.
      - cbn [app]. destruct rest as [|c t]; cbn [m_one orelse]; [exact Hk|]. rewrite (Hdot _ _ eq_refl). exact Hk. }
    rewrite (plus_greedy K1 r is_dec (x :: ip)); auto; [discriminate|apply digits_dec; auto|].
    intros c t E. destruct Hd as [->|[-> ->]]; [injection E as <- _; reflexivity|exact (Hr _ _ E)].
Qed.
Lemma mant_no_sign ip dot fp rest : Forall digit ip -> Forall digit fp -> (dot = L "." \/ (dot = [] /\ fp = [])) -> ip ++ fp <> [] -> stops is_sign (ip ++ dot ++ fp ++ rest).
Proof.
  intros Hi Hf Hd Hne c t E. destruct (mant_first ip dot fp rest Hi Hf Hd Hne c t E) as [H1 H2]. unfold is_sign. apply N.eqb_neq in H1, H2. rewrite H1, H2. reflexivity.
Qed.
Lemma fixed_match {R} (K : str -> option R) r t m e rest : fixed_text t m e -> stops is_dec rest -> stops (is_c 46%N) rest -> K rest = Some r ->
  m_opt is_sign (m_mant K) (t ++ rest) = Some r.
Proof.
  intros (sg & neg & ip & dot & fp & Hs & Hi & Hf & Hd & Hne & -> & _) Hr Hdot Hk. rewrite <- !app_assoc. apply (signed_match _ r sg neg); auto; [apply mant_no_sign; auto|].
  apply mant_match; auto.
Qed.
Lemma shown_f t m e : fixed_text t m e -> shown (L "%f") t (VFloat (FDec m e)) Cf.
Proof.
  intros Ht. split; [discriminate|]. split; [intros fmt; reflexivity|]. split.
  - intros R K rest r (_ & He & _) Hk. specialize (He eq_refl). cbn [m_conv]. apply (fixed_match K r t m e); auto.
    + apply (stops_starts _ _ _ He). intros c Hc. left. exact Hc.
    + apply (stops_starts _ _ _ He). intros c Hc. right. apply N.eqb_eq in Hc. exact Hc.
  - cbn [cast]. rewrite (py_float_text _ m e) by (left; auto). reflexivity.
Qed.
Lemma expo_none {R} (K : str -> option R) r rest : stops (fun c => (c =? 101)%N || (c =? 69)%N) rest -> K rest = Some r -> m_expo K rest = Some r.
Proof. intros Hs Hk. unfold m_expo. destruct rest as [|c t]; cbn [m_one orelse]; [exact Hk|]. rewrite (Hs _ _ eq_refl). exact Hk. Qed.
Lemma shown_g f t m e : f = L "%g" \/ f = L "%e" \/ f = L "%E" -> float_text t m e -> shown f t (VFloat (FDec m e)) Cg.
Proof.
  intros Hf Ht. split; [destruct Hf as [->|[->| ->]]; discriminate|]. split; [intros fmt; destruct Hf as [->|[->| ->]]; reflexivity|]. split; [|cbn [cast]; rewrite (py_float_text _ m e) by auto; reflexivity].
  intros R K rest r (_ & _ & He & _) Hk. specialize (He Hf). cbn [m_conv].
  assert (H1 : stops is_dec rest) by (apply (stops_starts _ _ _ He); intros c Hc; left; exact Hc).
  assert (H2 : stops (is_c 46%N) rest) by (apply (stops_starts _ _ _ He); intros c Hc; right; left; apply N.eqb_eq in Hc; exact Hc).
  assert (H3 : stops (fun c => (c =? 101)%N || (c =? 69)%N) rest) by (apply (stops_starts _ _ _ He); intros c Hc; right; right; apply orb_prop in Hc; rewrite !N.eqb_eq in Hc; exact Hc).
  destruct Ht as [Ht|(t0 & x & e0 & z & H0 & Hx & Ht & _)].
  - apply (fixed_match _ r t m e); auto. apply expo_none; auto.
  - assert (Q : exists c, (c = 101%N \/ c = 69%N) /\ t = t0 ++ c :: x) by (destruct Ht as [->| ->]; [exists 101%N|exists 69%N]; split; auto).
    destruct Q as (c & Hc & ->). rewrite <- app_assoc. cbn [app]. apply (fixed_match _ r t0 m e0); auto.
    + intros c' t' E. injection E as <- _. destruct Hc as [->| ->]; reflexivity.
    + intros c' t' E. injection E as <- _. destruct Hc as [->| ->]; reflexivity.
    + unfold m_expo. cbn [m_one]. replace ((c =? 101)%N || (c =? 69)%N) with true by (destruct Hc as [->| ->]; reflexivity).
      rewrite (int_match K r x z); auto.
Qed.
Lemma shown_s w : a_word w -> shown (L "%s") w (VStr w) Cs.
Proof.
  intros [Hne Hw]. split; [discriminate|]. split; [intros fmt; reflexivity|]. split; [|reflexivity].
  intros R K rest r (_ & _ & _ & He & _) Hk. specialize (He eq_refl). cbn [m_conv]. apply plus_greedy; auto.
  - eapply Forall_impl; [|exact Hw]. intros c Hc. cbv beta. apply negb_true_iff. exact Hc.
  - apply (stops_starts _ _ _ He). intros c Hc. apply negb_true_iff in Hc. exact Hc.
Qed.
Lemma shown_c c : c <> LF -> shown (L "%c") [c] (VStr [c]) Cc.
Proof.
  intros Hc. split; [discriminate|]. split; [intros fmt; reflexivity|]. split; [|reflexivity]. intros R K rest r _ Hk. cbn [m_conv app m_one].
  unfold is_dot_re. apply N.eqb_neq in Hc. rewrite Hc. exact Hk.
Qed.
(** hexadecimal *)
Lemma hex_in c d : hex_digit c d -> is_hex_re c = true /\ digit_in 16 c = Some d.
Proof.
  intros [[H ->]|[[H ->]|[H ->]]].
  - assert (Q : In c [48;49;50;51;52;53;54;55;56;57]%N) by (unfold digit in H; cbn [In]; lia). cbn [In] in Q. repeat (destruct Q as [<-|Q]; [split; reflexivity|]). destruct Q.
  - assert (Q : In c [97;98;99;100;101;102]%N) by (cbn [In]; lia). cbn [In] in Q. repeat (destruct Q as [<-|Q]; [split; reflexivity|]). destruct Q.
  - assert (Q : In c [65;66;67;68;69;70]%N) by (cbn [In]; lia). cbn [In] in Q. repeat (destruct Q as [<-|Q]; [split; reflexivity|]). destruct Q.
Qed.
Lemma shown_x x hs n : x = L "x" \/ x = L "X" -> hex_text hs n -> exists k, shown (L "%" ++ x) (L "0" ++ x ++ hs) (VInt (Z.of_N n)) k.
Proof.
  intros Hx (Hne & ds & Hd & ->). assert (Q : exists c, x = [c] /\ (c = 120%N \/ c = 88%N)) by (destruct Hx as [->| ->]; eexists; split; [reflexivity|auto|reflexivity|auto]).
  destruct Q as (c & -> & Hc). exists (Cx c). split; [discriminate|]. split; [intros fmt; destruct Hc as [->| ->]; reflexivity|]. split.
  - intros R K rest r (_ & _ & _ & _ & He) Hk. specialize (He ltac:(destruct Hc as [->| ->]; auto)). cbn [m_conv].
    change ((L "0" ++ [c] ++ hs) ++ rest) with (48%N :: c :: hs ++ rest). cbn [m_one]. change (is_c 48%N 48%N) with true. cbv iota.
    unfold is_c at 1. rewrite N.eqb_refl. apply plus_greedy; auto.
    + clear - Hd. induction Hd as [|a b l l' H Hd IH]; constructor; auto. apply (hex_in _ _ H).
    + apply (stops_starts _ _ _ He). intros a Ha. unfold is_hex_re in Ha. apply orb_prop in Ha. destruct Ha as [Ha|Ha]; [apply orb_prop in Ha; destruct Ha as [Ha|Ha]|].
      * left. exact Ha.
      * right. right. unfold in_range in Ha. cbn [fst snd] in Ha. apply andb_prop in Ha. rewrite !N.leb_le in Ha. exact Ha.
      * right. left. unfold in_range in Ha. cbn [fst snd] in Ha. apply andb_prop in Ha. rewrite !N.leb_le in Ha. exact Ha.
  - cbn [cast]. change (skipn 2 (L "0" ++ [c] ++ hs)) with hs. assert (D : digits_in 16 hs = Some ds).
    { clear - Hd. induction Hd as [|a b l l' H Hd IH]; [reflexivity|]. cbn [digits_in]. rewrite (proj2 (hex_in _ _ H)), IH. reflexivity. }
    unfold int_base. rewrite D. destruct hs; [congruence|]. reflexivity.
Qed.
(** widths *)
Lemma width n : n < 10 -> in_range (48, 57)%N (48 + N.of_nat n)%N = true /\ digval (48 + N.of_nat n)%N = Some (N.of_nat n).
Proof. intros H. do 10 (destruct n as [|n]; [split; reflexivity|]). lia. Qed.
Lemma take_width n k fmt cv : n < 10 -> (k = L "c" /\ cv = Cnc n) \/ ((k = L "d" \/ k = L "i") /\ cv = Cnd n) -> take_conv ((L "%" ++ [48 + N.of_nat n]%N ++ k) ++ fmt) = Ok (Some (cv, fmt)).
Proof. intros Hn H. do 10 (destruct n as [|n]; [destruct H as [[-> ->]|[[->| ->] ->]]; reflexivity|]). lia. Qed.
Lemma shown_nc n t : n < 10 -> List.length t = n -> ~ In LF t -> shown (L "%" ++ [48 + N.of_nat n]%N ++ L "c") t (VStr t) (Cnc n).
Proof.
  intros Hn Hl Ht. split; [discriminate|]. split; [intros fmt; apply take_width; auto|]. split; [|reflexivity].
  intros R K rest r _ Hk. cbn [m_conv]. rewrite <- Hl. apply rep_all; auto. rewrite Forall_forall. intros c Hc. unfold is_dot_re. apply negb_true_iff. apply N.eqb_neq. intros ->. auto.
Qed.
Lemma shown_nd n k sg neg ds : n < 10 -> k = L "d" \/ k = L "i" -> sign_text sg neg -> ds <> [] -> List.length ds = n -> Forall digit ds ->
  shown (L "%" ++ [48 + N.of_nat n]%N ++ k) (sg ++ ds) (VInt (signed neg (decimal_value ds))) (Cnd n).
Proof.
  intros Hn Hk Hs Hne Hl Hd. split; [discriminate|]. split; [intros fmt; apply take_width; auto|]. split.
  - intros R K rest r _ Hr. cbn [m_conv]. rewrite <- app_assoc. apply (signed_match _ r sg neg); auto; [apply digits_no_sign; auto|]. rewrite <- Hl. apply rep_all; auto. apply digits_dec; auto.
  - cbn [cast]. rewrite (py_int_text (sg ++ ds) (signed neg (decimal_value ds))); [reflexivity|]. exists sg, neg, ds. auto.
Qed.
Lemma shows_shown f w v : shows f w v -> exists k, shown f w v k.
Proof.
  intros [f' t z H1 H2|ds H1 H2|t m e H|f' t m e H1 H2|w' H|c H|x hs n H1 H2|n t H1 H2 H3|n k sg neg ds H1 H2 H3 H4 H5 H6].
  - exists Cd. apply shown_d; auto.
  - exists Cu. apply shown_u; auto.
  - exists Cf. apply shown_f; auto.
  - exists Cg. apply shown_g; auto.
  - exists Cs. apply shown_s; auto.
  - exists Cc. apply shown_c; auto.
  - apply shown_x; auto.
  - exists (Cnc n). apply shown_nc; auto.
  - exists (Cnd n). apply shown_nd; auto.
Qed.

Lemma printed_match fmt t vs : printed fmt t vs -> exists ps gs, compiles fmt ps /\ m_pieces ps t = Some gs /\ mapM (fun cg => cast (fst cg) (snd cg)) gs = Ok vs.
Proof.
  induction 1 as [t|c fmt t vs Hc H (ps & gs & H1 & H2 & H3)|f w v fmt t vs Hs He H (ps & gs & H1 & H2 & H3)].
  - exists [], []. split; [apply compiles_nil|]. split; reflexivity.
  - exists (PChar c :: ps), gs. split; [apply compiles_lit; auto|]. split; [|exact H3]. cbn [m_pieces m_one]. unfold is_c. rewrite N.eqb_refl. exact H2.
  - destruct (shows_shown _ _ _ Hs) as (k & S1 & S2 & S3 & S4). exists (PConv k :: ps), ((k, w) :: gs). split; [apply compiles_conv; auto|]. split.
    + cbn [m_pieces]. apply S3; auto. rewrite H2. rewrite app_length. replace (List.length w + List.length t - List.length t) with (List.length w) by lia.
      rewrite firstn_app, Nat.sub_diag, firstn_all, firstn_O, app_nil_r. reflexivity.
    + cbn [mapM fst snd]. rewrite S4. cbn [bind]. rewrite H3. reflexivity.
Qed.
Lemma C46_lemma ca fmt t vs : calls ca -> printed fmt t vs -> snd (scanf ca fmt t) = Ok (Some vs).
Proof.
  intros Hc Hp. destruct (C45_lemma ca Hc) as [Hs _]. rewrite Hs. destruct (printed_match _ _ _ Hp) as (ps & gs & H1 & H2 & H3).
  unfold scanf, scanf_compile. cbn [dget]. unfold compile. rewrite H1 by lia. cbn [snd]. unfold scanf_with. rewrite H2, H3. reflexivity.
Qed.
