(** The command of specplot_gallery.py. *)
From Coq Require Import String Lia Permutation Sorted.
From Verif Require Import Py PyFacts NumFacts Time Utils Keys Handlers Reader Cli H5 Writer Plot Gallery SpecText SpecReader SpecNum SpecLookup SpecHistory SpecTables SpecCli SpecPlot SpecGallery SpecGallery2 SpecGallery3 SpecGallery4 CliFacts CliFacts2 TextFacts OrderFacts ReaderFacts
  UseFacts PlotFacts PlotLocal GalleryFacts GalleryFacts2 GalleryFacts3 GalleryFacts4 GalleryFacts8 GalleryFacts9 GalleryFacts12.
From Verif Require PropText.
Import ListNotations.
Local Open Scope list_scope.

Lemma spec_data_iff f n : is_spec_file (path_of f n) = true <-> spec_data f n.
Proof.
  rewrite PropText.C04_recognition_exact. unfold spec_data, data_file, path_of. split.
  - intros (content & m & z & H & Hs). destruct (dget n f) as [[|[[co|]|c|i|li ps|] m' z']|] eqn:E; try discriminate H.
    + injection H as <- <- <-. exists co, m', z'. split; [reflexivity|exact Hs].
    + injection H as <- <- <-. exfalso. assert (X : is_spec_file (File (Some []) m' z') = true) by (apply PropText.C04_recognition_exact; eauto). discriminate X.
    + injection H as <- <- <-. exfalso. assert (X : is_spec_file (File (Some []) m' z') = true) by (apply PropText.C04_recognition_exact; eauto). discriminate X.
    + injection H as <- <- <-. exfalso. assert (X : is_spec_file (File (Some []) m' z') = true) by (apply PropText.C04_recognition_exact; eauto). discriminate X.
    + injection H as <- <- <-. exfalso. assert (X : is_spec_file (File (Some []) m' z') = true) by (apply PropText.C04_recognition_exact; eauto). discriminate X.
  - intros (content & m & z & -> & Hs). exists content, m, z. split; [reflexivity|exact Hs].
Qed.
(** the data files of one argument *)
Definition arg_files (f : gfs) (p : str) : list str :=
  match dget p f with
  | None => []
  | Some FDir => List.filter (fun n => is_spec_file (path_of f n)) (map (pjoin p) (listdir p f))
  | Some _ => if is_spec_file (path_of f p) then [p] else []
  end.
Lemma expand_concat f paths : expand paths f = concat (map (arg_files f) paths).
Proof. unfold expand. rewrite flat_map_concat_map. reflexivity. Qed.
Lemma arg_files_iff f p n : plain_path p -> In n (arg_files f p) <-> chosen f p n.
Proof.
  intros Hp. unfold arg_files, chosen. destruct (dget p f) as [[|b m z]|] eqn:E.
  - rewrite filter_In, in_map_iff. split.
    + intros [(x & <- & Hx) Hs]. apply spec_data_iff in Hs. split; [exact Hs|]. apply listdir_iff in Hx. destruct Hx as (X1 & X2 & _). right. split; [reflexivity|]. exists x. rewrite (pjoin_plain p x Hp X2). auto.
    + intros [Hs [->|[_ (x & X1 & X2 & ->)]]].
      * exfalso. destruct Hs as (co & m & z & Hd & _). unfold data_file in Hd. rewrite E in Hd. discriminate Hd.
      * split; [|apply spec_data_iff; exact Hs]. exists x. split; [exact (pjoin_plain p x Hp X2)|]. apply listdir_iff. split; [exact X1|]. split; [exact X2|]. destruct Hs as (co & m & z & Hd & _). unfold data_file in Hd. rewrite Hd. discriminate.
  - destruct (is_spec_file (path_of f p)) eqn:Es.
    + split; [intros [<-|[]]; split; [apply spec_data_iff; exact Es|left; reflexivity]|]. intros [_ [->|[Q _]]]; [left; reflexivity|discriminate Q].
    + split; [intros []|]. intros [Hs [->|[Q _]]]; [apply spec_data_iff in Hs; congruence|discriminate Q].
  - split; [intros []|]. intros [(co & m & z & Hd & _) [->|[Q _]]]; [unfold data_file in Hd; rewrite E in Hd; discriminate Hd|discriminate Q].
Qed.
Lemma arg_files_NoDup f p : plain_path p -> NoDup (keys f) -> NoDup (arg_files f p).
Proof.
  intros Hp Hf. unfold arg_files. destruct (dget p f) as [[|b m z]|]; [|destruct (is_spec_file _); repeat constructor; intros []|constructor].
  apply NoDup_filter. pose proof (listdir_NoDup p f Hf) as N0. assert (S0 : forall x, In x (listdir p f) -> ~ In SL x) by (intros x Hx; apply listdir_iff in Hx; tauto).
  induction N0 as [|x l Hx _ IH]; cbn [map]; constructor.
  - intros Q. apply in_map_iff in Q. destruct Q as (y & Q & Hy). rewrite !pjoin_plain in Q by (try exact Hp; apply S0; cbn [In]; auto). apply app_inv_head in Q. injection Q as Q. subst y. exact (Hx Hy).
  - apply IH. intros y Hy. apply S0. right. exact Hy.
Qed.
Lemma chosen_plain f p n : plain_path p -> chosen f p n -> plain_path n.
Proof. intros Hp [_ [->|[_ (x & X1 & X2 & ->)]]]; [exact Hp|exact (plain_app p x X1 X2)]. Qed.
Section Main.
  Variables (E : env) (known : list hid) (draw : image -> option exn) (now : nat -> Z) (size_of : body -> Z) (plotDir : str) (reversed : bool).
  Notation main := (gallery_main E known draw now size_of plotDir reversed).
  Lemma main_eq paths s : dget plotDir (g_fs s) = Some FDir -> main paths s = gallery E known draw now size_of plotDir reversed (concat (map (arg_files (g_fs s)) paths)) s.
  Proof.
    intros H. unfold gallery_main, gbind, get_fs. cbn [app]. rewrite H, expand_concat. destruct (gallery _ _ _ _ _ _ _ _ s) as [t [s' r]]. reflexivity.
  Qed.
  Lemma main_refused paths s : dget plotDir (g_fs s) <> Some FDir -> main paths s = ([], (s, Raise ValueError)).
  Proof. intros H. unfold gallery_main, gbind, get_fs. destruct (dget plotDir (g_fs s)) as [[|b m z]|]; [destruct (H eq_refl)| |]; reflexivity. Qed.
  Lemma in_files f paths n : Forall plain_path paths -> In n (concat (map (arg_files f) paths)) <-> exists p, In p paths /\ chosen f p n.
  Proof.
    intros Hp. rewrite Forall_forall in Hp. rewrite in_concat. split.
    - intros (l & Hl & Hn). apply in_map_iff in Hl. destruct Hl as (p & <- & Hin). exists p. split; [exact Hin|]. apply (arg_files_iff f p n (Hp p Hin)). exact Hn.
    - intros (p & Hin & Hc). exists (arg_files f p). split; [exact (in_map _ _ _ Hin)|]. apply (arg_files_iff f p n (Hp p Hin)). exact Hc.
  Qed.
  Lemma files_pairs (R : str -> str -> Prop) f paths : NoDup (keys f) -> Forall plain_path paths -> ForallOrdPairs (fun p q => forall n, chosen f p n -> chosen f q n -> False) paths ->
    (forall p q a b, In p paths -> In q paths -> chosen f p a -> chosen f q b -> a <> b -> R a b) -> ForallOrdPairs R (concat (map (arg_files f) paths)).
  Proof.
    intros Hf. induction paths as [|p paths IH]; intros Hp Hd HR; cbn [map concat]; [constructor|]. inversion Hp as [|? ? Pp Pf]; subst. inversion Hd as [|? ? Dp Df]; subst. rewrite Forall_forall in Dp.
    assert (IH' : ForallOrdPairs R (concat (map (arg_files f) paths))) by (apply IH; [exact Pf|exact Df|intros p0 q a b H1 H2; apply HR; right; assumption]).
    assert (Hl : forall n, In n (arg_files f p) -> chosen f p n) by (intros n; apply (arg_files_iff f p n Pp)). pose proof (arg_files_NoDup f p Pp Hf) as Hn. clear IH.
    induction (arg_files f p) as [|a l IHl]; cbn [app]; [exact IH'|]. inversion Hn as [|? ? Ha Hn']; subst. constructor; [|apply IHl; [intros n H; apply Hl; right; exact H|exact Hn']].
    apply Forall_forall. intros b Hb. pose proof (Hl a (or_introl eq_refl)) as Ca. apply in_app_or in Hb. destruct Hb as [Hb|Hb].
    - apply (HR p p a b); [left; reflexivity|left; reflexivity|exact Ca|apply Hl; right; exact Hb|]. intros ->. exact (Ha Hb).
    - apply (in_files f paths b Pf) in Hb. destruct Hb as (q & Hq & Cb). apply (HR p q a b); [left; reflexivity|right; exact Hq|exact Ca|exact Cb|]. intros ->. exact (Dp q Hq b Ca Cb).
  Qed.
End Main.
