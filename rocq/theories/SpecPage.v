(** What index.html shows. *)
From Coq Require Import String.
From Verif Require Import Py Handlers Reader Gallery IndexPage SpecHtml.
Import ListNotations.
Local Open Scope list_scope.

(** a plotted scan: a small picture of its plot, which is a link to it; instead of it number and command can be read *)
Definition plot_shown (sc : scan) : list token :=
  element "a" [("href"%string, plot_name (s_num sc))]
    (void "img" [("src"%string, plot_name (s_num sc)); ("width"%string, L "150"); ("height"%string, L "75"); ("alt"%string, L "#" ++ s_num sc ++ L ": " ++ s_cmd sc)]).
(** a scan with problems: the exception and the number *)
Definition problem_shown (exn_name : exn -> str) (p : exn * str) : list token :=
  element "li" [] (element "b" [] [Text (trim (exn_name (fst p)))] ++ [Text (L ": ")] ++ element "tt" [] [Text (L "#S " ++ snd p)]).
Definition problems_shown (exn_name : exn -> str) (ps : list (exn * str)) : list token :=
  match ps with
  | [] => []
  | _ => element "h2" [] [Text (str_of_nat (List.length ps) ++ L " scan(s) with plotting problems")] ++
         element "ul" [] (List.concat (map (problem_shown exn_name) ps))
  end.
(** the page of a data file: its name, a link to the copy beside the page, the problems, the plots *)
Definition page_shown (exn_name : exn -> str) (now specFile name : str) (scs : list scan) (ps : list (exn * str)) : list token :=
  element "html" []
    (element "head" [] (element "title" [] [Text (L "SPEC scans from " ++ name)]) ++
     element "body" []
       (element "h1" [] [Text (L "SPEC scans from: " ++ name)] ++
        [Text (L "spec file: ")] ++ element "a" [("href"%string, name)] [Text (trim specFile)] ++ void "br" [] ++
        problems_shown exn_name ps ++
        element "h2" [] [Text (str_of_nat (List.length scs) ++ L " plotted scan(s)")] ++
        List.concat (map plot_shown scs) ++
        void "hr" [] ++
        element "center" [] (element "small" [] ([Text (L "page created: " ++ now ++ L ", specplot_gallery documentation: ")] ++
          element "a" [("href"%string, DOC_URL)] [Text DOC_URL])))).

(** a scan number and command that may be put between double quotes *)
Definition quotable (sc : scan) : Prop := value_safe (s_num sc) /\ value_safe (s_cmd sc).
(** the name of a data file that may be put into the page; [name] is its last part *)
Definition file_shown (specFile : str) : Prop := text_safe specFile /\ visible specFile /\ ~ In 39%N specFile.
Definition problem_fits (exn_name : exn -> str) (p : exn * str) : Prop := text_safe (exn_name (fst p)) /\ visible (exn_name (fst p)) /\ text_safe (snd p).
Definition outside_fits (o : outside) : Prop :=
  Forall comment_safe [o_argv0 o; o_stamp o; o_host o; o_user o; o_version o; o_pid o] /\ text_safe (o_now o).
