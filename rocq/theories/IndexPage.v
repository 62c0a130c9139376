(** /repo/spec2nexus/specplot_gallery.py 212-218, 422-482: the text of index.html.

    Simplification: what comes from outside (program, time, machine, user, version, process) is a record of texts; the name of the
    class of an exception is a function of the exceptions of the model (Py.v merges some classes). *)
From Coq Require Import String.
From Verif Require Import Py Gallery.
Import ListNotations.
Local Open Scope list_scope.

Record outside := mk_outside { o_argv0 : str; o_stamp : str; o_host : str; o_user : str; o_version : str; o_pid : str; o_now : str }.
Definition line (l : list str) : str := List.concat l ++ [LF].
(** specplot_gallery.py 70 *)
Definition DOC_URL : str := L "https://prjemian.github.io/spec2nexus/specplot_gallery.html".
(** 212-218: what is said of a scan that was not plotted *)
Definition problem_text (exn_name : exn -> str) (p : exn * str) : str :=
  L "<b>" ++ exn_name (fst p) ++ L "</b>" ++ L ": <tt>#S " ++ snd p ++ L "</tt>".
(** 422-482 *)
Definition buildIndexHtml (o : outside) (specFile : str) (plotted problems : list str) : str :=
  let comment := line [] ++ line [L "   written by: "; o_argv0 o] ++ line [L "   date: "; o_stamp o] ++ line [L "   workstation: "; o_host o] ++
                 line [L "   username: "; o_user o] ++ line [L "   version: "; o_version o] ++ line [L "   pid: "; o_pid o] in
  let href := L "<a href='" ++ basename specFile ++ L "'>" ++ specFile ++ L "</a>" in
  line [L "<html>"] ++ line [L "  <head>"] ++
  line [L "    <title>SPEC scans from "; basename specFile; L "</title>"] ++
  line [L "    <!-- "; comment; L " -->"] ++
  line [L "  </head>"] ++ line [L "  <body>"] ++
  line [L "    <h1>SPEC scans from: "; basename specFile; L "</h1>"] ++
  line [] ++ line [L "    spec file: "; href] ++ line [L "    <br />"] ++ line [] ++
  (match problems with
   | [] => []
   | _ => line [L "    <h2>"; str_of_nat (List.length problems); L " scan(s) with plotting problems</h2>"] ++ line [] ++ line [L "    <ul>"] ++
          List.concat (map (fun item => line [L "    <li>"; item; L "</li>"]) problems) ++
          line [L "    </ul>"]
   end) ++
  line [] ++ line [L "    <h2>"; str_of_nat (List.length plotted); L " plotted scan(s)</h2>"] ++ line [] ++
  join [LF] plotted ++ line [] ++ line [] ++ line [L "    <hr />"] ++
  line [L "    <center><small>"; L "page created: "; o_now o; L ", specplot_gallery documentation: <a href="""; DOC_URL; L """>"; DOC_URL; L "</a>"; L "</small></center>"] ++
  line [] ++ line [L "  </body>"] ++ line [L "</html>"].
