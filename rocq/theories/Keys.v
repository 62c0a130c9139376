(** Plugin registration and control line dispatch.
    Models /repo/spec2nexus/plugin_core.py and /repo/spec2nexus/control_lines.py. *)
From Coq Require Import String.
From Verif Require Import Py.
Import ListNotations.
Local Open Scope list_scope.

(* ------------------------------------------------------------------ *)
(** * Registration (plugin_core.py 50-93) *)

(** plugin_core.py 152-154: what [_enroll] looks at: the key and [scan_attributes_defined].
    [pl_id] tells apart two handler objects with the same key. *)
Record plugin := mk_plugin { pl_id : nat; pl_key : str; pl_attrs : list str }.

(** plugin_core.py 67-69 *)
Record registry := mk_reg { r_plugins : list plugin; r_known : dict plugin; r_lazy : list str }.
Definition reg_empty : registry := mk_reg [] [] [].

(** plugin_core.py 91-93 *)
Definition add_lazy (l : list str) (a : str) : list str := if mem a l then l else l ++ [a].

(** plugin_core.py 74-93 *)
Definition enroll (r : registry) (p : plugin) : registry :=
  mk_reg (r_plugins r ++ [p])
         (dset (pl_key p) p (r_known r))
         (fold_left add_lazy (pl_attrs p) (r_lazy r)).

(** control_lines.py 26-32: importing plugins in the order found *)
Definition enroll_all (ps : list plugin) : registry := fold_left enroll ps reg_empty.

(* ------------------------------------------------------------------ *)
(** * The regular expressions used as keys *)

(** plugin_core.py 214: only literals, \d, \w and two-letter classes occur in the supplied keys *)
Inductive cls := Lit (c : N) | Dig | Wrd | Alt (a b : N).
Inductive item := One (c : cls) | Plus (c : cls) | Star (c : cls).
Definition regex := list item.

(** plugin_core.py 215 ([re.match]): one character against a class *)
Definition in_cls (k : cls) (c : N) : bool :=
  match k with
  | Lit a => (c =? a)%N
  | Dig => is_dec c
  | Wrd => is_word c
  | Alt a b => (c =? a)%N || (c =? b)%N
  end.

(** plugin_core.py 215 ([re.match]): does the whole string match? *)
Fixpoint lang (p : regex) : str -> bool :=
  match p with
  | [] => fun s => match s with [] => true | _ => false end
  | One k :: p' => fun s => match s with
                            | x :: t => in_cls k x && lang p' t
                            | [] => false
                            end
  | Star k :: p' => fix go (s : str) : bool :=
      lang p' s || match s with x :: t => in_cls k x && go t | [] => false end
  | Plus k :: p' => fun s => match s with
      | x :: t => in_cls k x &&
          (fix go (s : str) : bool :=
             lang p' s || match s with x :: t => in_cls k x && go t | [] => false end) t
      | [] => false
      end
  end.

(** [$] also matches before a line feed at the very end *)
Definition drop_last_lf (s : str) : option str :=
  match rev s with
  | x :: t => if (x =? LF)%N then Some (rev t) else None
  | [] => None
  end.

(** plugin_core.py 211-219: "^" + key + "$" matches.  Every supplied key contains a literal,
    so a match is never empty and the test of [regs] always holds. *)
Definition re_match (p : regex) (s : str) : bool :=
  lang p s || match drop_last_lf s with Some t => lang p t | None => false end.

(* ------------------------------------------------------------------ *)
(** * The supplied handlers (/repo/spec2nexus/plugins/*.py) *)

Inductive hid :=
(* spec_common.py *)
| H_F | H_E | H_D | H_C | H_S | H_G | H_I | H_J | H_j | H_L | H_M | H_N | H_O | H_o | H_P
| H_Q | H_R | H_T | H_U | H_X | H_data | H_atMCA | H_atA | H_CALIB | H_CHANN | H_CTIME | H_ROI
(* XPCS.py *)
| H_VA | H_VD | H_VE | H_XPCS | H_CCD
(* apstools_specwriter.py, fallback.py, uim.py *)
| H_MD | H_unrec | H_UIM
(* unicat.py, uxml.py *)
| H_H | H_V | H_UXML.

(** the class statements of plugins/*.py, in one order in which the files may be found *)
Definition all_hids : list hid :=
  [H_F; H_E; H_D; H_C; H_S; H_G; H_I; H_J; H_j; H_L; H_M; H_N; H_O; H_o; H_P;
   H_Q; H_R; H_T; H_U; H_X; H_data; H_atMCA; H_atA; H_CALIB; H_CHANN; H_CTIME; H_ROI;
   H_VA; H_VD; H_VE; H_XPCS; H_CCD; H_MD; H_unrec; H_UIM; H_H; H_V; H_UXML].

Definition hid_eq_dec (a b : hid) : {a = b} + {a <> b}.
Proof. decide equality. Defined.
Definition hid_eqb (a b : hid) : bool := if hid_eq_dec a b then true else false.

(** the [key] class attribute: spec_common.py 64 91 125 180 230 322 488 517 569 633 669 703 733
    767 837 914 947 992 1030 1087 1157 1213 1249 1291 1347 1410 1471; XPCS.py 22 46 71 96 114;
    apstools_specwriter.py 30; fallback.py 17 (spec.py 120); uim.py 41; unicat.py 42 80; uxml.py 61 *)
Definition key_of (h : hid) : str :=
  L (match h with
  | H_F => "#F" | H_E => "#E" | H_D => "#D" | H_C => "#C" | H_S => "#S"
  | H_G => "#G\d+" | H_I => "#I" | H_J => "#J\d+" | H_j => "#j\d+" | H_L => "#L" | H_M => "#M"
  | H_N => "#N" | H_O => "#O\d+" | H_o => "#o\d+" | H_P => "#P\d+" | H_Q => "#Q" | H_R => "#R"
  | H_T => "#T" | H_U => "#U" | H_X => "#X" | H_data => "scan_data" | H_atMCA => "#@MCA"
  | H_atA => "@A\d*" | H_CALIB => "#@[cC][aA][lL][iI][bB]" | H_CHANN => "#@CHANN"
  | H_CTIME => "#@CTIME" | H_ROI => "#@ROI"
  | H_VA => "#VA\d+" | H_VD => "#VD\d+" | H_VE => "#VE\d+" | H_XPCS => "#XPCS" | H_CCD => "#CCD"
  | H_MD => "#MD\w*" | H_unrec => "unrecognized_control_line" | H_UIM => "#UIM\w*"
  | H_H => "#H\d+" | H_V => "#V\d+" | H_UXML => "#UXML"
  end)%string.

(** translation of such a key into a [regex]: backslash d, backslash w, [xy], +, * *)
Fixpoint parse_key (fuel : nat) (s : str) : regex :=
  match fuel with
  | O => []
  | S f =>
      match s with
      | [] => []
      | c :: t =>
          let '(k, r) :=
            if (c =? 92)%N then                     (* \d \w *)
              match t with
              | x :: t' => (if (x =? 100)%N then Dig else Wrd, t')
              | [] => (Lit c, t)
              end
            else if (c =? 91)%N then                (* [ab] *)
              match t with
              | a :: b :: _ :: t' => (Alt a b, t')
              | _ => (Lit c, t)
              end
            else (Lit c, t) in
          match r with
          | q :: r' => if (q =? 43)%N then Plus k :: parse_key f r'
                       else if (q =? 42)%N then Star k :: parse_key f r'
                       else One k :: parse_key f r
          | [] => [One k]
          end
      end
  end.
Definition regex_of (h : hid) : regex := parse_key (List.length (key_of h)) (key_of h).

(** [scan_attributes_defined] (the line after each key; empty where it is not given) *)
Definition attrs_of (h : hid) : list str :=
  map L (match h with
  | H_F | H_E | H_D | H_S | H_atMCA => []
  | H_C => ["comments"] | H_G => ["G"; "diffractometer"] | H_I => ["I"] | H_J => ["J"] | H_j => ["j"]
  | H_L => ["L"; "column_first"; "column_last"] | H_M => ["M"; "monitor_name"] | H_N => ["N"]
  | H_O => ["O"] | H_o => ["o"] | H_P => ["P"; "positioner"] | H_Q => ["Q"] | H_R => ["R"]
  | H_T => ["T"; "time_name"] | H_U => ["U"] | H_X => ["TEMP_SP"; "DEGC_SP"]
  | H_data => ["data"; "data_lines"] | H_atA => ["data_lines"]
  | H_CALIB | H_CHANN | H_CTIME | H_ROI => ["MCA"]
  | H_VA => ["VA"] | H_VD => ["VD"] | H_VE => ["VE"] | H_XPCS => ["XPCS"] | H_CCD => ["CCD"]
  | H_MD => ["MD"] | H_unrec => ["_unrecognized"] | H_UIM => ["UIM"]
  | H_H => ["H"] | H_V => ["V"; "metadata"] | H_UXML => ["UXML"; "UXML_root"]
  end)%string.

(* ------------------------------------------------------------------ *)
(** * Dispatch *)

(** spec_common.py 1160-1168 (SPEC_DataLine.match_key): an IndexError is not caught *)
Definition match_data (text : str) : res bool :=
  do w <- index 0 (words (strip text));
  match py_float w with
  | Ok _ => Ok true
  | Raise ValueError => Ok false
  | Raise e => Raise e
  end.

(** plugin_core.py 199-224 and the override above; the result is used as a truth value *)
Definition match_key (h : hid) (text : str) : res bool :=
  match h with
  | H_data => match_data text
  | _ => Ok (re_match (regex_of h) text)
  end.

(** control_lines.py 62-78; [known] lists the handlers in the order of [known_keys] *)
Fixpoint match_control_key (known : list hid) (text : str) : res (option hid) :=
  match known with
  | [] => Ok None
  | h :: t => do b <- match_key h text;
              if b then Ok (Some h) else match_control_key t text
  end.

(** control_lines.py 54: direct look-up of the key *)
Definition direct_key (known : list hid) (text : str) : option hid :=
  List.find (fun h => seqb text (key_of h)) known.

(** control_lines.py 42-60.  A returned key is represented by its handler (keys are distinct). *)
Definition get_control_key (known : list hid) (line : str) : res (option hid) :=
  match find_c SP line with
  | None => Ok None
  | Some n =>
      let key := firstn n line in
      match direct_key known key with
      | Some h => Ok (Some h)
      | None => match_control_key known key
      end
  end.
