(** A reader of HTML, after the states of the HTML standard (tokenization), without character references, and without the error
    recovery of incomplete tags. *)
From Coq Require Import String.
From Verif Require Import Py.
Import ListNotations.
Local Open Scope list_scope.

Inductive token := Open (name : str) (attributes : list (str * str)) | Close (name : str) | Text (s : str) | Comment (s : str).
(** texts are kept in reverse while they are read *)
Inductive state :=
| InText (t : str) | AfterLt
| InName (close : bool) (n : str)
| InTag (close : bool) (n : str) (l : list (str * str))
| InAttr (close : bool) (n : str) (l : list (str * str)) (a : str)
| AfterEq (close : bool) (n : str) (l : list (str * str)) (a : str)
| Quoted (close : bool) (n : str) (l : list (str * str)) (a : str) (q : N) (v : str)
| Unquoted (close : bool) (n : str) (l : list (str * str)) (a : str) (v : str)
| AfterBang (t : str) | InComment (t : str).
Definition tag (close : bool) (n : str) (l : list (str * str)) : token := if close then Close (rev n) else Open (rev n) (rev l).
Definition blank_c (c : N) : bool := N.eqb c 32 || N.eqb c 10 || N.eqb c 9.
Definition letter (c : N) : bool := ((65 <=? c) && (c <=? 90) || (97 <=? c) && (c <=? 122))%N.
Definition step (st : state) (c : N) : state * list token :=
  match st with
  | InText t => if N.eqb c 60 then (AfterLt, [Text (rev t)]) else (InText (c :: t), [])
  | AfterLt => if N.eqb c 47 then (InName true [], []) else if N.eqb c 33 then (AfterBang [], [])
               else if letter c then (InName false [c], []) else (InText [c; 60%N], [])
  | InName k n => if N.eqb c 62 then (InText [], [tag k n []]) else if blank_c c || N.eqb c 47 then (InTag k n [], []) else (InName k (c :: n), [])
  | InTag k n l => if N.eqb c 62 then (InText [], [tag k n l]) else if blank_c c || N.eqb c 47 then (InTag k n l, []) else (InAttr k n l [c], [])
  | InAttr k n l a => if N.eqb c 61 then (AfterEq k n l (rev a), []) else if N.eqb c 62 then (InText [], [tag k n ((rev a, []) :: l)])
                      else if blank_c c || N.eqb c 47 then (InTag k n ((rev a, []) :: l), []) else (InAttr k n l (c :: a), [])
  | AfterEq k n l a => if N.eqb c 34 || N.eqb c 39 then (Quoted k n l a c [], []) else if N.eqb c 62 then (InText [], [tag k n ((a, []) :: l)])
                       else if blank_c c then (AfterEq k n l a, []) else (Unquoted k n l a [c], [])
  | Quoted k n l a q v => if N.eqb c q then (InTag k n ((a, rev v) :: l), []) else (Quoted k n l a q (c :: v), [])
  | Unquoted k n l a v => if N.eqb c 62 then (InText [], [tag k n ((a, rev v) :: l)]) else if blank_c c then (InTag k n ((a, rev v) :: l), [])
                          else (Unquoted k n l a (c :: v), [])
  | AfterBang t => if N.eqb c 62 then (InText [], [Comment (rev t)])
                   else match t with [d] => if N.eqb c 45 && N.eqb d 45 then (InComment [], []) else (AfterBang (c :: t), []) | _ => (AfterBang (c :: t), []) end
  | InComment t => match t with
                   | a :: b :: r => if N.eqb c 62 && N.eqb a 45 && N.eqb b 45 then (InText [], [Comment (rev r)]) else (InComment (c :: t), [])
                   | _ => (InComment (c :: t), [])
                   end
  end.
Fixpoint read_from (st : state) (html : str) : list token :=
  match html with
  | [] => match st with InText t => [Text (rev t)] | _ => [] end
  | c :: html => snd (step st c) ++ read_from (fst (step st c)) html
  end.
(** what is seen of a page: no comments, texts without the blanks before them, and no texts of blanks only *)
Fixpoint trim (s : str) : str := match s with c :: r => if blank_c c then trim r else s | [] => [] end.
Definition sees (t : token) : list token :=
  match t with Comment _ => [] | Text s => match trim s with [] => [] | s => [Text s] end | t => [t] end.
Definition read_html (html : str) : list token := flat_map sees (read_from (InText []) html).

(** an element with its contents *)
Definition element (name : string) (attributes : list (string * str)) (inside : list token) : list token :=
  Open (L name) (map (fun a => (L (fst a), snd a)) attributes) :: inside ++ [Close (L name)].
(** ... that has none *)
Definition void (name : string) (attributes : list (string * str)) : list token := [Open (L name) (map (fun a => (L (fst a), snd a)) attributes)].
(** texts that may be put into a page as they are: a text between tags, a quoted value, a comment *)
Definition text_safe (s : str) : Prop := ~ In 60%N s.
Definition value_safe (s : str) : Prop := ~ In 34%N s.
Definition comment_safe (s : str) : Prop := ~ In 62%N s.
(** a text that is not only blanks *)
Definition visible (s : str) : Prop := exists c, In c s /\ c <> 32%N /\ c <> 10%N /\ c <> 9%N.
