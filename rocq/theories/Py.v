(** Python substrate: strings, numbers, dictionaries, sorting, exceptions.

    This file models the parts of CPython's built-in types on which
    /repo/spec2nexus relies.  A [str] is the list of its code points. *)
From Coq Require Import String Ascii.
From Coq Require Export List NArith ZArith Bool.
From Verif Require Import Uni.
Import ListNotations.
Local Open Scope list_scope.

(* ------------------------------------------------------------------ *)
(** * Exceptions as values *)

Inductive exn :=
| ValueError | IndexError | KeyError | TypeError | AttributeError
| RuntimeError | OverflowError | NotImplementedError | FileNotFoundError | FileExistsError
| SpecDataFileNotFound | SpecDataFileCouldNotOpen | NotASpecDataFile
| DuplicateSpecScanNumber
| NameError | UnexpectedObjectTypeError | ScanAborted | NotPlottable | NoDataToPlot
| XMLError      (* lxml: XMLSyntaxError, DocumentInvalid *)
| UXMLError     (* uxml.py 25: UXML_Error *)
| NotModelled   (* a branch of the code that the model leaves out; see DESIGN.md *).

Inductive res (A : Type) :=
| Ok (a : A)
| Raise (e : exn).
Arguments Ok {A} a.
Arguments Raise {A} e.

Definition bind {A B} (m : res A) (k : A -> res B) : res B :=
  match m with Ok a => k a | Raise e => Raise e end.
Notation "'do' x <- m ; k" := (bind m (fun x => k))
  (at level 200, x pattern, m at level 100, k at level 200, right associativity).

Definition rmap {A B} (f : A -> B) (m : res A) : res B :=
  match m with Ok a => Ok (f a) | Raise e => Raise e end.

Definition of_opt {A} (e : exn) (o : option A) : res A :=
  match o with Some a => Ok a | None => Raise e end.

(** [list(map(f, l))] where [f] may raise: stops at the first exception. *)
Fixpoint mapM {A B} (f : A -> res B) (l : list A) : res (list B) :=
  match l with
  | [] => Ok []
  | x :: t => do y <- f x; do ys <- mapM f t; Ok (y :: ys)
  end.

(* ------------------------------------------------------------------ *)
(** * Characters and strings *)

Definition str := list N.

Definition L (s : string) : str := map N_of_ascii (list_ascii_of_string s).

Definition LF : N := 10%N.
Definition CR : N := 13%N.
Definition TAB : N := 9%N.
Definition SP : N := 32%N.
Definition BACKSLASH : N := 92%N.

Definition in_range (r : N * N) (c : N) : bool := ((fst r <=? c) && (c <=? snd r))%N.
Definition in_ranges (rs : list (N * N)) (c : N) : bool := existsb (fun r => in_range r c) rs.

(** [str.isspace], the separators of [str.split()] and [str.strip()], and re [\s] (CPython). *)
Definition is_space (c : N) : bool :=
  in_ranges [(9,13); (28,32); (133,133); (160,160); (5760,5760); (8192,8202);
             (8232,8233); (8239,8239); (8287,8287); (12288,12288)]%N c.

(** line boundaries of [str.splitlines()] (CPython). *)
Definition is_eol (c : N) : bool :=
  in_ranges [(10,13); (28,30); (133,133); (8232,8233)]%N c.

(** white space skipped by [int()] and [float()]: C [isspace] for ASCII, any space above. *)
Definition num_space (c : N) : bool :=
  (is_space c && negb (in_range (28,31) c))%N.

(** value of a Unicode decimal digit (re [\d], [int()], [float()]). *)
Fixpoint digval_in (zs : list N) (c : N) : option N :=
  match zs with
  | [] => None
  | z :: r => if ((z <=? c) && (c <? z + 10))%N then Some (c - z)%N else digval_in r c
  end.
Definition digval (c : N) : option N := digval_in decimal_zeros c.
Definition is_dec (c : N) : bool := match digval c with Some _ => true | None => false end.

(** [str.isdigit] and re [\w] for one character. *)
Definition is_digit (c : N) : bool := in_ranges isdigit_ranges c.
Definition is_word (c : N) : bool := in_ranges word_ranges c.

(** ASCII lower case; the code only compares the result with ASCII words. *)
Definition lower_c (c : N) : N := if in_range (65,90)%N c then (c + 32)%N else c.
Definition lower (s : str) : str := map lower_c s.

Fixpoint seqb (a b : str) : bool :=
  match a, b with
  | [], [] => true
  | x :: a', y :: b' => (x =? y)%N && seqb a' b'
  | _, _ => false
  end.

Definition mem (x : str) (l : list str) : bool := existsb (seqb x) l.

(** [s.startswith(p)] *)
Fixpoint prefixb (p s : str) : bool :=
  match p, s with
  | [], _ => true
  | x :: p', y :: s' => (x =? y)%N && prefixb p' s'
  | _ :: _, [] => false
  end.

(** [s.endswith(p)] *)
Definition suffixb (p s : str) : bool := prefixb (rev p) (rev s).

(** [s.find(p)]; [None] stands for -1. *)
Fixpoint find (p s : str) : option nat :=
  if prefixb p s then Some 0
  else match s with
       | [] => None
       | _ :: t => match find p t with Some n => Some (S n) | None => None end
       end.

(** [s.find(c)] for one character. *)
Fixpoint find_c (c : N) (s : str) : option nat :=
  match s with
  | [] => None
  | x :: t => if (x =? c)%N then Some 0
              else match find_c c t with Some n => Some (S n) | None => None end
  end.

(** [s.rfind(c)] for one character. *)
Fixpoint rfind_c (c : N) (s : str) : option nat :=
  match s with
  | [] => None
  | x :: t => match rfind_c c t with
              | Some n => Some (S n)
              | None => if (x =? c)%N then Some 0 else None
              end
  end.

(** the integer that [find] returns *)
Definition pos_of (o : option nat) : Z :=
  match o with Some n => Z.of_nat n | None => (-1)%Z end.

(** Python slice bound: negative counts from the end, then clamped to 0..len. *)
Definition clamp (len : nat) (i : Z) : nat :=
  let j := if (i <? 0)%Z then (i + Z.of_nat len)%Z else i in
  if (j <? 0)%Z then 0 else Nat.min (Z.to_nat j) len.

(** [l[i:]] and [l[:i]] *)
Definition slice_from {A} (i : Z) (l : list A) : list A := skipn (clamp (length l) i) l.
Definition slice_to {A} (i : Z) (l : list A) : list A := firstn (clamp (length l) i) l.
Definition slice {A} (i j : Z) (l : list A) : list A :=
  firstn (clamp (length l) j - clamp (length l) i) (skipn (clamp (length l) i) l).

(** [l[i]], negative indices from the end. *)
Definition index {A} (i : Z) (l : list A) : res A :=
  let j := if (i <? 0)%Z then (i + Z.of_nat (length l))%Z else i in
  if (j <? 0)%Z then Raise IndexError
  else of_opt IndexError (nth_error l (Z.to_nat j)).

Definition len {A} (l : list A) : Z := Z.of_nat (length l).

(* -- strip -- *)

Fixpoint lstrip_by (f : N -> bool) (s : str) : str :=
  match s with
  | [] => []
  | c :: t => if f c then lstrip_by f t else s
  end.
Fixpoint rstrip_by (f : N -> bool) (s : str) : str :=
  match s with
  | [] => []
  | c :: t => match rstrip_by f t with
              | [] => if f c then [] else [c]
              | r => c :: r
              end
  end.
Definition strip_by f s := rstrip_by f (lstrip_by f s).
Definition lstrip := lstrip_by is_space.
Definition rstrip := rstrip_by is_space.
Definition strip := strip_by is_space.
Definition is_c (a : N) (c : N) : bool := (c =? a)%N.

(* -- split -- *)

Definition flush (w : str) (ws : list str) : list str :=
  match w with [] => ws | _ => w :: ws end.
Fixpoint words_aux (s : str) : str * list str :=
  match s with
  | [] => ([], [])
  | c :: t => let '(w, ws) := words_aux t in
              if is_space c then ([], flush w ws) else (c :: w, ws)
  end.
(** [s.split()] *)
Definition words (s : str) : list str := let '(w, ws) := words_aux s in flush w ws.

Definition cons_hd (c : N) (l : list str) : list str :=
  match l with [] => [[c]] | w :: ws => (c :: w) :: ws end.

(** [s.split(c)] for a one-character separator *)
Fixpoint split_c (c : N) (s : str) : list str :=
  match s with
  | [] => [[]]
  | x :: t => if (x =? c)%N then [] :: split_c c t else cons_hd x (split_c c t)
  end.

(** [s.split(sep)] and [re.split(sep, s)] for a non-empty literal separator *)
Fixpoint split_sub_aux (sep : str) (skip : nat) (s : str) : list str :=
  match s with
  | [] => [[]]
  | x :: t =>
      match skip with
      | S k => split_sub_aux sep k t
      | O => if prefixb sep s then [] :: split_sub_aux sep (length sep - 1) t
             else cons_hd x (split_sub_aux sep 0 t)
      end
  end.
Definition split_sub (sep s : str) : list str := split_sub_aux sep 0 s.

(** [re.split("  +", s)]: separators are maximal runs of two or more blanks *)
Definition hd_is (c : N) (s : str) : bool := match s with x :: _ => (x =? c)%N | [] => false end.
Fixpoint split_2sp_aux (insep : bool) (s : str) : list str :=
  match s with
  | [] => [[]]
  | x :: t =>
      if insep && (x =? SP)%N then split_2sp_aux true t
      else if (x =? SP)%N && hd_is SP t then [] :: split_2sp_aux true t
      else cons_hd x (split_2sp_aux false t)
  end.
Definition split_2sp (s : str) : list str := split_2sp_aux false s.

(** [s.splitlines()] *)
Fixpoint splitlines (s : str) : list str :=
  match s with
  | [] => []
  | c :: t =>
      if is_eol c then
        if (c =? CR)%N && hd_is LF t then splitlines t else [] :: splitlines t
      else cons_hd c (splitlines t)
  end.

(** [fp.readlines()] with the line ends removed: text mode splits at LF only *)
Fixpoint readlines (s : str) : list str :=
  match s with
  | [] => []
  | c :: t => if (c =? LF)%N then [] :: readlines t else cons_hd c (readlines t)
  end.

(** universal newline translation done by [open(f, "r")] *)
Fixpoint universal_newlines (s : str) : str :=
  match s with
  | [] => []
  | c :: t => if (c =? CR)%N then
                if hd_is LF t then universal_newlines t else LF :: universal_newlines t
              else c :: universal_newlines t
  end.

(** [sep.join(l)] *)
Fixpoint join (sep : str) (l : list str) : str :=
  match l with
  | [] => []
  | [x] => x
  | x :: t => x ++ sep ++ join sep t
  end.

(** [s.replace(old, new)] for a non-empty [old] *)
Fixpoint replace_aux (old new : str) (skip : nat) (s : str) : str :=
  match s with
  | [] => []
  | c :: t =>
      match skip with
      | S k => replace_aux old new k t
      | O => if prefixb old s then new ++ replace_aux old new (length old - 1) t
             else c :: replace_aux old new 0 t
      end
  end.
Definition replace (old new s : str) : str := replace_aux old new 0 s.

(* ------------------------------------------------------------------ *)
(** * Numbers *)

(** decimal digits of [n], most significant first: [str(n)] *)
Fixpoint digits_aux (fuel : nat) (n : N) (acc : str) : str :=
  match fuel with
  | O => acc
  | S f => let acc' := (48 + n mod 10)%N :: acc in
           if (n <? 10)%N then acc' else digits_aux f (n / 10)%N acc'
  end.
Definition str_of_N (n : N) : str := digits_aux (S (N.to_nat (N.log2 n))) n [].
Definition str_of_Z (z : Z) : str :=
  match z with
  | Z0 => L "0"
  | Zpos p => str_of_N (Npos p)
  | Zneg p => 45%N :: str_of_N (Npos p)
  end.
Definition str_of_nat (n : nat) : str := str_of_N (N.of_nat n).

(** digits with single underscores between digits; [after] = the previous
    character was a digit.  Returns the digit values. *)
Fixpoint us_digits (after : bool) (s : str) : option (list N) :=
  match s with
  | [] => if after then Some [] else None
  | c :: t =>
      match digval c with
      | Some d => match us_digits true t with Some ds => Some (d :: ds) | None => None end
      | None => if ((c =? 95)%N && after)%bool then us_digits false t else None
      end
  end.

Definition num_of_digits (ds : list N) : N :=
  fold_left (fun acc d => (10 * acc + d)%N) ds 0%N.

(** optional sign: (negative?, rest) *)
Definition sign_of (s : str) : bool * str :=
  match s with
  | [] => (false, [])
  | c :: t => if (c =? 43)%N then (false, t)
              else if (c =? 45)%N then (true, t)
              else (false, s)
  end.

Definition apply_sign (neg : bool) (n : N) : Z :=
  if neg then (- Z.of_N n)%Z else Z.of_N n.

(** [int(s)] for a str, base 10.  (CPython's limit of 4300 digits is not modelled.) *)
Definition py_int (s : str) : res Z :=
  let '(neg, b) := sign_of (strip_by num_space s) in
  match us_digits false b with
  | Some ds => Ok (apply_sign neg (num_of_digits ds))
  | None => Raise ValueError
  end.

(** values of [float()]: the exact decimal m * 10^e; binary64 rounding is not modelled *)
Inductive fl := FDec (m e : Z) | FInf (neg : bool) | FNaN.

(** removal of underscores, each of which must stand between two digits *)
Fixpoint drop_us (prev_digit : bool) (s : str) : option str :=
  match s with
  | [] => Some []
  | c :: t =>
      if (c =? 95)%N then
        if prev_digit && (match t with d :: _ => is_dec d | [] => false end)
        then drop_us false t else None
      else match drop_us (is_dec c) t with Some r => Some (c :: r) | None => None end
  end.

(** maximal run of decimal digits: (digit values, rest) *)
Fixpoint digit_run (s : str) : list N * str :=
  match s with
  | [] => ([], [])
  | c :: t => match digval c with
              | Some d => let '(ds, r) := digit_run t in (d :: ds, r)
              | None => ([], s)
              end
  end.

Definition parse_exp (s : str) : option Z :=
  match s with
  | [] => Some 0%Z
  | c :: t =>
      if ((c =? 101) || (c =? 69))%N then
        let '(neg, b) := sign_of t in
        match digit_run b with
        | (d :: ds, []) => Some (apply_sign neg (num_of_digits (d :: ds)))
        | _ => None
        end
      else None
  end.

Definition parse_dec (neg : bool) (s : str) : option fl :=
  let '(ip, r) := digit_run s in
  let '(fp, r2) := match r with
                   | c :: t => if (c =? 46)%N then digit_run t else ([], r)
                   | [] => ([], r)
                   end in
  match ip ++ fp with
  | [] => None
  | ds => match parse_exp r2 with
          | Some e => Some (FDec (apply_sign neg (num_of_digits ds)) (e - len fp))
          | None => None
          end
  end.

(** [float(s)] for a str *)
Definition py_float (s : str) : res fl :=
  match drop_us false (strip_by num_space s) with
  | None => Raise ValueError
  | Some s1 =>
      let '(neg, b) := sign_of s1 in
      let lb := lower b in
      if seqb lb (L "inf") || seqb lb (L "infinity") then Ok (FInf neg)
      else if seqb lb (L "nan") then Ok FNaN
      else of_opt ValueError (parse_dec neg b)
  end.

Definition p10 (e : Z) : Z := (10 ^ e)%Z.

(** [a <= b] for floats (exact decimals); comparisons with NaN are False *)
Definition fl_leb (a b : fl) : bool :=
  match a, b with
  | FNaN, _ | _, FNaN => false
  | FInf true, _ => true
  | _, FInf false => true
  | FInf false, _ => false
  | _, FInf true => false
  | FDec m e, FDec m' e' =>
      let k := Z.min e e' in
      (m * p10 (e - k) <=? m' * p10 (e' - k))%Z
  end.
Definition fl_ltb (a b : fl) : bool := fl_leb a b && negb (fl_leb b a).
Definition fl_eqb (a b : fl) : bool := fl_leb a b && fl_leb b a.
Definition is_nan (a : fl) : bool := match a with FNaN => true | _ => false end.
Definition fl_of_Z (z : Z) : fl := FDec z 0.

(** [int(f)]: truncation toward zero *)
Definition int_of_fl (f : fl) : res Z :=
  match f with
  | FDec m e => Ok (if (0 <=? e)%Z then (m * p10 e)%Z else Z.quot m (p10 (- e)))
  | FInf _ => Raise OverflowError
  | FNaN => Raise ValueError
  end.

(** Python numbers that the code stores: int or float *)
Inductive num := NI (z : Z) | NF (f : fl).
Definition fl_of_num (n : num) : fl := match n with NI z => fl_of_Z z | NF f => f end.
Definition int_of_num (n : num) : res Z := match n with NI z => Ok z | NF f => int_of_fl f end.

(* ------------------------------------------------------------------ *)
(** * Ordered dictionaries with str keys *)

Definition dict (V : Type) := list (str * V).
Section Dict.
  Context {V : Type}.
  Fixpoint dget (k : str) (d : dict V) : option V :=
    match d with
    | [] => None
    | (k', v) :: t => if seqb k k' then Some v else dget k t
    end.
  (** [d[k] = v]: replaces in place or appends *)
  Fixpoint dset (k : str) (v : V) (d : dict V) : dict V :=
    match d with
    | [] => [(k, v)]
    | (k', v') :: t => if seqb k k' then (k', v) :: t else (k', v') :: dset k v t
    end.
  (** [del d[k]] *)
  Fixpoint ddel (k : str) (d : dict V) : dict V :=
    match d with
    | [] => []
    | (k', v') :: t => if seqb k k' then t else (k', v') :: ddel k t
    end.
  Definition keys (d : dict V) : list str := map fst d.
  Definition values (d : dict V) : list V := map snd d.
  Definition has (k : str) (d : dict V) : bool :=
    match dget k d with Some _ => true | None => false end.
  (** set only if the key is new (addPostProcessor, addH5writer) *)
  Definition dadd (k : str) (v : V) (d : dict V) : dict V :=
    if has k d then d else d ++ [(k, v)].
End Dict.

(* ------------------------------------------------------------------ *)
(** * [sorted(l, key=...)]: the stable sort *)

Section Sort.
  Context {A : Type} (leb : A -> A -> bool).
  Fixpoint insert (x : A) (l : list A) : list A :=
    match l with
    | [] => [x]
    | y :: t => if leb x y then x :: l else y :: insert x t
    end.
  Fixpoint isort (l : list A) : list A :=
    match l with
    | [] => []
    | x :: t => insert x (isort t)
    end.
End Sort.

(** lexicographic order of code points: [str] comparison *)
Fixpoint str_leb (a b : str) : bool :=
  match a, b with
  | [], _ => true
  | _ :: _, [] => false
  | x :: a', y :: b' => if (x <? y)%N then true else if (y <? x)%N then false else str_leb a' b'
  end.
