(** /repo/spec2nexus/scanf.py *)
From Coq Require Import String.
From Verif Require Import Py.
Import ListNotations.
Local Open Scope list_scope.

(** scanf.py 38-55: the conversions (the width of [%5c], [%7d] is one digit) *)
Inductive conv :=
| Cc | Cnc (w : nat) | Cnd (w : nat) | Cd | Cu | Cf | Cg | Cs | Cx (x : N) | Co.

(** scanf.py 79-101: a translated format is a list of literal characters and conversions *)
Inductive piece := PChar (c : N) | PConv (k : conv).

(** scanf.py 38-55, 83-90: the first entry of the table that matches at this position,
    with the rest of the format.  Width digits other than 0..9 are not modelled. *)
Definition take_conv (fmt : str) : res (option (conv * str)) :=
  match fmt with
  | p :: c :: t =>
      if negb (p =? 37)%N then Ok None
      else if (c =? 99)%N then Ok (Some (Cc, t))                                   (* %c *)
      else if (c =? 100)%N || (c =? 105)%N then Ok (Some (Cd, t))                  (* %d %i *)
      else if (c =? 117)%N then Ok (Some (Cu, t))                                  (* %u *)
      else if (c =? 102)%N then Ok (Some (Cf, t))                                  (* %f *)
      else if (c =? 103)%N || (c =? 101)%N || (c =? 69)%N then Ok (Some (Cg, t))   (* %g %e %E *)
      else if (c =? 115)%N then Ok (Some (Cs, t))                                  (* %s *)
      else if (c =? 120)%N || (c =? 88)%N then Ok (Some (Cx c, t))                 (* %x %X *)
      else if (c =? 111)%N then Ok (Some (Co, t))                                  (* %o *)
      else match digval c, t with
           | Some d, k :: t' =>
               if (k =? 99)%N || (k =? 100)%N || (k =? 105)%N then
                 if in_range (48, 57)%N c then
                   Ok (Some (if (k =? 99)%N then Cnc (N.to_nat d) else Cnd (N.to_nat d), t'))
                 else Raise NotModelled
               else Ok None
           | _, _ => Ok None
           end
  | _ => Ok None
  end.

(** scanf.py 94-99: [^], [$] and [|] are not escaped by the code and would be read as
    operators of the regular expression; such formats are not modelled. *)
Definition meta (c : N) : bool := (c =? 94)%N || (c =? 36)%N || (c =? 124)%N.

(** scanf.py 77-101: the loop over the format *)
Fixpoint compile_aux (fuel : nat) (fmt : str) : res (list piece) :=
  match fuel with
  | O => Ok []
  | S f =>
      match fmt with
      | [] => Ok []
      | c :: t =>
          do k <- take_conv fmt;
          match k with
          | Some (k, r) => do ps <- compile_aux f r; Ok (PConv k :: ps)
          | None => if meta c then Raise NotModelled
                    else do ps <- compile_aux f t; Ok (PChar c :: ps)
          end
      end
  end.
Definition compile (fmt : str) : res (list piece) := compile_aux (List.length fmt) fmt.

(* -- matching: backtracking, first match in the order of [re] -- *)

Section Match.
  Context {R : Type}.
  Definition cont := str -> option R.

  (** one character *)
  Definition m_one (p : N -> bool) (k : cont) : cont :=
    fun s => match s with c :: t => if p c then k t else None | [] => None end.
  Definition orelse (a : option R) (b : option R) : option R :=
    match a with Some _ => a | None => b end.
  (** greedy [*] *)
  Fixpoint m_star (p : N -> bool) (k : cont) (s : str) : option R :=
    match s with
    | c :: t => if p c then orelse (m_star p k t) (k s) else k s
    | [] => k s
    end.
  (** greedy [+] *)
  Definition m_plus (p : N -> bool) (k : cont) : cont := m_one p (m_star p k).
  (** greedy [?] on one character *)
  Definition m_opt (p : N -> bool) (k : cont) : cont :=
    fun s => orelse (m_one p k s) (k s).
  (** [{n}] *)
  Fixpoint m_rep (n : nat) (p : N -> bool) (k : cont) : cont :=
    match n with O => k | S n' => m_one p (m_rep n' p k) end.

  Definition is_sign (c : N) : bool := (c =? 43)%N || (c =? 45)%N.
  Definition is_dot_re (c : N) : bool := negb (c =? LF)%N.        (* . without DOTALL *)
  Definition is_hex_re (c : N) : bool :=                           (* [\dA-Za-f] *)
    is_dec c || in_range (65, 90)%N c || in_range (97, 102)%N c.

  (** mantissa of a number: digits, optionally a dot and digits, or a dot and digits (scanf.py 46-52) *)
  Definition m_mant (k : cont) : cont := fun s =>
    orelse (m_plus is_dec (fun s => orelse (m_one (is_c 46%N) (m_star is_dec k) s) (k s)) s)
           (m_one (is_c 46%N) (m_plus is_dec k) s).
  (** optional exponent (scanf.py 50) *)
  Definition m_expo (k : cont) : cont := fun s =>
    orelse (m_one (fun c => (c =? 101)%N || (c =? 69)%N) (m_opt is_sign (m_plus is_dec k)) s) (k s).

  (** scanf.py 38-55: the pattern of each conversion *)
  Definition m_conv (c : conv) (k : cont) : cont :=
    match c with
    | Cc => m_one is_dot_re k
    | Cnc w => m_rep w is_dot_re k
    | Cnd w => m_opt is_sign (m_rep w is_dec k)
    | Cd => m_opt is_sign (m_plus is_dec k)
    | Cu => m_plus is_dec k
    | Cf => m_opt is_sign (m_mant k)
    | Cg => m_opt is_sign (m_mant (m_expo k))
    | Cs => m_plus (fun c => negb (is_space c)) k
    | Cx x => m_one (is_c 48%N) (m_one (is_c x) (m_plus is_hex_re k))
    | Co => m_one (is_c 48%N) (m_star (in_range (48, 55)%N) k)
    end.
End Match.

(** scanf.py 146-149: the groups of the match of the whole pattern (a prefix of the text) *)
Fixpoint m_pieces (ps : list piece) : str -> option (list (conv * str)) :=
  match ps with
  | [] => fun _ => Some []
  | PChar c :: ps' => m_one (is_c c) (m_pieces ps')
  | PConv c :: ps' => fun s =>
      m_conv c (fun r => match m_pieces ps' r with
                         | Some gs => Some ((c, firstn (List.length s - List.length r) s) :: gs)
                         | None => None
                         end) s
  end.

Inductive sval := VStr (s : str) | VInt (z : Z) | VFloat (f : fl).

(** [int(x, base)] of the text of a [%x] or [%o] group; the optional prefix 0x is accepted for 16 *)
Definition digit_in (base : N) (c : N) : option N :=
  let v := match digval c with
           | Some d => Some d
           | None => if in_range (97, 122)%N c then Some (c - 87)%N
                     else if in_range (65, 90)%N c then Some (c - 55)%N else None
           end in
  match v with Some d => if (d <? base)%N then Some d else None | None => None end.
Fixpoint digits_in (base : N) (s : str) : option (list N) :=
  match s with
  | [] => Some []
  | c :: t => match digit_in base c, digits_in base t with
              | Some d, Some ds => Some (d :: ds)
              | _, _ => None
              end
  end.
Definition num_in (base : N) (ds : list N) : N := fold_left (fun a d => (base * a + d)%N) ds 0%N.
Definition int_base (base : N) (s : str) : res Z :=
  match s with
  | [] => Raise ValueError
  | _ => match digits_in base s with
         | Some ds => Ok (Z.of_N (num_in base ds))
         | None => Raise ValueError
         end
  end.

(** scanf.py 38-55, 149: the casts.  [%o] converts with base 7. *)
Definition cast (c : conv) (g : str) : res sval :=
  match c with
  | Cc | Cnc _ | Cs => Ok (VStr g)
  | Cnd _ | Cd | Cu => rmap VInt (py_int g)
  | Cf | Cg => rmap VFloat (py_float g)
  | Cx _ => rmap VInt (int_base 16 (skipn 2 g))
  | Co => rmap VInt (int_base 7 g)
  end.

(** scanf.py 58-59: the cache of translated formats; [cache_size] = SCANF_CACHE_SIZE *)
Definition cache := dict (list piece).
Definition cache_size : Z := 1000.

(** scanf.py 62-107.  A stored pair is a non-empty tuple, so it is always used. *)
Definition scanf_compile (ca : cache) (fmt : str) : cache * res (list piece) :=
  match dget fmt ca with
  | Some ps => (ca, Ok ps)
  | None =>
      match compile fmt with
      | Ok ps =>
          let ca := if (cache_size <? len ca)%Z then [] else ca in
          (dset fmt ps ca, Ok ps)
      | Raise e => (ca, Raise e)
      end
  end.

(** scanf.py 110-149 for a str argument; [None] is returned if the format does not match *)
Definition scanf_with (ps : list piece) (s : str) : res (option (list sval)) :=
  match m_pieces ps s with
  | Some gs => rmap Some (mapM (fun cg => cast (fst cg) (snd cg)) gs)
  | None => Ok None
  end.
Definition scanf (ca : cache) (fmt s : str) : cache * res (option (list sval)) :=
  match scanf_compile ca fmt with
  | (ca', Ok ps) => (ca', scanf_with ps s)
  | (ca', Raise e) => (ca', Raise e)
  end.
