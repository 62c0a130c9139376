(** Specification of formats and texts printed with them, independent of the model's functions. *)
From Coq Require Import String.
From Verif Require Import Py Scanf SpecText SpecReader SpecDecimal.
Import ListNotations.
Local Open Scope list_scope.

(** ** Texts of fields *)
Definition hex_digit (c : N) (d : N) : Prop :=
  (digit c /\ d = c - 48)%N \/ ((97 <= c <= 102)%N /\ d = c - 87)%N \/ ((65 <= c <= 70)%N /\ d = c - 55)%N.
Definition hex_text (hs : str) (n : N) : Prop :=
  hs <> [] /\ exists ds, Forall2 hex_digit hs ds /\ n = fold_left (fun a d => 16 * a + d)%N ds 0%N.
(** [shows f t v]: the conversion [f], printed with the value [v], is the text [t] *)
Inductive shows : str -> str -> sval -> Prop :=
| Shows_d f t z : f = L "%d" \/ f = L "%i" -> int_text t z -> shows f t (VInt z)
| Shows_u ds : ds <> [] -> Forall digit ds -> shows (L "%u") ds (VInt (Z.of_N (decimal_value ds)))
| Shows_f t m e : fixed_text t m e -> shows (L "%f") t (VFloat (FDec m e))
| Shows_g f t m e : f = L "%g" \/ f = L "%e" \/ f = L "%E" -> float_text t m e -> shows f t (VFloat (FDec m e))
| Shows_s w : a_word w -> shows (L "%s") w (VStr w)
| Shows_c c : c <> LF -> shows (L "%c") [c] (VStr [c])
| Shows_x x hs n : x = L "x" \/ x = L "X" -> hex_text hs n -> shows (L "%" ++ x) (L "0" ++ x ++ hs) (VInt (Z.of_N n))
(** with a width: exactly so many characters or digits *)
| Shows_nc n t : n < 10 -> List.length t = n -> ~ In LF t -> shows (L "%" ++ [48 + N.of_nat n]%N ++ L "c") t (VStr t)
| Shows_nd n k sg neg ds : n < 10 -> k = L "d" \/ k = L "i" -> sign_text sg neg -> ds <> [] -> List.length ds = n -> Forall digit ds ->
    shows (L "%" ++ [48 + N.of_nat n]%N ++ k) (sg ++ ds) (VInt (signed neg (decimal_value ds))).

(** ** What may follow a field: [ends f t], the text [t] does not go on like the field *)
Definition starts_with (p : N -> Prop) (t : str) : Prop := exists c t', t = c :: t' /\ p c.
Definition any_digit (c : N) : Prop := is_dec c = true.     (** a digit of any script *)
Definition ends (f t : str) : Prop :=
  ((f = L "%d" \/ f = L "%i" \/ f = L "%u") -> ~ starts_with any_digit t) /\
  (f = L "%f" -> ~ starts_with (fun c => any_digit c \/ c = 46%N) t) /\
  ((f = L "%g" \/ f = L "%e" \/ f = L "%E") -> ~ starts_with (fun c => any_digit c \/ c = 46%N \/ c = 101%N \/ c = 69%N) t) /\
  (f = L "%s" -> ~ starts_with (fun c => is_space c = false) t) /\
  ((f = L "%x" \/ f = L "%X") -> ~ starts_with (fun c => any_digit c \/ (97 <= c <= 102)%N \/ (65 <= c <= 90)%N) t).

(** [printed fmt text values]: [text] starts with [fmt] printed with [values]; the literal characters of the format are none of %, ^, $, | *)
Inductive printed : str -> str -> list sval -> Prop :=
| Pr_end t : printed [] t []
| Pr_lit c fmt t vs : ~ In c (L "%^$|") -> printed fmt t vs -> printed (c :: fmt) (c :: t) vs
| Pr_field f w v fmt t vs : shows f w v -> ends f t -> printed fmt t vs -> printed (f ++ fmt) (w ++ t) (v :: vs).

(** ** Histories of calls *)
Inductive calls : cache -> Prop :=
| Calls_none : calls []
| Calls_more ca fmt s : calls ca -> calls (fst (scanf ca fmt s)).
