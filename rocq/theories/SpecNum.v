(** The rational value of a decimal number, and orders used in statements. *)
From Coq Require Import String QArith.
From Verif Require Import Py Time.
Import ListNotations.
Local Open Scope list_scope.

(** m * 10^e *)
Definition decQ (m e : Z) : Q := inject_Z m * Qpower (inject_Z 10) e.
(** order of numbers; NaN is not ordered *)
Definition num_le (a b : fl) : Prop :=
  match a, b with
  | FDec m e, FDec m' e' => (decQ m e <= decQ m' e')%Q
  | FInf true, FNaN => False
  | FInf true, _ => True
  | FNaN, FInf false => False
  | _, FInf false => True
  | _, _ => False
  end.
Definition num_eq (a b : fl) : Prop := num_le a b /\ num_le b a.
Definition num_lt (a b : fl) : Prop := num_le a b /\ ~ num_le b a.

(** [before l a b]: [a] stands somewhere before [b] in [l] *)
Definition before {A} (l : list A) (a b : A) : Prop := exists x y z, l = x ++ a :: y ++ b :: z.

(** order of points in time: year, month, day, hour, minute, second and the day of the week as written *)
Definition time_lt (a b : tm) : Prop :=
  (year a < year b \/ (year a = year b /\
   (mon a < mon b \/ (mon a = mon b /\
    (mday a < mday b \/ (mday a = mday b /\
     (hour a < hour b \/ (hour a = hour b /\
      (minute a < minute b \/ (minute a = minute b /\
       (sec a < sec b \/ (sec a = sec b /\ wday a < wday b))))))))))))%Z.
Definition time_le (a b : tm) : Prop := time_lt a b \/ a = b.

(** the number that an int or float stands for *)
Definition num_is (n : num) (q : Q) : Prop :=
  match n with NI z => (q == inject_Z z)%Q | NF (FDec m e) => (q == decQ m e)%Q | _ => False end.
