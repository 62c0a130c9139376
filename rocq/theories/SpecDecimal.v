(** Decimal notation of integers and numbers, independent of the model's functions. *)
From Coq Require Import String.
From Verif Require Import Py SpecText SpecReader.
Import ListNotations.
Local Open Scope list_scope.

(** 0 to 9 *)
Definition digit (c : N) : Prop := (48 <= c <= 57)%N.
(** an optional sign; [neg]: it is a minus *)
Definition sign_text (t : str) (neg : bool) : Prop :=
  (t = [] /\ neg = false) \/ (t = L "+" /\ neg = false) \/ (t = L "-" /\ neg = true).
Definition signed (neg : bool) (n : N) : Z := if neg then (- Z.of_N n)%Z else Z.of_N n.
(** -12, +12, 012 *)
Definition int_text (t : str) (z : Z) : Prop :=
  exists sg neg ds, sign_text sg neg /\ ds <> [] /\ Forall digit ds /\ t = sg ++ ds /\ z = signed neg (decimal_value ds).
(** 1.5, -1., .5, 12: the value is m * 10^e for [FDec m e] *)
Definition fixed_text (t : str) (m e : Z) : Prop :=
  exists sg neg ip dot fp, sign_text sg neg /\ Forall digit ip /\ Forall digit fp /\ (dot = L "." \/ (dot = [] /\ fp = [])) /\ ip ++ fp <> [] /\
    t = sg ++ ip ++ dot ++ fp /\ m = signed neg (decimal_value (ip ++ fp)) /\ e = (- Z.of_nat (List.length fp))%Z.
(** also with an exponent: 1.5e-3 *)
Definition float_text (t : str) (m e : Z) : Prop :=
  fixed_text t m e \/ exists t0 x e0 z, fixed_text t0 m e0 /\ int_text x z /\ (t = t0 ++ L "e" ++ x \/ t = t0 ++ L "E" ++ x) /\ e = (e0 + z)%Z.
