(** Numbers with a limited number of digits. *)
From Coq Require Import String ZArith Reals Lra Lia.
Open Scope R_scope.

(** Powers with integer exponents. *)
Definition bpow (b e : Z) : R := powerRZ (IZR b) e.
(** Numbers with at most [p] digits in base [b]: [m * b^e], where [m] has at most [p] digits. *)
Definition short (b p : Z) (x : R) : Prop := exists m e, (Z.abs m < b ^ p)%Z /\ x = IZR m * bpow b e.
(** Decimal numbers with at most [p] significant digits. *)
Definition decimal (p : Z) : R -> Prop := short 10 p.
(** Finite values of floating-point types: at most [p] bits, of which none is worth less than [2^emin], and no mantissa is multiplied by more than [2^emax];
    for [double], these are 53, -1074 and 971. *)
Definition binary (p emin emax : Z) (x : R) : Prop :=
  exists m e, (Z.abs m < 2 ^ p)%Z /\ (emin <= e <= emax)%Z /\ x = IZR m * bpow 2 e.
Definition double_value : R -> Prop := binary 53 (-1074) 971.
(** [y] is in the set, and no element of the set is closer to [x]: whatever is done with ties. *)
Definition nearest (f : R -> Prop) (x y : R) : Prop := f y /\ forall z, f z -> Rabs (x - y) <= Rabs (x - z).
(** Two different numbers with the same text. *)
Definition confused {F} (show : F -> string) : Prop := exists x y, x <> y /\ show x = show y.
