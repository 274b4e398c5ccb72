(** The predictions as they are given in table 1 of Gompper, Ihle, Kroll and Winkler, Adv. Polym.
    Sci. 221, 1 (2009), for stochastic rotation dynamics in d = 3 dimensions. *)
From Coq Require Import Reals List.
From Verif Require Import AqModel.
Open Scope R_scope.

(** M particles per cell on average, of mass m, at temperature T; the rotation angle a, the time
    step h, the size of cells l. *)
Definition fluctuations (M : R) : R := M - 1 + exp (- M).
Definition viscosity_kinetic (kT m M a h : R) : R := kT * h / (2 * m) * (5 * M / (fluctuations M * (2 - cos a - cos (2 * a))) - 1).
Definition viscosity_collisional (l M a h : R) : R := l ^ 2 / (18 * h) * (fluctuations M / M) * (1 - cos a).
Definition viscosity (kT m l M a h : R) : R := viscosity_kinetic kT m M a h + viscosity_collisional l M a h.
(** In d dimensions. *)
Definition diffusion (d : nat) (kT m M a h : R) : R := kT * h / (2 * m) * (INR d * M / ((1 - cos a) * fluctuations M) - 1).
(** A simple fluid: all is positive, and the rotation is one. *)
Definition simple_fluid (kT m l M a h : R) : Prop := 0 < kT /\ 0 < m /\ 0 < l /\ 0 < M /\ 0 < h /\ cos a <> 1.

(** Python does not divide integers by integers with rounding: it is Python 3, or one of the
    numbers is a floating-point number. *)
Definition is_float (x : pynum) : Prop := match x with PFloat _ => True | PInt _ => False end.
Definition no_integer_division (python3 : bool) (xs : list pynum) : Prop := python3 = true \/ exists x, In x xs /\ is_float x.
(** The values given to the script, or the defaults it documents. *)
Definition given (o : option R) (default : R) : R := match o with Some r => r | None => default end.
