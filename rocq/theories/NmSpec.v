(** What the measurement of normal modes has to report. *)
From Coq Require Import List ZArith Reals.
From Verif Require Import VecBase VecSpec PartSpec.
Import ListNotations.
Open Scope R_scope.

(** The vector with index [n] of an array of coordinates. *)
Definition vector_at (x : Z -> R) (n : Z) : vec := Vec (x (3 * n)%Z) (x (3 * n + 1)%Z) (x (3 * n + 2)%Z).
(** The [i]-th normal coordinate of the vectors r_1, ..., r_N (NormalMode.hpp, documentation):
    1/N times the sum of cos (i pi (n + S) / N) r_n. *)
Definition normal_coordinate (N : nat) (shift : R) (r : nat -> vec) (i : nat) : vec :=
  times3 (/ INR N) (vsum (map (fun n => times3 (cos (INR i * PI * (INR n + shift) / INR N)) (r n)) (seq 1 N))).
(** The chain with index [c], of [N] particles, in an array of coordinates; numbered from 1. *)
Definition chain (N : nat) (x : Z -> R) (c : nat) : nat -> vec := fun n => vector_at x (Z.of_nat (N * c + n - 1)).
(** The mean over [C] chains of the scalar products of the normal coordinates at two times. *)
Definition mode_correlation (N C : nat) (shift : R) (i : nat) (x y : Z -> R) : R :=
  rsum (map (fun c => dot3 (normal_coordinate N shift (chain N x c) i) (normal_coordinate N shift (chain N y c) i)) (seq 0 C)) / INR C.
(** The coordinates [x] of [n] vectors are stored from address [b] on. *)
Definition stored (n : Z) (m : Z -> R) (b : Z) (x : Z -> R) : Prop := forall k, (0 <= k < 3 * n)%Z -> m (b + k)%Z = x k.
(** Ranges of addresses, given by first address and length, that do not overlap. *)
Definition disjoint (a n b k : Z) : Prop := (a + n <= b \/ b + k <= a)%Z.
