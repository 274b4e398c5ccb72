(** Specification of the initial positions and velocities of the particles of a fluid. *)
From Coq Require Import String.
From Coq Require Import Reals List ZArith.
From Verif Require Import VecBase VecSpec PartSpec CuModel InitModel.
Import ListNotations.
Open Scope R_scope.

(** The vectors in an array. *)
Definition vectors (m : memory) (n : Z) : list vec := map (vector_at m) (zrange n).
(** The [i]-th triple of a sequence of numbers. *)
Definition triple (drawn : Z -> R) (i : Z) : vec := Vec (drawn (3 * i)%Z) (drawn (3 * i + 1)%Z) (drawn (3 * i + 2)%Z).
Definition triples (drawn : Z -> R) (n : Z) : list vec := map (triple drawn) (zrange n).
(** Twice the kinetic energy of particles of mass 1. *)
Fixpoint squares (l : list vec) : R := match l with [] => 0 | v :: l => dot3 v v + squares l end.

Definition in_box (box : Z * Z * Z) (p : vec) : Prop :=
  let '(x, y, z) := box in 0 <= vx p < IZR x /\ 0 <= vy p < IZR y /\ 0 <= vz p < IZR z.
Definition in_interval (a b : R) : bool := if Rle_dec 0 a then if Rlt_dec a b then true else false else false.
(** The same, to be computed. *)
Definition in_boxb (box : Z * Z * Z) (p : vec) : bool :=
  let '(x, y, z) := box in in_interval (vx p) (IZR x) && in_interval (vy p) (IZR y) && in_interval (vz p) (IZR z).
Definition distance (a b : vec) : R := sqrt (dot3 (minus3 a b) (minus3 a b)).
Definition unit_interval (u : nat -> R) : Prop := forall n, 0 <= u n < 1.
(** The point of the box that three numbers stand for. *)
Definition point (u : nat -> R) (box : Z * Z * Z) (n : nat) : vec :=
  let '(x, y, z) := box in Vec (u n * IZR x) (u (n + 1)%nat * IZR y) (u (n + 2)%nat * IZR z).
(** The direction that two numbers stand for. *)
Definition towards (u : nat -> R) (n : nat) : vec := direction (2 * u n - 1) (2 * PI * u (n + 1)%nat).

(** Attempts to place a pair: each uses [width] numbers, and succeeds if the second particle, whose displacement is [shift], is in the box. *)
Definition attempts (n width N : nat) : list nat := map (fun k => n + width * k)%nat (seq 0 N).
Definition successes (u : nat -> R) (box : Z * Z * Z) (shift : nat -> vec) (n width N : nat) : list nat :=
  filter (fun k => in_boxb box (plus3 (point u box k) (shift (k + 3)%nat))) (attempts n width N).
(** The pairs are those of the successful attempts, in order; [N] attempts have been made. *)
Definition pairs_placed (u : nat -> R) (box : Z * Z * Z) (shift : nat -> vec) (n width : nat) (m : memory) (n' : nat) (pairs : Z) : Prop :=
  exists N, n' = (n + width * N)%nat /\ length (successes u box shift n width N) = Z.to_nat pairs
  /\ forall i k, nth_error (successes u box shift n width N) i = Some k ->
     vector_at m (2 * Z.of_nat i) = point u box k /\ vector_at m (2 * Z.of_nat i + 1) = plus3 (point u box k) (shift (k + 3)%nat).
(** The pairs are in the box, with a given distance. *)
Definition pairs_good (box : Z * Z * Z) (length_ : R) (m : memory) (pairs : Z) : Prop :=
  forall i, (0 <= i < pairs)%Z -> in_box box (vector_at m (2 * i)) /\ in_box box (vector_at m (2 * i + 1)) /\ distance (vector_at m (2 * i + 1)) (vector_at m (2 * i)) = length_.
(** The ratio of the Lagrangian multipliers with and without shear (Kowalik and Winkler, J. Chem. Phys. 138, 104903). *)
Definition multiplier_ratio (Wi mu : R) : Prop := mu * mu * mu - mu * mu = Wi * Wi / 6.
(** No dumbbells have been made before in the process. *)
Definition fresh : statics := Statics None None.
(** The displacement of the second particle of a dumbbell from the first, with the settings "relaxed" and "perfect": the latter is the vector of the root mean squares of the components in shear. *)
Definition relative (u : nat -> R) (mode : string) (len Wi mu : R) (k : nat) : vec :=
  if String.eqb mode "relaxed" then times3 len (towards u k)
  else let s := len * len / (3 * mu) in Vec (sqrt (s * (1 + Wi * Wi / (2 * mu * mu)))) (sqrt s) (sqrt s).
(** The numbers used by an attempt. *)
Definition mode_width (mode : string) : nat := if String.eqb mode "relaxed" then 5 else 3.
