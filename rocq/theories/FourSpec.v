(** Fourier transforms of velocities. *)
From Coq Require Import List ZArith Reals.
From Verif Require Import VecBase.
Import ListNotations.
Open Scope R_scope.

(** Some things with positions and velocities. *)
Definition bodies := list (vec * vec).
Definition total (f : vec * vec -> R) (l : bodies) : R := fold_right Rplus 0 (map f l).
Definition average (f : vec * vec -> R) (l : bodies) : R := total f l / INR (length l).
(** The phase of a plane wave at the position of a body. *)
Definition phase (k : vec) (b : vec * vec) : R := vx k * vx (fst b) + vy k * vy (fst b) + vz k * vz (fst b).
(** The mean of [exp (i k r) v]. *)
Definition mean_wave (k : vec) (l : bodies) : cvec :=
  let part (c : vec -> R) := Cplx (average (fun b => c (snd b) * cos (phase k b)) l) (average (fun b => c (snd b) * sin (phase k b)) l) in
  CVec (part vx) (part vy) (part vz).
(** Position and velocity of the centre of several bodies of the same mass. *)
Definition centre (l : bodies) : vec * vec :=
  (Vec (average (fun b => vx (fst b)) l) (average (fun b => vy (fst b)) l) (average (fun b => vz (fst b)) l),
   Vec (average (fun b => vx (snd b)) l) (average (fun b => vy (snd b)) l) (average (fun b => vz (snd b)) l)).
(** The particles in two arrays, the coordinates of each after each other. *)
Definition particle (positions velocities : Z -> R) (i : nat) : vec * vec :=
  let at_ (a : Z -> R) c := a (Z.of_nat (3 * i + c)) in
  (Vec (at_ positions 0%nat) (at_ positions 1%nat) (at_ positions 2%nat), Vec (at_ velocities 0%nat) (at_ velocities 1%nat) (at_ velocities 2%nat)).
(** Of [n] groups of [g] consecutive particles, the centres. *)
Definition centres (positions velocities : Z -> R) (g n : nat) : bodies :=
  map (fun j => centre (map (particle positions velocities) (seq (g * j) g))) (seq 0 n).
(** The position moved by whole numbers of box edges. *)
Definition moved (box : Z * Z * Z) (n : Z * Z * Z) (r : vec) : vec :=
  let '(x, y, z) := box in let '(a, b, c) := n in Vec (vx r + IZR (a * x)) (vy r + IZR (b * y)) (vz r + IZR (c * z)).
(** The wave vector with integer components: the waves that fit into the box. *)
Definition fitting (box n : Z * Z * Z) : vec :=
  let '(x, y, z) := box in let '(a, b, c) := n in Vec (2 * PI * IZR a / IZR x) (2 * PI * IZR b / IZR y) (2 * PI * IZR c / IZR z).
Definition conjugate (v : cvec) : cvec := CVec (Cplx (re (cvx v)) (- im (cvx v))) (Cplx (re (cvy v)) (- im (cvy v))) (Cplx (re (cvz v)) (- im (cvz v))).
Definition opposite (v : vec) : vec := Vec (- vx v) (- vy v) (- vz v).
