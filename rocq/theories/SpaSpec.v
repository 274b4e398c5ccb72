(** What time series of star polymers are, independently of the code. *)
From Verif Require Import PyBase VecBase VecSpec PartModel PartSpec EckSpec.
From Coq Require Import Reals List Arith.
Import ListNotations.
Open Scope R_scope.

(** The times of [n] states that follow the warmup, a time step apart. *)
Definition sample_times (timestep : R) (warmupSteps : Z) (n : nat) : list R :=
  map (fun i => (IZR warmupSteps + INR i) * timestep) (seq 1 n).
(** The points of a snapshot. *)
Definition points (l : list (R * R * R)) : list vec := map (fun t => Vec (fst (fst t)) (snd (fst t)) (snd t)) l.
(** A collection of particles that are distinct objects, with the positions and velocities of a snapshot and some mass. *)
Definition snap (mass : R) (c : list (R * R * R) * list (R * R * R)) : coll :=
  Coll (fun i => nth i (points (fst c)) zero3) (seq 0 (length (fst c))) (fun i => nth i (points (snd c)) zero3) (seq 0 (length (snd c))) (Some mass) None.
(** The values that a measurement with a memory gives for one snapshot after the other, or the first exception. *)
Fixpoint measured {S_ V} (measure : S_ -> coll -> result (S_ * V)) (mass : R) (s : S_) (cs : list (list (R * R * R) * list (R * R * R))) : result (list V) :=
  match cs with
  | [] => Ok []
  | c :: cs => match measure s (snap mass c) with
               | Err e => Err e
               | Ok (s, v) => match measured measure mass s cs with Err e => Err e | Ok vs => Ok (v :: vs) end
               end
  end.
(** A snapshot of [n] particles with velocities. *)
Definition full_snapshot (n : Z) (c : list (R * R * R) * list (R * R * R)) : Prop :=
  fst c <> [] /\ length (snd c) = length (fst c) /\ Z.of_nat (length (fst c)) = n.
(** A routine that computes eigenvalues. *)
Definition finds_eigenvalues (eig : mat -> R * R * R) : Prop :=
  forall l T x y z, l <> [] -> (forall m n, (m < 3)%nat -> (n < 3)%nat -> mget T m n = gyr l m n) -> eig T = (x, y, z) ->
    eigenvalues (gyr_row l 0) (gyr_row l 1) (gyr_row l 2) x y z.
(** The principal moments of points. *)
Definition moments_of (l : list vec) (m : R * R * R) : Prop :=
  let '(x, y, z) := m in eigenvalues (gyr_row l 0) (gyr_row l 1) (gyr_row l 2) x y z /\ 0 <= x <= y /\ y <= z.
(** The moment of inertia tensor of points about their centre, as a map of angular velocities. *)
Definition inertia_map (mass : R) (l : list vec) (u : vec) : vec := times3 mass (vsum (map (fun p => cross3 p (cross3 u p)) (centered l))).
(** Every [every]-th number below [n]. *)
Definition multiples (every n : nat) : list nat := filter (fun i => Nat.eqb (i mod every) 0) (seq 0 n).
