(** What is asked of concurrent additions. *)
From Coq Require Import List ZArith Reals.
From Verif Require Import VecBase VecModel PartSpec SimModel ConcModel.
Import ListNotations.
Open Scope R_scope.

(** The sum of the numbers that are added to an address. *)
Definition target (x : addition) : address := match x with Loop a _ => a | Hardware a _ => a end.
Definition amount (x : addition) : R := match x with Loop _ v => v | Hardware _ v => v end.
Definition added (a : address) (l : list addition) : R :=
  rsum (map (fun x => if address_eq_dec (target x) a then amount x else 0) l).
(** All threads have finished. *)
Definition finished (ts : list thread) := forall t, In t ts -> todo t = [].
(** Cell properties in device memory. *)
Definition holds_cells (m : memory) (PM : cells) := forall c,
  m (MomentumX, c) = vx (fst PM c) /\ m (MomentumY, c) = vy (fst PM c) /\ m (MomentumZ, c) = vz (fst PM c) /\ m (Masses, c) = snd PM c.
Definition holds_energies (m : memory) (EN : energies) := forall c,
  m (KineticEnergies, c) = fst EN c /\ m (ParticleCounts, c) = INR (snd EN c).
