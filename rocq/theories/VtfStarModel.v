(** Star polymers in snapshot files (src/OpenMPCD/CUDA/MPCSolute/StarPolymers.cu).
    Simplified: numbers of particles do not overflow; null pointers are left out. *)
From Verif Require Export VtfModel.
From Verif Require Import CuModel StarModel.
Open Scope string_scope.
Open Scope Z_scope.
Open Scope list_scope.

(** A loop whose body may throw (StarPolymers.cu l.515-555). *)
Fixpoint loop {A B} (f : B -> A -> result B) (l : list A) (b : B) : result B :=
  match l with [] => Ok b | a :: l' => do b' <- f b a; loop f l' b' end.

Section Star.
Variable F : Type.
Variable negative minus_one : F -> bool.
(** The radius -1. *)
Variable default_radius : F.
Variable s : StarModel.structure.

(** StarPolymers.cu l.484-512, l.606-627. *)
Definition type_string (t : ptype) : string :=
  match t with TCore => "Core" | TArm => "Arm" | TMagnetic => "Magnetic" end.
(** StarPolymers.cu l.484-512. *)
Definition declare_type (w : writer F) (count : Z) (t : ptype) : result (writer F * (Z * Z)) :=
  declareAtomsOf negative minus_one w count default_radius "" (type_string t).
(** StarPolymers.cu l.527-537. *)
Definition write_bead (core first : Z) (w : writer F) (k : Z) : result (writer F) :=
  if k =? 0 then declareBond w core first else declareBond w (first + k - 1) (first + k).
(** StarPolymers.cu l.520-554. *)
Definition write_arm (core : Z) (w : writer F) (arm : Z) : result (writer F) :=
  do (w1, ids) <- declare_type w (particleCountPerArm s) TArm;
  do w2 <- loop (write_bead core (fst ids)) (zrange (particleCountPerArm s)) w1;
  if hasMagneticParticles s then
    do (w3, ids') <- declare_type w2 1 TMagnetic;
    if particleCountPerArm s =? 0 then declareBond w3 core (fst ids')
    else declareBond w3 (fst ids' - 1) (fst ids')
  else Ok w2.
(** StarPolymers.cu l.515-555. *)
Definition write_star (w : writer F) (star : Z) : result (writer F) :=
  do (w1, ids) <- declare_type w 1 TCore;
  loop (write_arm (fst ids)) (zrange (armCountPerStar s)) w1.
(** StarPolymers.cu l.467-556, for an instance in write mode. *)
Definition writeStructureToSnapshot (w : writer F) : result (writer F) :=
  if w_processed w then Err InvalidArgumentException
  else loop write_star (zrange (starCount s)) w.

(** StarPolymers.cu l.604-628. *)
Fixpoint types_agree (r : VtfModel.structure F) (l : list Z) : result bool :=
  match l with
  | [] => Ok true
  | p :: l' =>
    do props <- getAtomProperties r p;
    if match p_type props with Some t => String.eqb t (type_string (getParticleType s p)) | None => false end
    then types_agree r l' else Ok false
  end.
(** StarPolymers.cu l.630-645; a bond that is undefined is an error of its own. *)
Fixpoint bonds_agree (r : VtfModel.structure F) (l : list (Z * Z)) : result bool :=
  match l with
  | [] => Ok true
  | (p1, p2) :: l' =>
    match particlesAreBonded s p1 p2 with
    | None => Err LogicError
    | Some b => do b' <- hasBond r p1 p2; if Bool.eqb b b' then bonds_agree r l' else Ok false
    end
  end.
(** StarPolymers.cu l.630-645: the pairs the loops visit. *)
Definition ordered_pairs (n : Z) : list (Z * Z) :=
  flat_map (fun p1 => map (fun k => (p1, p1 + 1 + k)) (zrange (n - (p1 + 1)))) (zrange n).
(** StarPolymers.cu l.592-648, for an instance in read mode. *)
Definition snapshotStructureIsCompatible (r : VtfModel.structure F) : result bool :=
  if negb (getNumberOfAtoms r =? getParticleCount s) then Ok false
  else
    do b <- types_agree r (zrange (getParticleCount s));
    if b then bonds_agree r (ordered_pairs (getParticleCount s)) else Ok false.
(** l.558-575; the positions and velocities of the particles. *)
Variable show : F -> string.
(** StarPolymers.cu l.558-575. *)
Definition writeStateToSnapshot (w : writer F) (positions velocities : Z -> F) : result (writer F) :=
  if negb (getNumberOfAtoms (w_structure w) =? getParticleCount s) then Err InvalidArgumentException
  else Ok (writeTimestepBlock show w positions (Some velocities)).
(** l.577-590: the rows of the timestep, if there is one; otherwise, the positions and
    velocities keep their values, which is not reported. *)
Variable cast : string -> option F.
(** StarPolymers.cu l.577-590. *)
Definition readStateFromSnapshot (r : VtfModel.structure F) (ls : list string)
  : result (option (list (list F)) * list string) :=
  do b <- snapshotStructureIsCompatible r;
  if b then readTimestepBlock cast (getNumberOfAtoms r) ls else Err InvalidArgumentException.
End Star.
Arguments writeStateToSnapshot {F}.
Arguments readStateFromSnapshot {F}.
Arguments declare_type {F}.
Arguments write_bead {F}.
Arguments write_arm {F}.
Arguments write_star {F}.
Arguments writeStructureToSnapshot {F}.
Arguments types_agree {F}.
Arguments bonds_agree {F}.
Arguments snapshotStructureIsCompatible {F}.
