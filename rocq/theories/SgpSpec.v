(** What plots of analyses of star polymers and the registry of analyses should be. *)
From Coq Require Import String List.
From Verif Require Import PyBase SgpModel.
Import ListNotations.
Open Scope string_scope.
Open Scope list_scope.

(** The points of a line. *)
Definition points {N} (l : line N) : list (N * value N) := combine (points_x N l) (points_y N l).
(** What one reads off a plot: labels with points. *)
Definition shown {N} (p : plot N) : list (string * list (N * value N)) := map (fun l => (label N l, points l)) (lines N p).
(** A vector at a time. *)
Definition vector_at {N} (e : N * (N * N * N)) : N * value N :=
  let '(t, (x, y, z)) := e in (t, Lst [Num x; Num y; Num z]).
(** Eigenvalues with angles at a time, in the order of the eigenvalues. *)
Definition angles_at {N} (e : N * ((N * N) * (N * N) * (N * N))) : N * value N :=
  let '(t, ((l0, a0), (l1, a1), (l2, a2))) := e in (t, Lst [Lst [Num l0; Num a0]; Lst [Num l1; Num a1]; Lst [Num l2; Num a2]]).
(** Analyses that give one number, with their names. *)
Definition scalar_name (c : analysis_class) : option string :=
  match c with
  | PotentialEnergy => Some "Potential Energy" | Acylindricity => Some "Acylindricity" | Asphericity => Some "Asphericity"
  | MagneticClusterCount => Some "Magnetic Cluster Count" | RadiusOfGyration => Some "Radius of Gyration"
  | RelativeShapeAnisotropy => Some "Relative Shape Anisotropy" | _ => None
  end.
(** Analyses that give vectors, with their names. *)
Definition vector_name (c : analysis_class) : option string :=
  match c with
  | EckartAngularVelocityVector => Some "Eckart Angular Velocity" | RotationFrequencyVector => Some "Rotation Frequency" | _ => None
  end.
(** Classes of a registry, by names. *)
Definition registered (r : list (string * object)) (name : string) : Prop := In name (map fst r).
