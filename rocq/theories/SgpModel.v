(** Plots of analyses of star polymers, and the registry of analyses.
    Simplifications: a plot is its lines with their labels, the title and the labels of the axes; how it is drawn is not modelled;
    matplotlib keeps the points it is given. *)
From Coq Require Import String List Bool.
From Verif Require Import PyBase.
Import ListNotations.
Open Scope string_scope.
Open Scope list_scope.

(** The classes of StarPolymersAnalysis/__init__.py l.3-12. *)
Inductive analysis_class :=
| PotentialEnergy | Acylindricity | Asphericity | EckartAngularVelocityVector | GyrationTensor | MagneticClusterCount | OrientationAngles
| RadiusOfGyration | RelativeShapeAnisotropy | RotationFrequencyVector.
(** The names of the classes, StarPolymersAnalysis/__init__.py l.3-12. *)
Definition class_name (c : analysis_class) : string :=
  match c with
  | PotentialEnergy => "PotentialEnergy" | Acylindricity => "Acylindricity" | Asphericity => "Asphericity"
  | EckartAngularVelocityVector => "EckartAngularVelocityVector" | GyrationTensor => "GyrationTensor"
  | MagneticClusterCount => "MagneticClusterCount" | OrientationAngles => "OrientationAngles" | RadiusOfGyration => "RadiusOfGyration"
  | RelativeShapeAnisotropy => "RelativeShapeAnisotropy" | RotationFrequencyVector => "RotationFrequencyVector"
  end.
(** [_getCacheFilename]: Acylindricity.py l.82-87, Asphericity.py l.82-87, EckartAngularVelocityVector.py l.99-104, GyrationTensor.py l.66-71,
    MagneticClusterCount.py l.87-92, OrientationAngles.py l.96-101, StarPolymersAnalysis/PotentialEnergy.py l.87-92, RadiusOfGyration.py l.82-87,
    RelativeShapeAnisotropy.py l.82-87, RotationFrequencyVector.py l.95-100. *)
Definition cache_filename (c : analysis_class) : string :=
  match c with
  | PotentialEnergy => "potentialEnergy.txt" | Acylindricity => "acylindricity.txt" | Asphericity => "asphericity.txt"
  | EckartAngularVelocityVector => "eckartAngularVelocityVectors.txt" | GyrationTensor => "gyrationTensor.txt"
  | MagneticClusterCount => "magneticClusterCount.txt" | OrientationAngles => "orientationAngles.txt" | RadiusOfGyration => "radiusOfGyration.txt"
  | RelativeShapeAnisotropy => "relativeShapeAnisotropy.txt" | RotationFrequencyVector => "rotationFrequencies.txt"
  end.

Section Numbers.
(** Numbers (OrientationAngles.py l.36-39). *)
Variable N : Type.
(** What analyses give: numbers or lists (OrientationAngles.py l.36-39). *)
Inductive value := Num (x : N) | Lst (l : list value).
(** [v[i]], OrientationAngles.py l.39. *)
Definition item (v : value) (i : nat) : result value :=
  match v with Num _ => Err TypeError | Lst l => match nth_error l i with Some x => Ok x | None => Err IndexError end end.
(** A line with its label, OrientationAngles.py l.41-43, l.53. *)
Record line := Line { points_x : list N; points_y : list value; label : string }.
(** A plot, OrientationAngles.py l.30-59. *)
Record plot := Plot { lines : list line; title : string; xlabel : string; ylabel : string }.
(** [axes.plot], OrientationAngles.py l.41: the numbers of points must agree. *)
Definition plot_line (xs : list N) (ys : list value) (l : string) : result line :=
  if Nat.eqb (List.length xs) (List.length ys) then Ok (Line xs ys l) else Err ValueError.
(** RadiusOfGyration.py l.19-45, and the same in Acylindricity.py l.19-45, Asphericity.py l.19-45, MagneticClusterCount.py l.19-44,
    StarPolymersAnalysis/PotentialEnergy.py l.19-45, RelativeShapeAnisotropy.py l.19-45. *)
Definition plot_scalar (l t y : string) (data : list (N * value)) : result plot :=
  do ln <- plot_line (map fst data) (map snd data) l; Ok (Plot [ln] t "Simulation Time t" y).
(** OrientationAngles.py l.37-39, RotationFrequencyVector.py l.36-38, EckartAngularVelocityVector.py l.37-39: the loop over the values; [pick]
    is what is appended. *)
Fixpoint components (pick : value -> nat -> result value) (data : list value) (a0 a1 a2 : list value) : result (list value * list value * list value) :=
  match data with
  | [] => Ok (a0, a1, a2)
  | datum :: data =>
    do x <- pick datum 0; do y <- pick datum 1; do z <- pick datum 2;
    components pick data (a0 ++ [x]) (a1 ++ [y]) (a2 ++ [z])
  end.
(** OrientationAngles.py l.30-59, RotationFrequencyVector.py l.29-58, EckartAngularVelocityVector.py l.30-59. *)
Definition plot_three (pick : value -> nat -> result value) (l0 l1 l2 t y : string) (data : list (N * value)) : result plot :=
  do c <- components pick (map snd data) [] [] [];
  let '(a0, a1, a2) := c in
  do ln0 <- plot_line (map fst data) a0 l0;
  do ln1 <- plot_line (map fst data) a1 l1;
  do ln2 <- plot_line (map fst data) a2 l2;
  Ok (Plot [ln0; ln1; ln2] t "Simulation Time t" y).
(** OrientationAngles.py l.39: the angle of a pair of eigenvalue and angle. *)
Definition second_of (v : value) (i : nat) : result value := do p <- item v i; item p 1.
(** [getMPLAxesForValueAsFunctionOfTime] of each class, for what [getValueAsFunctionOfTime] gives: OrientationAngles.py l.20-59,
    RotationFrequencyVector.py l.19-58, EckartAngularVelocityVector.py l.20-59, RadiusOfGyration.py l.19-45, and the other classes; there
    is no such function in GyrationTensor.py l.1-95, nor in StarPolymersAnalysis/Base.py l.1-187. *)
Definition getMPLAxesForValueAsFunctionOfTime (c : analysis_class) (data : list (N * value)) : result plot :=
  match c with
  | PotentialEnergy => plot_scalar "Potential Energy" "Star Polymer Potential Energy" "Potential Energy" data
  | Acylindricity => plot_scalar "Acylindricity" "Star Polymer Acylindricity" "Acylindricity" data
  | Asphericity => plot_scalar "Asphericity" "Star Polymer Asphericity" "Asphericity" data
  | MagneticClusterCount => plot_scalar "Magnetic Cluster Count" "Magnetic Cluster Count" "Magnetic Cluster Count" data
  | RadiusOfGyration => plot_scalar "Radius of Gyration" "Star Polymer Radius of Gyration" "Radius of Gyration" data
  | RelativeShapeAnisotropy => plot_scalar "Relative Shape Anisotropy" "Star Polymer Relative Shape Anisotropy" "Relative Shape Anisotropy" data
  | EckartAngularVelocityVector =>
    plot_three item "Eckart Angular Velocity: x Component" "Eckart Angular Velocity: y Component" "Eckart Angular Velocity: z Component"
      "Star Polymer Eckart Angular Velocity" "Eckart Angular Velocity [rad/T]" data
  | RotationFrequencyVector =>
    plot_three item "Rotation Frequency: x Component" "Rotation Frequency: y Component" "Rotation Frequency: z Component"
      "Star Polymer Rotation Frequency" "Rotation Frequency [rad/T]" data
  | OrientationAngles =>
    plot_three second_of "Orientation Angle: Smallest Eigenvalue" "Orientation Angle: Middle Eigenvalue" "Orientation Angle: Largest Eigenvalue"
      "Star Polymer Orientation Angles" "Orientation Angles [rad]" data
  | GyrationTensor => Err AttributeError
  end.
End Numbers.
Arguments Num {N} x.
Arguments Lst {N} l.

(** An object that is to be registered: a class with its name, or something else (Registry.py l.32-33). *)
Inductive object := Class (name : string) (id : nat) | NoClass.
(** Registry.py l.23-38: the classes by names, in order. *)
Definition register (registry : list (string * object)) (cls : object) : result (list (string * object)) :=
  match cls with
  | NoClass => Err ValueError
  | Class name _ => if existsb (fun e => String.eqb (fst e) name) registry then Err ValueError else Ok (registry ++ [(name, cls)])
  end.
(** One after another (StarPolymersAnalysis/__init__.py l.14-23). *)
Fixpoint register_all (registry : list (string * object)) (l : list object) : result (list (string * object)) :=
  match l with [] => Ok registry | c :: l => do registry <- register registry c; register_all registry l end.
(** The classes in the order of StarPolymersAnalysis/__init__.py l.14-23. *)
Definition to_register : list analysis_class :=
  [PotentialEnergy; Acylindricity; Asphericity; EckartAngularVelocityVector; GyrationTensor; MagneticClusterCount; OrientationAngles;
   RadiusOfGyration; RelativeShapeAnisotropy; RotationFrequencyVector].
(** Numbers for classes (StarPolymersAnalysis/__init__.py l.3-12). *)
Definition class_id (c : analysis_class) : nat :=
  match c with
  | PotentialEnergy => 0 | Acylindricity => 1 | Asphericity => 2 | EckartAngularVelocityVector => 3 | GyrationTensor => 4
  | MagneticClusterCount => 5 | OrientationAngles => 6 | RadiusOfGyration => 7 | RelativeShapeAnisotropy => 8 | RotationFrequencyVector => 9
  end.
(** The registry after the package was imported (StarPolymersAnalysis/__init__.py l.14-23, Registry.py l.19-20, l.49). *)
Definition getRegisteredClasses : result (list (string * object)) :=
  register_all [] (map (fun c => Class (class_name c) (class_id c)) to_register).
(** Registry.py l.9-20: a new registry, if there is none yet. *)
Definition new_registry (registry : option (list (string * object))) : result (list (string * object)) :=
  match registry with Some _ => Err PyException | None => Ok [] end.
(** starPolymersAnalysisGUI.py l.29-39: the analyses that are shown. *)
Definition gui_plots : list analysis_class :=
  [PotentialEnergy; Acylindricity; Asphericity; MagneticClusterCount; OrientationAngles; RadiusOfGyration; RelativeShapeAnisotropy; RotationFrequencyVector].
