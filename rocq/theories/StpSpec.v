(** Specification of star polymers that are made from settings: which settings there are to be, and what they mean. *)
From Verif Require Import PyBase StrBase CfgModel CfgSpec CfgSimSpec.
From Verif Require Import VecModel.
From Verif Require StarModel StarSpec.
From Coq Require Import Reals.
Open Scope list_scope.
Open Scope Z_scope.

Section Spec.
Context {F : Type} (value : F -> R) (one : F) (neg : Z -> option Z) (debug : bool).
Variable root : setting F.
(** A value for each type of particles. *)
Definition per_type (core arm magnetic : F) (t : StarModel.ptype) : R :=
  match t with StarModel.TCore => value core | StarModel.TArm => value arm | StarModel.TMagnetic => value magnetic end.
(** The size of the time steps, which is positive. *)
Definition timestep_given (dt : F) : Prop := float_at root ["mdTimeStepSize"%string] dt /\ (0 < value dt)%R.
Definition structure_given (s : StarModel.structure) : Prop :=
  unsigned_at neg root ["structure"; "starCount"]%string (StarModel.starCount s)
  /\ unsigned_at neg root ["structure"; "armCountPerStar"]%string (StarModel.armCountPerStar s)
  /\ unsigned_at neg root ["structure"; "armParticlesPerArm"]%string (StarModel.particleCountPerArm s)
  /\ bool_at root ["structure"; "hasMagneticParticles"]%string (StarModel.hasMagneticParticles s).
(** The mass is one if it is not given. *)
Definition mass_given (m : F) : Prop :=
  float_at root ["structure"; "particleMass"]%string m \/ absent root ["structure"; "particleMass"]%string /\ m = one.
(** The direction of the dipoles: the first three elements of an array or of a list. Without checks, a group will do as well. *)
Definition direction (s : setting F) (v : vec) : Prop :=
  exists x y z rest, v = Vec (value x) (value y) (value z)
  /\ let items := Scalar (VFloat x) :: Scalar (VFloat y) :: Scalar (VFloat z) :: rest in
     s = Listing items \/ s = Arr items \/ debug = false /\ exists m, s = Group m /\ map snd m = items.
Definition direction_given (o : option vec) : Prop :=
  match o with
  | None => absent root ["interactionParameters"; "dipoleOrientation"]%string
  | Some v => exists s, reaches root ["interactionParameters"; "dipoleOrientation"]%string s /\ direction s v
  end.
Definition parameters_given (p : StarModel.parameters) : Prop :=
  exists eC eA eM sC sA sM dC dA dM mu o,
    p = StarModel.Parameters (per_type eC eA eM) (per_type sC sA sM) (per_type dC dA dM) (value mu) o
    /\ float_at root ["interactionParameters"; "epsilon_core"]%string eC
    /\ float_at root ["interactionParameters"; "epsilon_arm"]%string eA
    /\ float_at root ["interactionParameters"; "epsilon_magnetic"]%string eM
    /\ float_at root ["interactionParameters"; "sigma_core"]%string sC
    /\ float_at root ["interactionParameters"; "sigma_arm"]%string sA
    /\ float_at root ["interactionParameters"; "sigma_magnetic"]%string sM
    /\ float_at root ["interactionParameters"; "D_core"]%string dC
    /\ float_at root ["interactionParameters"; "D_arm"]%string dA
    /\ float_at root ["interactionParameters"; "D_magnetic"]%string dM
    /\ float_at root ["interactionParameters"; "magneticPrefactor"]%string mu
    /\ direction_given o.
(** All settings but the one for the initial state. *)
Definition settings_given (dt : F) (s : StarModel.structure) (m : F) (p : StarModel.parameters) : Prop :=
  timestep_given dt /\ structure_given s /\ mass_given m /\ parameters_given p.
(** The file the initial state is taken from, if there is one. *)
Definition start_given (path : option string) : Prop :=
  match path with Some x => text_at root ["initialState"%string] x | None => absent root ["initialState"%string] end.
End Spec.

(** The components of a vector. *)
Definition component (v : vec) (k : Z) : R := nth (Z.to_nat k) [vx v; vy v; vz v] 0%R.
(** Settings for a star with two arms of one particle each, with parts to be added. *)
Definition sample {F} (one_ two : F) (stars : Z) (interactions more : list (string * setting F)) : setting F :=
  Group (app [("mdTimeStepSize", Scalar (VFloat one_));
          ("structure", Group [("starCount", Scalar (VInt stars)); ("armCountPerStar", Scalar (VInt 2)); ("armParticlesPerArm", Scalar (VInt 1));
                               ("hasMagneticParticles", Scalar (VBool false))]);
          ("interactionParameters", Group (app [("epsilon_core", Scalar (VFloat two)); ("epsilon_arm", Scalar (VFloat one_)); ("epsilon_magnetic", Scalar (VFloat one_));
                               ("sigma_core", Scalar (VFloat two)); ("sigma_arm", Scalar (VFloat one_)); ("sigma_magnetic", Scalar (VFloat one_));
                               ("D_core", Scalar (VFloat two)); ("D_arm", Scalar (VFloat one_)); ("D_magnetic", Scalar (VFloat one_));
                               ("magneticPrefactor", Scalar (VFloat two))] interactions))] more)%string.
