(** Model of the random numbers with a gamma distribution, which set the kinetic energies in the
    thermostat.  Real numbers stand for floating-point numbers.  cuRAND is outside: a generator is
    any state with a function that draws a normally distributed number and one that draws a number
    from (0, 1].  The loops that repeat a draw are given a number of rounds; [None] is the result
    when they have not finished by then. *)
From Coq Require Import Reals.
Open Scope R_scope.

(** include/OpenMPCD/CUDA/Random/Generators/Philox4x32-10.hpp l.39-45,
    include/OpenMPCD/CUDA/Random/Distributions/StandardNormal.hpp l.52-57 and Uniform0e1i.hpp
    l.77-82: a generator, with what cuRAND draws from it. *)
Record generator (St : Type) := Generator {
  normal_double : St -> R * St;
  uniform_double : St -> R * St }.
Arguments normal_double {St} g s.
Arguments uniform_double {St} g s.

(** include/OpenMPCD/CUDA/Random/Distributions/Uniform0e1e.hpp l.40-55: operator(). *)
Fixpoint uniform0e1e {St} (g : generator St) (fuel : nat) (s : St) : option (R * St) :=
  match fuel with
  | O => None
  | S fuel => let '(value, s) := uniform_double g s in
    if Req_EM_T value 1 then uniform0e1e g fuel s else Some (value, s)
  end.

(** include/OpenMPCD/CUDA/Random/Distributions/Gamma_shape_ge_1.hpp l.127-132: the members. *)
Record gamma1 := Gamma1 { g_k : R; g_theta : R; g_d : R; g_c : R }.

(** include/OpenMPCD/CUDA/Random/Distributions/Gamma_shape_ge_1.hpp l.67-79: the constructor, as
    compiled without OPENMPCD_DEBUG. *)
Definition gamma1_make (shape scale : R) : gamma1 :=
  let d := shape - 1.0 / 3 in Gamma1 shape scale d (1 / sqrt (9 * d)).

(** include/OpenMPCD/CUDA/Random/Distributions/Gamma_shape_ge_1.hpp l.107-112: the inner loop. *)
Fixpoint gamma1_propose {St} (g : generator St) (o : gamma1) (fuel : nat) (s : St) : option (R * R * St) :=
  match fuel with
  | O => None
  | S fuel => let '(x, s) := normal_double g s in
    let v := 1 + g_c o * x in
    if Rle_dec v 0 then gamma1_propose g o fuel s else Some (x, v, s)
  end.

(** include/OpenMPCD/CUDA/Random/Distributions/Gamma_shape_ge_1.hpp l.96-125: operator(). *)
Fixpoint gamma1_draw {St} (g : generator St) (o : gamma1) (fuel : nat) (s : St) : option (R * St) :=
  match fuel with
  | O => None
  | S fuel' =>
    match gamma1_propose g o fuel s with
    | None => None
    | Some (x, v, s) =>
      let v := v * v * v in
      match uniform0e1e g fuel s with
      | None => None
      | Some (u, s) =>
        if Rlt_dec u (1 - 0.0331 * x * x * x * x) then Some (g_theta o * g_d o * v, s)
        else
          let criterion := 0.5 * x * x + g_d o * (1 - v + ln v) in
          if Rlt_dec (ln u) criterion then Some (g_theta o * g_d o * v, s)
          else gamma1_draw g o fuel' s
      end
    end
  end.

(** include/OpenMPCD/CUDA/Random/Distributions/Gamma.hpp l.104-111: the members. *)
Record gamma := Gamma { gg_ge_1 : gamma1; gg_inverse_k : R }.

(** include/OpenMPCD/CUDA/Random/Distributions/Gamma.hpp l.66-75: the constructor, as compiled
    without OPENMPCD_DEBUG. *)
Definition gamma_make (shape scale : R) : gamma :=
  Gamma (gamma1_make (if Rge_dec shape 1 then shape else 1 + shape) scale) (if Rge_dec shape 1 then 0 else 1 / shape).

(** include/OpenMPCD/CUDA/Random/Distributions/Gamma.hpp l.92-102: operator().  C++ leaves open
    which factor of l.101 is drawn first; here the gamma variate is. *)
Definition gamma_draw {St} (g : generator St) (o : gamma) (fuel : nat) (s : St) : option (R * St) :=
  if Req_EM_T (gg_inverse_k o) 0 then gamma1_draw g (gg_ge_1 o) fuel s
  else match gamma1_draw g (gg_ge_1 o) fuel s with
    | None => None
    | Some (y, s) =>
      match uniform0e1e g fuel s with
      | None => None
      | Some (u, s) => Some (y * Rpower u (gg_inverse_k o), s)
      end
    end.

(** cudaDeviceCode/OpenMPCD/CUDA/DeviceCode/Simulation.cu l.291-310:
    generateCollisionCellMBSFactors, for one cell with its own generator; [count] and [energy] are
    the entries of the cell in collisionCellParticleCounts and
    collisionCellFrameInternalKineticEnergies. *)
Definition mbs_factor {St} (g : generator St) (fuel : nat) (count : nat) (energy targetkT : R) (s : St) : option (R * St) :=
  if Nat.ltb count 2 then Some (1, s)
  else if Req_EM_T energy 0 then Some (1, s)
  else
    let fOver2 := 1.5 * INR (count - 1) in
    match gamma1_draw g (gamma1_make fOver2 targetkT) fuel s with
    | None => None
    | Some (y, s) => let alphaSquared := y / energy in Some (sqrt alphaSquared, s)
    end.
