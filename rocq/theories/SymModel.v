(** Constant symbols on the device: the functions that set them.
    Simplifications: real numbers are exact; which copies to the device fail is an input; a copy that fails leaves the symbol as it is. *)
From Coq Require Import List ZArith Bool Reals.
From Verif Require Import CuModel.
Import ListNotations.
Open Scope Z_scope.

(** Symbols that are unsigned integers: src/OpenMPCD/CUDA/DeviceCode/Symbols.cu l.17-21, src/OpenMPCD/CUDA/MPCFluid/DeviceCode/Symbols.cu l.12,
    cudaDeviceCode/OpenMPCD/CUDA/MPCSolute/DeviceCode/Symbols.cu l.17. *)
Inductive int_symbol := mpcSimulationBoxSizeX | mpcSimulationBoxSizeY | mpcSimulationBoxSizeZ | collisionCellCount | mpcParticleCount | soluteParticleCount.
(** Symbols that are real numbers: src/OpenMPCD/CUDA/DeviceCode/Symbols.cu l.23-25, src/OpenMPCD/CUDA/MPCFluid/DeviceCode/Symbols.cu l.14-16,
    cudaDeviceCode/OpenMPCD/CUDA/DeviceCode/LeesEdwardsBoundaryConditions.cu l.7. *)
Inductive real_symbol := streamingTimestep | srdCollisionAngle | omega | cos_omegaTimesTimestep | sin_omegaTimesTimestep | leesEdwardsRelativeLayerVelocity.
(** Which symbols are the same (src/OpenMPCD/CUDA/DeviceCode/Symbols.cu l.17-21). *)
Definition int_symbol_eq_dec (a b : int_symbol) : {a = b} + {a <> b}.
Proof. decide equality. Defined.
(** Which symbols are the same (src/OpenMPCD/CUDA/DeviceCode/Symbols.cu l.23-25). *)
Definition real_symbol_eq_dec (a b : real_symbol) : {a = b} + {a <> b}.
Proof. decide equality. Defined.
(** The symbols, whether an error is pending, and which of the next copies fail; those after them succeed
    (src/OpenMPCD/CUDA/DeviceCode/Symbols.cu l.41-50). *)
Record device := Device { ints : int_symbol -> Z; reals : real_symbol -> R; pending : bool; failures : list bool }.
(** src/OpenMPCD/CUDA/DeviceCode/Symbols.cu l.34, CUDA/Macros.hpp l.96. *)
Inductive exception := InvalidArgumentException | CUDAException.
(** What a call does (src/OpenMPCD/CUDA/DeviceCode/Symbols.cu l.28-69): the state afterwards, and the exception, if any. *)
Definition call : Type := device -> device * option exception.
(** One statement after another (src/OpenMPCD/CUDA/DeviceCode/Symbols.cu l.41-50). *)
Definition seqc (a b : call) : call := fun d => match a d with (d, None) => b d | (d, Some e) => (d, Some e) end.
(** CUDA/Macros.hpp l.96: the error is forgotten. *)
Definition throw_on_error : call :=
  fun d => (Device (ints d) (reals d) false (failures d), if pending d then Some CUDAException else None).
(** Whether the next copy fails (src/OpenMPCD/CUDA/DeviceCode/Symbols.cu l.41). *)
Definition next_fails (d : device) : bool := hd false (failures d).
(** [cudaMemcpyToSymbol], src/OpenMPCD/CUDA/DeviceCode/Symbols.cu l.41. *)
Definition copy_int (s : int_symbol) (v : Z) : call :=
  fun d =>
    if next_fails d then (Device (ints d) (reals d) true (tl (failures d)), None)
    else (Device (fun t => if int_symbol_eq_dec t s then v else ints d t) (reals d) (pending d) (tl (failures d)), None).
(** [cudaMemcpyToSymbol], src/OpenMPCD/CUDA/DeviceCode/Symbols.cu l.60. *)
Definition copy_real (s : real_symbol) (v : R) : call :=
  fun d =>
    if next_fails d then (Device (ints d) (reals d) true (tl (failures d)), None)
    else (Device (ints d) (fun t => if real_symbol_eq_dec t s then v else reals d t) (pending d) (tl (failures d)), None).
(** A copy, and the check for errors (src/OpenMPCD/CUDA/DeviceCode/Symbols.cu l.41-42). *)
Definition set_int (s : int_symbol) (v : Z) : call := seqc (copy_int s v) throw_on_error.
(** A copy, and the check for errors (src/OpenMPCD/CUDA/DeviceCode/Symbols.cu l.60-61). *)
Definition set_real (s : real_symbol) (v : R) : call := seqc (copy_real s v) throw_on_error.
(** src/OpenMPCD/CUDA/DeviceCode/Symbols.cu l.28-51. *)
Definition setSimulationBoxSizeSymbols (debug : bool) (x y z : Z) : call :=
  fun d =>
    if debug && ((x =? 0) || (y =? 0) || (z =? 0)) then (d, Some InvalidArgumentException)
    else
      seqc (set_int mpcSimulationBoxSizeX x) (seqc (set_int mpcSimulationBoxSizeY y) (seqc (set_int mpcSimulationBoxSizeZ z)
        (set_int collisionCellCount (u32 (u32 (x * y) * z))))) d.
(** src/OpenMPCD/CUDA/DeviceCode/Symbols.cu l.53-62. *)
Definition setMPCStreamingTimestep (debug : bool) (timestep : R) : call :=
  fun d => if debug && (if Req_EM_T timestep 0 then true else false) then (d, Some InvalidArgumentException) else set_real streamingTimestep timestep d.
(** src/OpenMPCD/CUDA/DeviceCode/Symbols.cu l.65-69. *)
Definition setSRDCollisionAngleSymbol (angle : R) : call := set_real srdCollisionAngle angle.
(** cudaDeviceCode/OpenMPCD/CUDA/MPCFluid/DeviceCode/Base.cu l.8-12. *)
Definition setMPCParticleCountSymbol (count : Z) : call := set_int mpcParticleCount count.
(** cudaDeviceCode/OpenMPCD/CUDA/MPCSolute/DeviceCode/Base.cu l.6-10. *)
Definition setSoluteParticleCountSymbol (count : Z) : call := set_int soluteParticleCount count.
(** cudaDeviceCode/OpenMPCD/CUDA/DeviceCode/LeesEdwardsBoundaryConditions.cu l.9-15. *)
Definition setLeesEdwardsSymbols (shearRate : R) (simBoxY : Z) : call := set_real leesEdwardsRelativeLayerVelocity (shearRate * IZR simBoxY).
(** cudaDeviceCode/OpenMPCD/CUDA/MPCFluid/DeviceCode/GaussianDumbbells.cu l.10-24. *)
Definition setGaussianDumbbellSymbols (omega_ timestep : R) : call :=
  seqc (set_real omega omega_)
    (seqc (set_real cos_omegaTimesTimestep (cos (omega_ * timestep))) (set_real sin_omegaTimesTimestep (sin (omega_ * timestep)))).
