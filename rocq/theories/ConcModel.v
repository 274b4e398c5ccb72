(** Concurrent additions on the device.
    Simplifications: exact real arithmetic; memory is sequentially consistent; the compare-
    and-swap compares numbers rather than bit patterns; the hardware's atomic operations
    are indivisible. *)
From Coq Require Import List ZArith Bool Reals.
From Verif Require Import VecBase VecModel SimModel.
Import ListNotations.
Open Scope R_scope.

(** Device arrays, and their elements (arrays of DeviceCode/Simulation.cu:117-162, 264-274). *)
Inductive array := MomentumX | MomentumY | MomentumZ | Masses | KineticEnergies | ParticleCounts | Forces.
(** DeviceCode/Simulation.cu:117-162: an element of an array. *)
Definition address := (array * Z)%type.
(** Comparison of pointers, Utilities.cu:3-19. *)
Definition address_eq_dec (a b : address) : {a = b} + {a <> b}.
Proof. decide equality; [apply Z.eq_dec|decide equality]. Defined.
(** The device memory that Utilities.cu:3-19 works on. *)
Definition memory := address -> R.
(** Assignment to an element, Utilities.cu:3-19. *)
Definition write (m : memory) (a : address) (v : R) : memory := fun b => if address_eq_dec b a then v else m b.
(** A pending call of [atomicAdd]: cudaDeviceCode/OpenMPCD/CUDA/DeviceCode/Utilities.cu:3-14
    for double (a loop), 16-19 for float, and CUDA's own for integers (hardware). *)
Inductive addition := Loop (a : address) (x : R) | Hardware (a : address) (x : R).
(** The state of a thread: what it still has to do, and the value of [old] if it is in the
    loop of the first of them (Utilities.cu:3-19). *)
Record thread := Thread { todo : list addition; old : option R }.
(** Utilities.cu:3-19: a thread before its first step. *)
Definition start (l : list addition) : thread := Thread l None.
(** One indivisible step of a thread. *)
Inductive thread_step : memory -> thread -> memory -> thread -> Prop :=
(* Utilities.cu:18, DeviceCode/Simulation.cu:274 *)
| step_hardware m a x r : thread_step m (Thread (Hardware a x :: r) None) (write m a (m a + x)) (Thread r None)
(* Utilities.cu:6: the first read *)
| step_read m a x r : thread_step m (Thread (Loop a x :: r) None) m (Thread (Loop a x :: r) (Some (m a)))
(* Utilities.cu:9-13: assumed = old; old = atomicCAS(address, assumed, increment + assumed);
   the swap took place, and the loop ends *)
| step_swapped m a x r o : m a = o -> thread_step m (Thread (Loop a x :: r) (Some o)) (write m a (x + o)) (Thread r None)
(* the swap did not take place, and the loop continues with the value found *)
| step_again m a x r o : m a <> o -> thread_step m (Thread (Loop a x :: r) (Some o)) m (Thread (Loop a x :: r) (Some (m a))).
(** Any thread may take the next step (the kernels of DeviceCode/Simulation.cu:117-162, 264-274). *)
Definition state := (memory * list thread)%type.
(** DeviceCode/Simulation.cu:117-162, 264-274: one step of one thread. *)
Inductive step : state -> state -> Prop :=
| step_thread m m' t t' l r : thread_step m t m' t' -> step (m, l ++ t :: r) (m', l ++ t' :: r).
(** DeviceCode/Simulation.cu:117-162, 264-274: any number of steps. *)
Inductive steps : nat -> state -> state -> Prop :=
| steps_none s : steps 0 s s
| steps_more n s s' s'' : step s s' -> steps n s' s'' -> steps (S n) s s''.

(** [double] is the type of the summands. *)
Definition atomicAdd (double : bool) (a : address) (x : R) : addition := if double then Loop a x else Hardware a x.
(* cudaDeviceCode/OpenMPCD/RemotelyStoredVector.cu:24-33: atomicAdd of a vector *)
Definition atomicAddMomentum (double : bool) (c : Z) (v : vec) : list addition :=
  [atomicAdd double (MomentumX, c) (vx v); atomicAdd double (MomentumY, c) (vy v); atomicAdd double (MomentumZ, c) (vz v)].
(* DeviceCode/Simulation.cu:117-162: collisionCellContributions, the thread of a particle *)
Definition contribution_thread (dv dm : bool) (mass : R) (p : part) : list addition :=
  atomicAddMomentum dv (p_idx p) (vscale mass (p_vel p)) ++ [atomicAdd dm (Masses, p_idx p) mass].
(* DeviceCode/Simulation.cu:264-274: the additions of the thread of a particle in
   collisionCellStochasticRotationStep1 *)
Definition step1_thread (d : bool) (PM : cells) (mass : R) (p : part) : list addition :=
  [atomicAdd d (KineticEnergies, p_idx p) (mass * vmag2 (vsub (p_vel p) (com_velocity PM (p_idx p))) / 2);
   Hardware (ParticleCounts, p_idx p) 1].
