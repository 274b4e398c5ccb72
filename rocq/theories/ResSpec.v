(** What is expected of the management of resources. *)
From Coq Require Import List ZArith Bool.
From Verif Require Import ResModel.
Import ListNotations.
Open Scope Z_scope.

(** The CUDA runtime and other code behave: new allocations get addresses that are not in use, and
    what is allocated elsewhere is not what this manager has been given. *)
Definition honest (c : call) (m : manager) (r : runtime) : Prop :=
  match c with
  | Allocate _ _ (Some p) => p <> 0 /\ ~ In p (map fst (live r))
  | Elsewhere others => forall p, In p (map fst others) -> ~ In p (allocatedBuffers m)
  | _ => True
  end.
Fixpoint all_honest (debug : bool) (cs : list call) (m : manager) (r : runtime) : Prop :=
  match cs with
  | [] => True
  | c :: cs => honest c m r /\ (let '(m', r', _) := perform debug c m r in all_honest debug cs m' r')
  end.
(** The buffers that a program has obtained. *)
Definition obtained (os : list outcome) : list Z :=
  flat_map (fun o => match o with Pointer p => if Z.eqb p 0 then [] else [p] | _ => [] end) os.

(** A program creates objects with new numbers only. *)
Fixpoint fresh_ids (cs : list mpi_call) (used : list nat) : Prop :=
  match cs with
  | [] => True
  | New id _ :: cs | Copy id _ :: cs => ~ In id used /\ fresh_ids cs (id :: used)
  | _ :: cs => fresh_ids cs used
  end.
(** Neither copies nor insufficient thread support. *)
Definition plain_calls (cs : list mpi_call) : Prop := Forall (fun c => match c with Copy _ _ => False | New _ threads => threads = true | _ => True end) cs.
(** No calls other than creation and destruction. *)
Definition unused (cs : list mpi_call) : Prop := Forall (fun c => match c with Use _ => False | _ => True end) cs.
(** MPI has not been touched. *)
Definition untouched : mpi := Mpi false false 0 0 0.
(** MPI has been initialized by other code, and not finalized. *)
Definition running : mpi := Mpi true false 0 0 0.
(** Whether an object has been created, and whether the first one has been destroyed since. *)
Fixpoint created (cs : list mpi_call) : bool :=
  match cs with [] => false | New _ _ :: _ => true | _ :: cs => created cs end.
Fixpoint first_destroyed (cs : list mpi_call) : bool :=
  match cs with
  | [] => false
  | New id _ :: cs => existsb (fun c => match c with Delete id' => Nat.eqb id id' | _ => false end) cs
  | _ :: cs => first_destroyed cs
  end.
