(** What is expected of copies. *)
From Coq Require Import List ZArith Bool.
From Verif Require Import CpyModel.
Import ListNotations.
Open Scope Z_scope.

(** The bytes are within one allocation on the device. *)
Definition device_region (m : machine) (p n : Z) : Prop := exists a l, In (a, l) (allocations m) /\ a <= p /\ p + n <= a + l.
(** The regions have no byte in common. *)
Definition apart (p q n : Z) : Prop := p + n <= q \/ q + n <= p.
(** Allocations are not at NULL. *)
Definition sane (m : machine) : Prop := forall a l, In (a, l) (allocations m) -> 0 < a.
(** The address is of no allocation on the device. *)
Definition not_on_device (m : machine) (p : Z) : Prop := forall a l, In (a, l) (allocations m) -> p < a \/ a + l <= p.
(** A pointer to host memory. *)
Definition host_pointer_to (m : machine) (p : Z) : Prop := p <> 0 /\ not_on_device m p.
(** It is of one. *)
Definition is_on_device (m : machine) (p : Z) : Prop := exists a l, In (a, l) (allocations m) /\ a <= p < a + l.
(** [n] bytes at [p] become those given; the rest of memory, allocations and errors stay as they are. *)
Definition changed (m m' : machine) (p n : Z) (f : Z -> Z) : Prop :=
  (forall i, 0 <= i < n -> byte m' (p + i) = f i) /\ (forall x, x < p \/ p + n <= x -> byte m' x = byte m x) /\
  allocations m' = allocations m /\ last m' = cudaSuccess.
(** Memory and allocations are the same, and there is no error left. *)
Definition untouched (m m' : machine) : Prop := byte m' = byte m /\ allocations m' = allocations m /\ last m' = cudaSuccess.
(** Number of bytes of that many elements. *)
Definition fits (size count : Z) : Prop := 0 < size /\ 0 < count /\ size * count < 2 ^ 64.
(** An example: allocations of 32 and 16 bytes. *)
Definition two_buffers : machine := Machine (fun x => x mod 256) [(1024, 32); (2048, 16)] cudaSuccess.
