From Verif Require Import QcBase.
Set Implicit Arguments.

(** All products of data that are [N] steps apart, in order of time. *)
Definition lagged {A} (mul : A -> A -> Qc) (N : nat) (l : list A) : list Qc :=
  map (fun p => mul (fst p) (snd p)) (combine (skipn N l) l).
