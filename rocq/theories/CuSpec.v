(** What is asked of bit sets. *)
From Coq Require Import List ZArith Bool.
From Verif Require Import CuModel.
Import ListNotations.
Open Scope Z_scope.

(** The ways in which the actions of several threads can follow each other. *)
Inductive interleaving {A : Type} : list (list A) -> list A -> Prop :=
| interleaving_done ts : (forall t, In t ts -> t = []) -> interleaving ts []
| interleaving_step l a t r s : interleaving (l ++ t :: r) s -> interleaving (l ++ (a :: t) :: r) (a :: s).
(** Elements of 32 bits. *)
Definition words (f : Z -> Z) := forall i, 0 <= f i < 2 ^ 32.
Definition performed (f : Z -> Z) (s : list access) : Z -> Z := fold_left perform s f.
(** The calls of [set] of one thread, as pairs of bit and value. *)
Definition calls (sets : list (Z * bool)) : list access := flat_map (fun c => bitset_set (fst c) (snd c)) sets.
(** The value of a boolean variable after some assignments: that of the last one to it. *)
Fixpoint assigned (bit : Z) (sets : list (Z * bool)) (old : bool) : bool :=
  match sets with
  | [] => old
  | (b, v) :: sets => assigned bit sets (if b =? bit then v else old)
  end.
Definition accessed (a : access) : Z := match a with AtomicOr e _ => e | AtomicAnd e _ => e | Store e _ => e end.
