(** What fits and versions of the program have to do. *)
From Coq Require Import String List ZArith.
From Verif Require Import QcBase PyBase FitModel.
Import ListNotations.
Open Scope list_scope.

(** The bound of parameter [i], as asked for and as passed on; [None] means that there is none. *)
Definition asked {V} (b : bounds_arg V) (i : nat) : option V := match b with Bounds _ l => nth i l None | _ => None end.
Definition passed {V} (b : bound V) (i : nat) : option V := match b with Each _ l => nth i l None | Unbounded _ => None end.
(** Bounds are missing, or there is one for each of [n] parameters. *)
Definition proper_bounds {V} (n : nat) (b : bounds_arg V) : Prop := b = NoBounds V \/ exists l, b = Bounds V l /\ length l = n.
(** [n] parameters and an [n] by [n] matrix of covariances. *)
Definition shaped {V} (n : nat) (r : results V) : Prop := length (fst r) = n /\ length (snd r) = n /\ Forall (fun row => length row = n) (snd r).
(** All parameters are [a], all covariances are [c]. *)
Definition constant {V} (a c : V) (r : results V) : Prop := Forall (eq a) (fst r) /\ Forall (Forall (eq c)) (snd r).
(** [b] is the first among those elements of [l] for which [m] is smallest. *)
Definition first_smallest {A} (m : A -> Qc) (l : list A) (b : A) : Prop :=
  exists l1 l2, l = l1 ++ b :: l2 /\ Forall (fun x => (m b < m x)%Qc) l1 /\ Forall (fun x => (m b <= m x)%Qc) l2.

(** [b] is [a], or an ancestor of [a]. *)
Inductive history (parents : string -> list string) (a : string) : string -> Prop :=
| history_self : history parents a a
| history_parent b c : history parents a b -> In c (parents b) -> history parents a c.
(** [s] ends in [x]. *)
Definition ends_in (s x : string) : Prop := exists r, s = (r ++ x)%string.
