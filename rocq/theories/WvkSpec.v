(** What runs that are analysed together must have in common. *)
From Coq Require Import String List ZArith Reals.
From Verif Require Import PyBase VecModel TvcModel WvkModel.
Import ListNotations.
Open Scope list_scope.

(** Names that are sorted. *)
Fixpoint sorted_names (l : list string) : Prop :=
  match l with n :: (m :: _) as r => String.leb n m = true /\ sorted_names r | _ => True end.
(** The wave vector with as many waves in each direction of the box as told. *)
Definition fits (k n : vec) (b : box) : Prop :=
  let '(x, y, z) := b in (vx k * IZR x = 2 * PI * vx n)%R /\ (vy k * IZR y = 2 * PI * vy n)%R /\ (vz k * IZR z = 2 * PI * vz n)%R.
