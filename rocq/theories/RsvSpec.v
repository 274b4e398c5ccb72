(** What vectors that are stored elsewhere, and two-dimensional vectors, are meant to be. *)
From Coq Require Import List ZArith Bool Reals.
From Verif Require Import VecBase.
Import ListNotations.
Open Scope Z_scope.

(** The vector with number [i] in an array of coordinates that starts at [base]. *)
Definition vector_number (m : Z -> R) (base i : Z) : vec := Vec (m (base + 3 * i)) (m (base + 3 * i + 1)) (m (base + 3 * i + 2)).
(** Of the vectors in an array, the one with number [i] becomes [v], and no other one changes. *)
Definition vector_becomes (m m' : Z -> R) (base i : Z) (v : vec) : Prop :=
  forall j, vector_number m' base j = if Z.eq_dec j i then v else vector_number m base j.
(** The [D] elements from address [a] on. *)
Definition elements {V} (m : Z -> V) (a : Z) (D : nat) : list V := map (fun k => m (a + Z.of_nat k)) (seq 0 D).
(** The [D] elements from [a] on become [l], and no other ones change. *)
Definition only_elements {V} (m m' : Z -> V) (a : Z) (l : list V) : Prop :=
  elements m' a (length l) = l /\ forall c, c < a \/ a + Z.of_nat (length l) <= c -> m' c = m c.
(** Storing elements from the first to the last does not overwrite the ones that are still to be read. *)
Definition readable_in_order (D : nat) (destination source : Z) : Prop := destination <= source \/ source + Z.of_nat D <= destination.
(** A sum. *)
Definition total (l : list R) : R := fold_right Rplus 0%R l.
