(** Places of iterators in arrays. *)
From Coq Require Import List Arith.
From Verif Require Import SpiModel.
Import ListNotations.

(** At an element of an array that is not at the null pointer. *)
Definition inside (it : iter) : Prop := 0 < current it < pastEnd it.
(** Past the last element of such an array. *)
Definition at_end (it : iter) : Prop := 0 < current it /\ current it = pastEnd it.
(** Every [stride]-th element of an array with [count] elements. *)
Definition every_element (stride start count : nat) : list nat :=
  map (fun i => start + i) (filter (fun i => i mod stride =? 0) (seq 0 count)).
