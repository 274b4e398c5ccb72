(** C137: iterators over every so many elements of an array. *)
From Coq Require Import List Arith Bool Lia.
From Verif Require Import PyBase SpiModel SpiSpec SpiProof.
Import ListNotations.

(** What iterators say of themselves. *)
Theorem iterator_states : forall it,
  (inside it -> isSingular it = false /\ isPastTheEnd it = Ok false /\ isDereferenceable it = Ok true /\ isValid it = Ok true /\ isIncrementable it = Ok true) /\
  (at_end it -> isSingular it = false /\ isPastTheEnd it = Ok true /\ isDereferenceable it = Ok false /\ isValid it = Ok true /\ isIncrementable it = Ok false) /\
  (isSingular singular = true /\ isPastTheEnd singular = Err InvalidCallException /\ isDereferenceable singular = Ok false /\ isIncrementable singular = Ok false).
Proof.
  intros it. repeat split; try (now apply inside_deref); try (now apply end_deref); apply not_singular; apply H.
Qed.
Print Assumptions iterator_states.
Example iterator_states_example : inside (Iter 3 7) /\ at_end (Iter 7 7).
Proof. unfold inside, at_end. cbn. lia. Qed.

(** Elements are accessed, and iterators moved, only inside of the array; moves end at its end. *)
Theorem iterator_moves : forall stride it, inside it ->
  access it = Ok (current it) /\
  pre_increment stride it = Ok (Iter (Nat.min (current it + stride) (pastEnd it)) (pastEnd it)) /\
  post_increment stride it = Ok (it, Iter (Nat.min (current it + stride) (pastEnd it)) (pastEnd it)) /\
  (0 < stride -> forall n, advance stride n it = Ok (Iter (Nat.min (current it + n * stride) (pastEnd it)) (pastEnd it))).
Proof.
  intros stride it H. destruct (inside_deref it H) as (_ & D & _). repeat split.
  - unfold access. now rewrite D.
  - now apply inside_step.
  - unfold post_increment. rewrite D. cbn. rewrite step_min by apply H. now destruct it.
  - intros P n. now apply advance_min.
Qed.
Print Assumptions iterator_moves.
Example iterator_moves_example : pre_increment 3 (Iter 5 7) = Ok (Iter 7 7) /\ advance 3 2 (Iter 5 20) = Ok (Iter 11 20).
Proof. split; reflexivity. Qed.
Theorem iterator_stays : forall stride n it, at_end it \/ it = singular ->
  access it = Err InvalidCallException /\ pre_increment stride it = Err InvalidCallException /\ post_increment stride it = Err InvalidCallException /\
  advance stride (S n) it = Err InvalidCallException.
Proof.
  intros stride n it H. assert (D : isDereferenceable it = Ok false) by (destruct H as [H| ->]; [now apply end_deref|reflexivity]).
  unfold access, post_increment. cbn [advance]. unfold pre_increment. rewrite D. repeat split.
Qed.
Print Assumptions iterator_stays.
Example iterator_stays_example : access (Iter 7 7) = Err InvalidCallException.
Proof. reflexivity. Qed.

(** Comparisons are those of addresses, whatever the ranges are. *)
Theorem iterator_compared : forall it rhs, inside it \/ at_end it ->
  exists b, equal it rhs = Ok b /\ unequal it rhs = Ok (negb b) /\ (b = true <-> current it = current rhs).
Proof.
  intros it rhs H. assert (V : isValid it = Ok true) by (destruct H as [H|H]; [now apply inside_deref|now apply end_deref]).
  exists (current it =? current rhs). unfold equal, unequal. rewrite V. repeat split; apply Nat.eqb_eq.
Qed.
Print Assumptions iterator_compared.
Example iterator_compared_example : equal (Iter 3 7) (Iter 3 9) = Ok true /\ unequal (Iter 3 7) (Iter 4 7) = Ok true.
Proof. split; reflexivity. Qed.

(** Loops over a range access every so many elements, from the first one on, and nothing else. *)
Theorem range_loop : forall stride start count fuel, 0 < stride -> 0 < start -> count < fuel ->
  loop fuel stride (range_begin (range start count)) (range_end (range start count)) = Ok (every_element stride start count).
Proof.
  intros stride start count fuel P N F. pose proof (loop_from stride start count fuel 0 P N) as H. cbn [Nat.mul] in H.
  rewrite Nat.sub_0_r, Nat.add_0_r in H. rewrite Nat.min_l in H by lia. now apply H.
Qed.
Print Assumptions range_loop.
Example range_loop_example : loop 9 3 (range_begin (range 5 8)) (range_end (range 5 8)) = Ok [5; 8; 11] /\ every_element 3 5 8 = [5; 8; 11].
Proof. split; reflexivity. Qed.

(** Not true: [isValid] tells that singular iterators are not valid, and comparisons do not depend on the order. *)
Theorem valid_refuted : isValid singular = Err InvalidCallException /\
  exists it, equal it singular = Ok false /\ equal singular it = Err InvalidCallException.
Proof. split; [reflexivity|]. exists (Iter 3 7). split; reflexivity. Qed.
Print Assumptions valid_refuted.
Example valid_refuted_example : equal singular singular = Err InvalidCallException.
Proof. reflexivity. Qed.
(** Not true: an iterator is advanced until the end is reached, if it is there already. *)
Theorem advance_refuted : forall stride n e, 0 < e -> advance stride (S n) (Iter e e) = Err InvalidCallException /\ advance stride 0 (Iter e e) = Ok (Iter e e).
Proof. intros stride n e P. split; [|reflexivity]. apply (iterator_stays stride n (Iter e e)). left. now split. Qed.
Print Assumptions advance_refuted.
Example advance_refuted_example : advance 2 1 (Iter 7 7) = Err InvalidCallException.
Proof. reflexivity. Qed.
(** Not true: one can loop over the empty range of a null pointer. *)
Theorem empty_range_refuted : forall stride fuel, loop (S fuel) stride (range_begin (range 0 0)) (range_end (range 0 0)) = Err InvalidCallException.
Proof. reflexivity. Qed.
Print Assumptions empty_range_refuted.
Example empty_range_refuted_example : loop 1 1 (range_begin (range 4 0)) (range_end (range 4 0)) = Ok [].
Proof. reflexivity. Qed.
