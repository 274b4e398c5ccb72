(** Iterators over every so many elements, StridedPointerIterator.hpp and StridedPointerIteratorRange.hpp: states, exceptions and comparisons on the host.
    Simplifications: addresses count elements and do not overflow; the null pointer is 0; the variants for const instances are the same functions,
    where dereferencing a const instance, l.142-150, is not modelled: it does not compile for most types, as it returns the pointer. *)
From Coq Require Import List Arith Bool.
From Verif Require Import PyBase.
Import ListNotations.

(** StridedPointerIterator.hpp l.283-284. *)
Record iter := Iter { current : nat; pastEnd : nat }.
(** The default constructor, StridedPointerIterator.hpp l.33-35. *)
Definition singular : iter := Iter 0 0.
(** The copy constructor, StridedPointerIterator.hpp l.52-55. *)
Definition copy (rhs : iter) : iter := Iter (current rhs) (pastEnd rhs).
(** StridedPointerIterator.hpp l.62-65. *)
Definition isSingular (it : iter) : bool := current it =? 0.
(** StridedPointerIterator.hpp l.72-80. *)
Definition isPastTheEnd (it : iter) : result bool :=
  if isSingular it then Err InvalidCallException else Ok (current it =? pastEnd it).
(** StridedPointerIterator.hpp l.86-95. *)
Definition isDereferenceable (it : iter) : result bool :=
  if isSingular it then Ok false else do b <- isPastTheEnd it; if b then Ok false else Ok true.
(** StridedPointerIterator.hpp l.101-104: the second operand is evaluated only if the first one is false. *)
Definition isValid (it : iter) : result bool := do b <- isDereferenceable it; if b then Ok true else isPastTheEnd it.
(** StridedPointerIterator.hpp l.110-119. *)
Definition isIncrementable (it : iter) : result bool :=
  if isSingular it then Ok false else do b <- isPastTheEnd it; if b then Ok false else Ok true.
(** StridedPointerIterator.hpp l.127-135, l.157-165: the address that is accessed. *)
Definition access (it : iter) : result nat := do b <- isDereferenceable it; if negb b then Err InvalidCallException else Ok (current it).
(** StridedPointerIterator.hpp l.194-200, l.219-225: the loop, with [n] passes left. *)
Fixpoint step (n c e : nat) : nat :=
  match n with O => c | S n => let c := c + 1 in if c =? e then c else step n c e end.
(** StridedPointerIterator.hpp l.187-203: the instance afterwards, which is also the result. *)
Definition pre_increment (stride : nat) (it : iter) : result iter :=
  do b <- isDereferenceable it;
  if negb b then Err InvalidCallException else Ok (Iter (step stride (current it) (pastEnd it)) (pastEnd it)).
(** StridedPointerIterator.hpp l.210-228: the result, and the instance afterwards. *)
Definition post_increment (stride : nat) (it : iter) : result (iter * iter) :=
  do b <- isDereferenceable it;
  if negb b then Err InvalidCallException
  else let ret := copy it in Ok (ret, Iter (step stride (current it) (pastEnd it)) (pastEnd it)).
(** StridedPointerIterator.hpp l.235-246: the instance afterwards. *)
Fixpoint advance (stride n : nat) (it : iter) : result iter :=
  match n with
  | O => Ok it
  | S n =>
    do it <- pre_increment stride it;
    do b <- isPastTheEnd it;
    if b then Ok it else advance stride n it
  end.
(** StridedPointerIterator.hpp l.255-263. *)
Definition equal (it rhs : iter) : result bool :=
  do b <- isValid it; if negb b then Err InvalidCallException else Ok (current it =? current rhs).
(** StridedPointerIterator.hpp l.272-280. *)
Definition unequal (it rhs : iter) : result bool :=
  do b <- isValid it; if negb b then Err InvalidCallException else Ok (negb (current it =? current rhs)).
(** StridedPointerIteratorRange.hpp l.31-34, l.54-55: the start and the end. *)
Definition range (start count : nat) : nat * nat := (start, start + count).
(** StridedPointerIteratorRange.hpp l.40-43. *)
Definition range_begin (r : nat * nat) : iter := Iter (fst r) (snd r).
(** StridedPointerIteratorRange.hpp l.48-51. *)
Definition range_end (r : nat * nat) : iter := Iter (snd r) (snd r).
(** A loop from [begin()] while it is unequal to [end()], which accesses elements and increments (StridedPointerIteratorRange.hpp l.40-51,
    StridedPointerIterator.hpp l.127-203), with at most [fuel] passes; addresses that are accessed. *)
Fixpoint loop (fuel stride : nat) (it last : iter) : result (list nat) :=
  match fuel with
  | O => Ok []
  | S fuel =>
    do b <- unequal it last;
    if negb b then Ok []
    else do a <- access it; do it <- pre_increment stride it; do l <- loop fuel stride it last; Ok (a :: l)
  end.
