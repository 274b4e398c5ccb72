(** Exceptions as values, shared by the models of the Python and C++ code. *)
Set Implicit Arguments.

(** The exception classes that the modelled functions raise. *)
Inductive exc :=
| ValueError | TypeError | KeyError | IndexError | RuntimeError
| AttributeError | AssertionError | PyException | ZeroDivisionError | OSError | StopIteration
| InvalidArgumentException | OutOfBoundsException | IOException | LogicError | RecursionError
| MalformedFileException | UnimplementedException | InvalidCallException | NULLPointerException
| NameError | InvalidConfigurationException.

Inductive result (A : Type) :=
| Ok (a : A)
| Err (e : exc).
Arguments Ok {A} _.
Arguments Err {A} _.

Definition bind {A B} (r : result A) (f : A -> result B) : result B :=
  match r with Ok a => f a | Err e => Err e end.
Notation "'do' x <- r ; k" := (bind r (fun x => k))
  (at level 200, x pattern, r at level 100, k at level 200, right associativity).

Definition is_ok {A} (r : result A) : bool :=
  match r with Ok _ => true | Err _ => false end.
