(** What the measurement of mean square displacements has to report. *)
From Coq Require Import String.
From Verif Require Import QcBase PyBase AutocorrSpec VtfSpec.
Open Scope list_scope.
Open Scope Qc_scope.

(** The calls of [measure] that take a measurement: the first one, and then every [n]-th
    ([k] calls are passed over first). *)
Fixpoint thin {A} (n k : nat) (l : list A) : list A :=
  match l with
  | [] => []
  | x :: r => match k with O => x :: thin n (n - 1) r | S k' => thin n k' r end
  end.
Definition measured {A} (n : nat) (l : list A) : list A := thin n 0 l.

(** The mean, over [n] entities, of the squared distance between the positions in [a] and [b]. *)
Definition sqr (x : Qc) : Qc := x * x.
Definition mean_square_displacement (n : nat) (a b : nat -> Qc) : Qc :=
  qsum (map (fun e => qsum (map (fun i => sqr (a (3 * e + i)%nat - b (3 * e + i)%nat)) [0; 1; 2]%nat)) (seq 0 n)) / qn n.

(** The printed form of a number is not empty and free of white space, and is read as the number
    [rd] (the number itself, or what remains of it with finitely many digits). *)
Definition prints_as {F G} (show : F -> string) (float : string -> option G) (rd : F -> G) : Prop :=
  forall x, float (show x) = Some (rd x) /\ show x <> ""%string /\ VtfSpec.no_space (show x) = true.
