(** What the measurements of the bonds of a fluid's molecules have to record. *)
From Coq Require Import List ZArith Bool Reals String.
From Verif Require Import QcBase PyBase VecBase VecSpec PartSpec OtfsSpec DddaModel DddaSpec ChainModel.
Import ListNotations.
Open Scope R_scope.
Open Scope list_scope.

(** The values recorded in a file, in order. *)
Definition recorded (name : string) (l : list (string * R)) : list R :=
  map snd (filter (fun p => String.eqb (fst p) name) l).
(** The vector from particle [k] to particle [k + 1] of molecule [i], for molecules of [m] particles. *)
Definition bond (x : nat -> vec) (m k i : nat) : vec :=
  minus3 (x (m * i + k + 1)%nat) (x (m * i + k)%nat).
(** The directory for the results about the first (0) or the second (1) bond of trimers. *)
Definition bond_dir (k : nat) : string := if Nat.eqb k 0 then "harmonicTrimers/bond1/" else "harmonicTrimers/bond2/".
(** A value for each of [N] molecules, in order. *)
Definition each (N : nat) (f : nat -> R) : list R := map f (seq 0 N).
(** [a] is the angle between [b] and the x axis. *)
Definition angle_to_x (b : vec) (a : R) : Prop :=
  0 <= a <= PI /\ cos a * sqrt (dot3 b b) = vx b.
(** The projection to the plane of x and y. *)
Definition onto_xy (b : vec) : vec := Vec (vx b) (vy b) 0.
(** The arithmetic mean. *)
Definition average (l : list R) : R := rsum l / INR (List.length l).
(** The centre of the three particles of molecule [i]. *)
Definition centre3 (x : nat -> vec) (i : nat) : vec :=
  times3 (1 / 3) (plus3 (plus3 (x (3 * i)%nat) (x (3 * i + 1)%nat)) (x (3 * i + 2)%nat)).

(** [l] starts at measurement [i], and each further entry is the first measurement that is at least [T] later than the one before;
    no such measurement exists for the last entry. [t] gives the times of the measurements [0 .. n - 1]. *)
Inductive waits (t : nat -> R) (n : nat) (T : R) : nat -> list nat -> Prop :=
| waits_end i : (forall j, (i < j < n)%nat -> t j - t i < T) -> waits t n T i [i]
| waits_next i j l : (i < j < n)%nat -> T <= t j - t i -> (forall k, (i < k < j)%nat -> t k - t i < T) ->
    waits t n T j l -> waits t n T i (i :: l).
(** Neighbours in a list. *)
Fixpoint neighbours {A} (l : list A) : list (A * A) :=
  match l with
  | a :: (b :: _) as l' => (a, b) :: neighbours l'
  | _ => []
  end.
(** Mean square displacement between two measurements, divided by six times the time in between. *)
Definition einstein (N : nat) (t : nat -> R) (c : nat -> nat -> vec) (p : nat * nat) : R :=
  let (a, b) := p in
  average (each N (fun i => let d := minus3 (c b i) (c a i) in dot3 d d)) / (6 * (t b - t a)).

(** The squared lengths of bond [p] of all chains of [m] particles at all measurements, in order. *)
Definition squared_lengths (pos : Type) (distance2 : pos -> pos -> Qc) (xs : list (nat -> pos)) (N m p : nat) : list Qc :=
  flat_map (fun x => map (fun i => distance2 (x (m * i + p)%nat) (x (m * i + p + 1)%nat)) (seq 0 N)) xs.
(** A decorrelation accumulator that was given [l]. *)
Definition fed (l : list Qc) : ddda := fold_left ddda_add l ddda_new.
(** A line for bond [p], whose squared lengths were [D]: number, mean and deviation are those of the data, and the error is that of some block,
    which is the documented one unless there are very many data. *)
Definition good_row (p : nat) (D : list Qc) (r : row) : Prop :=
  bond_number r = p /\ row_size r = List.length D /\ row_mean r = OtfsSpec.mean D /\ row_deviation2 r = variance D
  /\ row_error2 r = (variance (block_data D (row_block r)) / qn (List.length (block_data D (row_block r))))%Qc
  /\ (2 <= List.length (block_data D (row_block r)))%nat
  /\ row_reliable r = Nat.ltb (50 * 2 ^ row_block r) (List.length D)
  /\ ((Z.of_nat (List.length D) < 2 ^ 23)%Z -> documented_block (fed D) (Nat.log2 (List.length D) - 1) (row_block r)).
