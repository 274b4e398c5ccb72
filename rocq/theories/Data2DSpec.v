(** Specification of the operations on point collections. *)
From Verif Require Import QcBase PyBase OtfsModel OtfsSpec Data2DModel.
Set Implicit Arguments.
Open Scope Qc_scope.

(** The points stored after a history of additions: for each position, the
    value that was given last. *)
Fixpoint last_value (h : list (Qc * Qc)) (x : Qc) : option Qc :=
  match h with
  | [] => None
  | (x', y) :: r =>
    match last_value r x with
    | Some z => Some z
    | None => if qeqb x x' then Some y else None
    end
  end.
Definition build (h : list (Qc * Qc)) : data2d :=
  fold_left (fun d p => addPoint d (fst p) (snd p)) h [].

Definition qabs (x : Qc) : Qc := if qltb x 0 then - x else x.

(** [p] is a nearest stored point to [x], the leftmost one on ties. *)
Definition is_nearest (h : list (Qc * Qc)) (x : Qc) (p : Qc * Qc) : Prop :=
  last_value h (fst p) = Some (snd p) /\
  forall x' y', last_value h x' = Some y' ->
    qabs (x - fst p) < qabs (x - x') \/
    (qabs (x - fst p) = qabs (x - x') /\ fst p <= x').

(** [x'] is the next stored position to the left, to the right of [x]. *)
Definition left_neighbour h x x' : Prop :=
  x' < x /\ last_value h x' <> None /\
  forall z, x' < z -> z < x -> last_value h z = None.
Definition right_neighbour h x x' : Prop :=
  x < x' /\ last_value h x' <> None /\
  forall z, x < z -> z < x' -> last_value h z = None.

(** A local extremum w.r.t. the strict comparison [cmp]. *)
Definition is_extremum (cmp : Qc -> Qc -> Prop) (incl : bool) h (x y : Qc) : Prop :=
  last_value h x = Some y /\
  (forall x' y', left_neighbour h x x' -> last_value h x' = Some y' -> cmp y y') /\
  (forall x' y', right_neighbour h x x' -> last_value h x' = Some y' -> cmp y y') /\
  (incl = false -> (exists x', left_neighbour h x x') /\ (exists x', right_neighbour h x x')).

(** A partition of the indices of [l] into maximal ranges of equal sign,
    starting at [start]. *)
Inductive sign_partition (l : list Qc) : nat -> option bool -> list ((nat * nat) * bool) -> Prop :=
| sp_nil prev : sign_partition l (length l) prev []
| sp_cons a b s prev r :
    (a < b <= length l)%nat ->
    prev <> Some s ->
    (forall i v, (a <= i < b)%nat -> nth_error l i = Some v -> (0 <= v <-> s = true)) ->
    sign_partition l b (Some s) r ->
    sign_partition l a prev (((a, b), s) :: r).

(** Number of keys of [c] that are smaller than [k]. *)
Definition rank {V} (c : list (Qc * V)) (k : Qc) : nat :=
  length (filter (fun p => qltb (fst p) k) c).

(** The data given for a key by the entries of a dictionary handed to
    [addData], where [dat] tells which data a statistics object holds. *)
Fixpoint given (dat : otfs -> list Qc) (entries : list (Qc * cvalue)) (k : Qc) : list Qc :=
  match entries with
  | [] => []
  | (k', v) :: r =>
    (if qeqb k k' then match v with VNum x => [x] | VStat s => dat s | VOther => [] end else [])
    ++ given dat r k
  end.

(** [s] is a statistics object in some program's history and holds the data [l]. *)
Definition holds (s : otfs) (l : list Qc) : Prop :=
  exists os st i, run store0 os = Ok st /\ s = st i /\ l = data_of os i.
