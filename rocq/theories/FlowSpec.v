(** What a flow profile has to report. *)
From Verif Require Import QcBase PyBase DictBase OtfsModel OtfsSpec FlowModel.
Set Implicit Arguments.
Open Scope Qc_scope.

(** The three samples behind a line of data. *)
Notation lists3 := (list Qc * list Qc * list Qc)%type.
Definition comp (i : nat) {A} (t : A * A * A) : A :=
  let '(a, b, c) := t in match i with 0%nat => a | 1%nat => b | _ => c end.

(** The mean, variance and size on a line are those of the data [D]; where the
    sample has fewer than two data the variance is given as zero, and where it
    has none also the mean. *)
Definition row_describes (r : row) (D : lists3) : Prop :=
  forall i, (i < 3)%nat ->
    r_n r = length (comp i D) /\
    comp i (r_mean r) = match comp i D with [] => 0 | l => mean l end /\
    comp i (r_var r) = match comp i D with [] | [_] => 0 | l => variance l end.

(** The rows in the data files of the given run directories, in order. *)
Definition rows_of_line (l : line) : list row :=
  match l with LRow (Some r) => [r] | _ => [] end.
Definition rows_of (d : rundir) : list row :=
  match rd_file d with None => [] | Some ls => flat_map rows_of_line ls end.

(** All data behind the lines with the given property. *)
Definition pooled (dat : row -> lists3) (i : nat) (sel : row -> bool) (rows : list row) : list Qc :=
  flat_map (fun r => if sel r then comp i (dat r) else []) rows.

Definition no_blank (d : rundir) : Prop :=
  forall ls, rd_file d = Some ls -> ~ In LBlank ls.

Fixpoint add_runs (s : profile) (ds : list rundir) : result profile :=
  match ds with [] => Ok s | d :: r => do s' <- addRun s d; add_runs s' r end.

(** Recording: number of sweeps begun, and the velocities recorded in selected
    cells during selected sweeps. *)
Fixpoint sweeps (os : list fop) : nat :=
  match os with [] => 0 | FSweep :: r => S (sweeps r) | FAdd _ _ :: r => sweeps r end.
(** [n]: number of sweeps begun so far; [blk] selects sweeps (counted from 0),
    [sel] selects cells. *)
Fixpoint recorded (n : nat) (os : list fop) (blk : nat -> bool) (sel : cell -> bool) : list vec :=
  match os with
  | [] => []
  | FSweep :: r => recorded (S n) r blk sel
  | FAdd c v :: r =>
    (if sel c && blk (n - 1)%nat then [v] else []) ++ recorded n r blk sel
  end.
(** Sweeps belonging to block [b] if [per] sweeps make up a block (0: all). *)
Definition in_block (per b sweep : nat) : bool :=
  if Nat.eqb per 0 then Nat.eqb b 0 else Nat.eqb (sweep / per) b.
Definition block_total (per sweeps : nat) : nat :=
  match sweeps with
  | 0%nat => 0%nat
  | S k => if Nat.eqb per 0 then 1%nat else S (k / per)
  end.
