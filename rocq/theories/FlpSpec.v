(** What plots of flow profiles are supposed to show. *)
From Coq Require Import List ZArith Reals.
From Verif Require Import QcBase PyBase DictBase OtfsModel OtfsSpec FlowModel FlpModel.
Import ListNotations.
Open Scope Qc_scope.

(** The shear flow in a box of length [L]: it vanishes in the middle, and grows with the rate. *)
Definition shear_flow (L rate y : Qc) : Qc := rate * (y - L / qz 2).
(** The middle, or the lower end, of the [i]-th of the slices that a unit length is cut into. *)
Definition slice_at (sub : nat) (shift : bool) (i : Z) : Qc := if shift then (qz i + 1 / qz 2) / qn sub else qz i / qn sub.

(** The entries of a profile are for these coordinates, and hold these data of the velocity along [x]. *)
Definition holds (data : list (Qc * otfs3)) (samples : list (Qc * list Qc)) : Prop :=
  Forall2 (fun d p => fst d = fst p /\ answers (along_x (snd d)) (snd p)) data samples.
(** The mean with [k] standard errors of the mean to both sides. *)
Definition error_band (k : Qc) (l : list Qc) : R * R :=
  (real (mean l) - real k * sqrt (real (variance l) / INR (length l)),
   real (mean l) + real k * sqrt (real (variance l) / INR (length l)))%R.

(** The cell at three coordinates. *)
Definition cell_at (b : points otfs3) (x y z : Z) (v : otfs3) : Prop :=
  exists px py, dget Z.eqb b x = Some px /\ dget Z.eqb px y = Some py /\ dget Z.eqb py z = Some v.
(** A cell with data, whose means are [u]. *)
Definition flows (v : otfs3) (u : Qc * Qc * Qc) : Prop :=
  let '(v0, v1, v2) := v in let '(u0, u1, u2) := u in
  getSampleMean v0 = Ok u0 /\ getSampleMean v1 = Ok u1 /\ getSampleMean v2 = Ok u2.
(** There is an arrow [u] at [(px, py)]. *)
Definition arrow_at (q : quiver) (px py : Qc) (u : Qc * Qc * Qc) : Prop :=
  exists i j row, nth_error (qv_x q) i = Some px /\ nth_error (qv_y q) j = Some py /\
    nth_error (qv_arrows q) j = Some row /\ nth_error row i = Some u.
