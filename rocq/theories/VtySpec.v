(** What vectors are made from, and when they are equal or close. *)
From Coq Require Import List ZArith QArith Qcanon.
From Verif Require Import QcBase PyBase VtyModel.
Import ListNotations.
Open Scope Qc_scope.

(** The three ways of making a vector. *)
Inductive made_from : value -> value -> value -> pvec -> Prop :=
| FromVector v : made_from (VVec v) VNone VNone v
| FromSequence a b c : made_from (VSeq [VNum a; VNum b; VNum c]) VNone VNone (PVec a b c)
| FromNumbers a b c : made_from (VNum a) (VNum b) (VNum c) (PVec a b c).
(** The coordinates as numbers. *)
Definition coordinates (v : pvec) : list Qc := [num_value (px v); num_value (py v); num_value (pz v)].
(** [a] differs from [b] by at most [t]. *)
Definition within (a b t : Qc) : Prop := a - b <= t /\ b - a <= t.
(** All coordinates are within the absolute tolerance and the relative tolerance times the magnitude of the second vector's. *)
Definition close (rtol atol : Qc) (v w : pvec) : Prop :=
  Forall (fun p => exists m, within (fst p) (snd p) (atol + rtol * m) /\ (m = snd p \/ m = - snd p) /\ 0 <= m) (combine (coordinates v) (coordinates w)).
(** The tolerance that an argument stands for. *)
Inductive stands_for (d : Qc) : value -> Qc -> Prop :=
| Default : stands_for d VNone d
| Given q : 0 <= q -> stands_for d (VNum (NFloat q)) q.
(** Whether the argument is a vector. *)
Definition is_vector (v : value) : Prop := exists w, v = VVec w.
