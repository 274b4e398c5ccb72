(** Textbook statistics of a list of data, and the data each object has been
    given by a program.  Independent of the implementation's formulas. *)
From Verif Require Import QcBase PyBase.
From Verif Require Import OtfsModel.
Set Implicit Arguments.
Open Scope Qc_scope.

(** Arithmetic mean. *)
Definition mean (l : list Qc) : Qc := qsum l / qn (length l).
(** Sum of squared deviations from the mean. *)
Definition devsq (l : list Qc) : Qc :=
  qsum (map (fun x => (x - mean l) * (x - mean l)) l).
(** Unbiased sample variance. *)
Definition variance (l : list Qc) : Qc := devsq l / (qn (length l) - 1).

(** What a statistics object holding exactly the data [l] has to answer. *)
Definition spec_mean (l : list Qc) : result Qc :=
  match l with [] => Err ValueError | _ => Ok (mean l) end.
Definition spec_variance (l : list Qc) : result Qc :=
  match l with [] | [_] => Err ValueError | _ => Ok (variance l) end.

(** The data that have been fed into each object, directly or by merging. *)
Definition setl (d : nat -> list Qc) (i : nat) (v : list Qc) : nat -> list Qc :=
  fun k => if Nat.eqb k i then v else d k.
Fixpoint data_merge_all (d : nat -> list Qc) (i : nat) (js : list nat) :=
  match js with
  | [] => d
  | j :: r => data_merge_all (setl d i (d i ++ d j)) i r
  end.
Definition data_op (d : nat -> list Qc) (o : op) : nat -> list Qc :=
  match o with
  | ONew i => setl d i []
  | OAdd i x => setl d i (d i ++ [x])
  | OMerge i j => setl d i (d i ++ d j)
  | OMergeAll i js => data_merge_all d i js
  end.
Definition data_of (os : list op) : nat -> list Qc :=
  fold_left data_op os (fun _ => []).

(** A statistics object that answers as one holding exactly [l]. *)
Definition answers (s : otfs) (l : list Qc) : Prop :=
  getSampleSize s = length l /\
  getSampleMean s = spec_mean l /\
  getSampleVariance s = spec_variance l.

(** Feeding a list of data into an object, one at a time. *)
Definition add_all (s : otfs) (l : list Qc) : otfs := fold_left addDatum l s.

(** States that can describe data: the sum of squared deviations is not
    negative, and an object without data holds zeros. *)
Definition valid (s : otfs) : Prop :=
  (o_n s = 0%nat -> o_M s = 0 /\ o_S s = 0) /\ 0 <= o_S s.
