(** What plots of statistics have to show, in terms of the data that were collected. *)
From Coq Require Import List ZArith Reals Sorted Permutation Bool.
From Verif Require Import QcBase PyBase OtfsModel OtfsSpec DddaModel DddaSpec AxsModel.
Import ListNotations.
Open Scope Qc_scope.

(** Data by key, in the order of the keys. *)
Definition key_sorted (D : list (Qc * list Qc)) : Prop := StronglySorted (fun a b => fst a < fst b) D.
(** [c] has a statistics object for each key of [D], which answers as one that holds its data. *)
Definition collects (c : list (Qc * otfs)) (D : list (Qc * list Qc)) : Prop :=
  key_sorted D /\ exists c', Permutation c c' /\ Forall2 (fun p q => fst p = fst q /\ answers (snd p) (snd q)) c' D.
(** Every key has data. *)
Definition no_empty (D : list (Qc * list Qc)) : Prop := forall k, ~ In (k, []) D.
(** There is a single datum. *)
Definition single (p : Qc * list Qc) : bool := Nat.eqb (length (snd p)) 1.

(** Textbook standard deviation and standard error of the mean. *)
Definition sd (l : list Qc) : R := sqrt (toR (variance l)).
Definition sem (l : list Qc) : R := (sd l / sqrt (INR (length l)))%R.
(** A single datum is drawn without error. *)
Definition or_zero (f : list Qc -> R) (l : list Qc) : R := match l with [_] => 0%R | _ => f l end.

(** A valid argument, and whether it asks for something to be shown. *)
Definition valid_show (s : show) : Prop :=
  match s with ShowBool _ => True | ShowFloat x => 0 < x /\ x <= 1 | ShowOther => False end.
Definition wants (s : show) : Prop := s <> ShowBool false.

(** What is drawn for the data [D]: means, error bars, regions. *)
Definition bars_of (showSE showSD : show) (D : list (Qc * list Qc)) : option (list R) :=
  match showSE, showSD with
  | _, ShowBool true => Some (map (fun p => or_zero sd (snd p)) D)
  | ShowBool true, _ => Some (map (fun p => or_zero sem (snd p)) D)
  | _, _ => None
  end.
Definition region_of (f : list Qc -> R) (s : show) (D : list (Qc * list Qc)) : list (list (R * R) * Qc) :=
  match s with
  | ShowFloat alpha => [(map (fun p => (toR (mean (snd p)) - or_zero f (snd p), toR (mean (snd p)) + or_zero f (snd p))%R) D, alpha)]
  | _ => []
  end.
Definition picture_of (showSE showSD : show) (D : list (Qc * list Qc)) (warning : option (list Qc)) : picture :=
  mk_picture (map (fun p => (fst p, mean (snd p))) D) (bars_of showSE showSD D) (region_of sem showSE D ++ region_of sd showSD D) warning.

(** The squared standard error of the mean that block [b] of the data [D] suggests. *)
Definition block_se2 (D : list Qc) (b : nat) : Qc := variance (block_data D b) / qn (length (block_data D b)).
Definition block_se (D : list Qc) (b : nat) : R := sem (block_data D b).
(** The test of Lee et al. *)
Definition lee (D : list Qc) (b : nat) : Prop :=
  let q2 := block_se2 D b / block_se2 D 0 in (1 + 1) * qn (length D) * (q2 * q2) < qn ((2 ^ b) ^ 3).
(** The block with which the error of the mean is estimated: the first that passes the test, or the last that has a variance. *)
Definition best_block (D : list Qc) (b : nat) : Prop :=
  let m := (Nat.log2 (length D) - 1)%nat in
  if qeqb (block_se2 D 0) 0 then b = 0%nat
  else ((b <= m)%nat /\ lee D b /\ forall b', (b' < b)%nat -> ~ lee D b')
       \/ (b = m /\ forall b', (b' <= m)%nat -> ~ lee D b').
Definition best_error (D : list Qc) (e : R) : Prop := exists b, best_block D b /\ e = block_se D b.

(** What is drawn for data by time: means, and errors unless they are not asked for or there is nothing to draw. *)
Definition draws (c : curve Z Qc) (show : bool) (D : list (Z * list Qc)) : Prop :=
  cu_points c = map (fun p => (fst p, mean (snd p))) D /\
  if show then match D with [] => cu_bars c = None | _ => exists es, cu_bars c = Some es /\ Forall2 (fun p e => best_error (snd p) e) D es end
  else cu_bars c = None.
(** The smallest number of data with which there is a mean, or a mean and an error. *)
Definition needed (show : bool) : nat := if show then 2 else 1.

(** The values at position [T] of the lists that are long enough. *)
Definition column (T : nat) (l : list (list Qc)) : list Qc := flat_map (fun m => match nth_error m T with Some x => [x] | None => [] end) l.
(** The accumulator that was given the data [D]. *)
Definition accumulated (D : list Qc) : ddda := fold_left ddda_add D ddda_new.
