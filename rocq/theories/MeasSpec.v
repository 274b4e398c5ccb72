(** What the measurement containers have to report. *)
From Verif Require Import QcBase PyBase DictBase OtfsSpec MeasModel.
Set Implicit Arguments.
Open Scope Qc_scope.

(** ** Velocity autocorrelation *)
(** The values on the lines whose two times satisfy [sel] and whose time
    difference is, in units of the timestep and rounded, the given multiple. *)
Definition vac_values (round : Qc -> Z) (dt : Qc) (sel : Qc -> Qc -> bool) (n : Z)
  (ls : list (list Qc)) : list Qc :=
  flat_map (fun l => match l with
    | [t1; t2; v] => if sel t1 t2 && Z.eqb (round ((t2 - t1) / dt)) n then [v] else []
    | _ => [] end) ls.
(** Lines with three numbers and times that are in order. *)
Definition vac_wellformed (l : list Qc) : Prop :=
  exists t1 t2 v, l = [t1; t2; v] /\ 0 <= t1 /\ t1 <= t2.

(** ** Histogram *)
Definition count (p : Qc -> bool) (l : list Qc) : nat := length (filter p l).
(** Lower end of bin [i]. *)
Definition bin_low (low high : Qc) (n i : nat) : Qc := low + (high - low) * qn i / qn n.
Definition bin_has (low high : Qc) (n i : nat) (v : Qc) : bool :=
  qleb (bin_low low high n i) v && qltb v (bin_low low high n (S i)).

(** ** Density profile *)
Fixpoint fills (os : list dop) : nat :=
  match os with [] => 0 | DFill :: r => S (fills r) | DMass _ _ :: r => fills r end.
Definition masses (os : list dop) (c : cell) : list Qc :=
  flat_map (fun o => match o with DMass c' m => if cell_eqb c' c then [m] else [] | DFill => [] end) os.
