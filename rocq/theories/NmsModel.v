(** The scripts Analysis/NormalModeAutocorrelation.py and Analysis/LogicalEntityMeanSquareDisplacement.py: the files that they write.
    Simplifications: results of the analyses are given as texts, and reading the runs succeeds; the file of parameters is not modelled (see C128),
    nor are the fit and the plot that are shown if nothing is saved; opening files succeeds; the maximum time is not negative. *)
From Coq Require Import String Ascii List ZArith Bool.
From Verif Require Import PyBase RunsModel.
Import ListNotations.
Open Scope string_scope.
Open Scope list_scope.

(** The end of a line, Analysis/NormalModeAutocorrelation.py l.66. *)
Definition newline : string := String "010" "".
(** A tab, Analysis/NormalModeAutocorrelation.py l.59. *)
Definition tab : string := String "009" "".
(** [str] of an index, Analysis/NormalModeAutocorrelation.py l.59-60. *)
Definition str_nat (n : nat) : string := str_of_Z (Z.of_nat n).
(** Each column is followed by a tab, and the last tab by the end of the line (Analysis/NormalModeAutocorrelation.py l.59-66). *)
Fixpoint row (columns : list string) : string :=
  match columns with [] => newline | c :: r => append c (append tab (row r)) end.
(** Columns of the header (Analysis/NormalModeAutocorrelation.py l.51-55): tabs are between them. *)
Fixpoint header_columns (columns : list string) : string :=
  match columns with [] => newline | [c] => append c newline | c :: r => append c (append tab (header_columns r)) end.
(** The header (Analysis/NormalModeAutocorrelation.py l.50-55). *)
Definition header (columns : list string) : string := append "#" (header_columns columns).
(** Mean, error and sample size, as texts (Analysis/NormalModeAutocorrelation.py l.61-65). *)
Record entry := Entry { mean : string; error : string; size : string }.

Section Modes.
(** [nma.getNormalModeCount()], Analysis/NormalModeAutocorrelation.py l.56. *)
Variable count : nat.
(** [nma.getMaximumMeasurementTime()], Analysis/NormalModeAutocorrelation.py l.57. *)
Variable max_time : nat.
(** [nma.getAutocorrelation], Analysis/NormalModeAutocorrelation.py l.58. *)
Variable get : nat -> nat -> entry.
(** Analysis/NormalModeAutocorrelation.py l.57-66: the loop over times from [t] on, of which [n] are left. *)
Fixpoint time_rows (mode t n : nat) : string :=
  match n with
  | O => ""
  | S n =>
    let current := get mode t in
    append (row [str_nat mode; str_nat t; mean current; error current; size current]) (time_rows mode (S t) n)
  end.
(** Analysis/NormalModeAutocorrelation.py l.56-66: the loop over modes. *)
Fixpoint mode_rows (mode n : nat) : string :=
  match n with O => "" | S n => append (time_rows mode 0 (max_time + 1)) (mode_rows (S mode) n) end.
(** Analysis/NormalModeAutocorrelation.py l.50-66. *)
Definition modes_table : string :=
  append (header ["normal-mode-index"; "measurement-time"; "mean-autocorrelation"; "DDDA-optimal-standard-error-of-the-mean"; "sample-size"]) (mode_rows 0 count).
(** Analysis/NormalModeAutocorrelation.py l.80-88: the loop over modes. *)
Fixpoint middle_rows (mode n : nat) : string :=
  match n with
  | O => ""
  | S n => let current := get mode 0 in append (row [str_nat mode; mean current; error current; size current]) (middle_rows (S mode) n)
  end.
(** Analysis/NormalModeAutocorrelation.py l.75-88. *)
Definition middle_table : string :=
  append (header ["normal-mode-index"; "mean-autocorrelation"; "DDDA-optimal-standard-error-of-the-mean"; "sample-size"]) (middle_rows 1 (count - 2)).
(** Analysis/NormalModeAutocorrelation.py l.96-101, and Analysis/LogicalEntityMeanSquareDisplacement.py l.71-76: the names. *)
Fixpoint names (first : bool) (rundirs : list string) : string :=
  match rundirs with
  | [] => ""
  | r :: rest => append (if first then "" else ",") (append """" (append r (append """" (names false rest))))
  end.
(** Analysis/NormalModeAutocorrelation.py l.93-104, and Analysis/LogicalEntityMeanSquareDisplacement.py l.68-79. *)
Definition metadata_file (rundirs : list string) : string :=
  append "{" (append """runDirectories"": [" (append newline (append (names true rundirs) (append "]" (append newline "}"))))).
(** A file, if its name is given (Analysis/NormalModeAutocorrelation.py l.48-49). *)
Definition saved (name : option string) (text : string) : list (string * string) := match name with Some n => [(n, text)] | None => [] end.
(** Analysis/NormalModeAutocorrelation.py l.37-104: exit status and files in the order in which they are written. *)
Definition modes_script (rundirs : list string) (saveFilename saveMiddle metadataFilename : option string) : Z * list (string * string) :=
  match rundirs with
  | [] => (1%Z, [])
  | _ => (0%Z, saved saveFilename modes_table ++ saved saveMiddle middle_table ++ saved metadataFilename (metadata_file rundirs))
  end.
End Modes.

Section Displacements.
(** [msd.getMaximumMeasurementTime()], Analysis/LogicalEntityMeanSquareDisplacement.py l.58. *)
Variable max_time : nat.
(** [msd.getMeanSquareDisplacement], Analysis/LogicalEntityMeanSquareDisplacement.py l.59. *)
Variable get : nat -> entry.
(** Analysis/LogicalEntityMeanSquareDisplacement.py l.58-64: the loop over times. *)
Fixpoint displacement_rows (t n : nat) : string :=
  match n with
  | O => ""
  | S n => let current := get t in append (row [str_nat t; mean current; error current; size current]) (displacement_rows (S t) n)
  end.
(** Analysis/LogicalEntityMeanSquareDisplacement.py l.53-64. *)
Definition displacement_table : string :=
  append (header ["measurement-time"; "mean-square-displacement"; "standard-deviation"; "sample-size"]) (displacement_rows 1 max_time).
(** Analysis/LogicalEntityMeanSquareDisplacement.py l.39-79: exit status and files. *)
Definition displacement_script (rundirs : list string) (saveFilename metadataFilename : option string) : Z * list (string * string) :=
  match rundirs with
  | [] => (1%Z, [])
  | _ =>
    match saveFilename with
    | Some _ => (0%Z, saved saveFilename displacement_table ++ saved metadataFilename (metadata_file rundirs))
    | None => (0%Z, [])
    end
  end.
End Displacements.
