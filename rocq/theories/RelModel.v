(** Model of the script Analysis/getRelaxationTime.py.  Floating-point numbers are rational numbers;
    how they are read, rounded and printed is given by functions.  Run directories are given by
    their names and the contents of their data files. *)
From Coq Require Import String List ZArith QArith Qcanon.
From Verif Require Import PyBase StrBase QcBase VtfModel VtfPyModel.
Import ListNotations.
Open Scope string_scope.
Open Scope list_scope.
Open Scope Qc_scope.

Section Rel.
(** [float] (getRelaxationTime.py l.14). *)
Variable float : string -> option Qc.
(** [round] with deltaTPrecision digits (getRelaxationTime.py l.8, 15). *)
Variable round8 : Qc -> Qc.
(** The order in which the items of a dictionary are visited (getRelaxationTime.py l.62): that of
    their insertion since Python 3.7, and any other before. *)
Variable items : list (Qc * list Qc) -> list (Qc * list Qc).

(** The dictionary for a mode: values by time difference (getRelaxationTime.py l.18). *)
Definition lags := list (Qc * list Qc).
(** The dictionary [data] (getRelaxationTime.py l.46). *)
Definition table := list (Qc * lags).
(** getRelaxationTime.py l.14: all words are numbers. *)
Fixpoint floats (l : list string) : option (list Qc) :=
  match l with
  | [] => Some []
  | w :: l => match float w, floats l with Some x, Some r => Some (x :: r) | _, _ => None end
  end.
(** getRelaxationTime.py l.19-22. *)
Fixpoint add_lag (deltaT correlation : Qc) (l : lags) : lags :=
  match l with
  | [] => [(deltaT, [correlation])]
  | (k, v) :: r => if qeqb k deltaT then (k, v ++ [correlation]) :: r else (k, v) :: add_lag deltaT correlation r
  end.
(** getRelaxationTime.py l.17-22. *)
Fixpoint add_value (index deltaT correlation : Qc) (data : table) : table :=
  match data with
  | [] => [(index, add_lag deltaT correlation [])]
  | (k, l) :: r => if qeqb k index then (k, add_lag deltaT correlation l) :: r else (k, l) :: add_value index deltaT correlation r
  end.
(** getRelaxationTime.py l.14-22: a line. *)
Definition process_line (line : string) (data : table) : result table :=
  match floats (words is_ws line) with
  | Some [t0; t; index; correlation] => Ok (add_value index (round8 (t - t0)) correlation data)
  | _ => Err ValueError
  end.
(** getRelaxationTime.py l.13-22: the lines. *)
Fixpoint process_lines (lines : list string) (data : table) : result table :=
  match lines with [] => Ok data | l :: r => do data <- process_line l data; process_lines r data end.
(** getRelaxationTime.py l.10-22, for a directory with the given contents of the file. *)
Definition processRundir (contents : string) (data : table) : result table := process_lines (keep_lines contents) data.
(** getRelaxationTime.py l.46-48. *)
Fixpoint processRundirs (rundirs : list (string * string)) (data : table) : result table :=
  match rundirs with [] => Ok data | r :: rs => do data <- processRundir (snd r) data; processRundirs rs data end.
(** [int] in getRelaxationTime.py l.52, for each of the modes. *)
Fixpoint ints (l : list string) : result (list Z) :=
  match l with
  | [] => Ok []
  | w :: l => match Z_of_str w with Some z => do r <- ints l; Ok (z :: r) | None => Err ValueError end
  end.
(** getRelaxationTime.py l.50-52. *)
Definition modesToInclude (modes : option string) : result (option (list Z)) :=
  match modes with
  | None => Ok None
  | Some s => if String.eqb s "" then Ok None else do l <- ints (StrBase.split ","%char s); Ok (Some l)
  end.
(** getRelaxationTime.py l.63, 65: the mean. *)
Definition mean (l : list Qc) : Qc := fold_left Qcplus l 0 / qn (length l).
(** getRelaxationTime.py l.61-67: the loop over the time differences. *)
Fixpoint normalise (first : option Qc) (l : lags) : result (list (Qc * Qc)) :=
  match l with
  | [] => Ok []
  | (deltaT, v) :: r =>
    let value := mean v in
    let first := match first with None => mean v | Some f => f end in
    if qeqb first 0 then Err ZeroDivisionError
    else do r <- normalise (Some first) r; Ok ((deltaT, value / first) :: r)
  end.
(** getRelaxationTime.py l.56-58: whether a mode is included. *)
Definition included (modes : option (list Z)) (index : Qc) : bool :=
  match modes with None => true | Some l => existsb (fun z => qeqb index (qz z)) l end.
(** getRelaxationTime.py l.54-67. *)
Fixpoint results (modes : option (list Z)) (data : table) : result (list (Qc * list (Qc * Qc))) :=
  match data with
  | [] => Ok []
  | (index, l) :: r =>
    if included modes index then do v <- normalise None (items l); do vs <- results modes r; Ok ((index, v) :: vs)
    else results modes r
  end.
(** [sorted] and the lookups in getRelaxationTime.py l.72-73, 97-98; keys are different. *)
Fixpoint insert_pair (p : Qc * Qc) (l : list (Qc * Qc)) : list (Qc * Qc) :=
  match l with [] => [p] | q :: r => if qltb (fst p) (fst q) then p :: q :: r else q :: insert_pair p r end.
(** getRelaxationTime.py l.72-73, 97-98. *)
Definition sort_pairs (l : list (Qc * Qc)) : list (Qc * Qc) := fold_right insert_pair [] l.
(** [str] for floating-point numbers (getRelaxationTime.py l.74, 98). *)
Variable str : Qc -> string.
(** [int] in getRelaxationTime.py l.81: rounding towards zero. *)
Definition truncate (x : Qc) : Z := Z.quot (Qnum (this x)) (Zpos (Qden (this x))).
(** getRelaxationTime.py l.81. *)
Definition datafilePath (saveFilename : string) (index : Qc) : string :=
  (saveFilename ++ "--normalCoordinateIndex=" ++ str_of_Z (truncate index))%string.
(** getRelaxationTime.py l.84-93: the names between the brackets. *)
Fixpoint names (isFirst : bool) (rundirs : list string) : string :=
  match rundirs with
  | [] => ""
  | r :: rs => ((if isFirst then "" else ", ") ++ "'" ++ r ++ "'" ++ names false rs)%string
  end.
(** getRelaxationTime.py l.97-98: a row. *)
Definition row (p : Qc * Qc) : string := (str (fst p) ++ String "009" (str (snd p) ++ eol))%string.
(** getRelaxationTime.py l.83-98: the contents of a file. *)
Definition file_text (rundirs : list string) (l : list (Qc * Qc)) : string :=
  ("#rundirs = [" ++ names true rundirs ++ "]" ++ eol ++ concat_text (map row (sort_pairs l)))%string.
(** What the script does at the end (getRelaxationTime.py l.43-44, 75-78, 81-98): it exits with a
    status, plots curves with labels, or writes files in order. *)
Inductive effect := Exits (status : Z) | Plots (curves : list (string * list (Qc * Qc))) | Writes (files : list (string * string)).
(** getRelaxationTime.py l.42-98. *)
Definition relaxation_script (rundirs : list (string * string)) (modes saveFilename : option string) : result effect :=
  if Nat.eqb (length rundirs) 0 then Ok (Exits 1)
  else
    do data <- processRundirs rundirs [];
    do modes <- modesToInclude modes;
    do rs <- results modes data;
    match saveFilename with
    | None => Ok (Plots (map (fun r => (("i = " ++ str (fst r))%string, sort_pairs (snd r))) rs))
    | Some f => Ok (Writes (map (fun r => (datafilePath f (fst r), file_text (map fst rundirs) (snd r))) rs))
    end.
End Rel.
