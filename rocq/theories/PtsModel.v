(** The rest of Analysis/MPCDAnalysis/Data2D.py (errors, means, extrema, tables, files and plots), and Analysis/MPCDAnalysis/StaticData.py.
    Simplifications: exact arithmetic, division being that of Python 3 (or of numbers that are not integers); [sqrt], printing and reading numbers are parameters; a file that is written has been
    closed when it is read; what gnuplot does is not modelled, only the text it is sent. *)
From Coq Require Import String Ascii.
From Verif Require Import QcBase PyBase StrBase DictBase SortBase VtfModel VtfPyModel TvcModel EmpModel Data2DModel.
Open Scope string_scope.
Open Scope list_scope.
Open Scope Qc_scope.

(** The members of an instance (Data2D.py l.7-13). *)
Record points := Points { pdata : data2d; perrors : data2d }.
(** Data2D.py l.7-13, without a file. *)
Definition pts_new : points := Points [] [].
(** Data2D.py l.18-21. *)
Definition pts_add (d : points) (point value : Qc) (error : option Qc) : points :=
  Points (dset qeqb (pdata d) point value) (match error with Some e => dset qeqb (perrors d) point e | None => perrors d end).
(** Data2D.py l.23-25. *)
Definition pts_sort (d : points) : points := Points (d2_sort (pdata d)) (d2_sort (perrors d)).
(** [if sortFirst: self.sort()] (Data2D.py l.186-187, l.192-193, l.198-199, l.236-237). *)
Definition sort_if (sortFirst : bool) (d : points) : points := if sortFirst then pts_sort d else d.
(** Data2D.py l.185-189. *)
Definition getData (sortFirst : bool) (d : points) : data2d := pdata (sort_if sortFirst d).
(** Data2D.py l.191-195: [zip] of no arguments is empty. *)
Definition getKeysAndValues (sortFirst : bool) (d : points) : list (list Qc) :=
  match pdata (sort_if sortFirst d) with [] => [] | items => [map fst items; map snd items] end.
(** Data2D.py l.203-213, the loop. *)
Fixpoint table_loop (errors : data2d) (items : data2d) : list Qc * list Qc * list (option Qc) :=
  match items with
  | [] => ([], [], [])
  | (key, value) :: r => let '(ks, vs, es) := table_loop errors r in (key :: ks, value :: vs, dget qeqb errors key :: es)
  end.
(** Data2D.py l.197-213. *)
Definition getKeysAndValuesAndErrors (sortFirst : bool) (d : points) : list Qc * list Qc * list (option Qc) :=
  let d := sort_if sortFirst d in table_loop (perrors d) (pdata d).
(** Data2D.py l.215-216. *)
Definition getSize (d : points) : nat := length (pdata d).

(** Sum and count of the values, and the quotient (Data2D.py l.72-79, also l.118-124). *)
Definition mean_of_values (l : data2d) : result Qc :=
  let sum_ := fold_left (fun s p => s + snd p) l 0 in
  let count := fold_left (fun c _ => S c) l 0%nat in
  if Nat.eqb count 0 then Err ZeroDivisionError else Ok (sum_ / qn count).
(** Data2D.py l.72-79. *)
Definition getArithmeticMean (d : points) : result Qc := mean_of_values (pdata d).
(** Data2D.py l.115-124. *)
Definition getAverageFromSimpleMovingAverage (d : points) (windowsize : Qc) : result Qc := mean_of_values (getSimpleMovingAverageDict (pdata d) windowsize).
(** Data2D.py l.179-182; in Python 3, [items()] are views, which cannot be added. *)
Definition getLocalExtrema (python3 : bool) (incl : bool) (d : points) : result data2d :=
  if python3 then Err TypeError
  else Ok (fold_left (fun o p => dset qeqb o (fst p) (snd p)) (d2_sort (getLocalMinima incl (pdata d) ++ getLocalMaxima incl (pdata d))) []).

Section Pts.
(** [math.sqrt] (Data2D.py l.90), [str] of a number (Data2D.py l.239), [float], [None] being a [ValueError] (StaticData.py l.26). *)
Variable sqrt : Qc -> Qc.
Variable str : Qc -> string.
Variable float : string -> option Qc.

(** Data2D.py l.81-90. *)
Definition getRootMeanSquaredDeviationFromArithmeticMean (d : points) : result Qc :=
  do mean <- getArithmeticMean d;
  let sum_ := fold_left (fun s p => s + (snd p - mean) * (snd p - mean)) (pdata d) 0 in
  let count := fold_left (fun c _ => S c) (pdata d) 0%nat in
  if Nat.eqb count 0 then Err ZeroDivisionError else Ok (sqrt (sum_ / qn count)).

(** Data2D.py l.239-243: one line. *)
Definition point_line (errors : data2d) (p : Qc * Qc) : string :=
  (str (fst p) ++ String "009" (str (snd p) ++ match dget qeqb errors (fst p) with Some e => String "009" (str e) | None => "" end) ++ String "010" "")%string.
(** Data2D.py l.218-243. *)
Definition writeTo (sortFirst : bool) (d : points) : string :=
  let d := sort_if sortFirst d in fold_right append "" (map (point_line (perrors d)) (pdata d)).
(** Data2D.py l.7-16: the constructor with the name of a file that has the given text. *)
Definition pts_read (minXValue : option Qc) (text : string) : result points :=
  do data <- read_pairs float minXValue text; Ok (Points data []).

(** Data2D.py l.57-61: the loop. *)
Fixpoint plot_loop (n counter : Z) (items : data2d) : result string :=
  match items with
  | [] => Ok ""
  | (x, y) :: r =>
    if Z.eqb n 0 then Err ZeroDivisionError
    else do t <- plot_loop n (counter + 1) r;
      Ok (if Z.eqb (counter mod n) 0 then (str x ++ String "009" (str y ++ String "010" t))%string else t)
  end.
(** Data2D.py l.54-70: what gnuplot is sent. *)
Definition plot (plotEveryNthPoint : Z) (d : points) : result string :=
  do gnuplotData <- plot_loop plotEveryNthPoint 0 (d2_sort (pdata d));
  Ok ("set terminal wxt persist" ++ String "010" ("plot '-' with linespoints notitle" ++ String "010" (gnuplotData ++ "e")))%string.

(** [str.find], [None] being -1, and what follows the occurrence (StaticData.py l.22-26). *)
Definition after_first (description line : string) : option string :=
  match String.index 0 description line with
  | None => None
  | Some pos => Some (String.substring (pos + String.length description) (String.length line - (pos + String.length description)) line)
  end.
(** StaticData.py l.10-15. *)
Definition floatKeys : list (string * string) :=
  [("dumbbell equilibrium length:", "dumbbellEquilibriumLength"); ("Weissenberg number:", "weissenbergNumber"); ("lagrangian multiplier ratio:", "lagrangianMultiplierRatio")].
(** StaticData.py l.17-27: the loop over descriptions; [extractFloat] is the body. *)
Fixpoint extract_loop (keys : list (string * string)) (line : string) (data : list (string * Qc)) : result (list (string * Qc)) :=
  match keys with
  | [] => Ok data
  | (description, key) :: r =>
    match after_first description line with
    | None => extract_loop r line data
    | Some rest => match float (trim_left (trim_right rest)) with Some x => Ok (dset String.eqb data key x) | None => Err ValueError end
    end
  end.
(** StaticData.py l.5-7: the loop over lines. *)
Fixpoint static_lines (lines : list string) (data : list (string * Qc)) : result (list (string * Qc)) :=
  match lines with
  | [] => Ok data
  | line :: r => do data <- extract_loop floatKeys line data; static_lines r data
  end.
(** StaticData.py l.2-7, given the text of the file. *)
Definition static_read (text : string) : result (list (string * Qc)) := static_lines (keep_lines text) [].
(** StaticData.py l.29-30. *)
Definition static_get (data : list (string * Qc)) (val : string) : result Qc := match dget String.eqb data val with Some x => Ok x | None => Err KeyError end.
End Pts.
