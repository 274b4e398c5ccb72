(** Reading histograms and other pairs of numbers (Utilities.py, EmpiricalDistribution.py, DumbbellAlignment.py), and the text written by Histogram.cpp.
    Simplifications: exact arithmetic; no number is "not a number"; a file that exists can be opened and, if its name says so, decompressed. *)
From Coq Require Import String Ascii.
From Verif Require Import QcBase PyBase StrBase VtfModel VtfPyModel MeasModel.
Open Scope string_scope.
Open Scope list_scope.
Open Scope Qc_scope.

(** The files, by path, with their text; for compressed files it is the text after decompression (Utilities.py l.42-51). *)
Definition filesystem := string -> option string.
(** The last four characters (Utilities.py l.42). *)
Definition last4 (s : string) : string := String.substring (String.length s - 4) 4 s.
(** Exceptions, [NoEntry] being an [IOError] with [errno.ENOENT] (Utilities.py l.42-51, DumbbellAlignment.py l.11-13). *)
Inductive failure := NoEntry | Failure (e : exc).
(** Results or exceptions (Utilities.py l.42-51). *)
Inductive outcome (A : Type) := Done (a : A) | Failed (f : failure).
Arguments Done {A} _.
Arguments Failed {A} _.
(** Statements in sequence (EmpiricalDistribution.py l.4-8). *)
Definition next {A B} (r : outcome A) (k : A -> outcome B) : outcome B := match r with Done a => k a | Failed f => Failed f end.
(** Utilities.py l.31-51. *)
Definition openPossiblyCompressedFile (fs : filesystem) (baseFilename : string) : outcome string :=
  if String.eqb (last4 baseFilename) ".bz2" then
    match fs baseFilename with Some t => Done t | None => Failed NoEntry end
  else match fs (baseFilename ++ ".bz2")%string with
  | Some t => Done t
  | None => match fs baseFilename with Some t => Done t | None => Failed (Failure ValueError) end
  end.

Section Emp.
(** [float]; [None] is a [ValueError]. *)
Variable float : string -> option Qc.
(** [x in data] (Utilities.py l.95). *)
Definition has_key (data : list (Qc * Qc)) (x : Qc) : bool := existsb (fun p => qeqb (fst p) x) data.
(** Utilities.py l.85-104: the loop over the lines. *)
Fixpoint pairs_loop (minXValue : option Qc) (lines : list string) (data : list (Qc * Qc)) : result (list (Qc * Qc)) :=
  match lines with
  | [] => Ok data
  | line :: r =>
    match words is_ws line with
    | [a; b] =>
      match float a, float b with
      | Some x, Some y =>
        if has_key data x then Err ValueError
        else if match minXValue with Some m => qltb x m | None => false end then pairs_loop minXValue r data
        else pairs_loop minXValue r (data ++ [(x, y)])
      | _, _ => pairs_loop minXValue r data
      end
    | _ => pairs_loop minXValue r data
    end
  end.
(** [sorted]; keys are different (Utilities.py l.106). *)
Fixpoint insert_pair (p : Qc * Qc) (l : list (Qc * Qc)) : list (Qc * Qc) :=
  match l with
  | [] => [p]
  | q :: r => if qltb (fst p) (fst q) then p :: q :: r else q :: insert_pair p r
  end.
(** Utilities.py l.106. *)
Definition sort_pairs (l : list (Qc * Qc)) : list (Qc * Qc) := fold_right insert_pair [] l.
(** Utilities.py l.54-106, given the text of the file. *)
Definition read_pairs (minXValue : option Qc) (text : string) : result (list (Qc * Qc)) :=
  do d <- pairs_loop minXValue (keep_lines text) []; Ok (sort_pairs d).
(** Utilities.py l.54-106. *)
Definition readValuePairsFromFile (fs : filesystem) (filename : string) (minXValue : option Qc) : outcome (list (Qc * Qc)) :=
  next (openPossiblyCompressedFile fs filename) (fun t =>
  match read_pairs minXValue t with Ok d => Done d | Err e => Failed (Failure e) end).
(** EmpiricalDistribution.py l.10-17. *)
Definition sample_mean (data : list (Qc * Qc)) : result Qc :=
  let count := fold_left (fun c p => c + snd p) data 0 in
  let sum := fold_left (fun s p => s + fst p * snd p) data 0 in
  if qeqb count 0 then Err ZeroDivisionError else Ok (sum / count).
(** The files that DumbbellAlignment.py l.8-16 reads, with the given extension. *)
Definition read_alignment (fs : filesystem) (rundir ext : string) : outcome (list (Qc * Qc) * list (Qc * Qc) * list (Qc * Qc)) :=
  next (readValuePairsFromFile fs (rundir ++ "/dumbbellBondXXHistogram" ++ ext)%string None) (fun xx =>
  next (readValuePairsFromFile fs (rundir ++ "/dumbbellBondYYHistogram" ++ ext)%string None) (fun yy =>
  next (readValuePairsFromFile fs (rundir ++ "/dumbbellBondXYHistogram" ++ ext)%string None) (fun xy => Done (xx, yy, xy)))).
(** DumbbellAlignment.py l.6-16. *)
Definition alignment (fs : filesystem) (rundir : string) : outcome (list (Qc * Qc) * list (Qc * Qc) * list (Qc * Qc)) :=
  match read_alignment fs rundir ".data" with
  | Failed NoEntry => read_alignment fs rundir ".gnuplot"
  | r => r
  end.
(** DumbbellAlignment.py l.18-20. *)
Definition getTan2Chi (d : list (Qc * Qc) * list (Qc * Qc) * list (Qc * Qc)) : result Qc :=
  let '(xx, yy, xy) := d in
  do mxy <- sample_mean xy; do mxx <- sample_mean xx; do myy <- sample_mean yy;
  if qeqb (mxx - myy) 0 then Err ZeroDivisionError else Ok (qz 2 * mxy / (mxx - myy)).

(** [stream << x] with [digits10 + 2] digits. *)
Variable show : Qc -> string.
(** Histogram.cpp l.90: a line. *)
Definition hist_line (p : Qc * Qc) : string := (show (fst p) ++ String "009" (show (snd p)))%string.
(** Histogram.cpp l.79-91: the lines of the file; counters are printed as integers. *)
Definition hist_lines (h : hist) (bp : Qc) : list string :=
  ("#underflows = " ++ str_of_Z (Z.of_nat (h_under h)))%string :: ("#overflows =" ++ str_of_Z (Z.of_nat (h_over h)))%string
  :: match hist_save h bp with Ok g => map hist_line g | Err _ => [] end.
(** Histogram.cpp l.75-92: the text of the file. *)
Definition hist_text (h : hist) (bp : Qc) : string := fold_right (fun l t => (l ++ String newline t)%string) ""%string (hist_lines h bp).
End Emp.
