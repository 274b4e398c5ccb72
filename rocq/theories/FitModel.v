(** Fits of data to functions (Fit.py), and the versions of the program (ProgramVersionDatabase.py).
    Simplifications: [scipy.optimize.curve_fit] and [numpy] comparisons of numbers are parameters; arguments are lists of numbers, or not lists at all;
    a [Fit] has no attributes other than [_fitResults]. *)
From Coq Require Import String List ZArith Bool.
From Verif Require Import PyBase.
Import ListNotations.
Open Scope list_scope.

Section Fit.
(** Floating point numbers, and functions to fit. *)
Variables (V F : Type).
(** The results of [curve_fit]: parameters and covariances (Fit.py l.150-157). *)
Definition results : Type := (list V * list (list V))%type.
(** A [Fit] object (Fit.py l.17). *)
Definition fit_object := option results.
(** An argument for bounds; [Other] is not a [list] (Fit.py l.79-85). *)
Inductive bounds_arg := NoBounds | Other | Bounds (l : list (option V)).
(** Bounds as given to [curve_fit]: the same for all parameters, or a list; [inf] is [None] (Fit.py l.127-143). *)
Inductive bound := Unbounded | Each (l : list (option V)).
(** The arguments of [curve_fit] (Fit.py l.150-157). *)
Record call := Call { c_f : F; c_x : list V; c_y : list V; c_sigma : option (list V); c_absolute : bool; c_lower : bound; c_upper : bound }.
(** [scipy.optimize.curve_fit]. *)
Variable curve_fit : call -> result results.
(** Whether the object is callable, and its number of arguments (Fit.py l.70, l.84). *)
Variable callable : F -> bool.
Variable arguments : F -> nat.
(** Fit.py l.79-85, for one of the two. *)
Definition bounds_check (f : F) (b : bounds_arg) : result unit :=
  match b with
  | NoBounds => Ok tt
  | Other => Err TypeError
  | Bounds l => if Z.eqb (Z.of_nat (length l)) (Z.of_nat (arguments f) - 1) then Ok tt else Err TypeError
  end.
(** Fit.py l.127-143, for one of the two. *)
Definition proper (b : bounds_arg) : bound := match b with Bounds l => Each l | _ => Unbounded end.
(** Fit.py l.20-157; the second component is the exception, if any. *)
Definition fit (self : fit_object) (f : F) (xData yData : list V) (yErrs : option (list V)) (lowerBounds upperBounds : bounds_arg) : fit_object * result unit :=
  if negb (callable f) then (self, Err TypeError)
  else if negb (Nat.eqb (length xData) (length yData)) then (self, Err ValueError)
  else if match yErrs with Some e => negb (Nat.eqb (length e) (length yData)) | None => false end then (self, Err ValueError)
  else match bounds_check f lowerBounds with
  | Err e => (self, Err e)
  | Ok _ => match bounds_check f upperBounds with
    | Err e => (self, Err e)
    | Ok _ =>
      match curve_fit (Call f xData yData yErrs (match yErrs with Some _ => true | None => false end) (proper lowerBounds) (proper upperBounds)) with
      | Err e => (self, Err e)
      | Ok r => (Some r, Ok tt)
      end
    end
  end.
(** Fit.py l.160-172. *)
Definition getFitParameterCount (self : fit_object) : result nat := match self with None => Err RuntimeError | Some r => Ok (length (fst r)) end.
(** The checks of an index, [None] being no [int] (Fit.py l.195-199). *)
Definition index_check (n : nat) (index : option Z) : result nat :=
  match index with
  | None => Err TypeError
  | Some i => if Z.ltb i 0 || Z.leb (Z.of_nat n) i then Err ValueError else Ok (Z.to_nat i)
  end.
(** [l[i]] (Fit.py l.201). *)
Definition item {A} (l : list A) (i : nat) : result A := match nth_error l i with Some x => Ok x | None => Err IndexError end.
(** Fit.py l.175-201. *)
Definition getFitParameter (self : fit_object) (index : option Z) : result V :=
  match self with None => Err RuntimeError | Some r => do i <- index_check (length (fst r)) index; item (fst r) i end.
(** Fit.py l.204-232. *)
Definition getFitParameterVariance (self : fit_object) (index : option Z) : result V :=
  match self with None => Err RuntimeError | Some r => do i <- index_check (length (fst r)) index; do row <- item (snd r) i; item row i end.
(** Fit.py l.258-294: both types are checked before the ranges. *)
Definition getFitParameterCovariance (self : fit_object) (index1 index2 : option Z) : result V :=
  match self with
  | None => Err RuntimeError
  | Some r =>
    match index1, index2 with
    | Some _, Some _ =>
      do i <- index_check (length (fst r)) index1; do j <- index_check (length (fst r)) index2; do row <- item (snd r) i; item row j
    | _, _ => Err TypeError
    end
  end.

(** One element of the data set; [None] is a [None] (Fit.py l.327-330). *)
Definition datum := list (option (list V)).
(** [fit.fit(f, data[0], data[1], data[2])] with a new [Fit] (Fit.py l.328-329); [len(None)] is a [TypeError]. *)
Definition fit_datum (f : F) (data : datum) : result fit_object :=
  do x <- item data 0; do y <- item data 1; do e <- item data 2;
  if negb (callable f) then Err TypeError
  else match x, y with
  | Some x, Some y => let '(o, r) := fit None f x y e NoBounds NoBounds in do _ <- r; Ok o
  | _, _ => Err TypeError
  end.
(** Fit.py l.297-332. *)
Fixpoint multipleIndependentDataFits (f : F) (dataSet : list datum) : result (list (datum * fit_object)) :=
  match dataSet with
  | [] => Ok []
  | d :: r => do o <- fit_datum f d; do l <- multipleIndependentDataFits f r; Ok ((d, o) :: l)
  end.
(** Fit.py l.374-383: the loop. *)
Fixpoint best_loop (comparator : datum * fit_object -> datum * fit_object -> bool) (best : option (datum * fit_object)) (l : list (datum * fit_object)) : option (datum * fit_object) :=
  match l with
  | [] => best
  | x :: r => match best with
    | None => best_loop comparator (Some x) r
    | Some b => best_loop comparator (if comparator b x then Some x else best) r
    end
  end.
(** Fit.py l.335-383. *)
Definition getBestOutOfMultipleIndependentDataFits (f : F) (dataSet : list datum) (comparator : datum * fit_object -> datum * fit_object -> bool) : result (option (datum * fit_object)) :=
  do l <- multipleIndependentDataFits f dataSet;
  match l with [] => Ok None | _ => Ok (best_loop comparator None l) end.

(** [!=] of two numbers; what [!=] does for arrays that cannot be broadcast: [True], or an exception, depending on the version of numpy (Fit.py l.417). *)
Variable differ : V -> V -> bool.
Variable mismatch : result bool.
(** [any] of comparisons (Fit.py l.417). *)
Fixpoint any (l : list (result bool)) : result bool :=
  match l with [] => Ok false | r :: l => do b <- r; do c <- any l; Ok (b || c) end.
(** Broadcasting: the pairs that are compared (Fit.py l.417). *)
Definition broadcast {A} (a b : list A) : option (list (A * A)) :=
  if Nat.eqb (length a) (length b) then Some (combine a b)
  else match a, b with
  | [x], _ => Some (map (fun y => (x, y)) b)
  | _, [y] => Some (map (fun x => (x, y)) a)
  | _, _ => None
  end.
(** [numpy.any(y != z)] for vectors (Fit.py l.417). *)
Definition any_differ1 (a b : list V) : result bool :=
  match broadcast a b with Some l => Ok (existsb (fun p => differ (fst p) (snd p)) l) | None => mismatch end.
(** [numpy.any(y != z)] for matrices (Fit.py l.417). *)
Definition any_differ2 (a b : list (list V)) : result bool :=
  match broadcast a b with Some l => any (map (fun p => any_differ1 (fst p) (snd p)) l) | None => mismatch end.
(** Fit.py l.386-424, for two [Fit] objects. *)
Definition fit_eq (self rhs : fit_object) : result bool :=
  match self with
  | None => match rhs with None => Ok true | Some _ => Ok false end
  | Some v => match rhs with
    | None => Err TypeError
    | Some w =>
      do d <- any_differ1 (fst v) (fst w);
      if d then Ok false else do d <- any_differ2 (snd v) (snd w); Ok (negb d)
    end
  end.
End Fit.

Section Versions.
Open Scope string_scope.
(** [Repository.walk] of pygit2: the commits found from a commit (ProgramVersionDatabase.py l.126). *)
Variable walk : string -> list string.
(** ProgramVersionDatabase.py l.29-35. *)
Definition knownBugs : list (nat * option string) :=
  [(1, Some "ee7ec551c6f6d038d2a1195f35e4da8264f7f8e5");
   (8, Some "62e287cb9d60906bf4b514291f42fc882d2d4f90");
   (15, Some "9daa26741fb622759b4b32bef542441b693c7e22");
   (18, Some "28b668cdf97e4a478c31bd17702bfacfddd2ed07");
   (19, Some "53af091fd877cb52dcbe150aeaa5a8e03ebb67ca")]%nat.
(** ProgramVersionDatabase.py l.117-130. *)
Definition gitCommitAContainsCommitB (commitA commitB : string) : bool := existsb (fun c => String.eqb c commitB) (walk commitA).
(** ProgramVersionDatabase.py l.77-89, for any table of bugs. *)
Fixpoint containsNoKnownBugs (bugs : list (nat * option string)) (commit : string) : bool :=
  match bugs with
  | [] => true
  | (_, None) :: _ => false
  | (_, Some fixing) :: r => if gitCommitAContainsCommitB commit fixing then containsNoKnownBugs r commit else false
  end.
(** ProgramVersionDatabase.py l.77-89. *)
Definition commitContainsNoKnownBugs (commit : string) : bool := containsNoKnownBugs knownBugs commit.

(** What pygit2 says about the repository: the description of the current commit (without suffix), whether tracked files are modified,
    the objects that revisions stand for, the status of files ([GIT_STATUS_WT_NEW] or not), and the ignored paths (ProgramVersionDatabase.py l.49-72). *)
Record repository := Repository { describe : string; dirty : bool; revparse : string -> option string; status : list (string * bool); path_is_ignored : string -> bool }.
(** ProgramVersionDatabase.py l.46. *)
Definition modificationsString : string := "+MODIFICATIONS".
(** ProgramVersionDatabase.py l.47. *)
Definition untrackedString : string := "+UNTRACKED".
(** [s.endswith(x)] (ProgramVersionDatabase.py l.58). *)
Definition endswith (s x : string) : bool := Nat.leb (String.length x) (String.length s) && String.eqb (substring (String.length s - String.length x) (String.length x) s) x.
(** [s[:-n]] (ProgramVersionDatabase.py l.60). *)
Definition chop (n : nat) (s : string) : string := substring 0 (String.length s - n) s.
(** ProgramVersionDatabase.py l.38-74; [revparse_single] raises a [KeyError]. *)
Definition returnCurrentRepositoryDescription (r : repository) : result string :=
  let description := if dirty r then describe r ++ modificationsString else describe r in
  let modified := endswith description modificationsString in
  let description := if modified then chop (String.length modificationsString) description else description in
  match revparse r description with
  | None => Err KeyError
  | Some commit =>
    let ret := if modified then commit ++ modificationsString else commit in
    Ok (if existsb (fun p => snd p && negb (path_is_ignored r (fst p))) (status r) then ret ++ untrackedString else ret)
  end.
(** ProgramVersionDatabase.py l.102-114. *)
Definition getCurrentGitCommit (r : repository) : result string := match revparse r (describe r) with Some c => Ok c | None => Err KeyError end.
(** ProgramVersionDatabase.py l.92-99. *)
Definition currentCommitContainsNoKnownBugs (r : repository) : result bool := do c <- getCurrentGitCommit r; Ok (commitContainsNoKnownBugs c).
End Versions.
