(** Mean square displacements: the measurement in the simulation
    (src/OpenMPCD/CUDA/MPCFluid/Instrumentation/LogicalEntityMeanSquareDisplacement.cu) and
    its analysis (Analysis/MPCDAnalysis/LogicalEntityMeanSquareDisplacement.py).
    Simplifications: exact arithmetic; fewer than 2^32 sweeps, measurements and snapshots;
    debug assertions are omitted; the centres of mass are given; compressed files and the
    comparison of configurations are left out. *)
From Verif Require Import QcBase PyBase StrBase VtfModel VtfPyModel OtfsModel DddaModel.
Open Scope list_scope.
Open Scope Qc_scope.

(** Arrays of coordinates in host memory (LogicalEntityMeanSquareDisplacement.cu l.49-52). *)
Definition array := nat -> Qc.

Section Msd.
(** [getNumberOfLogicalEntities], [measureEveryNthSweep], [measurementArgumentCount]. *)
Variables entities every count : nat.

(** The fields (LogicalEntityMeanSquareDisplacement.hpp l.242-265). *)
Record msd := Msd { snapshots : list array; sweeps : nat; displacements : list (list Qc) }.
(** LogicalEntityMeanSquareDisplacement.cu l.22-53; the arrays are not initialised, so they hold
    [garbage]. *)
Definition msd_new (garbage : nat -> array) : msd := Msd (map garbage (seq 0 (count + 1))) 0 [].
(** LogicalEntityMeanSquareDisplacement.cu l.114-130: the array for the current measurement time, the
    previous one, etc.; [None] is NULL. *)
Definition msd_buffers (now : nat) : list (option nat) :=
  map (fun i => if Nat.ltb now i then None else Some (Nat.modulo (now - i) (count + 1))) (seq 0 (count + 1)).
(** LogicalEntityMeanSquareDisplacement.cu l.132-136: the first [3 * entities] elements of the array
    with index [k] are replaced. *)
Fixpoint copy_to (l : list array) (k : nat) (x : array) : list array :=
  match l, k with
  | [], _ => []
  | a :: l', O => (fun i => if Nat.ltb i (3 * entities) then x i else a i) :: l'
  | a :: l', S k' => a :: copy_to l' k' x
  end.
(** Vector3D.hpp l.209-239 for the difference of the vectors with index [e]
    (LogicalEntityMeanSquareDisplacement.cu l.149-156). *)
Definition distance2 (a b : array) (e : nat) : Qc :=
  let x := a (3 * e)%nat - b (3 * e)%nat in
  let y := a (3 * e + 1)%nat - b (3 * e + 1)%nat in
  let z := a (3 * e + 2)%nat - b (3 * e + 2)%nat in
  x * x + y * y + z * z.
(** LogicalEntityMeanSquareDisplacement.cu l.146-158. *)
Definition mean_square (a b : array) : Qc :=
  fold_left (fun result e => result + distance2 a b e) (seq 0 entities) 0 / qn entities.
(** LogicalEntityMeanSquareDisplacement.cu l.141-161: the loop over earlier snapshots. *)
Fixpoint msd_lags (snaps : list array) (current : array) (buffers : list (option nat)) : list Qc :=
  match buffers with
  | Some k :: r => mean_square current (nth k snaps (fun _ => 0)) :: msd_lags snaps current r
  | _ => []
  end.
(** LogicalEntityMeanSquareDisplacement.cu l.100-162; [x] are the centres of mass. *)
Definition msd_measure (st : msd) (x : array) : msd :=
  let sw := S (sweeps st) in
  if negb (Nat.eqb sw every) && negb (Nat.eqb (length (displacements st)) 0)
  then Msd (snapshots st) sw (displacements st)
  else
    let now := length (displacements st) in
    match msd_buffers now with
    | Some b0 :: r =>
      let snaps := copy_to (snapshots st) b0 x in
      Msd snaps 0 (displacements st ++ [msd_lags snaps (nth b0 snaps (fun _ => 0)) r])
    | _ => st (* not reached *)
    end.
(** LogicalEntityMeanSquareDisplacement.cu l.176-193; [None] is undefined behaviour. *)
Definition getMeanSquareDisplacement (st : msd) (t T : nat) : option Qc :=
  match nth_error (displacements st) T with
  | Some l => nth_error l (T - t - 1)
  | None => None
  end.

(** [stream << x] with [digits10 + 2] digits. *)
Variable show : Qc -> string.
(** LogicalEntityMeanSquareDisplacement.cu l.208-210: a row. *)
Definition msd_row (t dT : nat) (v : Qc) : string :=
  (str_of_Z (Z.of_nat t) ++ String "009" (str_of_Z (Z.of_nat dT)) ++ String "009" (show v) ++ eol)%string.
(** LogicalEntityMeanSquareDisplacement.cu l.202-211: the inner loop. *)
Fixpoint save_lags (st : msd) (t : nat) (dTs : list nat) : option string :=
  match dTs with
  | [] => Some ""%string
  | dT :: r =>
    let T := (t + dT)%nat in
    if Nat.leb (length (displacements st)) T then Some ""%string
    else match getMeanSquareDisplacement st t T, save_lags st t r with
         | Some v, Some s => Some (msd_row t dT v ++ s)%string
         | _, _ => None
         end
  end.
(** LogicalEntityMeanSquareDisplacement.cu l.200-212: the outer loop. *)
Fixpoint save_times (st : msd) (ts : list nat) : option string :=
  match ts with
  | [] => Some ""%string
  | t :: r =>
    match save_lags st t (seq 1 count), save_times st r with
    | Some a, Some b => Some (a ++ b)%string
    | _, _ => None
    end
  end.
(** LogicalEntityMeanSquareDisplacement.cu l.195-227: the contents of the file. *)
Definition msd_save (st : msd) : option string := save_times st (seq 0 (length (displacements st))).

(** [float], in Python. *)
Variable float : string -> option Qc.
(** LogicalEntityMeanSquareDisplacement.py l.81-82: the accumulators for the times 1, 2, etc. *)
Definition py_statistics := list ddda.
(** LogicalEntityMeanSquareDisplacement.py l.55-82. *)
Definition py_new : py_statistics := repeat ddda_new count.
(** [self._statistics[deltaT].addDatum] (LogicalEntityMeanSquareDisplacement.py l.266). *)
Fixpoint py_add (s : py_statistics) (k : nat) (x : Qc) : result py_statistics :=
  match s, k with
  | [], _ => Err KeyError
  | c :: s', O => Ok (ddda_add c x :: s')
  | c :: s', S k' => do s'' <- py_add s' k' x; Ok (c :: s'')
  end.
(** LogicalEntityMeanSquareDisplacement.py l.258-266: a line.  [int] also accepts some strings that
    [Z_of_str] does not, none of which is written by the simulation. *)
Definition py_line (s : py_statistics) (line : string) : result py_statistics :=
  match words is_ws line with
  | [_; b; c] =>
    match Z_of_str b with
    | None => Err ValueError
    | Some deltaT =>
      match float c with
      | None => Err ValueError
      | Some x => if Z.ltb deltaT 1 then Err KeyError else py_add s (Z.to_nat (deltaT - 1)) x
      end
    end
  | _ => Err ValueError
  end.
(** LogicalEntityMeanSquareDisplacement.py l.258-266: the loop over lines. *)
Fixpoint py_lines (s : py_statistics) (ls : list string) : result py_statistics :=
  match ls with [] => Ok s | l :: r => do s' <- py_line s l; py_lines s' r end.
(** LogicalEntityMeanSquareDisplacement.py l.241-266. *)
Definition py_parse (s : py_statistics) (file : string) : result py_statistics := py_lines s (keep_lines file).
(** LogicalEntityMeanSquareDisplacement.py l.61-96: the files of all run directories. *)
Fixpoint py_files (s : py_statistics) (files : list string) : result py_statistics :=
  match files with [] => Ok s | f :: r => do s' <- py_parse s f; py_files s' r end.
(** LogicalEntityMeanSquareDisplacement.py l.108-133. *)
Definition py_get (s : py_statistics) (deltaT : Z) : result ddda :=
  if Z.leb deltaT 0 then Err ValueError
  else if Z.ltb (Z.of_nat count) deltaT then Err ValueError
  else match nth_error s (Z.to_nat (deltaT - 1)) with Some c => Ok c | None => Err AssertionError end.
(** LogicalEntityMeanSquareDisplacement.py l.157-166: the times used by [fitToData]. *)
Definition fit_times (minTime maxTime : option Z) : list Z :=
  let minTime := match minTime with None => 1%Z | Some t => t end in
  let maxTime := match maxTime with None => (Z.of_nat count + 1)%Z | Some t => t end in
  map (fun k => (minTime + Z.of_nat k)%Z) (seq 0 (Z.to_nat (maxTime - minTime))).
End Msd.
