(** The simulation program (main.cpp), and the saving of data (Instrumentation.cpp, StarPolymers.cpp).
    Simplifications: signals arrive during sweeps (or before the first one), not between two checks
    of the same iteration; the installation of signal handlers succeeds; saving at the end does not
    fail; printing to the terminal is left out. What the command line parser, the simulation and the
    file system answer are inputs. *)
From Coq Require Import List ZArith Bool String Ascii.
From Verif Require Import StrBase.
Import ListNotations.
Open Scope list_scope.

(** What can be thrown, by the clauses that catch it (OpenMPCD/main.cpp l.279-305). *)
Inductive failure := ProjectException | ProgramOptionsError | StandardException | OtherException.

(** The file system, as far as seen by OpenMPCD/main.cpp l.48-70: a file, or a directory and the names in it. *)
Inductive entry := File | Directory (names : list string).
(** [path / name] (OpenMPCD/main.cpp l.53-55). *)
Definition path_append (dir name : string) : string :=
  if String.eqb dir "" then name
  else if (match get (String.length dir - 1) dir with Some c => Ascii.eqb c "/" | None => false end)%string
       then (dir ++ name)%string else (dir ++ "/" ++ name)%string.
(** OpenMPCD/main.cpp l.51-64: the loop over the entries; the result is [*configPath_ptr]. *)
Fixpoint check_entries (rundir : string) (names : list string) (configPath : string) : string + failure :=
  match names with
  | [] => inl configPath
  | n :: r =>
    if String.eqb n "config.txt" then check_entries rundir r (path_append rundir n)
    else if String.eqb n "input" then check_entries rundir r configPath
    else inr ProjectException
  end.
(** What createRundir (OpenMPCD/main.cpp l.37-71) leads to: the directory, the configuration file, the file system. *)
Record prepared := Prepared { rundir_of : string; config_of : string; files_of : string -> option entry }.
(** OpenMPCD/main.cpp l.37-71; [now] is the current time; [creatable] tells whether the new directory can be made. *)
Definition createRundir (now : string) (creatable : bool) (fs : string -> option entry) (rundir configPath : string) : prepared + failure :=
  let rundir := if String.eqb rundir "" then ("runs/" ++ now)%string else rundir in
  match fs rundir with
  | Some File => inr StandardException
  | Some (Directory names) =>
    match check_entries rundir names configPath with
    | inl c => inl (Prepared rundir c fs)
    | inr e => inr e
    end
  | None =>
    if creatable then inl (Prepared rundir configPath (fun p => if String.eqb p rundir then Some (Directory []) else fs p))
    else inr StandardException
  end.

(** The signals that are handled (OpenMPCD/main.cpp l.81-107). *)
Inductive signal := HUP | INT | TERM | USR1.
(** OpenMPCD/main.cpp l.75-76: [terminateProgram] and [earlySave]. *)
Record flags := Flags { terminateProgram : bool; earlySave : bool }.
(** OpenMPCD/main.cpp l.79-108; [None] if the program is aborted. *)
Definition signalHandler (f : flags) (s : signal) : option flags :=
  match s with
  | HUP => Some f
  | INT | TERM => if terminateProgram f then None else Some (Flags true (earlySave f))
  | USR1 => Some (Flags (terminateProgram f) true)
  end.
(** Several signals, one after the other (OpenMPCD/main.cpp l.79-108). *)
Fixpoint handle_all (f : flags) (l : list signal) : option flags :=
  match l with [] => Some f | s :: r => match signalHandler f s with Some f => handle_all f r | None => None end end.

(** An iteration of the loop in OpenMPCD/main.cpp l.173-218: the signals since the previous one, the seconds since the start,
    the time in the name of the directory for an early save and what this save throws, if anything,
    and what the sweep and the measurement throw. *)
Record tick := Tick { signals : list signal; elapsed : Z; time_name : string; save_throws : option failure; sweep_throws : option failure }.
(** What the program does (OpenMPCD/main.cpp l.150-219): *)
Inductive action := Swept | Measured | SavedEarly (dir : string) | SavedFinally (dir : string).
(** How the loop in OpenMPCD/main.cpp l.173-218 ends. *)
Inductive ending := Completed | TimeLimit | Terminated | Aborted | Threw (e : failure).

(** OpenMPCD/main.cpp l.190-211: early saving; what is done, and what is thrown. *)
Definition early_save (rundir : string) (t : tick) : list action * option failure :=
  match save_throws t with
  | None => ([SavedEarly (rundir ++ "/EarlySave_" ++ time_name t)%string], None)
  | Some ProjectException => ([], None)
  | Some e => ([], Some e)
  end.
(** OpenMPCD/main.cpp l.173-218; [last] are the signals during the last sweep. *)
Fixpoint sweep_loop (maxRuntime : Z) (rundir : string) (ticks : list tick) (last : list signal) (f : flags) : list action * ending :=
  match ticks with
  | [] => ([], match handle_all f last with None => Aborted | Some _ => Completed end)
  | t :: r =>
    match handle_all f (signals t) with
    | None => ([], Aborted)
    | Some f =>
      if negb (Z.eqb maxRuntime 0) && Z.ltb maxRuntime (elapsed t) then ([], TimeLimit)
      else if terminateProgram f then ([], Terminated)
      else
        let '(saved, thrown) := if earlySave f then early_save rundir t else ([], None) in
        match thrown with
        | Some e => (saved, Threw e)
        | None =>
          match sweep_throws t with
          | Some e => (saved, Threw e)
          | None => let '(actions, e) := sweep_loop maxRuntime rundir r last (Flags (terminateProgram f) false) in
                    (saved ++ [Swept; Measured] ++ actions, e)
          end
        end
    end
  end.
(** OpenMPCD/main.cpp l.163-219, once the data are to be saved automatically; [start] is what reading the number of sweeps and warming
    up throw, if anything; [ticks] are as many as the configured sweeps. The destructor of the instrumentation
    saves the data (Instrumentation.cpp l.104-108), unless the program is aborted. *)
Definition simulate (start : option failure) (maxRuntime : Z) (rundir : string) (ticks : list tick) (last : list signal) : list action * ending :=
  let '(actions, e) := match start with Some e => ([], Threw e) | None => sweep_loop maxRuntime rundir ticks last (Flags false false) end in
  match e with Aborted => (actions, e) | _ => (actions ++ [SavedFinally rundir], e) end.

(** What the world answers to OpenMPCD/main.cpp l.150-219: the time, whether a new run directory can be made, the file system, what constructing
    the simulation and what starting it throws, the iterations, the signals during the last one. *)
Record world := World { now : string; creatable : bool; files : string -> option entry; setup_throws : option failure;
  start_throws : option failure; iterations : list tick; last_signals : list signal }.
(** OpenMPCD/main.cpp l.150-219. *)
Definition run_program (w : world) (maxRuntime : Z) (rundir : string) : list action * ending :=
  match createRundir (now w) (creatable w) (files w) rundir "./config.txt" with
  | inr e => ([], Threw e)
  | inl p => match setup_throws w with Some e => ([], Threw e)
             | None => simulate (start_throws w) maxRuntime (rundir_of p) (iterations w) (last_signals w) end
  end.
(** What the command line parser finds (OpenMPCD/main.cpp l.228-261). *)
Inductive command_line := Unparsable (e : failure) | Help | Options (maxRuntime : Z) (rundir : string).
(** OpenMPCD/main.cpp l.279-307: the exit status for an exception. *)
Definition status_of (e : failure) : Z :=
  match e with ProjectException => 1 | ProgramOptionsError => 0 | StandardException => 2 | OtherException => 3 end.
(** OpenMPCD/main.cpp l.221-308; the exit status, [None] if the program is aborted. *)
Definition main (w : world) (c : command_line) : list action * option Z :=
  match c with
  | Unparsable e => ([], Some (status_of e))
  | Help => ([], Some 1%Z)
  | Options maxRuntime rundir =>
    let '(actions, e) := run_program w maxRuntime rundir in
    (actions, match e with Aborted => None | Threw e => Some (status_of e) | _ => Some 0%Z end)
  end.

(** The names, relative to the run directory, of the files that measurements are saved to:
    Instrumentation.cpp l.120-138; CUDA/MPCFluid/Instrumentation: GaussianDumbbells.cpp l.85-103,
    HarmonicTrimers.cpp l.134-158, LogicalEntityMeanSquareDisplacement.cu l.220, GaussianChains.cpp l.82,
    VelocityAutocorrelation/Base.cu l.75, NormalModeAutocorrelation.cpp l.228, GaussianRods.cpp l.36;
    CUDA/MPCSolute/Instrumentation/StarPolymers.cpp l.43-54. Where a directory is filled, only it is listed
    (FourierTransformedVelocity/Base.cpp l.33). *)
Definition data_files : list string :=
  ["velocityMagnitudeHistogram.data"; "densityProfile.data"; "flowProfile.data"; "totalFluidVelocityMagnitudeVSTime.data";
   "dumbbellBondLengthHistogram.data"; "dumbbellBondLengthSquaredHistogram.data"; "dumbbellBondXHistogram.data"; "dumbbellBondYHistogram.data";
   "dumbbellBondZHistogram.data"; "dumbbellBondXXHistogram.data"; "dumbbellBondYYHistogram.data"; "dumbbellBondZZHistogram.data";
   "dumbbellBondXYHistogram.data"; "dumbbellAverageBondXXVSTime.data"; "dumbbellAverageBondYYVSTime.data"; "dumbbellAverageBondZZVSTime.data";
   "dumbbellBondAngleWithFlowDirectionHistogram.data"; "dumbbellBondXYAngleWithFlowDirectionHistogram.data";
   "harmonicTrimers"; "selfDiffusionCoefficient.data"; "logicalEntityMeanSquareDisplacement.data"; "gaussianChains--squaredBondLengths.txt";
   "velocityAutocorrelations.data"; "normalModeAutocorrelations.data"; "gaussianRods"; "fourierTransformedVelocities"; "StarPolymers"]%string.
(** Instrumentation.cpp l.120-175, l.291-311: the names of the entries that saving to a directory writes; [measured] of those
    above; [names] are there already. *)
Definition saved_names (measured : list string) (gitRevision : string) (names : list string) : list string :=
  measured ++ ["metadata.txt"; "rngSeed.txt"]%string ++
  (if existsb (String.eqb "config.txt") names then [] else ["config.txt"%string]) ++
  (if String.eqb gitRevision "" then [] else ["git-revision"%string]).

(** CUDA/MPCSolute/Instrumentation/StarPolymers.cpp l.33-74: the timesteps in the temporary snapshot file, and what is
    saved where; [xs] are the states at the measurements. *)
Fixpoint star_saves {A} (actions : list action) (xs : list A) (snapshot : list A) : list (string * list A) :=
  match actions with
  | [] => []
  | Swept :: r => star_saves r xs snapshot
  | Measured :: r => match xs with x :: xs => star_saves r xs (snapshot ++ [x]) | [] => star_saves r [] snapshot end
  | SavedEarly dir :: r | SavedFinally dir :: r => (dir ++ "/StarPolymers/snapshots.vtf", snapshot)%string :: star_saves r xs []
  end.
