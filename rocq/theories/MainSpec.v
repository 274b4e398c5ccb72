(** What the statements about the simulation program refer to. *)
From Coq Require Import List ZArith Bool String.
From Verif Require Import MainModel.
Import ListNotations.
Open Scope list_scope.

(** Specification of OpenMPCD/main.cpp l.237-241: nothing but the prepared input. *)
Definition only_input (names : list string) : Prop := forall n, In n names -> n = "config.txt"%string \/ n = "input"%string.
(** Specification of OpenMPCD/main.cpp l.237-241: the directory may be used. *)
Definition usable (w : world) (rundir : string) : Prop :=
  (files w rundir = None /\ creatable w = true) \/ (exists names, files w rundir = Some (Directory names) /\ only_input names).
(** The directory that is used (OpenMPCD/main.cpp l.42-46). *)
Definition chosen (w : world) (rundir : string) : string := if String.eqb rundir "" then ("runs/" ++ now w)%string else rundir.

(** Signals that ask to terminate (SIGINT, SIGTERM; OpenMPCD/main.cpp l.86-87). *)
Definition is_termination (s : signal) : bool := match s with INT | TERM => true | _ => false end.
(** How many such signals arrived (OpenMPCD/main.cpp l.86-101). *)
Definition terminations (l : list signal) : nat := List.length (filter is_termination l).
(** All signals up to the beginning of the given iterations (OpenMPCD/main.cpp l.173-218). *)
Definition received (ticks : list tick) : list signal := flat_map signals ticks.
(** Whether the iteration after [before] is to be left out (OpenMPCD/main.cpp l.175-188). *)
Definition stops (maxRuntime : Z) (before : list tick) (t : tick) : Prop :=
  (maxRuntime <> 0 /\ maxRuntime < elapsed t)%Z \/ terminations (received (before ++ [t])) <> 0%nat.
(** Nothing fails in this iteration that is not reported as non-fatal (OpenMPCD/main.cpp l.194-214). *)
Definition fine (t : tick) : Prop := sweep_throws t = None /\ (save_throws t = None \/ save_throws t = Some ProjectException).
(** What is to be done in an iteration (OpenMPCD/main.cpp l.190-214). *)
Definition iteration (rundir : string) (t : tick) : list action :=
  (if existsb (fun s => match s with USR1 => true | _ => false end) (signals t)
   then match save_throws t with None => [SavedEarly (rundir ++ "/EarlySave_" ++ time_name t)%string] | Some _ => [] end
   else []) ++ [Swept; Measured].
(** The number of measurements (OpenMPCD/main.cpp l.214). *)
Definition measurements (l : list action) : nat :=
  List.length (filter (fun a => match a with Measured => true | _ => false end) l).
(** The early saves (OpenMPCD/main.cpp l.201). *)
Definition early_saves (l : list action) : list action :=
  filter (fun a => match a with SavedEarly _ => true | _ => false end) l.
