(** Settings that are the same in several runs (Utilities.py). Simplification: types of arguments are right. *)
From Coq Require Import String List.
From Verif Require Import PyBase ConfModel.
Import ListNotations.

(** [!=] of values; configurations (groups and lists) are compared by identity and are new objects each time (Utilities.py l.148). *)
Definition values_differ (a b : val) : bool := match a, b with Leaf x, Leaf y => negb (leaf_eqb x y) | _, _ => true end.
(** Utilities.py l.108-155; [None] is [None]. *)
Definition getConfigValueAndCheckConstistency (config : heap * nat) (valueKey : string) (knownValue : option val) : result val :=
  do currentValue <- getitem (fst config) (snd config) valueKey;
  match knownValue with
  | None => Ok currentValue
  | Some k => if values_differ k currentValue then Err ValueError else Ok k
  end.
Section Runs.
(** [Configuration(path)], or its exception. *)
Variable load : string -> result (heap * nat).
(** Utilities.py l.194-196: the loop. *)
Fixpoint consistent_loop (rundirs : list string) (valueKey : string) (value : option val) : result (option val) :=
  match rundirs with
  | [] => Ok value
  | rundir :: r =>
    do config <- load (rundir ++ "/config.txt")%string;
    do v <- getConfigValueAndCheckConstistency config valueKey value;
    consistent_loop r valueKey (Some v)
  end.
(** Utilities.py l.158-200. *)
Definition getConsistentConfigValue (rundirs : list string) (valueKey : string) : result (option val) :=
  match consistent_loop rundirs valueKey None with
  | Err KeyError => Err ValueError
  | r => r
  end.
End Runs.
