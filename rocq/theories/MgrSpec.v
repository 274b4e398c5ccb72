(** What the data manager is supposed to find and select. *)
From Coq Require Import List ZArith String Ascii Bool Lia.
From Verif Require Import PyBase StrBase FsBase RunsModel RunsSpec MgrModel.
Import ListNotations.
Open Scope string_scope.
Open Scope nat_scope.
Open Scope list_scope.

(** [l'] are the elements of [l] that have a property, in order and as often as in [l]. *)
Inductive selected {A} (P : A -> Prop) : list A -> list A -> Prop :=
| SelNil : selected P [] []
| SelKeep a l l' : P a -> selected P l l' -> selected P (a :: l) (a :: l')
| SelSkip a l l' : ~ P a -> selected P l l' -> selected P (a :: l) l'.

(** The matches of several patterns, one after the other. *)
Inductive matches (glob : string -> list string) : list string -> list string -> Prop :=
| MNil : matches glob [] []
| MCons p ps l : matches glob ps l -> matches glob (p :: ps) (glob p ++ l).

(** A node of the configuration file stands for the node [n]. *)
Definition node_means (ps : list (list seg)) (g : Z) (n : node) : Prop := list_means ps (nd_name n) /\ nd_gpus n = g.

Section Pending.
Variables (cwd : path) (F : fs).
(** The directory is of a run that is not part of another run's job. *)
Definition no_parent (r : string) : Prop := ~ has_file F (place cwd r) ["input"; "parent-job-path.txt"].
(** The job script of a run starts [n] programs. *)
Definition job_size (r : string) (n : nat) : Prop :=
  exists t, look F (place cwd r ++ ["input"; "job.slrm"]) = Some (File t) /\
    exists ls, selected (fun line => exists rest, line = ("srun" ++ rest)%string) (split "010" t) ls /\ n = List.length ls.
(** A job batch that waits for its execution. *)
Definition pending (tr : string -> string) (r : string) (n : nat) : Prop :=
  no_parent r /\ state_is cwd F tr (place cwd r) Submitted /\ job_size r n.
End Pending.
