(** What it means that runs agree on a setting. *)
From Coq Require Import String List.
From Verif Require Import PyBase ConfModel.
Open Scope string_scope.

Section Runs.
Variables (load : string -> result (heap * nat)) (key : string).
(** [key] has the value [v] in the run. *)
Definition has (rundir : string) (v : val) : Prop := exists H l, load (rundir ++ "/config.txt")%string = Ok (H, l) /\ getitem H l key = Ok v.
(** The run has a configuration, without that setting. *)
Definition lacks (rundir : string) : Prop := exists H l, load (rundir ++ "/config.txt")%string = Ok (H, l) /\ getitem H l key = Err KeyError.
(** The value is one that [==] finds equal to [x]. *)
Definition equal_to (x : leaf) (v : val) : Prop := exists y, v = Leaf y /\ leaf_eqb x y = true.
End Runs.
