(** What users of the Python class for snapshot files rely on. *)
From Verif Require Export VtfSpec VtfPyModel.
Open Scope string_scope.
Open Scope Z_scope.
Open Scope list_scope.

(** Numbers do not start like a header. *)
Definition not_t (s : string) : bool := match s with String a _ => negb (Ascii.eqb a "t") | EmptyString => true end.
Definition numeric {F} (str : F -> string) : Prop := forall x, not_t (str x) = true.

(** The text with these lines. *)
Definition text_with (ls : list string) : string :=
  fold_right (fun l r => (l ++ String newline r)%string) EmptyString ls.
(** Lines of a structure block. *)
Definition block_line (l : string) : Prop := has_char newline l = false /\ is_header l = false.

(** Writing timesteps one after another. *)
Fixpoint py_write_all {F} (str : F -> string) (python3 : bool) (file : string)
  (cs : list (list (F * F * F) * list (F * F * F))) : string * result unit :=
  match cs with
  | [] => (file, Ok tt)
  | c :: cs' => match py_writeTimestep str python3 file c with
                | (file', Ok _) => py_write_all str python3 file' cs'
                | (file', Err e) => (file', Err e)
                end
  end.
Definition py_written {F} (str : F -> string) (python3 : bool) (block : string)
  (cs : list (list (F * F * F) * list (F * F * F))) : string * result unit :=
  py_write_all str python3 (py_writeStructureBlock "" block) cs.
(** Velocities are given for no particle or for each. *)
Definition consistent {F} (c : list (F * F * F) * list (F * F * F)) : Prop :=
  snd c = [] \/ length (snd c) = length (fst c).
(** Reading the timesteps one after another gives these collections, and then
    collections without particles. *)
Fixpoint py_reads {F} (float : string -> option F) (ls : list string)
  (cs : list (list (F * F * F) * list (F * F * F))) : Prop :=
  match cs with
  | [] => py_readTimestep float ls = Ok (([], []), ls) /\ ls = []
  | c :: cs' => exists rest, py_readTimestep float ls = Ok (c, rest) /\ py_reads float rest cs'
  end.

(** The particles of a timestep written by the simulation. *)
Definition at_index {F} (f : Z -> F) (k : nat) : F * F * F :=
  let i := 3 * Z.of_nat k in (f i, f (i + 1), f (i + 2)).
Definition step_collection {F} (n : nat) (step : (Z -> F) * option (Z -> F))
  : list (F * F * F) * list (F * F * F) :=
  (map (at_index (fst step)) (seq 0 n),
   match snd step with Some v => map (at_index v) (seq 0 n) | None => [] end).
