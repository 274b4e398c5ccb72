(** Theorems about snapshot files in the analysis package. *)
From Verif Require Import VtfPySpec VtfPyProof.
Open Scope string_scope.
Open Scope Z_scope.
Open Scope list_scope.

(** C44: in Python 2, the structure block and all timesteps are read back, in order,
    and then collections without particles; provided that numbers can be read back,
    and that the structure block consists of complete lines of which none starts with
    [timestep]. *)
Theorem py_vtf_roundtrip : forall (F : Type) (str : F -> string) (float : string -> option F)
    (lines : list string) (cs : list (list (F * F * F) * list (F * F * F))),
  prints str float -> numeric str -> Forall block_line lines -> Forall consistent cs ->
  exists file rest, py_written str false (text_with lines) cs = (file, Ok tt) /\
    py_open file = (text_with lines, rest) /\ py_reads float rest cs.
Proof. intros F str float lines cs H1 H2. exact (py_round_trip F str float H1 H2 lines cs). Qed.
Print Assumptions py_vtf_roundtrip.
Definition example_steps : list (list (Z * Z * Z) * list (Z * Z * Z)) :=
  [([(1, 2, 3); (4, 5, 6)], []); ([], []); ([(7, 8, 9)], [(0, 1, 2)])].
Example py_vtf_roundtrip_example :
  Forall consistent example_steps /\ Forall block_line ["atom 0:1"; "bond 0:1"] /\
  numeric str_of_Z /\
  fst (py_written str_of_Z false (text_with ["atom 0:1"; "bond 0:1"]) example_steps) =
    text_with ["atom 0:1"; "bond 0:1"; "timestep"; "1 2 3"; "4 5 6"; "timestep"; "timestep"; "7 8 9 0 1 2"].
Proof.
  split; [repeat (apply Forall_cons; [first [left; reflexivity|right; reflexivity]|]); constructor|].
  split; [repeat constructor|]. split; [exact integers_numeric|vm_compute; reflexivity].
Qed.

(** C44: the Python class reads the timesteps of files written by the simulation,
    for any sequence of calls. *)
Theorem py_reads_cpp : forall (F : Type) (show : F -> string) (float : string -> option F)
    (negative minus_one : F -> bool) (calls : list (call F)),
  prints show float -> numeric show -> Forall unsigned calls -> Forall plain_names calls ->
  let c := declared negative minus_one calls in
  exists block rest, py_open (written show negative minus_one calls) = (block, rest) /\
    block = structure_text show (w_structure (fold_left (perform show negative minus_one) calls new_writer)) /\
    py_reads float rest (map (step_collection (length (c_atoms c))) (c_steps c)).
Proof.
  intros F show float negative minus_one calls H1 H2.
  exact (py_reads_simulation F show float H1 H2 negative minus_one calls).
Qed.
Print Assumptions py_reads_cpp.
Example py_reads_cpp_example :
  let f := written str_of_Z z_negative z_minus_one
             [CallAtoms 2; CallBond 0 1; CallTimestep (fun i => i) None; CallTimestep (fun i => 2 * i) (Some (fun i => i))] in
  fst (py_open f) = text_with ["atom 0:1"; "bond 0:1"] /\
  py_readTimestep Z_of_str (snd (py_open f)) =
    Ok (([(0, 1, 2); (3, 4, 5)], []), [("0 2 4 0 1 2" ++ eol)%string; ("6 8 10 3 4 5" ++ eol)%string]).
Proof. split; vm_compute; reflexivity. Qed.

(** C44: in Python 3, no timestep can be written; the header has already been
    written when the exception is raised. *)
Theorem py3_write_refuted : forall (F : Type) (str : F -> string) (file : string)
    (c : list (F * F * F) * list (F * F * F)),
  py_writeTimestep str true file c = ((file ++ "timestep" ++ eol)%string, Err AttributeError).
Proof. intros F str file c. reflexivity. Qed.
Print Assumptions py3_write_refuted.

(** C44: if the structure block does not end in a line break, the first timestep
    becomes part of the structure block. *)
Theorem py_vtf_newline_refuted : exists (block : string) (cs : list (list (Z * Z * Z) * list (Z * Z * Z))) file,
  Forall consistent cs /\ has_char newline block = false /\ is_header block = false /\
  py_written str_of_Z false block cs = (file, Ok tt) /\ length cs = 2%nat /\
  exists block' rest, py_open file = (block', rest) /\ block' <> block /\ py_reads Z_of_str rest (tl cs).
Proof.
  exists "atom 0", [([(1, 2, 3)], []); ([(4, 5, 6)], [])]. eexists.
  split; [repeat (apply Forall_cons; [left; reflexivity|]); constructor|]. split; [reflexivity|]. split; [reflexivity|].
  split; [vm_compute; reflexivity|]. split; [reflexivity|].
  eexists. eexists. split; [vm_compute; reflexivity|]. split; [discriminate|].
  cbn [tl py_reads]. eexists. split; [vm_compute; reflexivity|]. split; vm_compute; reflexivity.
Qed.
Print Assumptions py_vtf_newline_refuted.
