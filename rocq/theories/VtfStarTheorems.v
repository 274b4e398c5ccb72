(** Theorems about star polymers in snapshot files. *)
From Verif Require Import StarModel StarSpec VtfSpec VtfStarModel VtfStarProof.
Open Scope string_scope.
Open Scope Z_scope.
Open Scope list_scope.

(** C39: for all structure parameters, the structure block and the state written
    to a file that has no atoms yet can be written, the file can be read, its structure
    is found to be compatible, and the state read is the one that was written. *)
Theorem star_snapshot_restart : forall (F : Type) (show : F -> string) (cast : string -> option F)
    (negative minus_one : F -> bool) (default_radius : F) (s : StarModel.structure) (debug : bool)
    (calls : list (call F)) (positions velocities : Z -> F),
  prints show cast -> minus_one default_radius = true -> well_formed s -> getParticleCount s < 2 ^ 64 ->
  Forall unsigned calls -> Forall plain_names calls ->
  c_atoms (declared negative minus_one calls) = [] -> c_steps (declared negative minus_one calls) = [] ->
  let w := fold_left (perform show negative minus_one) calls new_writer in
  exists w1 w2 r ls rest,
    writeStructureToSnapshot negative minus_one default_radius s w = Ok w1 /\
    writeStateToSnapshot s show w1 positions velocities = Ok w2 /\
    open_file cast negative debug (file_contents show w2) = Ok (r, ls) /\
    snapshotStructureIsCompatible s r = Ok true /\
    readStateFromSnapshot s cast r ls =
      Ok (Some (step_rows (Z.to_nat (getParticleCount s)) (positions, Some velocities)), rest).
Proof. exact star_restart. Qed.
Print Assumptions star_snapshot_restart.

(** Two stars with two arms of two particles and a magnetic particle. *)
Definition example_star := StarModel.Structure 2 2 2 true.
Example star_snapshot_example : exists w,
  writeStructureToSnapshot z_negative z_minus_one (-1) example_star new_writer = Ok w /\
  file_contents str_of_Z w = concat_text (map (fun l => (l ++ eol)%string)
    ["atom 0 type Core"; "atom 1:2 type Arm"; "atom 3 type Magnetic"; "atom 4:5 type Arm"; "atom 6 type Magnetic";
     "atom 7 type Core"; "atom 8:9 type Arm"; "atom 10 type Magnetic"; "atom 11:12 type Arm"; "atom 13 type Magnetic";
     "bond 0:1"; "bond 0:4"; "bond 1:2"; "bond 2:3"; "bond 4:5"; "bond 5:6";
     "bond 7:8"; "bond 7:11"; "bond 8:9"; "bond 9:10"; "bond 11:12"; "bond 12:13"]) /\
  getParticleCount example_star = 14.
Proof. eexists. split; [vm_compute; reflexivity|]. split; vm_compute; reflexivity. Qed.

Definition example_text (ls : list string) : string := concat_text (map (fun l => (l ++ eol)%string) ls).
(** The check is not trivial: a missing bond and a wrong type are noticed. *)
Example star_snapshot_mismatch :
  (do (r, _) <- open_file Z_of_str z_negative false
     (example_text ["atom 0 type Core"; "atom 1:2 type Arm"; "bond 0:1"]);
   snapshotStructureIsCompatible (StarModel.Structure 1 1 2 false) r) = Ok false /\
  (do (r, _) <- open_file Z_of_str z_negative false
     (example_text ["atom 0 type Core"; "atom 1 type Arm"; "atom 2 type Magnetic"; "bond 0:1, 1:2"]);
   snapshotStructureIsCompatible (StarModel.Structure 1 1 2 false) r) = Ok false /\
  (do (r, _) <- open_file Z_of_str z_negative false
     (example_text ["atom 0 type Core"; "atom 1:2 type Arm"; "bond 0:1, 1:2"]);
   snapshotStructureIsCompatible (StarModel.Structure 1 1 2 false) r) = Ok true.
Proof. repeat split; vm_compute; reflexivity. Qed.

(** C39: a structure is accepted exactly if it has as many atoms as there are particles, each
    of the type of its particle, and the same bonds; a state is read from no other file,
    and written to no file with another number of atoms. *)
Theorem star_snapshot_accepted : forall (F : Type) (s : StarModel.structure) (r : VtfModel.structure F),
  (snapshotStructureIsCompatible s r = Ok true <->
   getNumberOfAtoms r = getParticleCount s /\
   (forall i, 0 <= i < getParticleCount s -> exists props, getAtomProperties r i = Ok props /\
      p_type props = Some match getParticleType s i with TCore => "Core" | TArm => "Arm" | TMagnetic => "Magnetic" end) /\
   (forall i j, 0 <= i < j -> j < getParticleCount s ->
      exists b, particlesAreBonded s i j = Some b /\ hasBond r i j = Ok b)) /\
  (forall cast ls x, readStateFromSnapshot s cast r ls = Ok x -> snapshotStructureIsCompatible s r = Ok true) /\
  (forall show w positions velocities, getNumberOfAtoms (w_structure w) <> getParticleCount s ->
     writeStateToSnapshot s show w positions velocities = Err (A := writer F) InvalidArgumentException).
Proof.
  intros F s r. split; [apply compatible_iff|]. split.
  2: { intros show w positions velocities N. unfold writeStateToSnapshot. apply Z.eqb_neq in N. rewrite N. reflexivity. }
  intros cast ls x H. unfold readStateFromSnapshot in H.
  destruct (snapshotStructureIsCompatible s r) as [[]|e]; [reflexivity|discriminate H|discriminate H].
Qed.
Print Assumptions star_snapshot_accepted.
Example star_snapshot_longer :
  (do (r, _) <- open_file Z_of_str z_negative false
     (example_text ["atom 0 type Core"; "atom 1:3 type Arm"; "bond 0:1, 1:2"]);
   snapshotStructureIsCompatible (StarModel.Structure 1 1 2 false) r) = Ok false.
Proof. vm_compute. reflexivity. Qed.

(** C39: if the file has no timestep, reading the state succeeds all the same, and
    the positions and velocities keep their previous values. *)
Theorem star_state_missing_refuted : forall (F : Type) (cast : string -> option F) (s : StarModel.structure)
    (r : VtfModel.structure F),
  snapshotStructureIsCompatible s r = Ok true -> readStateFromSnapshot s cast r [] = Ok (None, []).
Proof. intros F cast s r H. unfold readStateFromSnapshot. rewrite H. reflexivity. Qed.
Print Assumptions star_state_missing_refuted.
