(** Theorems about snapshot files read and written by the simulation. *)
From Verif Require Import VtfSpec VtfTextProof VtfRangeProof VtfLineProof VtfProof VtfFileProof VtfStepProof.
Open Scope string_scope.
Open Scope Z_scope.
Open Scope list_scope.

(** C42: what is declared and written is read back, for any sequence of calls,
    provided that numbers can be read back, and names contain neither white space
    nor commas; timesteps come back in order, and then there are no more. *)
Theorem vtf_roundtrip : forall (F : Type) (show : F -> string) (cast : string -> option F)
    (negative minus_one : F -> bool) (debug : bool) (calls : list (call F)),
  prints show cast -> Forall unsigned calls -> Forall plain_names calls ->
  let c := declared negative minus_one calls in
  Z.of_nat (length (c_atoms c)) < 2 ^ 64 ->
  exists s rest, open_file cast negative debug (written show negative minus_one calls) = Ok (s, rest) /\
    describes s c /\
    reads_steps cast (getNumberOfAtoms s) rest (map (step_rows (length (c_atoms c))) (c_steps c)).
Proof.
  intros F show cast negative minus_one debug calls H1 H2 H3 c H4.
  exact (round_trip F show cast negative minus_one H1 debug calls H2 H3 H4).
Qed.
Print Assumptions vtf_roundtrip.

(** Three atoms of two kinds, a bond, and two timesteps; the calls after the first
    timestep have no effect, and neither has the second bond. *)
Definition example_calls : list (call Z) :=
  [CallVolume 10 11 12; CallAtomsOf 2 5 "ab" ""; CallAtoms 1; CallBond 2 0; CallBond 0 2;
   CallTimestep (fun i => i) None; CallAtoms 7; CallTimestep (fun i => i + 1) (Some (fun i => 2 * i))].
Example vtf_numbers_example : prints str_of_Z Z_of_str.
Proof. exact integers_print. Qed.
Example vtf_roundtrip_example :
  written str_of_Z z_negative z_minus_one example_calls =
    concat_text (map (fun l => (l ++ eol)%string)
      ["pbc 10 11 12"; "atom 0:1 name ab radius 5"; "atom 2"; "bond 0:2";
       "timestep"; "0 1 2"; "3 4 5"; "6 7 8";
       "timestep"; "1 2 3 0 2 4"; "4 5 6 6 8 10"; "7 8 9 12 14 16"]) /\
  c_atoms (declared z_negative z_minus_one example_calls) =
    [Props (Some 5) (Some "ab") None; Props (Some 5) (Some "ab") None; no_properties] /\
  c_bonds (declared z_negative z_minus_one example_calls) = [(2, 0)] /\
  length (c_steps (declared z_negative z_minus_one example_calls)) = 2%nat.
Proof. repeat split; vm_compute; reflexivity. Qed.

(** C42: names are documented to contain no white space and to have at most 16
    characters (VTFSnapshotFile.hpp l.182-187); a name with a comma is accepted by
    the writer, and the file cannot be read. *)
Theorem vtf_names_refuted : exists calls : list (call Z),
  Forall unsigned calls /\ Forall documented_names calls /\
  length (c_atoms (declared z_negative z_minus_one calls)) = 1%nat /\
  open_file Z_of_str z_negative false (written str_of_Z z_negative z_minus_one calls) = Err MalformedFileException.
Proof.
  exists [CallAtomsOf 1 5 "a,b" ""]. repeat split; try (repeat constructor); vm_compute; (reflexivity || discriminate).
Qed.
Print Assumptions vtf_names_refuted.

(** C42: white space in names is not rejected, and changes the other properties. *)
Theorem vtf_whitespace_refuted : exists calls : list (call Z),
  Forall unsigned calls /\
  c_atoms (declared z_negative z_minus_one calls) = [Props (Some 5) (Some "a type b") None] /\
  exists s, open_file Z_of_str z_negative false (written str_of_Z z_negative z_minus_one calls) = Ok (s, []) /\
    getAtomProperties s 0 = Ok (Props (Some 5) (Some "a") (Some "b")).
Proof.
  exists [CallAtomsOf 1 5 "a type b" ""]. split; [repeat constructor; discriminate|].
  split; [vm_compute; reflexivity|]. eexists. split; vm_compute; reflexivity.
Qed.
Print Assumptions vtf_whitespace_refuted.

(** C43, C80: for any sequence of legal atom lines, bond lines and remarks, the
    structure read is what the lines say one after another ([say]): an atom line
    gives exactly the listed atoms the properties, creates atoms that are skipped
    with the default properties, and keeps all others; a bond line adds exactly the
    bonds it mentions. *)
Theorem vtf_block_meaning : forall (F : Type) (show : F -> string) (cast : string -> option F)
    (negative : F -> bool) (lines : list (file_line F)),
  prints show cast -> legal_lines negative nothing_said lines ->
  exists s, open_file cast negative false (block_text show lines) = Ok (s, []) /\
    contiguous 0 (ranges s) /\ defaults s = fst (fold_left say lines nothing_said) /\
    describes s (snd (fold_left say lines nothing_said)).
Proof. intros F show cast negative lines H1 H2. exact (block_read F show cast negative H1 lines H2). Qed.
Print Assumptions vtf_block_meaning.

(** Overlapping ranges, defaults, skipped atoms, and chains of bonds. *)
Definition example_lines : list (file_line Z) :=
  [LRemark " overlapping"; LAtoms ["atom"] [ToAtoms 1 3] [SetName false "x"; SetRadius true 7];
   LAtoms [] [ToDefault] [SetType true "t"];
   LAtoms ["a"] [ToAtoms 3 4; ToAtoms 6 6] [SetName true "y"]; LBonds true [BondChain 1 3; OneBond 0 6]].
Example vtf_block_example :
  legal_lines z_negative nothing_said example_lines /\
  block_text str_of_Z example_lines =
    concat_text (map (fun l => (l ++ eol)%string)
      ["# overlapping"; "atom 1:3 name x r 7"; "default t t"; "a 3:4, 6 n y"; "b 1::3, 0:6"]) /\
  c_atoms (snd (fold_left say example_lines nothing_said)) =
    [no_properties; Props (Some 7) (Some "x") None; Props (Some 7) (Some "x") None;
     Props None (Some "y") (Some "t"); Props None (Some "y") (Some "t"); Props None None (Some "t");
     Props None (Some "y") (Some "t")] /\
  c_bonds (snd (fold_left say example_lines nothing_said)) = [(1, 2); (2, 3); (0, 6)].
Proof.
  split; [|repeat split; vm_compute; reflexivity].
  Local Ltac chars := repeat split; try discriminate; try reflexivity; try (apply Nat.leb_le; reflexivity).
  unfold example_lines. cbn [legal_lines].
  split; [reflexivity|].
  split; [split; [right; right; reflexivity|split; [discriminate|split]]|].
  - repeat constructor; try discriminate; reflexivity.
  - repeat constructor; chars.
  - split; [split; [left; reflexivity|split; [discriminate|split]]|].
    + repeat constructor.
    + repeat constructor; chars.
    + split; [split; [right; left; reflexivity|split; [discriminate|split]]|].
      * repeat constructor; try discriminate; reflexivity.
      * repeat constructor; chars.
      * split; [|exact Logic.I]. cbn [legal_line]. split.
        -- repeat constructor; vm_compute; (reflexivity || discriminate).
        -- split.
           ++ split; [|split; [intros t a b []|exact Logic.I]]. intros t a b [<-|[]] H. cbn [mentions] in *.
              rewrite !andb_true_iff, Z.leb_le in H. destruct H as [[H _] _].
              destruct (Z.eqb_spec 0 a) as [E|E]; [rewrite <- E in H; exfalso; apply H; reflexivity|reflexivity].
           ++ intros s a b _ _. reflexivity.
Qed.

(** C43: an atom line replaces all properties of an atom, not only the given ones. *)
Theorem vtf_redefinition_refuted : exists (lines : list (file_line Z)) (name : string) s,
  open_file Z_of_str z_negative false (block_text str_of_Z lines) = Ok (s, []) /\
  getAtomProperties s 0 = Ok (Props (Some 7) (Some "x") None) /\
  exists s', open_file Z_of_str z_negative false
               (block_text str_of_Z (lines ++ [LAtoms ["atom"] [ToAtoms 0 0] [SetName false name]])) = Ok (s', []) /\
    getAtomProperties s' 0 = Ok (Props None (Some name) None).
Proof.
  exists [LAtoms ["atom"] [ToAtoms 0 0] [SetName false "x"; SetRadius false 7]], "y".
  eexists. split; [vm_compute; reflexivity|]. split; [vm_compute; reflexivity|].
  eexists. split; vm_compute; reflexivity.
Qed.
Print Assumptions vtf_redefinition_refuted.

(** C43: with debug checks on, replacing the properties of a range fails exactly if
    it ends where one of the known ranges ends that is not the last. *)
Theorem vtf_debug_range : forall (F : Type) (d : properties F) (l : list (range F)) (r : range F),
  contiguous 0 l -> 0 <= r_first r <= r_last r ->
  ((exists it, In it l /\ r_last it = r_last r /\ r_last r + 1 < atomCount l) /\
   setAtomRange true d l r = Err AssertionError) \/
  (~ (exists it, In it l /\ r_last it = r_last r /\ r_last r + 1 < atomCount l) /\
   setAtomRange true d l r = setAtomRange false d l r).
Proof. exact setAtomRange_debug. Qed.
Print Assumptions vtf_debug_range.
Theorem vtf_debug_refuted : exists lines : list (file_line Z),
  (exists s, open_file Z_of_str z_negative false (block_text str_of_Z lines) = Ok (s, [])) /\
  open_file Z_of_str z_negative true (block_text str_of_Z lines) = Err AssertionError.
Proof.
  exists [LAtoms ["atom"] [ToAtoms 0 0] [SetName false "x"]; LAtoms ["atom"] [ToAtoms 1 1] [SetName false "y"];
          LAtoms ["atom"] [ToAtoms 0 0] [SetName false "z"]].
  split; [eexists|]; vm_compute; reflexivity.
Qed.
Print Assumptions vtf_debug_refuted.

(** C80: a bond line that mentions a bond twice, or mentions a known bond, is
    rejected. *)
Theorem vtf_bond_twice : forall (F : Type) (s : structure F) (short : bool) (specs : list bond_spec),
  sorted_pairs (bonds s) -> (forall b, In b (bonds s) -> fst b < snd b) ->
  Forall (legal_bond (getNumberOfAtoms s)) specs ->
  ~ (separate specs /\ forall x a b, In x specs -> mentions x a b = true -> bonded (bonds s) a b = false) ->
  readBondLine s (bond_line_text [if short then "b" else "bond"] specs) = Err MalformedFileException.
Proof. exact bond_twice. Qed.
Print Assumptions vtf_bond_twice.
Example vtf_bond_twice_example :
  let lines := [LAtoms ["atom"] [ToAtoms 0 5] []] : list (file_line Z) in
  open_file Z_of_str z_negative false (block_text str_of_Z (lines ++ [LBonds false [BondChain 0 3; OneBond 1 2]]))
    = Err MalformedFileException /\
  open_file Z_of_str z_negative false
    (block_text str_of_Z (lines ++ [LBonds false [OneBond 2 4]; LBonds true [OneBond 2 4]]))
    = Err MalformedFileException.
Proof. split; vm_compute; reflexivity. Qed.

(** C80: a bond line is rejected if one of its bonds is not in increasing order, or to an atom that is not there. *)
Theorem vtf_bond_undeclared : forall (F : Type) (s : structure F) (short : bool) (specs : list bond_spec),
  Forall numeric_bond specs -> ~ Forall (legal_bond (getNumberOfAtoms s)) specs ->
  readBondLine s (bond_line_text [if short then "b" else "bond"] specs) = Err MalformedFileException.
Proof.
  intros F s short specs. apply bond_line_illegal. destruct short; [right; left|right; right]; reflexivity.
Qed.
Print Assumptions vtf_bond_undeclared.
Example vtf_bond_undeclared_example :
  let lines := [LAtoms ["atom"] [ToAtoms 0 5] []] : list (file_line Z) in
  map (fun l => open_file Z_of_str z_negative false (block_text str_of_Z (lines ++ [LBonds false l])))
    [[OneBond 0 1; OneBond 4 6]; [BondChain 3 6]; [OneBond 3 2]; [OneBond 2 2]] = repeat (Err MalformedFileException) 4.
Proof. vm_compute. reflexivity. Qed.

(** C79: the meaning of a timestep block: it is rejected if a row has neither three
    nor six numbers, if only some rows have velocities, or if rows are missing;
    without rows, [false] is returned; otherwise, the rows are read, and further
    lines are left. *)
Theorem vtf_timestep_block : forall (F : Type) (show : F -> string) (cast : string -> option F)
    (h : string) (n : nat) (rows : list (list F)),
  prints show cast -> ordered_header h -> Forall (fun xs => xs <> []) rows -> (0 < n)%nat ->
  readTimestepBlock cast (Z.of_nat n) (h :: map (row_text show) rows) = block_meaning show n rows.
Proof. intros F show cast h n rows H. exact (block_ordered F show cast H h n rows). Qed.
Print Assumptions vtf_timestep_block.
Example vtf_timestep_example :
  readTimestepBlock Z_of_str 2 ["coordinates o"; "1 2 3"; "4 5 6"; "7 8 9"] = Ok (Some [[1; 2; 3]; [4; 5; 6]], ["7 8 9"]) /\
  readTimestepBlock Z_of_str 2 ["t"; "1 2 3"; "4 5 6 7 8 9"] = Err MalformedFileException /\
  readTimestepBlock Z_of_str 2 ["t"; "1 2 3"] = Err MalformedFileException /\
  readTimestepBlock Z_of_str 2 ["t"; "1 2"; "3 4 5"] = Err MalformedFileException /\
  readTimestepBlock Z_of_str 2 ["t"] = Ok (None, []).
Proof. repeat split; vm_compute; reflexivity. Qed.

(** C79: blocks in indexed format are rejected if the header says so after one of
    the keywords. *)
Theorem vtf_timestep_indexed : forall (F : Type) (cast : string -> option F) (h : string) (n : Z) (ls : list string),
  indexed_header h -> readTimestepBlock cast n (h :: ls) = Err UnimplementedException.
Proof. exact block_indexed. Qed.
Print Assumptions vtf_timestep_indexed.

(** C79: any other word is accepted as a header, for example the short form
    [indexed]. *)
Theorem vtf_timestep_header_refuted : forall (F : Type) (show : F -> string) (cast : string -> option F)
    (h : string) (n : nat) (rows : list (list F)),
  prints show cast -> h <> "" -> plain h = true -> Forall (fun xs => xs <> []) rows -> (0 < n)%nat ->
  readTimestepBlock cast (Z.of_nat n) (h :: map (row_text show) rows) = block_meaning show n rows.
Proof. intros F show cast h n rows H. exact (block_other F show cast H h n rows). Qed.
Print Assumptions vtf_timestep_header_refuted.
Example vtf_timestep_header_example :
  readTimestepBlock Z_of_str 1 ["indexed"; "0 2 3"] = Ok (Some [[0; 2; 3]], []) /\
  readTimestepBlock Z_of_str 1 ["nonsense"; "0 2 3"] = Ok (Some [[0; 2; 3]], []).
Proof. split; vm_compute; reflexivity. Qed.
