(** C135: files that the scripts for normal modes and for mean square displacements write. *)
From Coq Require Import String Ascii List ZArith Lia.
From Verif Require Import PyBase StrBase NmsModel NmsSpec NmsProof.
Import ListNotations.
Open Scope string_scope.
Open Scope list_scope.

(** For each mode and each time, there is one line, by modes and then by times. *)
Theorem modes_saved : forall count max_time get d dirs name,
  modes_script count max_time get (d :: dirs) (Some name) None None =
  (0%Z, [(name, text_of_lines (append "#" (columns ["normal-mode-index"; "measurement-time"; "mean-autocorrelation"; "DDDA-optimal-standard-error-of-the-mean"; "sample-size"])
     :: map (fun p => columns ([str_nat (fst p); str_nat (snd p)] ++ entry_columns (get (fst p) (snd p)))) (list_prod (seq 0 count) (seq 0 (max_time + 1)))))]).
Proof.
  intros. unfold modes_script, saved, modes_table. cbn [app]. rewrite header_text, modes_text. reflexivity.
Qed.
Print Assumptions modes_saved.
Theorem modes_covered : forall count max_time m t, In (m, t) (list_prod (seq 0 count) (seq 0 (max_time + 1))) <-> m < count /\ t <= max_time.
Proof. intros. rewrite in_prod_iff, !in_seq. lia. Qed.
Print Assumptions modes_covered.
Example modes_saved_example :
  modes_table 1 1 (fun m t => Entry "a" "b" "c") =
  append "#normal-mode-index	measurement-time	mean-autocorrelation	DDDA-optimal-standard-error-of-the-mean	sample-size" (String "010"
    (append "0	0	a	b	c	" (String "010" (append "0	1	a	b	c	" (String "010" ""))))).
Proof. vm_compute. reflexivity. Qed.
Example modes_covered_example : In (1, 2) (list_prod (seq 0 2) (seq 0 (2 + 1))).
Proof. apply modes_covered. lia. Qed.

(** The other table: modes that are neither the first nor the last one, at the time zero. *)
Theorem middle_saved : forall count max_time get d dirs name,
  modes_script count max_time get (d :: dirs) None (Some name) None =
  (0%Z, [(name, text_of_lines (append "#" (columns ["normal-mode-index"; "mean-autocorrelation"; "DDDA-optimal-standard-error-of-the-mean"; "sample-size"])
     :: map (fun m => columns (str_nat m :: entry_columns (get m 0))) (seq 1 (count - 2))))]) /\
  forall m, In m (seq 1 (count - 2)) <-> 0 < m /\ m < count - 1.
Proof.
  intros. split; [|intros; rewrite in_seq; lia]. unfold modes_script, saved, middle_table. cbn [app]. rewrite header_text, middle_text. reflexivity.
Qed.
Print Assumptions middle_saved.
Example middle_saved_example :
  middle_table 3 (fun m t => Entry "a" "b" "c") =
  append "#normal-mode-index	mean-autocorrelation	DDDA-optimal-standard-error-of-the-mean	sample-size" (String "010" (append "1	a	b	c	" (String "010" ""))).
Proof. vm_compute. reflexivity. Qed.

(** Mean square displacements: a line for each time from one on; and the list of runs. *)
Theorem displacements_saved : forall max_time get d dirs name meta,
  displacement_script max_time get (d :: dirs) (Some name) (Some meta) =
  (0%Z, [(name, text_of_lines (append "#" (columns ["measurement-time"; "mean-square-displacement"; "standard-deviation"; "sample-size"])
      :: map (fun T => columns (str_nat T :: entry_columns (get T))) (seq 1 max_time)));
     (meta, append "{""runDirectories"": [" (append newline (append (quoted_names (d :: dirs)) (append "]" (append newline "}")))))]).
Proof.
  intros. unfold displacement_script, saved, displacement_table, metadata_file. cbn [app]. rewrite header_text, displacement_text, names_text. reflexivity.
Qed.
Print Assumptions displacements_saved.
Example displacements_saved_example :
  metadata_file ["run1"; "run2"] = append "{""runDirectories"": [" (String "010" (append """run1"",""run2""]" (String "010" "}"))).
Proof. vm_compute. reflexivity. Qed.

(** Without runs nothing is written and the status is 1; the list of runs is written only along with the table of displacements. *)
Theorem scripts_idle : forall count max_time get get1 s m meta d,
  modes_script count max_time get [] s m meta = (1%Z, []) /\ displacement_script max_time get1 [] s meta = (1%Z, []) /\
  displacement_script max_time get1 d None meta = ((if d then 1 else 0)%Z, []).
Proof. intros. destruct d; repeat split. Qed.
Print Assumptions scripts_idle.
Example scripts_idle_example : displacement_script 5 (fun _ => Entry "a" "b" "c") ["run"] None (Some "meta.json") = (0%Z, []).
Proof. reflexivity. Qed.

(** Not true: the script for normal modes ignores the name of the file for the list of runs if no table is saved. *)
Theorem metadata_ignored_refuted : forall count max_time get d dirs meta,
  modes_script count max_time get (d :: dirs) None None (Some meta) = (0%Z, [(meta, metadata_file (d :: dirs))]).
Proof. reflexivity. Qed.
Print Assumptions metadata_ignored_refuted.
Example metadata_ignored_refuted_example : snd (modes_script 1 1 (fun _ _ => Entry "a" "b" "c") ["run"] None None (Some "meta.json")) <> [].
Proof. discriminate. Qed.
(** Not true: the list of runs tells the runs. *)
Theorem metadata_refuted : exists l1 l2, l1 <> l2 /\ metadata_file l1 = metadata_file l2.
Proof. exists ["a"; "b"], ["a"",""b"]. split; [discriminate|vm_compute; reflexivity]. Qed.
Print Assumptions metadata_refuted.
Example metadata_refuted_example : metadata_file ["a"; "b"; "c"] = metadata_file ["a"",""b"; "c"].
Proof. vm_compute. reflexivity. Qed.
