(** C136: what plotDashedIfNegative.py plots. *)
From Coq Require Import String Ascii List ZArith QArith Qcanon Bool Lia.
From Verif Require Import QcBase PyBase StrBase PdnModel PdnSpec PdnProof.
Import ListNotations.
Open Scope string_scope.
Open Scope list_scope.

(** A file gives one curve of all of its points that are neither at zero nor beyond 1000, in order; comments are skipped. *)
Theorem file_curve : forall float filename lines os k, Forall2 (says float) lines os -> shown (points os) k ->
  curves float [(filename, lines)] = Ok [(map fst k, map snd k, label filename)].
Proof. intros float filename lines os k H K. cbn [curves]. rewrite (read_all float lines os H k K [] []). reflexivity. Qed.
Print Assumptions file_curve.
(** There is one such curve for each file, in the order of the files. *)
Theorem file_curves : forall float filename lines r p cs, curves float [(filename, lines)] = Ok [p] -> curves float r = Ok cs ->
  curves float ((filename, lines) :: r) = Ok (p :: cs).
Proof.
  intros float filename lines r p cs H R. cbn [curves] in *. rewrite R. destruct (read_lines float lines [] []) as [q|e]; cbn in *; [|discriminate].
  injection H as <-. reflexivity.
Qed.
Print Assumptions file_curves.
(** Every list of points has exactly one list of points that are shown. *)
Theorem shown_total : forall l, exists k, shown l k /\ forall k', shown l k' -> k' = k.
Proof.
  induction l as [|[x y] l (k & K & U)]; [exists []; split; [constructor|intros k' H; now inversion H]|].
  destruct (left_out x) eqn:E.
  - apply left_out_iff in E. exists k. split; [now constructor|]. intros k' H. inversion H as [|x' y' l' k2 N L K'|x' y' l' k2 O K']; subst; [|now apply U].
    destruct E as [E|E]; [congruence|]. exfalso. apply (Qclt_not_le _ _ E L).
  - assert (N : ~ (x = 0 \/ qz 1000 < x)%Qc) by (rewrite <- left_out_iff, E; discriminate).
    exists ((x, y) :: k). split.
    + constructor; [tauto| |exact K]. apply Qcnot_lt_le. tauto.
    + intros k' H. inversion H as [|x' y' l' k2 N' L K'|x' y' l' k2 O K']; subst; [f_equal; now apply U|tauto].
Qed.
Print Assumptions shown_total.
(** A reading of a few numbers. *)
Definition some_floats (s : string) : option Qc :=
  if String.eqb s "1" then Some (qz 1) else if String.eqb s "2000" then Some (qz 2000) else if String.eqb s "0" then Some (qz 0) else if String.eqb s "-3" then Some (qz (-3)) else None.
Example file_curve_example : curves some_floats [("a", ["# x y"; "1	-3"; "0 1"; "2000 1"; " -3   0 "])] = Ok [([qz 1; qz (-3)], [qz (-3); qz 0], "$\eta_{MPC} = 4$")].
Proof. vm_compute. reflexivity. Qed.
Example file_curves_example : curves some_floats [("a", ["1 -3"]); ("b", ["1 1"])] = Ok [([qz 1], [qz (-3)], "$\eta_{MPC} = 4$"); ([qz 1], [qz 1], "$\eta_{MPC} = 4$")].
Proof. vm_compute. reflexivity. Qed.
Example says_example : says some_floats "1	-3" (Some (qz 1, qz (-3))).
Proof.
  apply (says_point some_floats "" "1" "	" "-3" "" (qz 1) (qz (-3))); try (cbv; intuition discriminate); try reflexivity; try (intros s; discriminate).
Qed.
Example shown_total_example : exists k, shown [(qz 0, qz 1); (qz 1, qz 1)] k /\ k = [(qz 1, qz 1)].
Proof. eexists. split; [|reflexivity]. apply shown_out; [left; reflexivity|]. apply shown_in; [discriminate| |constructor]. apply qleb_spec. vm_compute. reflexivity. Qed.

(** Blank lines end the script, and so nothing is shown. *)
Theorem blank_refused : forall float before filename l1 b l2 after os, Forall2 (says float) l1 os -> blank b ->
  exists e, curves float (before ++ (filename, l1 ++ b :: l2) :: after) = Err e.
Proof.
  intros float before filename l1 b l2 after os H B.
  assert (L : forall xs ys, exists e, read_lines float (l1 ++ b :: l2) xs ys = Err e).
  { induction H as [|line o l1 os S F IH]; intros xs ys.
    - cbn [app read_lines]. destruct (blank_read float b xs ys B) as [e ->]. now exists e.
    - cbn [app read_lines]. destruct (read_line float line xs ys) as [p|e]; [apply IH|now exists e]. }
  induction before as [|[f ls] before IH]; cbn [app curves].
  - destruct (L [] []) as [e ->]. now exists e.
  - destruct (read_lines float ls [] []) as [p|e]; [|now exists e]. destruct IH as [e ->]. now exists e.
Qed.
Print Assumptions blank_refused.
Example blank_refused_example : curves some_floats [("a", ["1 1"; String "010" ""])] = Err ValueError.
Proof. vm_compute. reflexivity. Qed.

(** The label depends on whether there is a digit 1, or else a digit 2, anywhere in the name of the file. *)
Theorem label_chosen : forall a b,
  label (append a (String "1" b)) = "$\eta_{MPC} = 8$" /\
  (has_char "1" (append a (String "2" b)) = false -> label (append a (String "2" b)) = "$\eta_{MPC} = 16$") /\
  (has_char "1" a = false -> has_char "2" a = false -> label a = "$\eta_{MPC} = 4$").
Proof.
  intros a b. unfold label, etaMPC. repeat split.
  - rewrite has_char_app. cbn [has_char]. rewrite Ascii.eqb_refl. cbn. now rewrite orb_true_r.
  - intros ->. rewrite has_char_app. cbn [has_char]. rewrite Ascii.eqb_refl. cbn. now rewrite orb_true_r.
  - now intros -> ->.
Qed.
Print Assumptions label_chosen.
Example label_chosen_example : label "run2/data" = "$\eta_{MPC} = 16$".
Proof. vm_compute. reflexivity. Qed.
(** Not true: files are told apart by labels, or labels by the numbers that are in names of files. *)
Theorem label_refuted : exists a b, a <> b /\ label a = label b /\ label "eta-16" = "$\eta_{MPC} = 8$".
Proof. exists "run1", "run12". repeat split. discriminate. Qed.
Print Assumptions label_refuted.
Example label_refuted_example : label "viscosity-16.txt" <> label "viscosity-4.txt" /\ label "viscosity-8.txt" = label "viscosity-4.txt".
Proof. split; [discriminate|reflexivity]. Qed.
(** Not true: all points of the given files are plotted. *)
Theorem all_plotted_refuted : forall float x y line, says float line (Some (x, y)) -> (x = 0 \/ qz 1000 < x)%Qc ->
  curves float [("data", [line])] = Ok [([], [], label "data")].
Proof. intros float x y line H O. apply (file_curve float "data" [line] [Some (x, y)] []); [constructor; [exact H|constructor]|]. cbn. apply shown_out; [exact O|apply shown_nil]. Qed.
Print Assumptions all_plotted_refuted.
Example all_plotted_refuted_example : curves some_floats [("data", ["2000 1"])] = Ok [([], [], "$\eta_{MPC} = 4$")].
Proof. vm_compute. reflexivity. Qed.
