(** C122, C123: what gnuplot shows. *)
From Coq Require Import String Ascii List Bool Permutation Sorted.
From Verif Require Import QcBase PyBase StrBase EmpModel EmpSpec EmpProof PtsModel PtsSpec GnuModel GnuSpec GnuProof.
Import ListNotations.
Open Scope string_scope.
Open Scope list_scope.
Open Scope Qc_scope.

(** C122.  For runs that can be read, gnuplot shows a curve for each measurement time, and nothing is left of the data. *)
Theorem diffusion_plot : forall fs sqrt str float K (keqb : K -> K -> bool) str_key value rundirs ms,
  (forall a b, keqb a b = true <-> a = b) -> (forall x, clean (str x)) -> (forall k, clean (str_key k)) ->
  rundirs <> [] -> Forall2 (diffusion_run fs sqrt float value) rundirs ms ->
  exists text, compare_script fs sqrt str float K keqb str_key value rundirs = Ok (Some text) /\
    gnuplot text = Some (map (fun c => (("'-' using 1:2:3 with yerrorbars title '" ++ str_key (fst c) ++ "'")%string,
      map (fun p => (str_key (fst p) ++ " " ++ str (fst (snd p)) ++ " " ++ str (snd (snd p)))%string) (snd c))) (curves keqb ms), Some [""]).
Proof. intros fs sqrt str float K keqb str_key value rundirs ms E S C. exact (compare_text fs sqrt str float S K keqb str_key value E C rundirs ms). Qed.
Print Assumptions diffusion_plot.

(** The curves have exactly the measurements that no later one with the same keys replaces, each key once. *)
Theorem curves_of_runs : forall K V (keqb : K -> K -> bool) (ms : list (K * (K * V))), (forall a b, keqb a b = true <-> a = b) ->
  NoDup (map fst (curves keqb ms)) /\ (forall c ps, In (c, ps) (curves keqb ms) -> NoDup (map fst ps) /\ ps <> []) /\
  forall c x v, (exists ps, In (c, ps) (curves keqb ms) /\ In (x, v) ps) <->
    exists before after, ms = before ++ (c, (x, v)) :: after /\ forall m, In m after -> fst m = c -> fst (snd m) <> x.
Proof. intros K V keqb ms E. destruct (curves_nodup keqb E ms) as [A B]. split; [exact A|]. split; [exact B|]. exact (curves_in keqb E ms). Qed.
Print Assumptions curves_of_runs.

(** For runs that can be read, and a theory with complete lines, gnuplot shows a curve for each spring constant, and the theory. *)
Theorem bond_lengths_plot : forall fs sqrt str float K (keqb : K -> K -> bool) str_key value theory rundirs ms,
  (forall a b, keqb a b = true <-> a = b) -> (forall x, clean (str x)) -> (forall k, clean (str_key k)) ->
  rundirs <> [] -> Forall2 (bond_run fs sqrt float value) rundirs ms ->
  theory_fits fs theory -> match theory with None => forall r rs, rundirs = r :: rs -> String.prefix "--theory=" r = false | Some (_, _, _, rest) => rest = "" end ->
  exists text, length_script fs sqrt str float K keqb str_key value (theory_args theory ++ rundirs) = Ok (Some text) /\
    gnuplot text = Some (map (fun c => (("'-' with linespoints title 'Data k=" ++ str_key (fst c) ++ "'")%string, map (fun p => (str_key (fst p) ++ " " ++ str (snd p))%string) (snd c))) (curves keqb ms)
      ++ match theory with None => [] | Some (k, _, ls, _) => [(("'-' with lines title 'Theory k=" ++ k ++ "'")%string, ls)] end, Some [""]).
Proof.
  intros fs sqrt str float K keqb str_key value t rundirs ms E S C N F T H.
  destruct (length_text fs sqrt str float S K keqb str_key value E C t rundirs ms N T) as (text & A & B); [intros ->; exact H|exact F|].
  exists text. split; [exact A|]. rewrite B. destruct t as [[[[k f] ls] rest]|]; [subst rest|]; reflexivity.
Qed.
Print Assumptions bond_lengths_plot.

(** Different spring constants are refused. *)
Theorem bond_lengths_differ : forall fs sqrt str float K (keqb : K -> K -> bool) str_key value rundirs ms rundir more,
  (forall a b, keqb a b = true <-> a = b) -> Forall2 (bond_run fs sqrt float value) rundirs ms -> (forall r rs, rundirs ++ [rundir] = r :: rs -> String.prefix "--theory=" r = false) ->
  value rundir "mpc.fluid.harmonicTrimers.springConstant1" <> value rundir "mpc.fluid.harmonicTrimers.springConstant2" ->
  length_script fs sqrt str float K keqb str_key value (rundirs ++ rundir :: more) = Err ValueError.
Proof.
  intros fs sqrt str float K keqb str_key value rundirs ms rundir more E F P D. unfold length_script.
  destruct (rundirs ++ rundir :: more) as [|a l] eqn:A; [destruct rundirs; discriminate|]. rewrite <- A.
  assert (X : length_arguments (rundirs ++ rundir :: more) = Ok ([], rundirs ++ rundir :: more)).
  { apply (arguments_ok fs None); [exact Logic.I|]. intros _. destruct rundirs as [|r rs]; cbn [app]; [apply (P rundir []); reflexivity|apply (P r (rs ++ [rundir])); reflexivity]. }
  rewrite X. cbn [bind]. rewrite (lengths_ok fs sqrt float K keqb value E _ _ F). cbn [lengths_loop]. apply (eqb_false keqb E) in D. rewrite D. reflexivity.
Qed.
Print Assumptions bond_lengths_differ.

(** With a theory only, which the usage allows, there is no plot. *)
Theorem bond_lengths_theory_only_refuted : forall fs sqrt str float K (keqb : K -> K -> bool) str_key value k f ls rest,
  theory_fits fs (Some (k, f, ls, rest)) -> (forall l, In l (ls ++ [(rest ++ "e")%string]) -> String.prefix "plot " l = false) ->
  exists text, length_script fs sqrt str float K keqb str_key value [("--theory=" ++ k ++ "," ++ f)%string] = Ok (Some text) /\ gnuplot text = None.
Proof. exact length_only. Qed.
Print Assumptions bond_lengths_theory_only_refuted.

(** If the file of the theory does not end with a line end, its last line is changed and its data do not end. *)
Theorem bond_lengths_unfinished_refuted : forall fs sqrt str float K (keqb : K -> K -> bool) str_key value k f ls rest rundirs ms,
  (forall a b, keqb a b = true <-> a = b) -> (forall x, clean (str x)) -> (forall k, clean (str_key k)) ->
  rundirs <> [] -> Forall2 (bond_run fs sqrt float value) rundirs ms -> theory_fits fs (Some (k, f, ls, rest)) -> rest <> "" ->
  exists text shown, length_script fs sqrt str float K keqb str_key value (("--theory=" ++ k ++ "," ++ f)%string :: rundirs) = Ok (Some text) /\
    gnuplot text = Some (shown ++ [(("'-' with lines title 'Theory k=" ++ k ++ "'")%string, ls ++ [(rest ++ "e")%string; ""])], None).
Proof.
  intros fs sqrt str float K keqb str_key value k f ls rest rundirs ms E S C N F T NE.
  destruct (length_text fs sqrt str float S K keqb str_key value E C (Some (k, f, ls, rest)) rundirs ms N T) as (text & A & B); [discriminate|exact F|].
  exists text. eexists. split; [exact A|]. rewrite B. unfold theory_shown, theory_left. destruct (String.eqb_spec rest ""); [contradiction|]. reflexivity.
Qed.
Print Assumptions bond_lengths_unfinished_refuted.

Definition ex_fs (n : string) : option string :=
  if existsb (String.eqb n) ["a/selfDiffusionCoefficient.data"; "b/selfDiffusionCoefficient.data"; "a/harmonicTrimers/bond1/lengthSquaredHistogram.data"] then Some ("1 1" ++ String "010" "")%string
  else if String.eqb n "t" then Some ("1 2" ++ String "010" "")%string else None.
Definition ex_float (s : string) : option Qc := if String.eqb s "1" then Some 1 else None.
Definition ex_value (r n : string) : nat := if String.eqb n "boundaryConditions.shearRate" then (if String.eqb r "a" then 3 else 4) else 7.
Definition ex_key (n : nat) : string := if Nat.eqb n 3 then "3" else if Nat.eqb n 4 then "4" else "7".
Example ex_diffusion : Forall2 (diffusion_run ex_fs (fun x => x) ex_float ex_value) ["a"; "b"] [(7%nat, (3%nat, (PtsSpec.mean [1], mean_square_deviation [1]))); (7%nat, (4%nat, (PtsSpec.mean [1], mean_square_deviation [1])))]
  /\ map fst (curves Nat.eqb [(7%nat, (3%nat, 0%nat)); (7%nat, (4%nat, 1%nat)); (7%nat, (3%nat, 2%nat))]) = [7%nat]
  /\ map snd (curves Nat.eqb [(7%nat, (3%nat, 0%nat)); (7%nat, (4%nat, 1%nat)); (7%nat, (3%nat, 2%nat))]) = [[(3%nat, 2%nat); (4%nat, 1%nat)]].
Proof.
  split; [|split; reflexivity]. repeat constructor; exists [(1, 1)]; (split; [reflexivity|]); (split; [discriminate|reflexivity]).
Qed.
Example ex_lengths : theory_fits ex_fs (Some ("5", "t", ["1 2"], "")) /\ bond_run ex_fs (fun x => x) ex_float ex_value "a" (7%nat, (3%nat, weighted_mean [(1, 1)])).
Proof.
  split.
  - repeat split; try reflexivity; intros; destruct H as [<-|[]]; [reflexivity|discriminate].
  - exists [(1, 1)], 7%nat. repeat split; try reflexivity; discriminate.
Qed.

(** C123.  For runs with different Weissenberg numbers, gnuplot shows |tan(2 chi)| in the order of these numbers, and the theory, 2 mu / Wi, at 100 numbers from the smallest to the largest. *)
Theorem alignment_plot : forall fs str float setting ratio mu rundirs ms, (forall x, clean (str x)) -> (forall Wi, ratio Wi = Ok (mu Wi)) ->
  rundirs <> [] -> NoDup (map fst ms) -> Forall2 (aligned_run fs float setting) rundirs ms ->
  exists text l lo hi, alignment_script fs str float setting ratio rundirs = Ok (Some text) /\ Permutation l ms /\ increasing l /\
    In lo (map fst ms) /\ In hi (map fst ms) /\ (forall m, In m ms -> lo <= fst m /\ fst m <= hi) /\
    gnuplot text = Some ([("'-' with linespoints title 'Data'", map (fun p => two_values (str (fst p)) (str (snd p))) l);
      ("'-' with lines title 'Theory'", map (fun i => let Wi := sample lo hi i in two_values (str Wi) (if qeqb Wi 0 then "inf" else str ((1 + 1) * mu Wi / Wi))) (seq 0 100))], Some []).
Proof. intros fs str float setting ratio mu rundirs ms S R. exact (alignment_text fs (fun x => x) str float S setting ratio mu R rundirs ms). Qed.
Print Assumptions alignment_plot.

(** A second run with the same Weissenberg number is refused. *)
Theorem alignment_twice : forall fs str float setting ratio rundirs ms rundir Wi more, NoDup (map fst ms) -> Forall2 (aligned_run fs float setting) rundirs ms ->
  weissenberg_number fs float setting rundir Wi -> In Wi (map fst ms) -> alignment_script fs str float setting ratio (rundirs ++ rundir :: more) = Err RuntimeError.
Proof.
  intros fs str float setting ratio rundirs ms rundir Wi more N F W I. unfold alignment_script. destruct (rundirs ++ rundir :: more) as [|a l] eqn:A; [destruct rundirs; discriminate|]. rewrite <- A.
  rewrite (alignment_ok fs (fun x => x) float setting ratio (fun x => x) _ _ F [] _ N). cbn [alignment_loop app]. rewrite (weissenberg_ok fs float setting _ _ W). cbn [bind]. rewrite key_in by exact I. reflexivity.
Qed.
Print Assumptions alignment_twice.

(** Likewise the mean products of components; but the theory is not shown. *)
Theorem xy_plot_refuted : forall fs str float ratio mu rundirs ms len, (forall x, clean (str x)) -> (forall Wi, ratio Wi = Ok (mu Wi)) ->
  rundirs <> [] -> NoDup (map fst ms) -> Forall2 (xy_run fs float) rundirs ms -> static fs float (last rundirs "") "dumbbellEquilibriumLength" len -> len <> 0 ->
  exists text l, Permutation l ms /\ increasing l /\ gnuplot text = Some ([("'-' with linespoints notitle ", map (fun p => two_values (str (fst p)) (str (snd p))) l)], Some []) /\
    xy_script fs str float ratio rundirs = Ok (Some text) /\ forall ratio' mu', (forall Wi, ratio' Wi = Ok (mu' Wi)) -> xy_script fs str float ratio' rundirs = Ok (Some text).
Proof.
  intros fs str float ratio mu rundirs ms len S R N D F L Z. destruct (xy_text fs (fun x => x) str float S (fun _ _ => (0, false)) ratio mu R rundirs ms len N D F L Z) as (text & l & A & P & I & E & G).
  exists text, l. split; [exact P|]. split; [exact I|]. split; [exact G|]. split; [exact A|]. intros ratio' mu' R'.
  destruct (xy_text fs (fun x => x) str float S (fun _ _ => (0, false)) ratio' mu' R' rundirs ms len N D F L Z) as (text' & l' & A' & _ & _ & E' & _). rewrite A', E', <- E. reflexivity.
Qed.
Print Assumptions xy_plot_refuted.

(** A second run with the same Weissenberg number is refused. *)
Theorem xy_twice : forall fs str float ratio rundirs ms rundir Wi more, NoDup (map fst ms) -> Forall2 (xy_run fs float) rundirs ms ->
  static fs float rundir "weissenbergNumber" Wi -> In Wi (map fst ms) -> xy_script fs str float ratio (rundirs ++ rundir :: more) = Err RuntimeError.
Proof.
  intros fs str float ratio rundirs ms rundir Wi more N F W I. unfold xy_script. destruct (rundirs ++ rundir :: more) as [|a l] eqn:A; [destruct rundirs; discriminate|]. rewrite <- A.
  rewrite (xy_ok fs (fun x => x) float ratio (fun x => x) _ _ F [] [] _ N). cbn [xy_loop app]. destruct (static_ok fs float _ _ _ W) as (sd & -> & G). cbn [bind]. rewrite G. cbn [bind]. rewrite key_in by exact I. reflexivity.
Qed.
Print Assumptions xy_twice.

Definition ex_run (n : string) : option string :=
  if String.eqb n "a/static_data.txt" then Some ("Weissenberg number: 2" ++ String "010" ("dumbbell equilibrium length: 2" ++ String "010" ""))%string
  else if String.eqb n "a/dumbbellBondXXHistogram.data" then Some ("2 2" ++ String "010" "")%string
  else if existsb (String.eqb n) ["a/dumbbellBondYYHistogram.data"; "a/dumbbellBondXYHistogram.data"; "a/dumbbellBondXYHistogram.gnuplot"] then Some ("1 2" ++ String "010" "")%string else None.
Definition ex_num (s : string) : option Qc := if String.eqb s "1" then Some 1 else if String.eqb s "2" then Some (1 + 1) else None.
Example ex_dumbbell : aligned_run ex_run ex_num (fun _ _ => (0, false)) "a" (1 + 1, 1 + 1) /\ xy_run ex_run ex_num "a" (1 + 1, 1) /\ static ex_run ex_num "a" "dumbbellEquilibriumLength" (1 + 1).
Proof.
  assert (W : forall n, n = "weissenbergNumber" \/ n = "dumbbellEquilibriumLength" -> static ex_run ex_num "a" n (1 + 1)).
  { intros n H. eexists. eexists. split; [reflexivity|]. split; [vm_compute; reflexivity|]. destruct H as [-> | ->]; vm_compute; f_equal; apply Qc_is_canon; reflexivity. }
  split; [|split].
  - split; [exists 0, false; split; [reflexivity|]; apply W; auto|]. exists [(1 + 1, 1 + 1)], [(1, 1 + 1)], [(1, 1 + 1)], (1 + 1), 1, 1.
    split; [vm_compute; reflexivity|]. assert (M : forall x, sample_mean [(x, 1 + 1)] = Ok x).
    { intros x. rewrite sample_mean_ok. cbn [map qsum fold_right snd]. replace (qeqb (1 + 1 + 0) 0) with false by reflexivity. f_equal. unfold weighted_mean. cbn [map qsum fold_right fst snd]. field. discriminate. }
    rewrite !M. repeat split; try discriminate. left. apply Qc_is_canon. reflexivity.
  - split; [apply W; auto|]. exists [(1, 1 + 1)]. split; [vm_compute; reflexivity|]. rewrite sample_mean_ok. cbn [fst snd map qsum fold_right]. replace (qeqb (1 + 1 + 0) 0) with false by reflexivity. f_equal. apply Qc_is_canon. reflexivity.
  - apply W. auto.
Qed.
