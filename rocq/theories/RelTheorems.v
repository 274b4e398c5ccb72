(** Property C101: relaxation of normal modes. *)
From Coq Require Import String List ZArith QArith Qcanon Permutation Sorted Bool Lia.
From Coq Require Reals.
From Verif Require Import PyBase StrBase QcBase VtfModel VtfPyModel NmModel MsdSpec NmRunProof RelModel RelSpec RelProof.
Import ListNotations.
Open Scope string_scope.
Open Scope list_scope.
Open Scope Qc_scope.

(** C101: for every list of run directories, the script plots, or writes to one file per mode, for
    the modes that are selected, in the order in which they appear, the series of the mean
    correlations over all runs, by increasing time difference, divided by that for the time
    difference that is listed first. *)
Theorem relaxation_series : forall float round8 str rundirs modes es, rundirs <> [] -> files_of float rundirs es -> valid_modes modes ->
  (forall i d, selected modes i -> first_lag round8 es i = Some d -> average (samples round8 es i d) <> 0) ->
  exists ids series, ids = filter (fun i => if in_dec Qc_eq_dec i ids then true else false) (appearing (map e_mode es)) /\
    (forall i, In i ids <-> In i (map e_mode es) /\ selected modes i) /\
    (forall i, In i ids -> exists d0, first_lag round8 es i = Some d0 /\ series_of round8 es i d0 (series i)) /\
    relaxation_script float round8 (fun l => l) str rundirs modes None = Ok (Plots (map (fun i => (("i = " ++ str i)%string, series i)) ids)) /\
    forall f, exists path, (forall z, path (qz z) = (f ++ "--normalCoordinateIndex=" ++ str_of_Z z)%string) /\
      relaxation_script float round8 (fun l => l) str rundirs modes (Some f) = Ok (Writes (map (fun i => (path i, series_text str (map fst rundirs) (series i))) ids)).
Proof.
  intros float round8 str rundirs modes es NE F V NZ. destruct (modes_ok round8 modes V) as [m [M1 M2]].
  set (ids := filter (included m) (appearing (map e_mode es))). exists ids, (fun i => sort_pairs (normalised round8 (fun l => l) es i)).
  assert (I : forall i, In i ids <-> In i (map e_mode es) /\ selected modes i) by (intros i; unfold ids; rewrite filter_In, in_appearing, M2; tauto).
  assert (Rf : forall i, In i ids -> exists d, first_lag round8 es i = Some d /\ reference round8 (fun l => l) es i = d).
  { intros i J. apply I in J. destruct (first_lag_some round8 es i (proj1 J)) as [d D]. exists d. split; [exact D|apply reference_first, D]. }
  split. { unfold ids at 1. apply filter_ext_in. intros i J. destruct (in_dec Qc_eq_dec i ids) as [K|K]; [unfold ids in K; apply filter_In in K; tauto|]. destruct (included m i) eqn:E; [|reflexivity]. exfalso. apply K. unfold ids. apply filter_In. split; assumption. }
  split; [exact I|]. split. { intros i J. destruct (Rf i J) as [d [A B]]. exists d. split; [exact A|]. rewrite <- B. apply series_correct. intros l. apply Permutation_refl. }
  assert (E : results (fun l => l) m (tabled round8 es) = Ok (map (fun i => (i, normalised round8 (fun l => l) es i)) ids)).
  { apply results_ok; [intros l; apply Permutation_refl|]. intros i A B. destruct (Rf i) as [d [C D]]; [apply I; split; [exact A|apply M2, B]|]. rewrite D. apply NZ; [apply M2, B|exact C]. }
  assert (L : Nat.eqb (length rundirs) 0 = false) by (destruct rundirs; [congruence|reflexivity]).
  assert (S : forall save, relaxation_script float round8 (fun l => l) str rundirs modes save = match save with
    | None => Ok (Plots (map (fun r => (("i = " ++ str (fst r))%string, sort_pairs (snd r))) (map (fun i => (i, normalised round8 (fun l => l) es i)) ids)))
    | Some f => Ok (Writes (map (fun r => (datafilePath f (fst r), file_text str (map fst rundirs) (snd r))) (map (fun i => (i, normalised round8 (fun l => l) es i)) ids))) end).
  { intros save. unfold relaxation_script. rewrite L, (rundirs_ok float round8 rundirs es F). cbn [bind]. rewrite M1. cbn [bind]. rewrite E. cbn [bind]. destruct save; reflexivity. }
  split; [rewrite S, map_map; reflexivity|]. intros f. exists (datafilePath f). split; [intros z; unfold datafilePath; rewrite truncate_int; reflexivity|].
  rewrite S, map_map. cbn [fst snd]. do 2 f_equal. apply map_ext. intros i. rewrite text_eq. reflexivity.
Qed.
Print Assumptions relaxation_series.
(** Two runs with a mode 1, at time differences 0 and 2; a number is read if it is an integer. *)
Definition read_int (s : string) : option Qc := option_map qz (Z_of_str s).
Definition line_ex (a b c d : string) : string := (a ++ String "009" (b ++ String "009" (c ++ String "009" (d ++ eol))))%string.
Definition rundirs_ex : list (string * string) := [("a", line_ex "0" "0" "1" "4" ++ line_ex "0" "2" "1" "3"); ("b", line_ex "7" "7" "1" "2")]%string.
Definition entries_ex : list entry := [Entry (qz 0) (qz 0) (qz 1) (qz 4); Entry (qz 0) (qz 2) (qz 1) (qz 3); Entry (qz 7) (qz 7) (qz 1) (qz 2)].
Example relaxation_series_ex : files_of read_int rundirs_ex entries_ex /\ valid_modes (Some "1,2") /\ first_lag (fun x => x) entries_ex (qz 1) = Some (qz 0 - qz 0) /\
  qeqb (average (samples (fun x => x) entries_ex (qz 1) 0)) (qz 3) = true /\ qeqb (average (samples (fun x => x) entries_ex (qz 1) (qz 2))) (qz 3) = true.
Proof.
  split; [|split; [|split; [reflexivity|split; vm_compute; reflexivity]]].
  - exists [[Entry (qz 0) (qz 0) (qz 1) (qz 4); Entry (qz 0) (qz 2) (qz 1) (qz 3)]; [Entry (qz 7) (qz 7) (qz 1) (qz 2)]]. split; [|reflexivity].
    repeat constructor; (eexists _, _, _, _; split; [reflexivity|repeat split]).
  - right. intros w [<-|[<-|[]]]; discriminate.
Qed.

(** C101: the series of all modes start with 1 at 0, if for each mode an entry with time difference 0
    is listed first. *)
Theorem relaxation_normalised : forall float round8 str rundirs modes es, rundirs <> [] -> files_of float rundirs es -> valid_modes modes ->
  (forall i, In i (map e_mode es) -> selected modes i -> first_lag round8 es i = Some 0 /\ average (samples round8 es i 0) <> 0) ->
  exists curves, relaxation_script float round8 (fun l => l) str rundirs modes None = Ok (Plots curves) /\ forall c, In c curves -> In (0, 1) (snd c).
Proof.
  intros float round8 str rundirs modes es NE F V H. destruct (relaxation_series float round8 str rundirs modes es NE F V) as [ids [series [_ [I [S [P _]]]]]].
  { intros i d A B. assert (J : In i (map e_mode es)).
    { unfold first_lag in B. destruct (find (fun e => qeqb (e_mode e) i) es) as [e|] eqn:E; [|discriminate B]. apply find_some in E. destruct E as [E1 E2]. apply qeqb_spec in E2. subst i. apply in_map, E1. }
    destruct (H i J A) as [C D]. rewrite C in B. injection B as <-. exact D. }
  eexists. split; [exact P|]. intros c J. apply in_map_iff in J. destruct J as [i [<- J]]. cbn [snd]. destruct (S i J) as [d [D [_ Q]]]. apply I in J. destruct (H i (proj1 J) (proj2 J)) as [A B]. rewrite A in D. injection D as <-.
  apply Q. split; [intros E; apply B; rewrite E; reflexivity|]. unfold Qcdiv. rewrite Qcmult_inv_r by exact B. reflexivity.
Qed.
Print Assumptions relaxation_normalised.
(** C101: otherwise they do not, even if there are entries for 0; in versions of Python with another
    order of dictionaries, the series may be divided by the mean for any time difference. *)
Theorem relaxation_normalised_refuted :
  (exists contents es c, file_of read_int contents es /\ samples (fun x => x) es (qz 1) 0 <> [] /\
     relaxation_script read_int (fun x => x) (fun l => l) (fun _ => "") [("a", contents)] None None = Ok (Plots [c]) /\ In (0, qz 2) (snd c)) /\
  forall float round8 str rundirs es i d, rundirs <> [] -> files_of float rundirs es -> (forall e, In e es -> e_mode e = i) ->
    samples round8 es i d <> [] -> average (samples round8 es i d) <> 0 ->
    exists items, (forall l, Permutation (items l) l) /\ exists label l, relaxation_script float round8 items str rundirs None None = Ok (Plots [(label, l)]) /\ series_of round8 es i d l.
Proof.
  split.
  - exists (line_ex "0" "1" "1" "2" ++ line_ex "0" "0" "1" "4")%string, [Entry (qz 0) (qz 1) (qz 1) (qz 2); Entry (qz 0) (qz 0) (qz 1) (qz 4)].
    set (contents := (line_ex "0" "1" "1" "2" ++ line_ex "0" "0" "1" "4")%string). set (es := [Entry (qz 0) (qz 1) (qz 1) (qz 2); Entry (qz 0) (qz 0) (qz 1) (qz 4)]).
    assert (F : file_of read_int contents es) by (repeat constructor; (eexists _, _, _, _; split; [reflexivity|repeat split])).
    assert (A0 : samples (fun x => x) es (qz 1) 0 = [qz 4]) by reflexivity. assert (A1 : samples (fun x => x) es (qz 1) (qz 1 - qz 0) = [qz 2]) by reflexivity.
    destruct (relaxation_series read_int (fun x => x) (fun _ => "") [("a", contents)] None es) as [ids [series [D [I [S [P _]]]]]]; [discriminate|exists [es]; split; [constructor; [exact F|constructor]|reflexivity]|exact Logic.I| |].
    { intros i d _ E. unfold first_lag, es in E. cbn [find e_mode] in E. destruct (qeqb (qz 1) i) eqn:Q; [|discriminate E]. apply qeqb_spec in Q. subst i. injection E as <-. unfold lag. cbn [e_t e_t0]. rewrite A1. apply qeqb_false. vm_compute. reflexivity. }
    assert (J : In (qz 1) ids) by (apply I; split; [left; reflexivity|exact Logic.I]).
    assert (K : ids = [qz 1]).
    { assert (U : forall i, In i ids -> i = qz 1) by (intros i Hi; apply I in Hi; destruct Hi as [[<-|[<-|[]]] _]; reflexivity). rewrite D. unfold es. cbn [map e_mode]. replace (appearing [qz 1; qz 1]) with [qz 1] by reflexivity. cbn [filter]. destruct (in_dec Qc_eq_dec (qz 1) ids); [reflexivity|contradiction]. }
    rewrite K in P. eexists. split; [exact F|]. split; [rewrite A0; discriminate|]. split; [exact P|]. cbn [snd]. destruct (S _ J) as [d [E [_ Q]]]. apply Q. rewrite A0. split; [discriminate|].
    injection E as <-. unfold lag. cbn [e_t e_t0]. rewrite A1. apply qeqb_spec. vm_compute. reflexivity.
  - intros float round8 str rundirs es i d NE F O N0 NZ.
    set (items := fun l : list (Qc * list Qc) => filter (fun p => qeqb (fst p) d) l ++ filter (fun p => negb (qeqb (fst p) d)) l).
    assert (Pm : forall l, Permutation (items l) l).
    { intros l. unfold items. induction l as [|p l IH]; [constructor|]. cbn [filter]. destruct (qeqb (fst p) d); cbn [negb app]; [apply perm_skip, IH|]. apply Permutation_sym, Permutation_cons_app, Permutation_sym, IH. }
    exists items. split; [exact Pm|].
    assert (Im : In i (map e_mode es)).
    { destruct es as [|e es']; [exfalso; apply N0; reflexivity|]. left. apply O. left. reflexivity. }
    assert (Rd : reference round8 items es i = d).
    { unfold reference, items. assert (K : In (d, samples round8 es i d) (look [] (tabled round8 es) i)) by (apply mode_in; auto).
      destruct (filter (fun p => qeqb (fst p) d) (look [] (tabled round8 es) i)) as [|[d' v] r] eqn:E.
      - exfalso. assert (Z : In (d, samples round8 es i d) (filter (fun p => qeqb (fst p) d) (look [] (tabled round8 es) i))) by (apply filter_In; split; [exact K|apply qeqb_refl]). rewrite E in Z. destruct Z.
      - assert (Z : In (d', v) (filter (fun p => qeqb (fst p) d) (look [] (tabled round8 es) i))) by (rewrite E; left; reflexivity). apply filter_In in Z. apply qeqb_spec, (proj2 Z). }
    assert (Ap : appearing (map e_mode es) = [i]).
    { assert (forall x, In x (appearing (map e_mode es)) -> x = i) by (intros x Hx; apply in_appearing, in_map_iff in Hx; destruct Hx as [e [<- He]]; apply O, He).
      pose proof (nodup_appearing (map e_mode es)) as ND. apply in_appearing in Im. destruct (appearing (map e_mode es)) as [|a [|b r]]; [destruct Im|f_equal; apply H; left; reflexivity|].
      exfalso. apply NoDup_cons_iff in ND. destruct ND as [X _]. apply X. left. transitivity i; [apply H; right; left; reflexivity|symmetry; apply H; left; reflexivity]. }
    assert (E : results items None (tabled round8 es) = Ok [(i, normalised round8 items es i)]).
    { rewrite (results_ok round8 items Pm None es); [rewrite Ap; reflexivity|]. intros j A _. apply in_map_iff in A. destruct A as [e [<- A]]. rewrite (O e A), Rd. exact NZ. }
    exists ("i = " ++ str i)%string, (sort_pairs (normalised round8 items es i)). split.
    + unfold relaxation_script. destruct rundirs as [|r rs] eqn:Rs; [congruence|]. rewrite <- Rs in F |- *. replace (Nat.eqb (length rundirs) 0) with false by (rewrite Rs; reflexivity).
      rewrite (rundirs_ok float round8 rundirs es F). cbn [bind modesToInclude]. rewrite E. reflexivity.
    + rewrite <- Rd at 1. apply series_correct, Pm.
Qed.
Print Assumptions relaxation_normalised_refuted.

(** C101: what is invalid is reported: no directories, lines that are not four numbers, modes that
    are not integers, and division by a mean that is zero. *)
Theorem relaxation_invalid : forall float round8 str rundirs modes save,
  (rundirs = [] -> relaxation_script float round8 (fun l => l) str rundirs modes save = Ok (Exits 1)) /\
  (forall r line, In r rundirs -> In line (keep_lines (snd r)) -> (forall e, ~ line_of float line e) -> relaxation_script float round8 (fun l => l) str rundirs modes save = Err ValueError) /\
  (forall es s w, rundirs <> [] -> files_of float rundirs es -> modes = Some s -> s <> "" -> In w (StrBase.split ","%char s) -> Z_of_str w = None ->
     relaxation_script float round8 (fun l => l) str rundirs modes save = Err ValueError) /\
  (forall es i d, rundirs <> [] -> files_of float rundirs es -> valid_modes modes -> selected modes i -> first_lag round8 es i = Some d -> average (samples round8 es i d) = 0 ->
     relaxation_script float round8 (fun l => l) str rundirs modes save = Err ZeroDivisionError).
Proof.
  intros float round8 str rundirs modes save. split; [intros ->; reflexivity|]. assert (L : rundirs <> [] -> Nat.eqb (length rundirs) 0 = false) by (destruct rundirs; [congruence|reflexivity]).
  split; [|split].
  - intros r line A B C. unfold relaxation_script. rewrite L by (intros ->; destruct A). rewrite (rundirs_bad float round8 rundirs [] r line A B C). reflexivity.
  - intros es s w NE F -> NS A B. unfold relaxation_script. rewrite (L NE), (rundirs_ok float round8 rundirs es F). cbn [bind]. unfold modesToInclude. destruct (String.eqb_spec s ""); [contradiction|]. rewrite (ints_bad _ w A B). reflexivity.
  - intros es i d NE F V Sl FL Z. destruct (modes_ok round8 modes V) as [m [M1 M2]]. unfold relaxation_script. rewrite (L NE), (rundirs_ok float round8 rundirs es F). cbn [bind]. rewrite M1. cbn [bind].
    rewrite (results_zero round8 (fun l => l) (fun l => Permutation_refl l) m es i); [reflexivity| |apply M2, Sl|rewrite (reference_first round8 es i d FL); exact Z].
    unfold first_lag in FL. destruct (find (fun e => qeqb (e_mode e) i) es) as [e|] eqn:E; [|discriminate FL]. apply find_some in E. destruct E as [E1 E2]. apply qeqb_spec in E2. subst i. apply in_map, E1.
Qed.
Print Assumptions relaxation_invalid.
Example relaxation_invalid_ex : forall e, ~ line_of read_int (line_ex "0" "1" "1" "x") e.
Proof. intros e [a [b [c [d [W [_ [_ [_ D]]]]]]]]. injection W as <- <- <- <-. discriminate D. Qed.

(** C101: the script cannot read the files that the simulation writes under the name it reads,
    except for those of chains of one particle: it raises ValueError. *)
Definition of_rows (show : Rdefinitions.R -> string) (n : nat) (text : string) : Prop :=
  exists rows : list (nat * nat * list Rdefinitions.R), text = concat_text (map (fun r => nm_row show (fst (fst r)) (snd (fst r)) (snd r)) rows) /\ forall r, In r rows -> length (snd r) = n.
Lemma of_rows_app show n a b : of_rows show n a -> of_rows show n b -> of_rows show n (a ++ b)%string.
Proof.
  intros [ra [-> A]] [rb [-> B]]. exists (ra ++ rb). split; [rewrite map_app, VtfTextProof.concat_app; reflexivity|]. intros r J. apply in_app_iff in J. destruct J; auto.
Qed.
Lemma all_some_length {A} (l : list (option A)) vs : all_some l = Some vs -> length vs = length l.
Proof.
  revert vs. induction l as [|[a|] l IH]; intros vs H; cbn in H; [injection H as <-; reflexivity| |discriminate]. destruct (all_some l) as [r|]; [|discriminate]. injection H as <-. cbn. f_equal. apply IH. reflexivity.
Qed.
Lemma lags_rows N show st t dTs text : nm_save_lags N show st t dTs = Some text -> of_rows show (Z.to_nat N + 1) text.
Proof.
  revert text. induction dTs as [|d dTs IH]; intros text H; cbn in H; [injection H as <-; exists []; split; [reflexivity|intros r []]|].
  destruct (Nat.leb _ _); [injection H as <-; exists []; split; [reflexivity|intros r []]|].
  destruct (all_some _) as [vs|] eqn:V; [|discriminate]. destruct (nm_save_lags N show st t dTs) as [s|]; [|discriminate]. injection H as <-. apply of_rows_app; [|apply IH; reflexivity].
  exists [(t, d, vs)]. split; [unfold concat_text; cbn; reflexivity|]. intros r [<-|[]]. cbn. apply all_some_length in V. rewrite map_length, seq_length in V. exact V.
Qed.
Lemma times_rows N count show st ts text : nm_save_times N count show st ts = Some text -> of_rows show (Z.to_nat N + 1) text.
Proof.
  revert text. induction ts as [|t ts IH]; intros text H; cbn in H; [injection H as <-; exists []; split; [reflexivity|intros r []]|].
  destruct (nm_save_lags _ _ _ _ _) as [a|] eqn:E; [|discriminate]. destruct (nm_save_times N count show st ts) as [b|]; [|discriminate]. injection H as <-. apply of_rows_app; [eapply lags_rows, E|apply IH; reflexivity].
Qed.
Theorem relaxation_format_refuted : forall float round8 str show rd, prints_as show float rd ->
  forall N count st text, (2 <= N)%Z -> nm_save N count show st = Some text -> text <> "" ->
  forall name rundirs modes save, In (name, text) rundirs -> relaxation_script float round8 (fun l => l) str rundirs modes save = Err ValueError.
Proof.
  intros float round8 str show rd P N count st text HN H T name rundirs modes save J. apply times_rows in H. destruct H as [[|[[t d] vs] rows] [E L]]; [exfalso; apply T, E|].
  destruct (relaxation_invalid float round8 str rundirs modes save) as [_ [K _]].
  apply (K (name, text) (nm_row show t d vs) J).
  - cbn [snd]. rewrite E. cbn [map fst snd]. rewrite VtfTextProof.concat_cons. rewrite (nm_row_keep 1 1 ltac:(lia) ltac:(lia) show float rd P). left. reflexivity.
  - intros e [a [b [c [d' [W _]]]]]. rewrite (nm_row_words 1 1 ltac:(lia) ltac:(lia) show float rd P) in W. specialize (L _ (or_introl eq_refl)). cbn [snd] in L. apply (f_equal (@length string)) in W. cbn in W. rewrite map_length in W. lia.
Qed.
Print Assumptions relaxation_format_refuted.
Example relaxation_format_ex : forall show : Rdefinitions.R -> string, exists text,
  nm_save 2 1 show (Nm (fun _ => Rdefinitions.IZR 0) 0 [[[Rdefinitions.IZR 1; Rdefinitions.IZR 1; Rdefinitions.IZR 1]]]) = Some text /\ text <> "".
Proof. intros show. eexists. split; [reflexivity|]. unfold nm_row. cbn. discriminate. Qed.
