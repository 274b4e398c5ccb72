(** C65, C66, C84, C86: the run directory, the exit status, signals and time limit, snapshots of star polymers. *)
From Coq Require Import List ZArith Bool String Ascii Lia.
From Verif Require Import MainModel MainSpec MainProof.
Import ListNotations.
Open Scope list_scope.

(** C65. The directory is accepted if and only if it is new or has nothing but the input in it; its configuration is used. *)
Theorem rundir_accepted : forall w rundir,
  let dir := chosen w rundir in
  (usable w dir ->
   exists p, createRundir (now w) (creatable w) (files w) rundir "./config.txt" = inl p /\ rundir_of p = dir /\
   (files w dir = None -> config_of p = "./config.txt"%string /\ files_of p dir = Some (Directory [])) /\
   (forall names, files w dir = Some (Directory names) ->
      files_of p dir = Some (Directory names) /\
      config_of p = if existsb (String.eqb "config.txt") names then path_append dir "config.txt" else "./config.txt"%string) /\
   (forall q, q <> dir -> files_of p q = files w q)) /\
  (~ usable w dir -> forall maxRuntime, exists e, run_program w maxRuntime rundir = ([], Threw e) /\
     exists code, main w (Options maxRuntime rundir) = ([], Some code) /\ code <> 0%Z).
Proof.
  intros w rundir dir. fold dir. split.
  - intros [[h c]|(names & h & i)]; unfold createRundir; fold (chosen w rundir); fold dir; rewrite h.
    + rewrite c. eexists. split; [reflexivity|]. cbn [rundir_of config_of files_of]. split; [reflexivity|]. split; [|split].
      * intros _. split; [reflexivity|]. rewrite String.eqb_refl. reflexivity.
      * intros names hn. discriminate.
      * intros q hq. destruct (String.eqb_spec q dir); [contradiction|reflexivity].
    + rewrite check_ok by exact i. eexists. split; [reflexivity|]. cbn [rundir_of config_of files_of]. split; [reflexivity|]. split; [|split].
      * intros hn. discriminate.
      * intros names' hn. injection hn as <-. split; [exact h|reflexivity].
      * intros q _. reflexivity.
  - intros hu maxRuntime. unfold main.
    assert (he: exists e, run_program w maxRuntime rundir = ([], Threw e) /\ (e = ProjectException \/ e = StandardException)).
    { unfold run_program, createRundir. fold (chosen w rundir). fold dir. destruct (files w dir) as [[|names]|] eqn:ef.
      - exists StandardException. split; [reflexivity|right; reflexivity].
      - destruct (check_entries dir names "./config.txt") as [c|e] eqn:ec.
        + destruct hu. right. exists names. split; [exact ef|]. eapply check_inv; exact ec.
        + apply check_fail in ec. subst e. exists ProjectException. split; [reflexivity|left; reflexivity].
      - destruct (creatable w) eqn:eq; [destruct hu; left; split; assumption|].
        exists StandardException. split; [reflexivity|right; reflexivity]. }
    destruct he as (e & h1 & h2). exists e. split; [exact h1|]. rewrite h1. exists (status_of e). split; [reflexivity|].
    destruct h2; subst e; discriminate.
Qed.
Print Assumptions rundir_accepted.

(** C65. Everything is saved in the chosen directory, and none of the entries that were there is written to. *)
Theorem rundir_kept : forall w maxRuntime rundir names measured gitRevision,
  files w (chosen w rundir) = Some (Directory names) -> incl measured data_files ->
  (forall a, In a (fst (run_program w maxRuntime rundir)) ->
     match a with
     | SavedFinally d => d = chosen w rundir
     | SavedEarly d => exists time, d = (chosen w rundir ++ "/EarlySave_" ++ time)%string
     | _ => True
     end) /\
  (fst (run_program w maxRuntime rundir) <> [] ->
   (forall n, In n names -> ~ In n (saved_names measured gitRevision names)) /\
   (forall n time, In n names -> n <> ("EarlySave_" ++ time)%string)).
Proof.
  intros w maxRuntime rundir names measured git hf hm.
  assert (hd: forall e, createRundir (now w) (creatable w) (files w) rundir "./config.txt" = inl e -> rundir_of e = chosen w rundir).
  { intros p. unfold createRundir. fold (chosen w rundir). rewrite hf. destruct (check_entries _ _ _); [|discriminate]. intros [= <-]. reflexivity. }
  split.
  - intros a ha. unfold run_program in ha.
    destruct (createRundir _ _ _ _ _) as [p|e]; [|destruct ha].
    destruct (setup_throws w); [destruct ha|]. unfold simulate in ha. rewrite (hd p eq_refl) in ha.
    destruct (start_throws w).
    + cbn in ha. destruct ha as [<-|[]]. reflexivity.
    + destruct (sweep_loop _ _ _ _ _) as [actions e] eqn:el. apply loop_actions in el. destruct el as [l1 l2].
      assert (hin: In a actions \/ a = SavedFinally (chosen w rundir)).
      { destruct e; cbn [fst] in ha; try (apply in_app_iff in ha; destruct ha as [ha|[ha|[]]]; [left; exact ha|right; symmetry; exact ha]). left; exact ha. }
      destruct hin as [hin| ->]; [|reflexivity]. destruct a; try exact Logic.I.
      * destruct (l2 _ hin) as (t & _ & e1). exists (time_name t). exact e1.
      * destruct (l1 _ hin).
  - intros hne.
    assert (ho: only_input names).
    { unfold run_program, createRundir in hne. fold (chosen w rundir) in hne. rewrite hf in hne.
      destruct (check_entries _ names _) as [c|e] eqn:ec; [|cbn in hne; congruence]. eapply check_inv; exact ec. }
    split.
    + intros n hn hs. destruct (ho n hn) as [-> | ->]; unfold saved_names in hs; repeat (apply in_app_iff in hs; destruct hs as [hs|hs]).
      * apply hm in hs. unfold data_files in hs. cbn [In] in hs. decompose [or] hs; try discriminate. assumption.
      * cbn in hs. decompose [or] hs; try discriminate. assumption.
      * destruct (existsb (String.eqb "config.txt") names) eqn:e; [destruct hs|].
        assert (existsb (String.eqb "config.txt") names = true) by (apply existsb_exists; exists "config.txt"%string; split; [exact hn|reflexivity]). congruence.
      * destruct (String.eqb git ""); [destruct hs|]. cbn in hs. decompose [or] hs; try discriminate. assumption.
      * apply hm in hs. unfold data_files in hs. cbn [In] in hs. decompose [or] hs; try discriminate. assumption.
      * cbn in hs. decompose [or] hs; try discriminate. assumption.
      * destruct (existsb (String.eqb "config.txt") names); [destruct hs|]. cbn in hs. decompose [or] hs; try discriminate. assumption.
      * destruct (String.eqb git ""); [destruct hs|]. cbn in hs. decompose [or] hs; try discriminate. assumption.
    + intros n time hn. destruct (ho n hn) as [-> | ->]; discriminate.
Qed.
Print Assumptions rundir_kept.

(** A world in which all goes well. *)
Local Definition quiet (fs : string -> option entry) (n : nat) : world :=
  World "2020-01-01_00:00:00" true fs None None (repeat (Tick [] 0 "" None None) n) [].
Example rundir_example :
  run_program (quiet (fun p => if String.eqb p "r" then Some (Directory ["input"; "config.txt"]%string) else None) 1) 0 "r"
    = ([Swept; Measured; SavedFinally "r"], Completed) /\
  run_program (quiet (fun p => if String.eqb p "r" then Some (Directory ["config.txt"; "metadata.txt"]%string) else None) 1) 0 "r"
    = ([], Threw ProjectException) /\
  run_program (quiet (fun _ => None) 1) 0 "" = ([Swept; Measured; SavedFinally "runs/2020-01-01_00:00:00"], Completed).
Proof. repeat split. Qed.

(** C66, the part that holds: every failure that is not one of parsing the command line is reported, and only a run
    that ends as it should (or one that is stopped by request) has the status zero, parse errors aside. *)
Theorem exit_status : forall w c actions status, main w c = (actions, status) ->
  (status = Some 0%Z <->
   c = Unparsable ProgramOptionsError \/
   exists maxRuntime rundir e, c = Options maxRuntime rundir /\ run_program w maxRuntime rundir = (actions, e) /\
     (e = Completed \/ e = TimeLimit \/ e = Terminated \/ e = Threw ProgramOptionsError)).
Proof.
  intros w c actions status h. destruct c as [e| |maxRuntime rundir]; cbn [main] in h.
  - injection h as <- <-. destruct e; cbn; split; intros q; try discriminate; try (left; reflexivity);
      try reflexivity; destruct q as [q|(? & ? & ? & q & _)]; discriminate.
  - injection h as <- <-. split; [discriminate|]. intros [q|(? & ? & ? & q & _)]; discriminate.
  - destruct (run_program w maxRuntime rundir) as [a e] eqn:er. injection h as <- <-. split.
    + intros q. right. exists maxRuntime, rundir, e. split; [reflexivity|]. split; [exact er|].
      destruct e as [| | | |x]; auto; [discriminate|]. destruct x; cbn in q; try discriminate. auto.
    + intros [q|(m & r & e' & q & hr & hq)]; [discriminate|]. injection q as <- <-. rewrite er in hr. injection hr as <-.
      decompose [or] hq; subst e; reflexivity.
Qed.
Print Assumptions exit_status.

(** C66 fails: a command line that cannot be parsed leads to the status zero, as for success. *)
Theorem option_errors_refuted :
  ~ (forall w e, exists code, snd (main w (Unparsable e)) = Some code /\ code <> 0%Z).
Proof. intros h. destruct (h (quiet (fun _ => None) 0) ProgramOptionsError) as (code & e & n). cbn in e. congruence. Qed.
Print Assumptions option_errors_refuted.
(** C66: whatever the world, such an error is invisible in the status. *)
Theorem option_errors : forall w, main w (Unparsable ProgramOptionsError) = ([], Some 0%Z).
Proof. reflexivity. Qed.
Print Assumptions option_errors.

(** C84. If nothing fails fatally and at most one request to terminate arrives, then the iterations up to the first that has to be left
    out are done, each with a sweep, a measurement, and an early save before that if requested, and the data are saved at the end. *)
Theorem run_sweeps : forall maxRuntime rundir ticks last,
  Forall fine ticks -> (terminations (received ticks ++ last) <= 1)%nat ->
  exists n e, (n <= List.length ticks)%nat /\
    simulate None maxRuntime rundir ticks last = (flat_map (iteration rundir) (firstn n ticks) ++ [SavedFinally rundir], e) /\
    (forall i t, (i < n)%nat -> nth_error ticks i = Some t -> ~ stops maxRuntime (firstn i ticks) t) /\
    match nth_error ticks n with
    | Some t => stops maxRuntime (firstn n ticks) t /\ (e = TimeLimit \/ e = Terminated)
    | None => e = Completed
    end.
Proof.
  intros maxRuntime rundir ticks last hf ht.
  destruct (loop_fine maxRuntime rundir last ticks [] eq_refl hf ht) as (n & e & h1 & h2 & h3 & h4).
  exists n, e. split; [exact h1|]. cbn [app] in h3, h4. split; [|split; assumption].
  unfold simulate. rewrite h2. destruct (nth_error ticks n); [destruct h4 as [_ [-> | ->]]|subst e]; reflexivity.
Qed.
Print Assumptions run_sweeps.

(** C84. Whatever happens, the data are saved once, at the end, unless the program is aborted, for which two requests to terminate are needed. *)
Theorem run_saves : forall start maxRuntime rundir ticks last actions e,
  simulate start maxRuntime rundir ticks last = (actions, e) ->
  (e <> Aborted -> exists before, actions = before ++ [SavedFinally rundir] /\ forall d, ~ In (SavedFinally d) before) /\
  (e = Aborted -> (forall d, ~ In (SavedFinally d) actions) /\ (2 <= terminations (received ticks ++ last))%nat).
Proof.
  intros start maxRuntime rundir ticks last actions e h. unfold simulate in h.
  destruct start as [x|].
  - injection h as <- <-. split; [|discriminate]. intros _. exists []. split; [reflexivity|intros d hd; destruct hd].
  - destruct (sweep_loop maxRuntime rundir ticks last (Flags false false)) as [a e'] eqn:el.
    pose proof (loop_actions _ _ _ _ _ _ _ el) as [l1 _].
    destruct e'; injection h as <- <-; (split; [|try discriminate]); intros hq;
      try (exists a; split; [reflexivity|exact l1]); try congruence.
    split; [exact l1|]. apply loop_abort in el. exact el.
Qed.
Print Assumptions run_saves.

(** C84. A second request to terminate during the same sweep aborts the program at once; nothing is saved. *)
Theorem second_termination : forall maxRuntime rundir t r last f,
  (2 <= terminations (signals t))%nat -> sweep_loop maxRuntime rundir (t :: r) last f = ([], Aborted).
Proof.
  intros. cbn [sweep_loop]. rewrite handle_spec.
  replace (_ <=? 1)%nat with false by (symmetry; apply Nat.leb_gt; destruct (terminateProgram f); lia). reflexivity.
Qed.
Print Assumptions second_termination.

Example run_example :
  simulate None 10 "r" [Tick [] 0 "a" None None; Tick [USR1; HUP] 3 "b" None None; Tick [INT] 5 "c" None None; Tick [] 6 "d" None None] []
    = ([Swept; Measured; SavedEarly "r/EarlySave_b"; Swept; Measured; SavedFinally "r"], Terminated) /\
  simulate None 10 "r" [Tick [] 10 "a" None None; Tick [] 11 "b" None None] [] = ([Swept; Measured; SavedFinally "r"], TimeLimit) /\
  simulate None 0 "r" [Tick [] 10 "a" None None; Tick [TERM; INT] 11 "b" None None] [] = ([Swept; Measured], Aborted).
Proof. repeat split. Qed.

(** C84 fails in one point: that the simulation proceeds as normal after a request for an early save. If the directory
    cannot be made (or a file cannot be copied), the simulation is ended. *)
Theorem early_save_fatal_refuted :
  ~ (forall maxRuntime rundir ticks, (forall t, In t ticks -> sweep_throws t = None /\ elapsed t = 0%Z /\ terminations (signals t) = 0%nat) ->
     measurements (fst (simulate None maxRuntime rundir ticks [])) = List.length ticks).
Proof.
  intros h. specialize (h 0%Z "r"%string [Tick [USR1] 0 "" (Some StandardException) None; Tick [] 0 "" None None]).
  cbn in h. discriminate h. intros t [<-|[<-|[]]]; repeat split.
Qed.
Print Assumptions early_save_fatal_refuted.

(** C86. The snapshots in the files of the early saves and of the last one, joined, are the measured ones; without early saves,
    the last file has them all. *)
Theorem star_snapshots : forall (A : Type) start maxRuntime rundir ticks last actions e (xs : list A),
  simulate start maxRuntime rundir ticks last = (actions, e) -> e <> Aborted -> (measurements actions <= List.length xs)%nat ->
  flat_map snd (star_saves actions xs []) = firstn (measurements actions) xs /\
  (early_saves actions = [] ->
   star_saves actions xs [] = [(rundir ++ "/StarPolymers/snapshots.vtf", firstn (measurements actions) xs)]%string).
Proof.
  intros A start maxRuntime rundir ticks last actions e xs h he hx.
  destruct (proj1 (run_saves _ _ _ _ _ _ _ h) he) as (before & hb & hn). subst actions.
  assert (hm: measurements (before ++ [SavedFinally rundir]) = measurements before)
    by (unfold measurements; rewrite filter_app, app_length; cbn; lia).
  rewrite hm. split.
  - apply (star_concat before rundir xs []).
  - intros hes. rewrite (star_no_early before rundir); [reflexivity| |exact hn].
    unfold early_saves in *. rewrite filter_app in hes. apply app_eq_nil in hes. apply hes.
Qed.
Print Assumptions star_snapshots.

(** C86 fails with early saves: the file saved at the end lacks the snapshots that were saved early. *)
Theorem star_snapshots_refuted :
  ~ (forall maxRuntime rundir ticks actions (xs : list nat), Forall fine ticks ->
     simulate None maxRuntime rundir ticks [] = (actions, Completed) ->
     In (rundir ++ "/StarPolymers/snapshots.vtf", firstn (measurements actions) xs)%string (star_saves actions xs [])).
Proof.
  intros h. specialize (h 0%Z "r"%string [Tick [] 0 "a" None None; Tick [USR1] 0 "b" None None]
    [Swept; Measured; SavedEarly "r/EarlySave_b"; Swept; Measured; SavedFinally "r"] [1; 2]%nat).
  assert (hf: Forall fine [Tick [] 0 "a" None None; Tick [USR1] 0 "b" None None])
    by (repeat constructor).
  specialize (h hf eq_refl). cbn in h. destruct h as [h|[h|[]]]; discriminate.
Qed.
Print Assumptions star_snapshots_refuted.
Example star_snapshots_example :
  star_saves (fst (simulate None 0 "r" [Tick [] 0 "a" None None; Tick [USR1] 0 "b" None None] [])) [1; 2]%nat [] =
  [("r/EarlySave_b/StarPolymers/snapshots.vtf", [1%nat]); ("r/StarPolymers/snapshots.vtf", [2%nat])]%string.
Proof. reflexivity. Qed.
