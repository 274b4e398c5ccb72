(** The properties C15-C22: target specifications, run directories, job scripts, the state
    of runs, node lists, path translators, target status, and the cache. *)
From Coq Require Import List ZArith String Ascii Bool Lia Permutation.
From Verif Require Import QcBase PyBase DictBase StrBase FsBase ConfModel RunsModel RunsSpec RunsProof RunsJobProof
  RunsStateProof RunsNodesProof RunsCacheProof.
Import ListNotations.
Close Scope Qc_scope.
Open Scope string_scope.
Open Scope nat_scope.
Open Scope list_scope.

(** * C15: target data specifications *)

(** The combinations of a list of generators: as many as there are choices, and the [i]-th
    one is given by the digits of [i], the last generator varying fastest. *)
Theorem targets_product {A} (gs : list (list A)) : List.length (product gs) = total gs /\
  forall i, i < total gs -> exists c, nth_error (product gs) i = Some c /\ is_combination gs i c.
Proof. exact (product_spec gs). Qed.
Print Assumptions targets_product.

(** There is one specification per combination, in this order: its configuration is the
    base configuration with the settings of the chosen parts applied one after the other, its
    path components are those of the parts, and its sweep count is the largest one given. *)
Theorem targets_describe base gss specs : getTargetDataSpecifications (Some (base, gss)) = Ok specs ->
  Forall2 (describes base) (concat (map product gss)) specs.
Proof. exact (target_ok base gss specs). Qed.
Print Assumptions targets_describe.

(** If an exception is raised, then one of the combinations has settings that cannot be
    applied. *)
Theorem targets_fail base gss e : getTargetDataSpecifications (Some (base, gss)) = Err e ->
  exists c, In c (concat (map product gss)) /\ apply_settings base (flat_map pt_settings c) = Err e.
Proof. exact (target_err base gss e). Qed.
Print Assumptions targets_fail.

Definition ex_part k x (c : string) t := mk_part [(k, ASet (LInt x))] (Some [c]) t.
Definition ex_base : heap := [NGroup true []].
Example targets_example :
  match getTargetDataSpecifications (Some (ex_base,
          [[[ex_part "a.b" 1 "b1" (Some 5%Z); ex_part "a.b" 2 "b2" None];
            [ex_part "c" 3 "c3" None; ex_part "c" 4 "c4" (Some 9%Z); ex_part "c" 5 "c5" (Some 2%Z)]]])) with
  | Ok l => Nat.eqb (List.length l) 6 &&
      match nth_error l 4 with
      | Some s => match getitem (sp_config s) 0 "a.b", getitem (sp_config s) 0 "c", sp_sweeps s, sp_components s with
                  | Ok (Leaf (LInt 2)), Ok (Leaf (LInt 4)), Some 9%Z, ["b2"; "c4"] => true
                  | _, _, _, _ => false
                  end
      | None => false
      end
  | _ => false
  end = true.
Proof. vm_compute. reflexivity. Qed.

(** * C16: run directories *)

(** Creating a run directory either changes nothing, or creates the directory with the
    smallest free number, with the configuration in it; everything that existed stays. *)
Theorem rundir_new cwd F jobdir prefix comps text F' res : wf_fs F ->
  createRundir cwd F jobdir prefix comps text = (F', res) ->
  match res with
  | Ok (Some p) => exists name y, join_components prefix comps = Ok (Some name) /\ y < Nat.pow 10 numberOfDigits /\
      p = numberedPath (jobdir ++ "/jobs" ++ "/" ++ name) y /\
      (forall z, z < y -> exists_ cwd F (numberedPath (jobdir ++ "/jobs" ++ "/" ++ name) z) = true) /\
      created F F' (resolve cwd p) text
  | _ => F' = F
  end.
Proof. exact (createRundir_spec cwd F jobdir prefix comps text F' res). Qed.
Print Assumptions rundir_new.

(** The name is made of the prefix, unless it is empty, and the components, separated by
    three dashes. *)
Theorem rundir_name prefix comps : (forall c, In c comps -> c <> "") ->
  join_components (Some prefix) comps =
    Ok (Some (String.concat "---" ((if String.eqb prefix "" then [] else [prefix]) ++ comps))).
Proof. exact (join_text prefix comps). Qed.
Print Assumptions rundir_name.

(** It succeeds whenever a number is free, if a name prefix is configured. *)
Theorem rundir_succeeds cwd F jobdir prefix comps text name y : wf_fs F ->
  isdir cwd F (jobdir ++ "/jobs") = true -> (forall c, In c (prefix :: comps) -> has_char slash c = false) ->
  join_components (Some prefix) comps = Ok (Some name) -> y < Nat.pow 10 numberOfDigits ->
  exists_ cwd F (numberedPath (jobdir ++ "/jobs" ++ "/" ++ name) y) = false ->
  exists F' p, createRundir cwd F jobdir (Some prefix) comps text = (F', Ok (Some p)).
Proof. exact (createRundir_ok cwd F jobdir prefix comps text name y). Qed.
Print Assumptions rundir_succeeds.

(** A sequence of requests: nothing that existed is changed, the directories are
    pairwise different, none of them existed before, and each holds its configuration at the end. *)
Theorem rundirs_sequence cwd jobdir prefix reqs F F' ps : wf_fs F ->
  createRundirs cwd F jobdir prefix reqs = (F', ps) ->
  wf_fs F' /\ (forall q, look F q <> None -> look F' q = look F q) /\ List.length ps = List.length reqs /\
  NoDup (flat_map (fun o => match o with Some p => [resolve cwd p] | None => [] end) ps) /\
  forall i p, nth_error ps i = Some (Some p) ->
    look F (resolve cwd p) = None /\
    exists r, nth_error reqs i = Some r /\ look F' (resolve cwd p ++ ["config.txt"]) = Some (File (snd r)).
Proof. exact (createRundirs_spec cwd jobdir prefix reqs F F' ps). Qed.
Print Assumptions rundirs_sequence.

Definition ex_fs : fs := [(["w"], Dir); (["w"; "jobs"], Dir); (["w"; "jobs"; "p---a---0000"], Dir)].
Example rundirs_example :
  match createRundirs ["w"] ex_fs "/w" (Some "p") [(["a"], "one"); (["a"], "two"); (["b"], "three")] with
  | (F, [Some x; Some y; Some z]) =>
      String.eqb x "/w/jobs/p---a---0001" && String.eqb y "/w/jobs/p---a---0002" && String.eqb z "/w/jobs/p---b---0000"
      && match look F ["w"; "jobs"; "p---a---0002"; "config.txt"] with Some (File "two") => true | _ => false end
  | _ => false
  end = true.
Proof. vm_compute. reflexivity. Qed.

(** Without a configured name prefix, which is documented to be optional, the function raises
    although numbers are free. *)
Theorem rundir_no_prefix_refuted :
  ~ (forall cwd F jobdir prefix comps text, wf_fs F -> isdir cwd F (jobdir ++ "/jobs") = true ->
       (forall c, In c comps -> has_char slash c = false) ->
       (forall q, look F q <> None -> List.length q <= 2) ->
       exists F' p, createRundir cwd F jobdir prefix comps text = (F', Ok (Some p))).
Proof.
  intros A. destruct (A ["w"] [(["w"], Dir); (["w"; "jobs"], Dir)] "/w" None ["a"] "") as (F' & p & E).
  - intros q N L. destruct q as [|a [|b [|c q]]]; [congruence|reflexivity| |].
    + unfold look in L. cbn in L. destruct (String.eqb a "w") eqn:EA; [apply String.eqb_eq in EA; subst a; reflexivity|].
      cbn in L. congruence.
    + unfold look in L. cbn in L. destruct (String.eqb a "w"); [|cbn in L; congruence].
      destruct (String.eqb b "jobs"); cbn in L; congruence.
  - reflexivity.
  - intros c [<-|[]]. reflexivity.
  - intros q L. destruct q as [|a [|b [|c q]]]; cbn; try lia. exfalso. unfold look in L. cbn in L.
    destruct (String.eqb a "w"); [|cbn in L; congruence]. destruct (String.eqb b "jobs"); cbn in L; congruence.
  - vm_compute in E. discriminate E.
Qed.
Print Assumptions rundir_no_prefix_refuted.

(** * C17: job scripts *)

(** With a positive chunk size that divides the number of runs, there is one job script per
    chunk; job [i] lists exactly the runs [i*k, ..., i*k+k-1] in this order; the other runs of the
    chunk point to the first one; nothing else in the file system is changed. *)
Theorem jobs_scripts cwd o F rundirs k : path_ok cwd -> opts_ok o -> no_conflict o -> k <> 0 ->
  List.length rundirs mod k = 0 -> apart cwd rundirs -> (forall r, In r rundirs -> dir_ok cwd F r) ->
  exists F' jobs, createSlurmJobScripts cwd o F rundirs (Z.of_nat k) = Ok (F', jobs) /\
    List.length jobs = List.length rundirs / k /\
    (forall i, i < List.length rundirs / k ->
       let chunk := runs_of_job rundirs k i in
       let first := nth (i * k) rundirs "" in
       nth_error jobs i = Some (jo_translate o (abspath cwd first ++ "/input/job.slrm")%string) /\
       (exists text, look F' (resolve cwd first ++ ["input"; "job.slrm"]) = Some (File text) /\ is_script cwd o chunk text) /\
       (forall r, In r chunk -> r <> abspath cwd first ->
         look F' (resolve cwd r ++ ["input"; "parent-job-path.txt"]) = Some (File (jo_translate o (abspath cwd first))))) /\
    (forall q, (forall r, In r rundirs -> q <> resolve cwd r ++ ["input"] /\
        q <> resolve cwd r ++ ["input"; "job.slrm"] /\ q <> resolve cwd r ++ ["input"; "parent-job-path.txt"]) ->
        look F' q = look F q) /\
    (forall i, i < List.length rundirs / k ->
       let first := nth (i * k) rundirs "" in first = abspath cwd first ->
       look F' (resolve cwd first ++ ["input"; "parent-job-path.txt"]) = look F (resolve cwd first ++ ["input"; "parent-job-path.txt"])).
Proof. exact (scripts_spec cwd o F rundirs k). Qed.
Print Assumptions jobs_scripts.

(** The chunks cover the runs exactly once, in order, and each has the requested size. *)
Theorem jobs_partition {A} (rundirs : list A) k : k <> 0 -> List.length rundirs mod k = 0 ->
  concat (map (runs_of_job rundirs k) (seq 0 (List.length rundirs / k))) = rundirs /\
  forall i, i < List.length rundirs / k -> List.length (runs_of_job rundirs k i) = k.
Proof.
  intros K M. split; [|exact (fun i => job_nonempty rundirs k i K M)].
  apply concat_jobs. pose proof (PeanoNat.Nat.div_mod (List.length rundirs) k K). lia.
Qed.
Print Assumptions jobs_partition.

(** A chunk size that does not divide the number of runs is refused, and nothing is written. *)
Theorem jobs_refused cwd o F rundirs z : z <> 0%Z -> (Z.of_nat (List.length rundirs) mod z <> 0)%Z ->
  createSlurmJobScripts cwd o F rundirs z = Err PyException.
Proof.
  intros N M. unfold createSlurmJobScripts. rewrite (proj2 (Z.eqb_neq _ _) N), (proj2 (Z.eqb_neq _ _) M). reflexivity.
Qed.
Print Assumptions jobs_refused.

Definition ex_opts : jobopts :=
  mk_jobopts "/bin/mpcd" "-v" [("--time", "60"); ("-J", "$JOBS_PER_NODE")] [("-o", Some "$RUNDIR/out"); ("--quiet", None)] None (fun s => s).
Definition ex_dirs (l : list string) : fs :=
  (["w"], Dir) :: flat_map (fun n => [(["w"; n], Dir); (["w"; n; "config.txt"], File "")]) l.
Example jobs_example :
  match createSlurmJobScripts ["w"] ex_opts (ex_dirs ["a"; "b"; "c"; "d"]) ["/w/a"; "/w/b"; "/w/c"; "/w/d"] 2 with
  | Ok (F, ["/w/a/input/job.slrm"; "/w/c/input/job.slrm"]) =>
      match look F ["w"; "d"; "input"; "parent-job-path.txt"], look F ["w"; "c"; "input"; "job.slrm"] with
      | Some (File "/w/c"), Some (File t) => String.eqb t
"#!/bin/bash
#SBATCH --time=60
#SBATCH -J 2

srun --chdir='/w/c/input' -o /w/c/out --quiet '/bin/mpcd' -v --rundir '/w/c' & 
srun --chdir='/w/d/input' -o /w/d/out --quiet '/bin/mpcd' -v --rundir '/w/d' & 
wait
"
      | _, _ => false
      end
  | _ => false
  end = true.
Proof. vm_compute. reflexivity. Qed.

(** A negative chunk size that divides the number of runs is accepted, and no job is
    created. *)
Theorem jobs_negative_refuted :
  ~ (forall cwd o F rundirs z F' jobs, createSlurmJobScripts cwd o F rundirs z = Ok (F', jobs) ->
       rundirs <> [] -> jobs <> []).
Proof.
  intros A. apply (A ["w"] ex_opts (ex_dirs ["a"; "b"]) ["/w/a"; "/w/b"] (-2)%Z (ex_dirs ["a"; "b"]) []);
    [vm_compute; reflexivity|discriminate|reflexivity].
Qed.
Print Assumptions jobs_negative_refuted.

(** * C18: the state of runs *)

(** With enough stack, the reported state is the documented one, and there is a documented
    state only if it is reported. *)
Theorem state_documented cwd F ts s st :
  (exists fuel, forall f, fuel <= f -> getState cwd f F ts s = Ok st) <-> state_is cwd F (apply_translators ts) (place cwd s) st.
Proof. exact (state_iff cwd F ts s st). Qed.
Print Assumptions state_documented.

(** A state once reported does not depend on how much stack there is. *)
Theorem state_deterministic cwd F fuel fuel' ts s st : getState cwd fuel F ts s = Ok st -> fuel <= fuel' ->
  getState cwd fuel' F ts s = Ok st.
Proof. exact (state_fun cwd F fuel fuel' ts s st). Qed.
Print Assumptions state_deterministic.

(** Fresh runs, given by their absolute paths, are ready after their job scripts have been
    created, if the translators undo the translation made in the scripts. *)
Theorem state_prepared cwd o F rundirs k ts : path_ok cwd -> opts_ok o -> no_conflict o -> k <> 0 ->
  List.length rundirs mod k = 0 -> apart cwd rundirs -> (forall r, In r rundirs -> dir_ok cwd F r) ->
  (forall r, In r rundirs -> r = abspath cwd r /\ has_file F (resolve cwd r) ["config.txt"] /\
     ~ has_file F (resolve cwd r) ["metadata.txt"] /\ ~ has_match F (resolve cwd r ++ ["input"]) "srun-" ".out" /\
     ~ has_file F (resolve cwd r) ["input"; "parent-job-path.txt"] /\ ~ has_entry F (resolve cwd r) ["input"; "jobid"] /\
     apply_translators ts (jo_translate o r) = r) ->
  exists F' jobs, createSlurmJobScripts cwd o F rundirs (Z.of_nat k) = Ok (F', jobs) /\
    forall r, In r rundirs -> state_is cwd F' (apply_translators ts) (resolve cwd r) Ready.
Proof. exact (prepared_ready cwd o F rundirs k ts). Qed.
Print Assumptions state_prepared.

Definition state_eqb (a : result runstate) (b : runstate) : bool :=
  match a, b with
  | Ok Ready, Ready | Ok Submitted, Submitted | Ok Running, Running | Ok Completed, Completed => true
  | _, _ => false
  end.
Definition put (F : fs) (p : list string) (t : string) : fs := dset path_eqb F p (File t).
Example state_example :
  match createSlurmJobScripts ["w"] ex_opts (ex_dirs ["a"; "b"]) ["/w/a"; "/w/b"] 2 with
  | Ok (F, _) =>
      state_eqb (getState ["w"] 9 F [] "/w/b") Ready
      && state_eqb (getState ["w"] 9 (put F ["w"; "a"; "input"; "jobid"] "7") [] "b") Submitted
      && state_eqb (getState ["w"] 9 (put F ["w"; "b"; "input"; "srun-3.out"] "") [] "b") Running
      && state_eqb (getState ["w"] 9 (put F ["w"; "a"; "metadata.txt"] "") [] "b") Completed
  | _ => false
  end = true.
Proof. vm_compute. reflexivity. Qed.

(** Job scripts created for a run that is given by a relative path make the run its own
    parent: asking for its state never returns. *)
Theorem state_relative_refuted :
  ~ (forall cwd o F rundirs k F' jobs r, path_ok cwd -> (forall r, In r rundirs -> dir_ok cwd F r) -> apart cwd rundirs ->
       createSlurmJobScripts cwd o F rundirs (Z.of_nat k) = Ok (F', jobs) -> In r rundirs ->
       exists fuel, getState cwd fuel F' [] r <> Err RecursionError).
Proof.
  intros A.
  set (F' := match createSlurmJobScripts ["w"] ex_opts (ex_dirs ["a"]) ["a"] 1 with Ok (F, _) => F | _ => [] end).
  set (js := match createSlurmJobScripts ["w"] ex_opts (ex_dirs ["a"]) ["a"] 1 with Ok (_, j) => j | _ => [] end).
  assert (E : createSlurmJobScripts ["w"] ex_opts (ex_dirs ["a"]) ["a"] (Z.of_nat 1) = Ok (F', js)) by (vm_compute; reflexivity).
  assert (L : forall fuel s, s = "a" \/ s = "/w/a" -> getState ["w"] fuel F' [] s = Err RecursionError).
  { induction fuel as [|fuel IH]; intros s HS; [reflexivity|]. cbn [getState].
    assert (B : isfile ["w"] F' (s ++ "/config.txt") = true /\ isfile ["w"] F' (s ++ "/metadata.txt") = false /\
      glob_any ["w"] F' (s ++ "/input") "srun-" ".out" = false /\ hasParentRun ["w"] F' s = true /\
      read ["w"] F' (s ++ "/input/parent-job-path.txt") = Ok "/w/a").
    { destruct HS as [-> | ->]; vm_compute; auto. }
    destruct B as (-> & -> & -> & -> & ->). cbn [negb bind apply_translators fold_left]. apply IH. right. reflexivity. }
  destruct (A ["w"] ex_opts (ex_dirs ["a"]) ["a"] 1 F' js "a") as (fuel & N).
  - intros n [<-|[]]. repeat split; discriminate.
  - intros r [<-|[]]. split; [discriminate|]. vm_compute. split; [reflexivity|]. split; [left; reflexivity|]. split; discriminate.
  - intros [|[|i]] [|[|j]] r s H1 H2 N; try discriminate; lia.
  - exact E.
  - left. reflexivity.
  - apply N, L. left. reflexivity.
Qed.
Print Assumptions state_relative_refuted.

(** Creating the job scripts again with the runs in another order makes two runs each
    other's parent, although all paths are absolute. *)
Theorem state_regenerated_refuted :
  ~ (forall cwd o F rundirs rundirs2 k F1 jobs F2 jobs2 r, path_ok cwd -> (forall r, In r rundirs -> dir_ok cwd F r) -> apart cwd rundirs ->
       Permutation rundirs rundirs2 -> (forall r, In r rundirs -> r = abspath cwd r) ->
       createSlurmJobScripts cwd o F rundirs (Z.of_nat k) = Ok (F1, jobs) ->
       createSlurmJobScripts cwd o F1 rundirs2 (Z.of_nat k) = Ok (F2, jobs2) -> In r rundirs ->
       exists fuel, getState cwd fuel F2 [] r <> Err RecursionError).
Proof.
  intros A.
  set (r1 := createSlurmJobScripts ["w"] ex_opts (ex_dirs ["a"; "b"]) ["/w/a"; "/w/b"] 2).
  set (F1 := match r1 with Ok (F, _) => F | _ => [] end). set (j1 := match r1 with Ok (_, j) => j | _ => [] end).
  set (r2 := createSlurmJobScripts ["w"] ex_opts F1 ["/w/b"; "/w/a"] 2).
  set (F2 := match r2 with Ok (F, _) => F | _ => [] end). set (j2 := match r2 with Ok (_, j) => j | _ => [] end).
  assert (E1 : createSlurmJobScripts ["w"] ex_opts (ex_dirs ["a"; "b"]) ["/w/a"; "/w/b"] (Z.of_nat 2) = Ok (F1, j1)) by (vm_compute; reflexivity).
  assert (E2 : createSlurmJobScripts ["w"] ex_opts F1 ["/w/b"; "/w/a"] (Z.of_nat 2) = Ok (F2, j2)) by (vm_compute; reflexivity).
  assert (L : forall fuel s, s = "/w/a" \/ s = "/w/b" -> getState ["w"] fuel F2 [] s = Err RecursionError).
  { induction fuel as [|fuel IH]; intros s HS; [reflexivity|]. cbn [getState].
    assert (B : isfile ["w"] F2 (s ++ "/config.txt") = true /\ isfile ["w"] F2 (s ++ "/metadata.txt") = false /\
      glob_any ["w"] F2 (s ++ "/input") "srun-" ".out" = false /\ hasParentRun ["w"] F2 s = true /\
      (read ["w"] F2 (s ++ "/input/parent-job-path.txt") = Ok "/w/a" \/ read ["w"] F2 (s ++ "/input/parent-job-path.txt") = Ok "/w/b")).
    { destruct HS as [-> | ->]; vm_compute; auto 10. }
    destruct B as (-> & -> & -> & -> & [-> | ->]); cbn [negb bind apply_translators fold_left]; apply IH; auto. }
  destruct (A ["w"] ex_opts (ex_dirs ["a"; "b"]) ["/w/a"; "/w/b"] ["/w/b"; "/w/a"] 2 F1 j1 F2 j2 "/w/a") as (fuel & N).
  - intros n [<-|[]]. repeat split; discriminate.
  - intros r [<-|[<-|[]]]; (split; [discriminate|]; vm_compute; split; [reflexivity|]; split; [left; reflexivity|]; split; discriminate).
  - intros [|[|i]] [|[|j]] r s H1 H2 N; try lia; cbn in H1, H2; try (destruct i; discriminate); try (destruct j; discriminate);
      injection H1 as <-; injection H2 as <-; intros (x & X); vm_compute in X; discriminate X.
  - apply perm_swap.
  - intros r [<-|[<-|[]]]; reflexivity.
  - exact E1.
  - exact E2.
  - left. reflexivity.
  - apply N, L. left. reflexivity.
Qed.
Print Assumptions state_regenerated_refuted.

(** * C19: node lists *)

(** Parsing always terminates with a list, whatever the text. *)
Theorem nodes_total s : exists l, parseSlurmNodeList s = Ok l.
Proof. exact (nodelist_ok s). Qed.
Print Assumptions nodes_total.

(** Lists of patterns with at most one range each, whose bounds are written without leading
    zeros: exactly the nodes meant are returned. *)
Theorem nodes_simple ps : ps <> [] -> (forall p, In p ps -> simple p) ->
  exists l, parseSlurmNodeList (join "," (map pattern_text ps)) = Ok l /\ forall t, In t l <-> list_means ps t.
Proof. exact (nodelist_means ps). Qed.
Print Assumptions nodes_simple.

(** Making a list from node names and parsing it gives them back. *)
Theorem nodes_roundtrip l : l <> [] -> (forall x, In x l -> x <> "" /\ plain_name x) -> parseSlurmNodeList (makeSlurmNodeList l) = Ok l.
Proof. exact (make_parse l). Qed.
Print Assumptions nodes_roundtrip.

Fixpoint strs_eqb (a b : list string) : bool :=
  match a, b with [], [] => true | x :: a, y :: b => String.eqb x y && strs_eqb a b | _, _ => false end.
Example nodes_example :
  match parseSlurmNodeList "gpu[8-11]x,login,n[3-3]" with
  | Ok l => strs_eqb l ["gpu8x"; "gpu9x"; "gpu10x"; "gpu11x"; "login"; "n3"]
  | _ => false
  end = true.
Proof. vm_compute. reflexivity. Qed.

(** In general the result is wrong: zero padding is lost, and of two ranges in one
    pattern the second one and everything after it. *)
Theorem nodes_padding_refuted :
  ~ (forall ps, ps <> [] -> exists l, parseSlurmNodeList (join "," (map pattern_text ps)) = Ok l /\ forall t, In t l <-> list_means ps t).
Proof.
  intros A. destruct (A [[Lit "n"; Range "08" "10"]]) as (l & E & M); [discriminate|].
  vm_compute in E. injection E as <-.
  assert (H : list_means [[Lit "n"; Range "08" "10"]] "n08").
  { exists [Lit "n"; Range "08" "10"]. split; [left; reflexivity|]. change "n08" with ("n" ++ "08" ++ "")%string.
    constructor; [reflexivity|]. constructor; [|constructor].
    exists 8%Z, 10%Z, 8%Z. split; [reflexivity|]. split; [reflexivity|]. split; [lia|reflexivity]. }
  apply M in H. cbn in H. repeat destruct H as [H|H]; try discriminate; contradiction.
Qed.
Print Assumptions nodes_padding_refuted.
Theorem nodes_two_ranges_refuted :
  ~ (forall p, exists l, parseSlurmNodeList (pattern_text p) = Ok l /\ forall t, In t l -> pattern_means p t).
Proof.
  intros A. destruct (A [Lit "r"; Range "1" "2"; Lit "n"; Range "3" "4"]) as (l & E & M).
  vm_compute in E. injection E as <-. specialize (M "r1n" (or_introl eq_refl)).
  inversion M as [|g r t u G R EQ1 EQ2]; subst. inversion R as [|g r t1 u1 G1 R1]; subst.
  inversion R1 as [|g r t2 u2 G2 R2]; subst. inversion R2 as [|g r t3 u3 G3 R3]; subst. inversion R3; subst.
  cbn [seg_means] in G, G1, G2, G3. subst.
  destruct G1 as (a & b & n & EA & EB & B & ->). destruct G3 as (a3 & b3 & n3 & EA3 & EB3 & B3 & ->).
  cbn in EA, EB, EA3, EB3. injection EA as <-. injection EB as <-. injection EA3 as <-. injection EB3 as <-.
  assert (n = 1 \/ n = 2)%Z as [-> | ->] by lia; assert (n3 = 3 \/ n3 = 4)%Z as [-> | ->] by lia; cbn in EQ2; discriminate EQ2.
Qed.
Print Assumptions nodes_two_ranges_refuted.
(** The list made of no nodes denotes, when parsed, one node without a name. *)
Theorem nodes_empty_refuted : parseSlurmNodeList (makeSlurmNodeList []) = Ok [""].
Proof. vm_compute. reflexivity. Qed.
Print Assumptions nodes_empty_refuted.

(** * C20: path translators *)

(** With one translator, a path below the server prefix is translated. *)
Theorem translator_single server local rest : server <> "" -> ~ occurs server rest ->
  apply_translators (pathTranslatorsServerToLocal [(server, local)]) (server ++ rest) = (local ++ rest)%string.
Proof. exact (replace_prefix server local rest). Qed.
Print Assumptions translator_single.
Example translator_example :
  apply_translators (pathTranslatorsServerToLocal [("/home/user", "/mnt/x")]) "/home/user/data" = "/mnt/x/data".
Proof. vm_compute. reflexivity. Qed.
(** With several translators, all of them act like the last one. *)
Theorem translators_all_last ts i f : nth_error (pathTranslatorsServerToLocal ts) i = Some f ->
  forall s, f s = replace (fst (last ts ("", ""))) (snd (last ts ("", ""))) s.
Proof. exact (translators_last ts i f). Qed.
Print Assumptions translators_all_last.
(** So that paths below another server prefix are not translated. *)
Theorem translators_refuted :
  ~ (forall ts k server local rest, nth_error ts k = Some (server, local) -> server <> "" ->
       (forall s l, In (s, l) ts -> ~ occurs s (local ++ rest)) ->
       apply_translators (pathTranslatorsServerToLocal ts) (server ++ rest) = (local ++ rest)%string).
Proof.
  intros A. specialize (A [("/one", "/x"); ("/two", "/y")] 0 "/one" "/x" "/d" eq_refl).
  assert (E : apply_translators (pathTranslatorsServerToLocal [("/one", "/x"); ("/two", "/y")]) ("/one" ++ "/d") = ("/x" ++ "/d")%string).
  { apply A; [discriminate|]. intros s l HI (x & y & E).
    assert (L : String.length ("/x" ++ "/d")%string = String.length (x ++ s ++ y)%string) by (rewrite E; reflexivity).
    rewrite !str_app_length in L. cbn in HI. destruct HI as [HI|[HI|[]]]; injection HI as <- <-.
    - destruct x; cbn in E, L; [discriminate E|lia].
    - destruct x; cbn in E, L; [discriminate E|lia]. }
  vm_compute in E. discriminate E.
Qed.
Print Assumptions translators_refuted.

(** * C21: status of a target specification *)

(** Completed means: the runs with this configuration have together at least the number of
    sweeps wanted. *)
Theorem target_completed runs ts c target default t : wanted target default = Some t ->
  (getStatus runs ts c target default = Ok SCompleted <-> (t <= done_sweeps runs ts c)%Z).
Proof. exact (status_completed runs ts c target default t). Qed.
Print Assumptions target_completed.
(** Otherwise pending means that one of these runs is running or submitted. *)
Theorem target_pending runs ts c target default t : wanted target default = Some t ->
  (forall r, In r runs -> equiv ts false (ru_config r) c = true -> exists s, ru_state r = Ok s) ->
  (done_sweeps runs ts c < t)%Z ->
  exists s, getStatus runs ts c target default = Ok s /\ s <> SCompleted /\
    (s = SPending <-> exists r, In r runs /\ equiv ts false (ru_config r) c = true /\ waiting r).
Proof. exact (status_pending runs ts c target default t). Qed.
Print Assumptions target_pending.
(** Further runs never turn completed into something else. *)
Theorem target_monotone runs extra runs' ts c target default : Permutation (runs ++ extra) runs' ->
  (forall r, In r extra -> (0 <= ru_sweeps r)%Z) ->
  getStatus runs ts c target default = Ok SCompleted -> getStatus runs' ts c target default = Ok SCompleted.
Proof. exact (status_monotone runs extra runs' ts c target default). Qed.
Print Assumptions target_monotone.
(** Grouping by status puts every specification into the group of its status, in order. *)
Theorem target_groups runs ts default specs g : groupByStatus runs ts default specs = Ok g ->
  g = (with_status runs ts default specs SCompleted, with_status runs ts default specs SPending, with_status runs ts default specs SIncomplete) /\
  Permutation specs (fst (fst g) ++ snd (fst g) ++ snd g).
Proof. exact (group_spec runs ts default specs g). Qed.
Print Assumptions target_groups.
(** The runs that pass all filters, and the runs with an equivalent configuration. *)
Theorem runs_filtered runs fl : getRunsFilteredByConfig runs fl = filter (fun r => forallb (fun f => f (ru_config r)) fl) runs.
Proof. exact (filtered_spec runs fl). Qed.
Print Assumptions runs_filtered.
Theorem runs_matching runs c ts : getRunsWithMatchingConfiguration runs c ts = filter (fun r => equiv ts false (ru_config r) c) runs.
Proof. exact (matching_spec runs c ts). Qed.
Print Assumptions runs_matching.

Definition ex_conf (x : Z) : conf := CGroup [("a", CLeaf (LInt x))].
Example target_example :
  let runs := [mk_run (ex_conf 1) 30 (Ok Completed); mk_run (ex_conf 2) 99 (Ok Completed); mk_run (ex_conf 1) 25 (Ok Running)] in
  match getStatus runs [] (ex_conf 1) (Some 55%Z) None, getStatus runs [] (ex_conf 1) None (Some 56%Z),
        getStatus runs [] (ex_conf 2) (Some 100%Z) (Some 1%Z) with
  | Ok SCompleted, Ok SPending, Ok SIncomplete => true
  | _, _, _ => false
  end = true.
Proof. vm_compute. reflexivity. Qed.

(** * C22: the cache *)
Section Cache.
Variable cwd : path.
Variables (M : Type) (dump : M -> string) (load : string -> option M) (meta_eqb : M -> M -> bool).
Variables (K V : Type) (key_eqb : K -> K -> bool).
Variables (str_k : K -> string) (str_v : V -> string).
Variables (keyI : string -> result K) (valueI : string -> result V).
Hypothesis key_eqb_spec : forall a b, key_eqb a b = true <-> a = b.
Notation store := (storeData cwd M dump K V str_k str_v).
Notation has := (hasData cwd M load meta_eqb).
Notation get := (getDataOrderedDict cwd M load meta_eqb K V key_eqb keyI valueI).

(** Data stored without interruption are found and read back, in their order. *)
Theorem cache_roundtrip c F f d m F' : ca_write c = None -> name_ok f -> load (dump m) = Some m -> meta_eqb m m = true ->
  NoDup (map fst d) -> (forall kv, In kv d -> entry_ok K V str_k str_v keyI valueI kv) ->
  store c F f d m = Ok F' -> has c F' f m = Ok true /\ get c F' f m = Ok d.
Proof. exact (store_get cwd M dump load meta_eqb K V key_eqb str_k str_v keyI valueI key_eqb_spec c F f d m F'). Qed.
(** They are not found for other metadata. *)
Theorem cache_other_state c F f d m m2 F' : ca_write c = None -> name_ok f -> load (dump m) = Some m -> meta_eqb m m2 = false ->
  store c F f d m = Ok F' -> has c F' f m2 = Ok false.
Proof. exact (store_other_meta cwd M dump load meta_eqb K V str_k str_v c F f d m m2 F'). Qed.
(** Data stored under another name are not touched. *)
Theorem cache_other_name c F f d m g m2 F' : ca_write c = None -> name_ok f -> name_ok g ->
  g <> f -> g <> (f ++ ".metadata")%string -> (g ++ ".metadata")%string <> f ->
  store c F f d m = Ok F' -> has c F' g m2 = has c F g m2 /\ get c F' g m2 = get c F g m2.
Proof. exact (store_other_name cwd M dump load meta_eqb K V key_eqb str_k str_v keyI valueI c F f d m g m2 F'). Qed.
(** A crash before the metadata are complete is harmless, if incomplete metadata cannot be
    parsed: what is found afterwards was there before. *)
Theorem cache_crash_early c F f d m F' pr : ca_write c = None -> name_ok f ->
  match pr with PNothing | PDirs => True | PMeta n => load (substring 0 n (dump m)) = None | _ => False end ->
  storeData_until cwd M dump K V str_k str_v pr c F f d m = Ok F' ->
  forall m2, has c F' f m2 = Ok true -> has c F f m2 = Ok true /\ get c F' f m2 = get c F f m2.
Proof. exact (crash_before cwd M dump load meta_eqb K V key_eqb str_k str_v keyI valueI c F f d m F' pr). Qed.
(** A crash between writing the metadata and writing the data always makes the old data pass
    for the new ones. *)
Theorem cache_crash_between c F f d0 m0 F0 d m F' : ca_write c = None -> name_ok f -> load (dump m) = Some m -> meta_eqb m m = true ->
  NoDup (map fst d0) -> (forall kv, In kv d0 -> entry_ok K V str_k str_v keyI valueI kv) ->
  store c F f d0 m0 = Ok F0 ->
  storeData_until cwd M dump K V str_k str_v (PMeta (String.length (dump m))) c F0 f d m = Ok F' ->
  has c F' f m = Ok true /\ get c F' f m = Ok d0.
Proof. exact (crash_meta cwd M dump load meta_eqb K V key_eqb str_k str_v keyI valueI key_eqb_spec c F f d0 m0 F0 d m F'). Qed.
End Cache.
Print Assumptions cache_roundtrip.
Print Assumptions cache_other_state.
Print Assumptions cache_other_name.
Print Assumptions cache_crash_early.
Print Assumptions cache_crash_between.

(** Metadata, keys and values that are texts. *)
Definition strip_nl (s : string) : result string :=
  Ok (match s with "" => "" | _ => substring 0 (String.length s - 1) s end).
Definition ex_store pr := storeData_until ["w"] string (fun s => s) string string (fun s => s) (fun s => s) pr.
Definition ex_has := hasData ["w"] string Some String.eqb.
Definition ex_get := getDataOrderedDict ["w"] string Some String.eqb string string String.eqb (fun s => Ok s) strip_nl.
Definition ex_cache : cache := mk_cache "/w/a" None.
Definition pairs_eqb (a b : list (string * string)) : bool :=
  strs_eqb (map fst a) (map fst b) && strs_eqb (map snd a) (map snd b).
Example cache_example :
  match ex_store PAll ex_cache (ex_dirs ["a"]) "gyr" [("1", "2.5 x"); ("7", "8")] "meta" with
  | Ok F => match ex_has ex_cache F "gyr" "meta", ex_get ex_cache F "gyr" "meta", ex_has ex_cache F "gyr" "other" with
            | Ok true, Ok d, Ok false => pairs_eqb d [("1", "2.5 x"); ("7", "8")]
            | _, _, _ => false
            end
  | _ => false
  end = true.
Proof. vm_compute. reflexivity. Qed.

(** So the cache is not crash consistent: what it claims to have may be the data of another
    state, or only a part of the data. *)
Theorem cache_crash_refuted :
  ~ (forall pr c F0 f d0 m0 F1 d m F2, ca_write c = None ->
       ex_store PAll c F0 f d0 m0 = Ok F1 -> ex_store pr c F1 f d m = Ok F2 ->
       ex_has c F2 f m = Ok true -> ex_get c F2 f m = Ok d).
Proof.
  intros A.
  set (F1 := match ex_store PAll ex_cache (ex_dirs ["a"]) "gyr" [("1", "2")] "old" with Ok F => F | _ => [] end).
  set (F2 := match ex_store (PMeta 3) ex_cache F1 "gyr" [("1", "3")] "new" with Ok F => F | _ => [] end).
  assert (E1 : ex_store PAll ex_cache (ex_dirs ["a"]) "gyr" [("1", "2")] "old" = Ok F1) by (vm_compute; reflexivity).
  assert (E2 : ex_store (PMeta 3) ex_cache F1 "gyr" [("1", "3")] "new" = Ok F2) by (vm_compute; reflexivity).
  assert (H : ex_has ex_cache F2 "gyr" "new" = Ok true) by (vm_compute; reflexivity).
  assert (X := A (PMeta 3) ex_cache _ "gyr" _ _ _ _ _ _ eq_refl E1 E2 H). vm_compute in X. discriminate X.
Qed.
Print Assumptions cache_crash_refuted.
Theorem cache_truncated_refuted :
  ~ (forall pr c F f d m F2, ca_write c = None ->
       ex_has c F f m = Ok false -> ex_store pr c F f d m = Ok F2 ->
       ex_has c F2 f m = Ok true -> ex_get c F2 f m = Ok d).
Proof.
  intros A.
  set (F2 := match ex_store (PData 4) ex_cache (ex_dirs ["a"]) "gyr" [("1", "3"); ("2", "4")] "new" with Ok F => F | _ => [] end).
  assert (E2 : ex_store (PData 4) ex_cache (ex_dirs ["a"]) "gyr" [("1", "3"); ("2", "4")] "new" = Ok F2) by (vm_compute; reflexivity).
  assert (H0 : ex_has ex_cache (ex_dirs ["a"]) "gyr" "new" = Ok false) by (vm_compute; reflexivity).
  assert (H : ex_has ex_cache F2 "gyr" "new" = Ok true) by (vm_compute; reflexivity).
  assert (X := A (PData 4) ex_cache _ "gyr" _ _ _ eq_refl H0 E2 H). vm_compute in X. discriminate X.
Qed.
Print Assumptions cache_truncated_refuted.
(** With a separate path for writing, stored data are never found. *)
Theorem cache_write_path_refuted :
  ~ (forall c F f d m F2, ex_store PAll c F f d m = Ok F2 -> ex_has c F2 f m = Ok true).
Proof.
  intros A.
  set (F2 := match ex_store PAll (mk_cache "/w/a" (Some "/w/out")) (ex_dirs ["a"]) "gyr" [("1", "3")] "new" with Ok F => F | _ => [] end).
  assert (E2 : ex_store PAll (mk_cache "/w/a" (Some "/w/out")) (ex_dirs ["a"]) "gyr" [("1", "3")] "new" = Ok F2) by (vm_compute; reflexivity).
  assert (X := A _ _ _ _ _ _ E2). vm_compute in X. discriminate X.
Qed.
Print Assumptions cache_write_path_refuted.
