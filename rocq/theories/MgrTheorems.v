(** C116 and C117: the data manager. *)
From Coq Require Import List ZArith String Ascii Bool Lia.
From Verif Require Import PyBase StrBase DictBase FsBase ConfModel RunsModel RunsSpec RunsNodesProof RunsStateProof MgrModel MgrSpec MgrProof.
Import ListNotations.
Open Scope string_scope.
Open Scope nat_scope.
Open Scope list_scope.

(** * C116: runs, nodes and batches *)
Section Runs.
Context {B G : Type}.
Variables (expanduser : string -> string) (glob : string -> list string).

(** The runs are the matches of the expanded paths, pattern by pattern; given paths take over
    those of the configuration file, which nevertheless has to be readable.  Asking again
    yields the same runs. *)
Theorem runs_found (c : mconfig B G) dp m : init expanduser glob (Ok c) dp = Ok m ->
  exists paths, (dp = Some paths \/ dp = None /\ mc_paths c = Some paths) /\
    matches glob (map expanduser paths) (snd (getRuns m)) /\
    snd (getRuns (fst (getRuns m))) = snd (getRuns m) /\ fst (getRuns (fst (getRuns m))) = fst (getRuns m).
Proof.
  intros H. destruct (init_inv _ _ _ _ _ H) as (paths & l & P & M & EL & ER & _). exists paths. split; [exact P|].
  unfold getRuns. rewrite ER. cbn [snd fst m_runs]. rewrite map_id, EL. auto.
Qed.
Theorem runs_initialised (config : result (mconfig B G)) dp :
  (exists m, init expanduser glob config dp = Ok m) <-> exists c, config = Ok c /\ (dp <> None \/ mc_paths c <> None).
Proof.
  split.
  - intros (m & H). destruct config as [c|e]; [|discriminate]. exists c. split; [reflexivity|].
    destruct (init_inv _ _ _ _ _ H) as (paths & l & [P|[_ P]] & _); [left|right]; congruence.
  - intros (c & -> & H). apply init_ok, H.
Qed.

(** The nodes of the cluster are those that the lists in the configuration file mean, with the
    number of GPUs given there. *)
Theorem cluster_nodes (c : mconfig B G) dp m specs : init expanduser glob (Ok c) dp = Ok m ->
  mc_cluster c = Some (map (fun s => mk_node (join "," (map pattern_text (fst s))) (snd s)) specs) ->
  (forall ps g, In (ps, g) specs -> ps <> [] /\ forall p, In p ps -> simple p) ->
  exists ns, m_cluster m = Some ns /\ forall n, In n ns <-> exists ps g, In (ps, g) specs /\ node_means ps g n.
Proof.
  intros H C A. destruct (init_inv _ _ _ _ _ H) as (paths & l & _ & _ & _ & _ & _ & _ & _ & K).
  rewrite C in K. destruct K as (ns & E & ->). exists ns. split; [reflexivity|]. intros n. rewrite (expand_in _ _ E). split.
  - intros (s & l' & I & P & I' & GP). apply in_map_iff in I. destruct I as ([ps g] & <- & I). cbn [nd_name nd_gpus fst snd] in *.
    destruct (A ps g I) as [NE Si]. destruct (nodelist_means ps NE Si) as (l2 & E2 & M2). rewrite E2 in P. injection P as <-.
    exists ps, g. split; [exact I|]. split; [apply M2, I'|exact GP].
  - intros (ps & g & I & M & GP). destruct (A ps g I) as [NE Si]. destruct (nodelist_means ps NE Si) as (l2 & E2 & M2).
    exists (mk_node (join "," (map pattern_text ps)) g), l2. cbn [nd_name nd_gpus]. repeat split; auto.
    + apply in_map_iff. exists (ps, g). auto.
    + apply M2, M.
Qed.

(** The nodes are grouped by their numbers of GPUs: there is one group for each number that
    occurs, with the nodes that have it, and a text from which the scheduler gets these. *)
Theorem nodes_grouped (m : manager B G) nodes : m_cluster m = Some nodes ->
  NoDup (map fst (getClusterNodesGroupedByGPUCount m)) /\
  (forall k, In k (map fst (getClusterNodesGroupedByGPUCount m)) <-> exists n, In n nodes /\ nd_gpus n = k) /\
  forall k g, In (k, g) (getClusterNodesGroupedByGPUCount m) ->
    (exists l, selected (fun n => nd_gpus n = k) nodes l /\ ng_nodes g = map nd_name l) /\
    ((forall n, In n nodes -> nd_name n <> "" /\ plain_name (nd_name n)) -> parseSlurmNodeList (ng_list g) = Ok (ng_nodes g)).
Proof.
  intros C. unfold getClusterNodesGroupedByGPUCount. rewrite C.
  pose proof (grouped_all Z.eqb Z.eqb_eq nd_gpus nd_name nodes [] [] (grouped_nil Z.eqb nd_gpus nd_name)) as [N D]. cbn [app] in D.
  set (ret := fold_left _ nodes []) in *. rewrite map_map. cbn [fst].
  assert (MEM : forall k l, In (k, l) ret -> exists f, f = filter (fun a => Z.eqb (nd_gpus a) k) nodes /\ f <> [] /\ l = map nd_name f).
  { intros k l I. apply (in_dget Z.eqb Z.eqb_eq) in I; [|exact N]. rewrite D in I. eexists. split; [reflexivity|].
    destruct (filter _ nodes); [discriminate|]. injection I as <-. split; [discriminate|reflexivity]. }
  split; [exact N|]. split.
  - intros k. split.
    + intros I. apply in_map_iff in I. destruct I as ([k' l] & <- & I). destruct (MEM _ _ I) as (f & EF & NF & _). cbn [fst].
      destruct f as [|n f]; [contradiction|]. exists n. assert (J : In n (n :: f)) by now left.
      rewrite EF in J. apply filter_In in J. destruct J as [J E]. apply Z.eqb_eq in E. auto.
    + intros (n & I & <-). change (In (nd_gpus n) (dkeys ret)). destruct (dget Z.eqb ret (nd_gpus n)) as [l|] eqn:E.
      * apply (dget_in Z.eqb Z.eqb_eq) in E. change (nd_gpus n) with (fst (nd_gpus n, l)). apply in_map, E.
      * rewrite D in E. assert (J : In n (filter (fun a => Z.eqb (nd_gpus a) (nd_gpus n)) nodes)) by (apply filter_In; split; [exact I|apply Z.eqb_refl]).
        destruct (filter _ nodes); [destruct J|discriminate].
  - intros k g I. apply in_map_iff in I. destruct I as ([k' l] & E & I). cbn [fst snd] in E. injection E as <- <-.
    destruct (MEM _ _ I) as (f & EF & NF & ->). cbn [ng_nodes ng_list]. split.
    + exists f. split; [|reflexivity]. rewrite EF.
      refine (selected_iff _ _ _ _ _ (selected_filter (fun a => Z.eqb (nd_gpus a) k') nodes)). intros a _. apply Z.eqb_eq.
    + intros A. apply make_parse; [destruct f; [contradiction|discriminate]|].
      intros x J. apply in_map_iff in J. destruct J as (n & <- & J). rewrite EF in J. apply filter_In in J. apply A, J.
Qed.
Theorem nodes_no_cluster (m : manager B G) : m_cluster m = None -> getClusterNodesGroupedByGPUCount m = [].
Proof. intros C. unfold getClusterNodesGroupedByGPUCount. rewrite C. reflexivity. Qed.

(** Job batches are grouped by their sizes: for each size with a pending job there is one group with exactly
    the runs that are pending with this size, in order. *)
Theorem batches_grouped cwd F k (m : manager B G) runs : snd (getRuns m) = runs ->
  (exists d, snd (getSubmittedJobBatchesGroupedByJobBatchSize (S k) cwd F m) = Ok d) ->
  exists d, snd (getSubmittedJobBatchesGroupedByJobBatchSize (S k) cwd F m) = Ok d /\
    NoDup (map fst d) /\
    forall n l, In (n, l) d <-> l <> [] /\ selected (fun r => pending cwd F (apply_translators (m_translators m)) r n) runs l.
Proof.
  intros ER (d0 & H). unfold getSubmittedJobBatchesGroupedByJobBatchSize in *.
  destruct (getRuns m) as [m' rs] eqn:EM. cbn [snd] in *. subst rs.
  assert (ET : m_translators m' = m_translators m).
  { unfold getRuns in EM. destruct (m_runs m); injection EM as <- _; reflexivity. }
  rewrite ET in *.
  destruct (collect_ok cwd F (m_translators m) k runs (collect_clear cwd F _ k runs [] d0 H) [] []) as (d & E & N & D);
    [intros r []|apply good_nil|].
  exists d. split; [exact E|]. split; [exact N|]. intros n l. rewrite <- (D n l). split.
  - apply (in_dget Nat.eqb Nat.eqb_eq), N.
  - apply (dget_in Nat.eqb Nat.eqb_eq).
Qed.
(** This succeeds exactly if each run without a parent is in one of the documented states, and the job
    scripts of the submitted ones start programs. *)
Theorem batches_succeed cwd F k (m : manager B G) runs : snd (getRuns m) = runs ->
  ((exists d, snd (getSubmittedJobBatchesGroupedByJobBatchSize (S k) cwd F m) = Ok d) <->
   forall r, In r runs -> has_file F (place cwd r) ["input"; "parent-job-path.txt"] \/
     exists st, state_is cwd F (apply_translators (m_translators m)) (place cwd r) st /\ (st = Submitted -> exists n, job_size cwd F r (S n))).
Proof.
  intros ER. unfold getSubmittedJobBatchesGroupedByJobBatchSize in *.
  destruct (getRuns m) as [m' rs] eqn:EM. cbn [snd] in *. subst rs.
  assert (ET : m_translators m' = m_translators m).
  { unfold getRuns in EM. destruct (m_runs m); injection EM as <- _; reflexivity. }
  rewrite ET in *. split.
  - intros (d & H). exact (collect_clear cwd F _ k runs [] d H).
  - intros H. destruct (collect_ok cwd F (m_translators m) k runs H [] []) as (d & E & _); [intros r []|apply good_nil|]. eauto.
Qed.
End Runs.
Print Assumptions nodes_no_cluster.
Print Assumptions runs_found.
Print Assumptions runs_initialised.
Print Assumptions cluster_nodes.
Print Assumptions nodes_grouped.
Print Assumptions batches_grouped.
Print Assumptions batches_succeed.

(** A file system, with a directory of a submitted run, one of a run that is part of it, and one that is
    not of a run. *)
Definition ex_fs : fs :=
  [(["d"; "a"; "config.txt"], File ""); (["d"; "a"; "input"; "jobid"], File "7");
   (["d"; "a"; "input"; "job.slrm"], File ("x" ++ String "010" ("srun p" ++ String "010" ("srun q" ++ String "010" "")))%string);
   (["d"; "b"; "config.txt"], File ""); (["d"; "b"; "input"; "parent-job-path.txt"], File "/d/a");
   (["d"; "c"; "notes.txt"], File "")].
Definition ex_config : mconfig nat nat :=
  mk_mconfig (Some ["~/*"]) None None (Some [mk_node "n[1-2],m7" 4; mk_node "o3" 2; mk_node "n9" 4]).
Definition ex_expand (s : string) : string := if String.eqb s "~/*" then "/d/*" else s.
Definition ex_glob (s : string) : list string :=
  if String.eqb s "/d/*" then ["/d/a"; "/d/b"; "/d/c"] else if String.eqb s "/d/[ab]" then ["/d/a"; "/d/b"] else [].
Definition ex_manager (paths : option (list string)) : manager nat nat :=
  match init ex_expand ex_glob (Ok ex_config) paths with Ok m => m | Err _ => mk_manager [] None [] [] None None end.

Example runs_found_example : snd (getRuns (ex_manager None)) = ["/d/a"; "/d/b"; "/d/c"] /\
  snd (getRuns (ex_manager (Some ["/d/[ab]"]))) = ["/d/a"; "/d/b"].
Proof. split; vm_compute; reflexivity. Qed.
Example nodes_grouped_example : getClusterNodesGroupedByGPUCount (ex_manager None) =
  [(4%Z, mk_nodegroup ["n1"; "n2"; "m7"; "n9"] "n1,n2,m7,n9"); (2%Z, mk_nodegroup ["o3"] "o3")].
Proof. vm_compute. reflexivity. Qed.
Example batches_grouped_example :
  snd (getSubmittedJobBatchesGroupedByJobBatchSize 1 [] ex_fs (ex_manager (Some ["/d/[ab]"]))) = Ok [(2, ["/d/a"])].
Proof. vm_compute. reflexivity. Qed.

(** Directories that are not of runs are not ignored, although the documentation says so. *)
Theorem runs_ignored_refuted :
  ~ (forall cwd F expanduser glob (c : mconfig nat nat) dp m, init expanduser glob (Ok c) dp = Ok m ->
       forall r, In r (snd (getRuns m)) -> has_file F (place cwd r) ["config.txt"]).
Proof.
  intros A. specialize (A [] ex_fs ex_expand ex_glob ex_config None _ eq_refl "/d/c").
  destruct A as (t & E); [vm_compute; auto|]. vm_compute in E. discriminate.
Qed.
Print Assumptions runs_ignored_refuted.
(** Instead, one of them makes it impossible to see which jobs are pending. *)
Theorem batches_refuted :
  ~ (forall cwd F k expanduser glob (c : mconfig nat nat) dp m r, init expanduser glob (Ok c) dp = Ok m ->
       In r (snd (getRuns m)) -> state_is cwd F (fun p => p) (place cwd r) Submitted ->
       exists d, snd (getSubmittedJobBatchesGroupedByJobBatchSize (S k) cwd F m) = Ok d).
Proof.
  intros A. destruct (A [] ex_fs 0 ex_expand ex_glob ex_config None _ "/d/a" eq_refl) as (d & E).
  - vm_compute. auto.
  - apply (state_sound [] ex_fs 1 [] "/d/a"). vm_compute. reflexivity.
  - vm_compute in E. discriminate.
Qed.
Print Assumptions batches_refuted.
(** Runs that match several patterns are listed several times. *)
Theorem runs_once_refuted :
  ~ (forall expanduser glob (c : mconfig nat nat) dp m, (forall p, NoDup (glob p)) -> init expanduser glob (Ok c) dp = Ok m ->
       NoDup (snd (getRuns m))).
Proof.
  intros A. specialize (A ex_expand ex_glob ex_config (Some ["/d/[ab]"; "/d/*"]) (ex_manager (Some ["/d/[ab]"; "/d/*"]))).
  assert (N : forall p, NoDup (ex_glob p)).
  { intros p. unfold ex_glob. destruct (String.eqb p "/d/*"); [|destruct (String.eqb p "/d/[ab]")]; repeat constructor; cbn; intuition discriminate. }
  specialize (A N eq_refl). vm_compute in A. inversion A as [|x l I K]. apply I. cbn. auto.
Qed.
Print Assumptions runs_once_refuted.

(** * C117: projects *)
Section Projects.
Context {B G : Type}.
Variable execfile : string -> string -> string -> (string -> string) -> result (option B * option G).

(** Selecting a project makes the first project of that name the current one, with the configuration and the
    generators that its file defines; nothing else changes. *)
Theorem project_selected m name m' : selectProject execfile m name = (m', Ok tt) ->
  exists i p b g, nth_error (getProjects m) i = Some p /\ pj_name p = name /\
    (forall j q, j < i -> nth_error (getProjects m) j = Some q -> pj_name q <> name) /\
    execfile (pj_file p) (pj_local p) (pj_server p) (pathTranslator (pj_local p) (pj_server p)) = Ok (Some b, Some g) /\
    getProject m' = Some (mk_project name (pj_local p) (pj_server p) (pj_file p) (Some b) (Some g)) /\
    (forall j, j <> i -> nth_error (getProjects m') j = nth_error (getProjects m) j) /\
    m_rundirs m' = m_rundirs m /\ m_runs m' = m_runs m /\ m_translators m' = m_translators m /\ m_cluster m' = m_cluster m.
Proof.
  unfold selectProject, getProjects. destruct (find_project (m_projects m) name) as [[i p]|] eqn:F; [|discriminate].
  apply find_spec in F. destruct F as (N & NM & A).
  destruct (execfile _ _ _ _) as [[[b|] [g|]]|] eqn:X; try discriminate. intros H. injection H as <-.
  exists i, p, b, g. repeat split; auto.
  - unfold getProject, with_project. cbn. rewrite NM.
    eapply set_nth_nth. eapply set_nth_nth. eapply set_nth_nth. exact N.
  - intros j NE. cbn. rewrite !set_nth_other by exact NE. reflexivity.
Qed.
Theorem project_selectable m name i p b g : nth_error (getProjects m) i = Some p -> pj_name p = name ->
  (forall j q, j < i -> nth_error (getProjects m) j = Some q -> pj_name q <> name) ->
  execfile (pj_file p) (pj_local p) (pj_server p) (pathTranslator (pj_local p) (pj_server p)) = Ok (Some b, Some g) ->
  exists m', selectProject execfile m name = (m', Ok tt).
Proof.
  intros N NM A X. unfold selectProject. unfold getProjects in *.
  rewrite (proj2 (find_spec (m_projects m) name i p)) by auto. rewrite X. eauto.
Qed.
(** An unknown name is refused, and the selection remains. *)
Theorem project_unknown m name : (forall p, In p (getProjects m) -> pj_name p <> name) ->
  selectProject execfile m name = (m, Err PyException).
Proof. intros A. unfold selectProject. rewrite (proj2 (find_none (m_projects m) name) A). reflexivity. Qed.
(** If the file of the project cannot be executed, or does not define what it has to, the selection fails, but the
    project is the current one. *)
Theorem project_failed m name m' e : selectProject execfile m name = (m', Err e) -> (exists p, In p (getProjects m) /\ pj_name p = name) ->
  exists p, getProject m' = Some p /\ pj_name p = name.
Proof.
  intros H (q & I & NQ). unfold selectProject in H.
  destruct (find_project (m_projects m) name) as [[i p]|] eqn:F; [|exfalso; apply (proj1 (find_none _ _) F q I NQ)].
  apply find_spec in F. destruct F as (N & NM & A).
  destruct (execfile _ _ _ _) as [[[b|] [g|]]|]; try discriminate; injection H as <- <-;
    (eexists; split; [unfold getProject, with_project; cbn; repeat (eapply set_nth_nth); exact N|exact NM]).
Qed.
End Projects.
Print Assumptions project_selectable.
Print Assumptions project_selected.
Print Assumptions project_unknown.
Print Assumptions project_failed.

(** The translator replaces the local directory at the beginning of a path by the one on the server, and leaves other
    paths alone. *)
Theorem translator_below local server rest : pathTranslator local server (local ++ rest) = (server ++ rest)%string.
Proof.
  unfold pathTranslator. rewrite (proj2 (starts_iff local (local ++ rest)%string)) by (exists rest; reflexivity).
  unfold replace_start. rewrite substring_tail. reflexivity.
Qed.
Print Assumptions translator_below.
Theorem translator_elsewhere local server path : (forall rest, path <> (local ++ rest)%string) -> pathTranslator local server path = path.
Proof.
  intros H. unfold pathTranslator. destruct (starts local path) eqn:E; [|reflexivity].
  apply starts_iff in E. destruct E as (r & E). contradiction (H r E).
Qed.
Print Assumptions translator_elsewhere.
(** Directories whose names merely begin with that of the local directory are translated, too. *)
Theorem translator_sibling_refuted :
  ~ (forall cwd local server path, is_abs path = true -> is_abs local = true ->
       (forall names, resolve cwd path <> resolve cwd local ++ names) -> pathTranslator local server path = path).
Proof.
  intros A. specialize (A [] "/home/me/jobs" "/scratch/me" "/home/me/jobs-old/1" eq_refl eq_refl).
  assert (X : forall names, resolve [] "/home/me/jobs-old/1" <> resolve [] "/home/me/jobs" ++ names).
  { intros names E. vm_compute in E. discriminate. }
  specialize (A X). vm_compute in A. discriminate.
Qed.
Print Assumptions translator_sibling_refuted.

Definition ex_project (name file : string) : project nat nat := mk_project name "/home/me/jobs" "/scratch/me" file None None.
Definition ex_exec (file local server : string) (tr : string -> string) : result (option nat * option nat) :=
  if String.eqb file "p.py" then Ok (Some 1, Some (String.length (tr "/home/me/jobs/1"))) else if String.eqb file "q.py" then Ok (Some 2, None) else Err OSError.
Definition ex_projects : manager nat nat :=
  mk_manager [] None [] [ex_project "p" "p.py"; ex_project "q" "q.py"; ex_project "p" "q.py"] None None.
Example project_selected_example :
  snd (selectProject ex_exec ex_projects "p") = Ok tt /\
  getProject (fst (selectProject ex_exec ex_projects "p")) = Some (mk_project "p" "/home/me/jobs" "/scratch/me" "p.py" (Some 1) (Some 13)).
Proof. split; vm_compute; reflexivity. Qed.
(** So a failed selection does not leave the former one. *)
Theorem project_failed_refuted :
  ~ (forall execfile (m : manager nat nat) name m' e, selectProject execfile m name = (m', Err e) -> getProject m' = getProject m).
Proof.
  intros A. specialize (A ex_exec ex_projects "q" (fst (selectProject ex_exec ex_projects "q")) KeyError eq_refl). vm_compute in A. discriminate.
Qed.
Print Assumptions project_failed_refuted.
