(** Model of the data manager: the runs and cluster nodes that it finds, and the selection of
    projects (Analysis/MPCDAnalysis/DataManager.py l.39-234).  Expanding home directories,
    [glob.glob] and the execution of Python files are inputs.  The configuration file is given
    as what is read from it. *)
From Coq Require Import List ZArith String Ascii Bool Lia.
From Verif Require Import PyBase StrBase DictBase FsBase RunsModel.
Import ListNotations.
Open Scope string_scope.
Open Scope nat_scope.
Open Scope list_scope.
Local Notation "a ^ b" := (String.append a b).

(** A node, or several nodes, of the cluster (DataManager.py l.102-110, l.138). *)
Record node := mk_node { nd_name : string; nd_gpus : Z }.

Section Manager.
(** The types of the objects that the files of projects define (DataManager.py l.205-209). *)
Variables B G : Type.

(** An entry of [projects] (DataManager.py l.181-209); the last two are absent until the
    project is selected. *)
Record project := mk_project {
  pj_name : string;
  pj_local : string;      (* jobDirectoryBasePathOnLocalMachine *)
  pj_server : string;     (* jobDirectoryBasePathOnServer *)
  pj_file : string;       (* targetDataSpecificationFilePath *)
  pj_base : option B;     (* baseConfig *)
  pj_generators : option G (* configPartGenerators *) }.

(** What the configuration file contains (DataManager.py l.65-100). *)
Record mconfig := mk_mconfig {
  mc_paths : option (list string);
  mc_translators : option (list (string * string));  (* server, local *)
  mc_projects : option (list project);
  mc_cluster : option (list node) }.

(** The members of the object (DataManager.py l.79-100).  The selected project is one of the objects in
    [projects], given by its position there. *)
Record manager := mk_manager {
  m_rundirs : list string;
  m_runs : option (list string);  (* the paths of the instances of [Run], which all have [m_translators] *)
  m_translators : list (string -> string);
  m_projects : list project;
  m_project : option nat;
  m_cluster : option (list node) }.

Variables (expanduser : string -> string) (glob : string -> list string).

(** The loop over the nodes (DataManager.py l.105-110). *)
Fixpoint expand_nodes (specs : list node) : result (list node) :=
  match specs with
  | [] => Ok []
  | nodeSpecification :: r =>
    do nodeNames <- parseSlurmNodeList (nd_name nodeSpecification);
    do rest <- expand_nodes r;
    Ok (map (fun name => mk_node name (nd_gpus nodeSpecification)) nodeNames ++ rest)
  end.

(** The constructor (DataManager.py l.39-110); [config] is what loading the configuration file yields. *)
Definition init (config : result mconfig) (dataPaths : option (list string)) : result manager :=
  do config <- config;
  do preGlob <- match dataPaths with
                | None => match mc_paths config with Some l => Ok l | None => Err KeyError end
                | Some l => Ok l
                end;
  let preGlob := map expanduser preGlob in
  let paths := fold_left (fun acc path => acc ++ glob path) preGlob [] in
  let rundirs := fold_left (fun acc path => acc ++ [path]) paths [] in
  let translators := match mc_translators config with Some l => l | None => [] end in
  let projects := match mc_projects config with Some l => l | None => [] end in
  do cluster <- match mc_cluster config with
                | None => Ok None
                | Some specs => do l <- expand_nodes specs; Ok (Some l)
                end;
  Ok (mk_manager rundirs None (pathTranslatorsServerToLocal translators) projects None cluster).

(** [if k not in d: d[k] = []] and [d[k].append(v)] (DataManager.py l.139-141, l.168-171). *)
Definition dappend {K V} (eqb : K -> K -> bool) (d : list (K * list V)) (k : K) (v : V) : list (K * list V) :=
  let d := match dget eqb d k with None => dset eqb d k [] | Some _ => d end in
  match dget eqb d k with Some l => dset eqb d k (l ++ [v]) | None => d end.

(** An entry of the groups (DataManager.py l.121-130). *)
Record nodegroup := mk_nodegroup { ng_nodes : list string; ng_list : string }.
(** DataManager.py l.121-147. *)
Definition getClusterNodesGroupedByGPUCount (m : manager) : list (Z * nodegroup) :=
  match m_cluster m with
  | None => []
  | Some nodes =>
    let ret := fold_left (fun ret n => dappend Z.eqb ret (nd_gpus n) (nd_name n)) nodes [] in
    map (fun kv => (fst kv, mk_nodegroup (snd kv) (makeSlurmNodeList (snd kv)))) ret
  end.

(** DataManager.py l.224-236. *)
Definition getRuns (m : manager) : manager * list string :=
  match m_runs m with
  | Some rs => (m, rs)
  | None =>
    let rs := map (fun rundir => rundir) (m_rundirs m) in
    (mk_manager (m_rundirs m) (Some rs) (m_translators m) (m_projects m) (m_project m) (m_cluster m), rs)
  end.

(** The states are compared (DataManager.py l.164). *)
Definition is_submitted (s : runstate) : bool := match s with Submitted => true | _ => false end.
(** The loop over the runs (DataManager.py l.160-171); [stack] bounds the calls of [getState]. *)
Fixpoint collect_batches (stack : nat) (cwd : path) (F : fs) (ts : list (string -> string)) (runs : list string)
  (ret : list (nat * list string)) : result (list (nat * list string)) :=
  match runs with
  | [] => Ok ret
  | run :: r =>
    if hasParentRun cwd F run then collect_batches stack cwd F ts r ret else
    do st <- getState cwd stack F ts run;
    if negb (is_submitted st) then collect_batches stack cwd F ts r ret else
    do batchSize <- getJobBatchSize cwd F ts run;
    collect_batches stack cwd F ts r (dappend Nat.eqb ret batchSize run)
  end.
(** DataManager.py l.150-173. *)
Definition getSubmittedJobBatchesGroupedByJobBatchSize (stack : nat) (cwd : path) (F : fs) (m : manager)
  : manager * result (list (nat * list string)) :=
  let (m, runs) := getRuns m in
  (m, collect_batches stack cwd F (m_translators m) runs []).

(** [path.replace(old, new, 1)] for a path that starts with [old] (DataManager.py l.195). *)
Definition replace_start (old new path : string) : string :=
  new ^ substring (String.length old) (String.length path - String.length old) path.
(** The function that the files of projects may use (DataManager.py l.190-196). *)
Definition pathTranslator (localroot serverroot path : string) : string :=
  if starts localroot path then replace_start localroot serverroot path else path.

(** What executing a file adds to the scope (DataManager.py l.198-209): [baseConfig] and [generators], if they are
    defined.  The scope passed has the two directories and the translator. *)
Variable execfile : string -> string -> string -> (string -> string) -> result (option B * option G).

(** Assigning to a member of the list of projects (DataManager.py l.207-209). *)
Fixpoint set_nth {A} (l : list A) (i : nat) (x : A) : list A :=
  match l, i with
  | [], _ => []
  | _ :: r, O => x :: r
  | y :: r, S j => y :: set_nth r j x
  end.
(** The search (DataManager.py l.181-182). *)
Fixpoint find_project (ps : list project) (name : string) : option (nat * project) :=
  match ps with
  | [] => None
  | p :: r => if String.eqb (pj_name p) name then Some (0, p)
              else match find_project r name with Some (i, q) => Some (S i, q) | None => None end
  end.
(** DataManager.py l.183, l.207-209. *)
Definition with_project (m : manager) (i : nat) (p : project) : manager :=
  mk_manager (m_rundirs m) (m_runs m) (m_translators m) (set_nth (m_projects m) i p) (Some i) (m_cluster m).
(** DataManager.py l.176-212. *)
Definition selectProject (m : manager) (name : string) : manager * result unit :=
  match find_project (m_projects m) name with
  | None => (m, Err PyException)
  | Some (i, p) =>
    let m := with_project m i p in
    match execfile (pj_file p) (pj_local p) (pj_server p) (pathTranslator (pj_local p) (pj_server p)) with
    | Err e => (m, Err e)
    | Ok (base, gens) =>
      match base with
      | None => (m, Err KeyError)
      | Some b =>
        let p := mk_project (pj_name p) (pj_local p) (pj_server p) (pj_file p) (Some b) (pj_generators p) in
        let m := with_project m i p in
        match gens with
        | None => (m, Err KeyError)
        | Some g =>
          let p := mk_project (pj_name p) (pj_local p) (pj_server p) (pj_file p) (Some b) (Some g) in
          (with_project m i p, Ok tt)
        end
      end
    end
  end.
(** DataManager.py l.215-221. *)
Definition getProject (m : manager) : option project :=
  match m_project m with Some i => nth_error (m_projects m) i | None => None end.
(** DataManager.py l.113-118. *)
Definition getProjects (m : manager) : list project := m_projects m.
End Manager.
Arguments mk_project {B G}. Arguments mk_mconfig {B G}. Arguments mk_manager {B G}.
Arguments pj_name {B G}. Arguments pj_local {B G}. Arguments pj_server {B G}. Arguments pj_file {B G}.
Arguments pj_base {B G}. Arguments pj_generators {B G}.
Arguments mc_paths {B G}. Arguments mc_translators {B G}. Arguments mc_projects {B G}. Arguments mc_cluster {B G}.
Arguments m_rundirs {B G}. Arguments m_runs {B G}. Arguments m_translators {B G}. Arguments m_projects {B G}.
Arguments m_project {B G}. Arguments m_cluster {B G}.
Arguments init {B G}. Arguments getClusterNodesGroupedByGPUCount {B G}. Arguments getRuns {B G}.
Arguments getSubmittedJobBatchesGroupedByJobBatchSize {B G}. Arguments find_project {B G}. Arguments with_project {B G}.
Arguments selectProject {B G}. Arguments getProject {B G}. Arguments getProjects {B G}.
