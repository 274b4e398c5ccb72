(** Models of the management of runs in the analysis package:
    - Analysis/MPCDAnalysis/DataManager.py
    - Analysis/MPCDAnalysis/Run.py
    - Analysis/MPCDAnalysis/StarPolymersAnalysis/Cache.py
    on the file system of FsBase.v.  The deprecated functions of DataManager.py
    (l.642-855) are not modelled. *)
From Coq Require Import List ZArith String Ascii Bool Lia.
From Verif Require Import QcBase.
From Verif Require Import ConfModel.
From Verif Require Export FsBase.
Import ListNotations.
Close Scope Qc_scope.
Open Scope string_scope.
Open Scope nat_scope.
Open Scope list_scope.
Local Notation "a ^ b" := (String.append a b).

(** * Target data specifications (DataManager.py l.323-371) *)

(** The value of a setting in a configuration part: a scalar, or an instance of
    [ConfigPartSpecialAction] (DataManager.py l.906-951). *)
Inductive action := ASet (x : leaf) | ADelete | ACreate.
(** DataManager.py l.14-27: what generators yield. *)
Record part := mk_part {
  pt_settings : list (string * action);
  pt_components : option (list string);
  pt_sweeps : option Z }.
(** DataManager.py l.323-371. *)
Record spec := mk_spec {
  sp_config : heap;            (* a [Configuration], its root object at location 0 *)
  sp_sweeps : option Z;
  sp_components : list string }.

(** Configuration.py l.59-69, the loop of [createGroup]. *)
Fixpoint create_groups (H : heap) (l : nat) (comps : list string) : heap * result unit :=
  match comps with
  | [] => (H, Ok tt)
  | c :: r =>
    match contains_comps H l [c] with
    | Err e => (H, Err e)
    | Ok false => create_groups (create_group H l c) (List.length H) r
    | Ok true =>
      match node_at H l with
      | NGroup _ d =>
        match sget d c with
        | Some (Ref m) => match node_at H m with
                          | NGroup _ _ => create_groups H m r
                          | _ => (H, Err (match r with [] => PyException | _ => AttributeError end))
                          end
        | Some (Leaf _) => (H, Err (match r with [] => PyException | _ => AttributeError end))
        | None => (H, Err AttributeError)
        end
      | _ => (H, Err AttributeError)
      end
    end
  end.
(** Configuration.py l.43-71, [createGroup] on a complete configuration.  If the name
    is contained, the configuration is asked for an entry of the whole, possibly
    dotted, name. *)
Definition createGroup (H : heap) (l : nat) (name : string) : heap * result unit :=
  match contains H l name with
  | Err e => (H, Err e)
  | Ok true =>
    match node_at H l with
    | NGroup _ d => match sget d name with
                    | Some (Ref m) => match node_at H m with
                                      | NGroup _ _ => (H, Ok tt)
                                      | _ => (H, Err PyException)
                                      end
                    | _ => (H, Err PyException)
                    end
    | _ => (H, Err AttributeError)
    end
  | Ok false => create_groups H l (split dot name)
  end.

(** DataManager.py l.347-356: one setting. *)
Definition apply_setting (H : heap) (s : string * action) : result heap :=
  let '(name, value) := s in
  let '(H', r) := match value with
                  | ADelete => delitem H 0 name
                  | ACreate => createGroup H 0 name
                  | ASet x => setitem H 0 name (Leaf x)
                  end in
  do _ <- r; Ok H'.
(** DataManager.py l.347-356: the loop over settings. *)
Fixpoint apply_settings (H : heap) (ss : list (string * action)) : result heap :=
  match ss with [] => Ok H | s :: r => do H' <- apply_setting H s; apply_settings H' r end.
(** DataManager.py l.346-364: one part of a combination. *)
Definition apply_part (acc : spec) (p : part) : result spec :=
  do H <- apply_settings (sp_config acc) (pt_settings p);
  let comps := match pt_components p with
               | None => sp_components acc
               | Some cs => sp_components acc ++ cs
               end in
  let sweeps := match pt_sweeps p with
                | None => sp_sweeps acc
                | Some t => match sp_sweeps acc with
                            | None => Some t
                            | Some u => if Z.ltb u t then Some t else Some u
                            end
                end in
  Ok (mk_spec H sweeps comps).
(** DataManager.py l.346-364: the loop over parts. *)
Fixpoint apply_parts (acc : spec) (ps : list part) : result spec :=
  match ps with [] => Ok acc | p :: r => do a <- apply_part acc p; apply_parts a r end.

(** [itertools.product], as its documentation defines it (DataManager.py l.342). *)
Definition product {A} (gs : list (list A)) : list (list A) :=
  fold_left (fun acc g => flat_map (fun x => map (fun y => x ++ [y]) g) acc) gs [[]].
(** A loop that may raise, DataManager.py l.341-371. *)
Fixpoint mapres {A B} (f : A -> result B) (l : list A) : result (list B) :=
  match l with [] => Ok [] | a :: r => do b <- f a; do t <- mapres f r; Ok (b :: t) end.
(** DataManager.py l.323-371.  The project: its base configuration and its list of lists of
    generators, which are taken to be lists of parts. *)
Definition getTargetDataSpecifications (project : option (heap * list (list (list part))))
  : result (list spec) :=
  match project with
  | None => Err PyException
  | Some (base, generators) =>
    do ls <- mapres (fun gs => mapres (apply_parts (mk_spec base None [])) (product gs)) generators;
    Ok (concat ls)
  end.

(** * Run directories (DataManager.py l.452-489) *)

(** ["{:0>4}".format(x)] (DataManager.py l.478-489) *)
Fixpoint zeros (n : nat) : string := match n with O => "" | S k => String "0" (zeros k) end.
(** DataManager.py l.478-489. *)
Definition padded (width x : nat) : string :=
  let s := str_of_Z (Z.of_nat x) in zeros (width - String.length s) ^ s.
(** DataManager.py l.478-489. *)
Definition numberOfDigits : nat := 4.
(** DataManager.py l.478-489. *)
Definition numberedPath (base : string) (x : nat) : string :=
  base ^ "---" ^ padded numberOfDigits x.

Section Fs.
(** The working directory of the process. *)
Variable cwd : path.

(** DataManager.py l.478-489: the loop; [k] numbers are left, starting at [x]. *)
Fixpoint pick_rundir (F : fs) (base text : string) (x k : nat) : fs * result (option string) :=
  match k with
  | O => (F, Ok None)
  | S k' =>
    let p := numberedPath base x in
    if exists_ cwd F p then pick_rundir F base text (S x) k'
    else match mkdir cwd F p with
         | Err e => (F, Err e)
         | Ok F1 =>
           match write cwd F1 (p ^ "/config.txt") text with
           | Err e => (F1, Err e)
           | Ok F2 => (F2, Ok (Some p))
           end
         end
  end.
(** DataManager.py l.469-476: the name of the directory; [None] models Python's None. *)
Fixpoint join_components (acc : option string) (cs : list string) : result (option string) :=
  match cs with
  | [] => Ok acc
  | c :: r =>
    match acc with
    | None => Err TypeError
    | Some a => join_components (Some ((if String.eqb a "" then a else a ^ "---") ^ c)) r
    end
  end.
(** DataManager.py l.452-489.  [jobdir] is [jobDirectoryBasePathOnLocalMachine], [text] is
    [str(config)]. *)
Definition createRundir (F : fs) (jobdir : string) (prefix : option string)
    (components : list string) (text : string) : fs * result (option string) :=
  let basePath := jobdir ^ "/jobs" in
  if negb (isdir cwd F basePath) then (F, Err ValueError)
  else match join_components prefix components with
       | Err e => (F, Err e)
       | Ok None => (F, Err TypeError)
       | Ok (Some name) =>
         pick_rundir F (basePath ^ "/" ^ name) text 0 (Nat.pow 10 numberOfDigits)
       end.

(** A sequence of requests; the directories created, in order (DataManager.py l.452-489). *)
Fixpoint createRundirs (F : fs) (jobdir : string) (prefix : option string)
    (reqs : list (list string * string)) : fs * list (option string) :=
  match reqs with
  | [] => (F, [])
  | (cs, text) :: r =>
    let '(F1, res) := createRundir F jobdir prefix cs text in
    let '(F2, l) := createRundirs F1 jobdir prefix r in
    (F2, (match res with Ok p => p | Err _ => None end) :: l)
  end.

(** * Job scripts (DataManager.py l.492-639) *)

(** [range(0, n, k)] for [k > 0] (DataManager.py l.567-571). *)
Definition py_range (n k : nat) : list nat := map (fun i => i * k) (seq 0 ((n + k - 1) / k)).
(** DataManager.py l.567-571. *)
Definition chunks {A} (l : list A) (k : nat) : list (list A) :=
  map (fun first => firstn k (skipn first l)) (py_range (List.length l) k).

(** The arguments of DataManager.py l.492-639. *)
Record jobopts := mk_jobopts {
  jo_exe : string; jo_exeopts : string;
  jo_slurm : list (string * string);
  jo_srun : list (string * option string);
  jo_excluded : option string;
  jo_translate : string -> string }.

(** The line break, DataManager.py l.588-637. *)
Definition nl1 : string := String "010" "".
(** DataManager.py l.590-593 and l.620-623: how an option and its value are joined; [key[1]] of a
    key of one character raises. *)
Definition opt_sep (key : string) : result string :=
  match key with
  | String _ (String b _) => Ok (if Ascii.eqb b "-" then "=" else " ")
  | _ => Err IndexError
  end.
(** DataManager.py l.588-599. *)
Fixpoint slurm_lines (o : jobopts) (jobdir : string) (jobs : nat) (opts : list (string * string))
  : result string :=
  match opts with
  | [] => Ok ""
  | (key, value) :: r =>
    do sep <- opt_sep key;
    let value := replace "$RUNDIR" (jo_translate o jobdir) value in
    let value := replace "$JOBS_PER_NODE" (str_of_Z (Z.of_nat jobs)) value in
    do t <- slurm_lines o jobdir jobs r;
    Ok ("#SBATCH " ^ key ^ sep ^ value ^ nl1 ^ t)
  end.
(** DataManager.py l.617-624. *)
Fixpoint srun_opts (absolutePath : string) (opts : list (string * option string)) : result string :=
  match opts with
  | [] => Ok ""
  | (key, value) :: r =>
    do v <- match value with
            | None => Ok ""
            | Some v => do sep <- opt_sep key; Ok (sep ^ replace "$RUNDIR" absolutePath v)
            end;
    do t <- srun_opts absolutePath r;
    Ok (" " ^ key ^ v ^ t)
  end.
(** DataManager.py l.612-629. *)
Definition srun_line (o : jobopts) (rundir : string) : result string :=
  let absolutePath := jo_translate o (abspath cwd rundir) in
  do opts <- srun_opts absolutePath (jo_srun o);
  Ok ("srun --chdir='" ^ absolutePath ^ "/input'" ^ opts ^ " '" ^ jo_exe o ^ "' " ^ jo_exeopts o
      ^ " --rundir '" ^ absolutePath ^ "' & " ^ nl1).

(** DataManager.py l.582-583 and l.604-605. *)
Definition ensure_dir (F : fs) (s : string) : result fs :=
  if isdir cwd F s then Ok F else mkdir cwd F s.
(** DataManager.py l.603-629: the loop over the runs of a chunk; the text added to the script. *)
Fixpoint chunk_runs (o : jobopts) (jobdir : string) (F : fs) (chunk : list string)
  : result (fs * string) :=
  match chunk with
  | [] => Ok (F, "")
  | rundir :: r =>
    do F1 <- ensure_dir F (rundir ^ "/input");
    do F2 <- (if String.eqb rundir jobdir then Ok F1
              else write cwd F1 (rundir ^ "/input/parent-job-path.txt") (jo_translate o jobdir));
    do line <- srun_line o rundir;
    do t <- chunk_runs o jobdir F2 r;
    Ok (fst t, line ^ snd t)
  end.
(** DataManager.py l.574-637: one chunk. *)
Definition make_job (o : jobopts) (F : fs) (chunk : list string) : result (fs * string) :=
  match chunk with
  | [] => Err IndexError
  | r0 :: _ =>
    let jobdir := abspath cwd r0 in
    let jobfile := jobdir ^ "/input/job.slrm" in
    do F1 <- ensure_dir F (jobdir ^ "/input");
    let opts := match jo_excluded o with
                | None => jo_slurm o
                | Some nodes => sset (jo_slurm o) "--exclude" nodes
                end in
    do head <- slurm_lines o jobdir (List.length chunk) opts;
    do t <- chunk_runs o jobdir F1 chunk;
    do F3 <- write cwd (fst t) jobfile ("#!/bin/bash" ^ nl1 ^ head ^ nl1 ^ snd t ^ "wait" ^ nl1);
    Ok (F3, jo_translate o jobfile)
  end.
(** DataManager.py l.574-637: the loop over chunks. *)
Fixpoint make_jobs (o : jobopts) (F : fs) (cs : list (list string)) : result (fs * list string) :=
  match cs with
  | [] => Ok (F, [])
  | c :: r =>
    do t <- make_job o F c;
    do u <- make_jobs o (fst t) r;
    Ok (fst u, snd t :: snd u)
  end.
(** DataManager.py l.492-639.  If an exception is raised, files may have been written already; the
    model then gives no file system. *)
Definition createSlurmJobScripts (o : jobopts) (F : fs) (rundirs : list string) (chunkSize : Z)
  : result (fs * list string) :=
  if Z.eqb chunkSize 0 then Err ZeroDivisionError else
  if negb (Z.eqb (Z.modulo (Z.of_nat (List.length rundirs)) chunkSize) 0) then Err PyException else
  if match jo_excluded o with
     | None => false
     | Some _ => existsb (fun x => match sget (jo_slurm o) x with None => false | Some _ => true end)
                   ["-w"; "--nodelist"; "-x"; "--exclude"]
     end then Err ValueError else
  if existsb (fun x => match sget (jo_srun o) x with None => false | Some _ => true end)
       ["-D"; "--chdir"] then Err ValueError else
  make_jobs o F (if Z.ltb chunkSize 0 then [] else chunks rundirs (Z.to_nat chunkSize)).

(** * The state of a run (Run.py l.81-205) *)
Inductive runstate := Ready | Submitted | Running | Completed.

(** [glob.glob(dir + "/" + pre + "*" + post)] is not empty, for a directory name without
    wildcards (Run.py l.81-107). *)
Definition glob_any (F : fs) (dir pre post : string) : bool :=
  existsb (fun pe =>
    path_eqb (removelast (fst pe)) (resolve cwd dir)
    && match rev (fst pe) with
       | [] => false
       | n :: _ => starts pre n && ends post n
                   && Nat.leb (String.length pre + String.length post) (String.length n)
       end) F.
(** Run.py l.110-117. *)
Definition hasParentRun (F : fs) (rundir : string) : bool :=
  isfile cwd F (rundir ^ "/input/parent-job-path.txt").
(** Run.py l.181-190. *)
Definition apply_translators (ts : list (string -> string)) (s : string) : string :=
  fold_left (fun s t => t s) ts s.
(** Run.py l.81-107 and l.192-205.  The parent run is created without translators.
    The recursion of the code is not bounded; [fuel] calls deep, Python raises
    RecursionError. *)
Fixpoint getState (fuel : nat) (F : fs) (ts : list (string -> string)) (rundir : string) : result runstate :=
  match fuel with
  | O => Err RecursionError
  | S fuel' =>
    if negb (isfile cwd F (rundir ^ "/config.txt")) then Err PyException else
    if isfile cwd F (rundir ^ "/metadata.txt") then Ok Completed else
    if glob_any F (rundir ^ "/input") "srun-" ".out" then Ok Running else
    if hasParentRun F rundir then
      do p <- read cwd F (rundir ^ "/input/parent-job-path.txt");
      getState fuel' F [] (apply_translators ts p)
    else
    if exists_ cwd F (rundir ^ "/input/jobid") then Ok Submitted else
    if isfile cwd F (rundir ^ "/input/job.slrm") then Ok Ready else Err PyException
  end.
(** Run.py l.120-136 and l.192-205. *)
Definition getJobBatchSize (F : fs) (ts : list (string -> string)) (rundir : string) : result nat :=
  do top <- (if hasParentRun F rundir
             then do p <- read cwd F (rundir ^ "/input/parent-job-path.txt"); Ok (apply_translators ts p)
             else Ok rundir);
  do text <- read cwd F (top ^ "/input/job.slrm");
  let n := List.length (filter (starts "srun") (split "010" text)) in
  if Nat.eqb n 0 then Err AssertionError else Ok n.
End Fs.

(** * Node lists (DataManager.py l.856-896) *)

(** DataManager.py l.856-867. *)
Definition makeSlurmNodeList (nodes : list string) : string :=
  fold_left (fun ret node => (if String.eqb ret "" then ret else ret ^ ",") ^ node) nodes "".

(** The longest prefix of decimal digits, and the rest (DataManager.py l.870-896). *)
Fixpoint take_digits (s : string) : string * string :=
  match s with
  | String a r => if is_digit a then let (d, t) := take_digits r in (String a d, t) else ("", s)
  | EmptyString => ("", "")
  end.
(** A match of the regular expression [\[([0-9]+)-([0-9]+)\]] at the beginning (DataManager.py l.870-896). *)
Definition match_here (s : string) : option (string * string * string) :=
  match s with
  | String "[" r =>
    match take_digits r with
    | (String a d, String "-" r2) =>
      match take_digits r2 with
      | (String b e, String "]" r3) => Some (String a d, String b e, r3)
      | _ => None
      end
    | _ => None
    end
  | _ => None
  end.
(** The first match: the text before it, its groups, and the text after it (DataManager.py l.870-896). *)
Fixpoint find_range (s : string) : option (string * string * string * string) :=
  match match_here s with
  | Some (x, y, r) => Some ("", x, y, r)
  | None =>
    match s with
    | EmptyString => None
    | String a r => match find_range r with
                    | Some (p, x, y, t) => Some (String a p, x, y, t)
                    | None => None
                    end
    end
  end.
(** Only used to bound the recursion of DataManager.py l.870-896. *)
Fixpoint count_char (c : ascii) (s : string) : nat :=
  match s with EmptyString => 0 | String a r => (if Ascii.eqb a c then 1 else 0) + count_char c r end.
(** The loop that collects nodes, DataManager.py l.870-896. *)
Fixpoint concat_res {A} (l : list (result (list A))) : result (list A) :=
  match l with [] => Ok [] | r :: t => do a <- r; do b <- concat_res t; Ok (a ++ b) end.
(** [range(a, b)], DataManager.py l.870-896. *)
Definition zrange (a b : Z) : list Z := map (fun i => (a + Z.of_nat i)%Z) (seq 0 (Z.to_nat (b - a))).
(** DataManager.py l.870-896.  [re.split] yields the text before the first match, its two groups, and
    the text up to the next match. *)
Fixpoint parse_nodes (fuel : nat) (nodeList : string) : result (list string) :=
  match fuel with
  | O => Err RecursionError
  | S fuel' =>
    if has_char "," nodeList then concat_res (map (parse_nodes fuel') (split "," nodeList))
    else match find_range nodeList with
         | None => Ok [nodeList]
         | Some (prefix, x, y, rest) =>
           let suffix := match find_range rest with Some (m, _, _, _) => m | None => rest end in
           match Z_of_str x, Z_of_str y with
           | Some start, Some end_ =>
             concat_res (map (fun n => parse_nodes fuel' (prefix ^ str_of_Z n ^ suffix))
                             (zrange start (end_ + 1)))
           | _, _ => Err ValueError
           end
         end
  end.
(** The recursion is never deeper than this (proved) (DataManager.py l.870-896). *)
Definition parseSlurmNodeList (s : string) : result (list string) :=
  parse_nodes (S (count_char "[" s + count_char "," s)) s.

(** * Path translators (DataManager.py l.85-93) *)

(** The closures share the loop variable [translator], which after the loop holds the
    last translator (server, local) (DataManager.py l.85-93). *)
Definition pathTranslatorsServerToLocal (ts : list (string * string)) : list (string -> string) :=
  let translator := last ts ("", "") in
  map (fun _ => replace (fst translator) (snd translator)) ts.

(** * Status of specifications (DataManager.py l.236-301, l.374-449) *)

(** What the functions below use of a run: its configuration, the number of its
    completed sweeps (Run.py l.151-168), and its state. *)
Record run := mk_run { ru_config : conf; ru_sweeps : Z; ru_state : result runstate }.

(** DataManager.py l.267-295: the loops over runs and filters. *)
Fixpoint passes (fl : list (conf -> bool)) (c : conf) : bool :=
  match fl with [] => true | f :: r => if f c then passes r c else false end.
(** DataManager.py l.267-295. *)
Fixpoint getRunsFilteredByConfig (runs : list run) (fl : list (conf -> bool)) : list run :=
  match runs with
  | [] => []
  | r :: t => if passes fl (ru_config r) then r :: getRunsFilteredByConfig t fl
              else getRunsFilteredByConfig t fl
  end.
(** DataManager.py l.298-320. *)
Fixpoint getRunsWithMatchingConfiguration (runs : list run) (c : conf) (ts : list (string -> string)) : list run :=
  match runs with
  | [] => []
  | r :: t => if equiv ts false (ru_config r) c then r :: getRunsWithMatchingConfiguration t c ts
              else getRunsWithMatchingConfiguration t c ts
  end.
(** DataManager.py l.252-264. *)
Definition getNumberOfSweepsByRuns (runs : list run) : Z := fold_left (fun s r => (s + ru_sweeps r)%Z) runs 0%Z.

(** The results of DataManager.py l.374-415. *)
Inductive status := SCompleted | SPending | SIncomplete.
(** DataManager.py l.404-411. *)
Fixpoint any_pending (runs : list run) : result bool :=
  match runs with
  | [] => Ok false
  | r :: t => do s <- ru_state r;
              match s with Running | Submitted => Ok true | _ => any_pending t end
  end.
(** DataManager.py l.374-415. *)
Definition getStatus (runs : list run) (ts : list (string -> string)) (c : conf)
    (target default : option Z) : result status :=
  let rs := getRunsWithMatchingConfiguration runs c ts in
  let sweepCount := getNumberOfSweepsByRuns rs in
  do target <- match target with
               | Some t => Ok t
               | None => match default with Some d => Ok d | None => Err PyException end
               end;
  if Z.leb target sweepCount then Ok SCompleted else
  do p <- any_pending rs;
  Ok (if p then SPending else SIncomplete).
(** DataManager.py l.418-449: specifications by status; here a specification is its configuration and
    its target sweep count. *)
Fixpoint groupByStatus (runs : list run) (ts : list (string -> string)) (default : option Z)
    (specs : list (conf * option Z)) : result (list (conf * option Z) * list (conf * option Z) * list (conf * option Z)) :=
  match specs with
  | [] => Ok ([], [], [])
  | s :: r =>
    do st <- getStatus runs ts (fst s) (snd s) default;
    do g <- groupByStatus runs ts default r;
    let '(c, p, i) := g in
    Ok (match st with
        | SCompleted => (s :: c, p, i)
        | SPending => (c, s :: p, i)
        | SIncomplete => (c, p, s :: i)
        end)
  end.

(** * The cache (StarPolymersAnalysis/Cache.py) *)
Section Cache.
Variable cwd : path.
(** Metadata and their YAML text. *)
Variables (M : Type) (dump : M -> string) (load : string -> option M) (meta_eqb : M -> M -> bool).
(** Keys and values, their texts, and the interpreters used for reading. *)
Variables (K V : Type) (key_eqb : K -> K -> bool).
Variables (str_k : K -> string) (str_v : V -> string).
Variables (keyInterpreter : string -> result K) (valueInterpreter : string -> result V).

(** Cache.py l.21-22. *)
Record cache := mk_cache { ca_run : string; ca_write : option string }.
(** Cache.py l.25-36. *)
Definition postPath (c : cache) (useWritePath : bool) : string :=
  match useWritePath, ca_write c with
  | true, Some p => p
  | _, _ => ca_run c ^ "/StarPolymers/post-processing"
  end.

(** [os.makedirs] of the path whose components are [p], the first [n] of which exist (used in Cache.py l.39-63). *)
Fixpoint makedirs_from (F : fs) (pre rest : path) : result fs :=
  match rest with
  | [] => Ok F
  | n :: r =>
    let q := pre ++ [n] in
    match look F q with
    | Some Dir => makedirs_from F q r
    | Some (File _) => Err OSError
    | None => makedirs_from (dset path_eqb F q Dir) q r
    end
  end.
(** [os.makedirs], used in Cache.py l.39-63. *)
Definition makedirs (F : fs) (s : string) : result fs := makedirs_from F [] (resolve cwd s).

(** Cache.py l.141-156: the text of the data. *)
Fixpoint data_text (d : list (K * V)) : string :=
  match d with
  | [] => ""
  | (k, v) :: r => str_k k ^ String "009" (str_v v) ^ nl1 ^ data_text r
  end.

(** How far [storeData] has got when the process is killed: not begun, the directory
    created, [n] characters of the metadata on disk, [n] characters of the data on disk (Cache.py l.39-63). *)
Inductive progress := PNothing | PDirs | PMeta (n : nat) | PData (n : nat) | PAll.
(** Cache.py l.39-63 with data of the right type, as far as [pr]. *)
Definition storeData_until (pr : progress) (c : cache) (F : fs) (filename : string)
    (data : list (K * V)) (metadata : M) : result fs :=
  match pr with
  | PNothing => Ok F
  | _ =>
    let dir := postPath c true in
    do F1 <- (if exists_ cwd F dir then Ok F else makedirs F dir);
    let filepath := dir ^ "/" ^ filename in
    match pr with
    | PMeta n => write cwd F1 (filepath ^ ".metadata") (substring 0 n (dump metadata))
    | PData n => do F2 <- write cwd F1 (filepath ^ ".metadata") (dump metadata);
                 write cwd F2 filepath (substring 0 n (data_text data))
    | PAll => do F2 <- write cwd F1 (filepath ^ ".metadata") (dump metadata);
              write cwd F2 filepath (data_text data)
    | _ => Ok F1
    end
  end.
(** Cache.py l.39-63. *)
Definition storeData := storeData_until PAll.

(** Cache.py l.66-92.  Simplified: metadata that cannot be parsed count as not matching (the code
    would raise). *)
Definition hasData (c : cache) (F : fs) (filename : string) (metadata : M) : result bool :=
  let filepath := postPath c false ^ "/" ^ filename in
  if negb (isfile cwd F (filepath ^ ".metadata")) then Ok false else
  if negb (isfile cwd F filepath) then Ok false else
  do t <- read cwd F (filepath ^ ".metadata");
  Ok (match load t with Some m => meta_eqb m metadata | None => false end).

(** White space as in [str.split], used in Cache.py l.95-138. *)
Definition is_space (a : ascii) : bool :=
  existsb (Ascii.eqb a) [" "; "009"; "010"; "011"; "012"; "013"]%char.
(** Part of [str.split], used in Cache.py l.95-138. *)
Fixpoint lstrip (s : string) : string :=
  match s with String a r => if is_space a then lstrip r else s | EmptyString => "" end.
(** Part of [str.split], used in Cache.py l.95-138. *)
Fixpoint take_word (s : string) : string * string :=
  match s with
  | String a r => if is_space a then ("", s) else let (w, t) := take_word r in (String a w, t)
  | EmptyString => ("", "")
  end.
(** [key, value = line.split(None, 1)] (Cache.py l.95-138) *)
Definition split_line (line : string) : result (string * string) :=
  match take_word (lstrip line) with
  | (String a w, rest) => match lstrip rest with "" => Err ValueError | v => Ok (String a w, v) end
  | _ => Err ValueError
  end.
(** The lines of a file, each with its line break (Cache.py l.95-138). *)
Fixpoint lines_of (s : string) : list string :=
  match s with
  | EmptyString => []
  | String a r =>
    if Ascii.eqb a "010" then String a "" :: lines_of r
    else match lines_of r with [] => [String a ""] | h :: t => String a h :: t end
  end.
(** Cache.py l.95-138: the loop over lines. *)
Fixpoint read_data (ls : list string) (ret : list (K * V)) : result (list (K * V)) :=
  match ls with
  | [] => Ok ret
  | l :: r =>
    do kv <- split_line l;
    do k <- keyInterpreter (fst kv);
    do v <- valueInterpreter (snd kv);
    read_data r (dset key_eqb ret k v)
  end.
(** Cache.py l.95-138. *)
Definition getDataOrderedDict (c : cache) (F : fs) (filename : string) (metadata : M) : result (list (K * V)) :=
  do h <- hasData c F filename metadata;
  if negb h then Err RuntimeError else
  do t <- read cwd F (postPath c false ^ "/" ^ filename);
  read_data (lines_of t) [].
End Cache.
