(** What the management of runs is supposed to do. *)
From Coq Require Import List ZArith String Ascii Bool Lia.
From Verif Require Import QcBase PyBase StrBase FsBase ConfModel RunsModel.
Import ListNotations.
Close Scope Qc_scope.
Open Scope string_scope.
Open Scope nat_scope.
Open Scope list_scope.

(** ** Combinations of parameters *)
(** The number of combinations. *)
Fixpoint total {A} (gs : list (list A)) : nat :=
  match gs with [] => 1 | g :: r => List.length g * total r end.
(** [c] is the [i]-th combination: the last parameter varies fastest, so that the choices are the
    digits of [i] in the mixed radix system of the numbers of values. *)
Definition is_combination {A} (gs : list (list A)) (i : nat) (c : list A) : Prop :=
  List.length c = List.length gs /\
  forall j g, nth_error gs j = Some g ->
    nth_error c j = nth_error g ((i / total (skipn (S j) gs)) mod List.length g).
(** The largest of the requested sweep counts. *)
Definition largest (ts : list (option Z)) (r : option Z) : Prop :=
  match r with
  | None => forall t, In t ts -> t = None
  | Some m => In (Some m) ts /\ forall t, In (Some t) ts -> (t <= m)%Z
  end.
Definition some_list {A} (o : option (list A)) : list A := match o with Some l => l | None => [] end.
(** The specification [s] belongs to the combination [c] of configuration parts. *)
Definition describes (base : heap) (c : list part) (s : spec) : Prop :=
  apply_settings base (flat_map pt_settings c) = Ok (sp_config s) /\
  sp_components s = flat_map (fun p => some_list (pt_components p)) c /\
  largest (map pt_sweeps c) (sp_sweeps s).

(** ** Runs with markers *)
Section State.
Variable cwd : path.
Definition has_file (F : fs) (dir : path) (names : list string) : Prop :=
  exists t, look F (dir ++ names) = Some (File t).
Definition has_entry (F : fs) (dir : path) (names : list string) : Prop :=
  look F (dir ++ names) <> None.
(** Some entry of the directory whose name is [pre ... post]. *)
Definition has_match (F : fs) (dir : path) (pre post : string) : Prop :=
  exists m, look F (dir ++ [(pre ++ m ++ post)%string]) <> None.

(** The directory [s] in paths such as [s + "/config.txt"]. *)
Definition place (s : string) : path := resolve cwd (s ++ "/")%string.
(** The documented state of the run in directory [d], [tr] translating the path of its
    parent: completed before running before delegated to the parent before
    submitted before ready. *)
Inductive state_is (F : fs) : (string -> string) -> path -> runstate -> Prop :=
| StCompleted tr d : has_file F d ["config.txt"] -> has_file F d ["metadata.txt"] -> state_is F tr d Completed
| StRunning tr d : has_file F d ["config.txt"] -> ~ has_file F d ["metadata.txt"] ->
    has_match F (d ++ ["input"]) "srun-" ".out" -> state_is F tr d Running
| StParent tr d t s : has_file F d ["config.txt"] -> ~ has_file F d ["metadata.txt"] ->
    ~ has_match F (d ++ ["input"]) "srun-" ".out" ->
    look F (d ++ ["input"; "parent-job-path.txt"]) = Some (File t) ->
    state_is F (fun p => p) (place (tr t)) s -> state_is F tr d s
| StSubmitted tr d : has_file F d ["config.txt"] -> ~ has_file F d ["metadata.txt"] ->
    ~ has_match F (d ++ ["input"]) "srun-" ".out" -> ~ has_file F d ["input"; "parent-job-path.txt"] ->
    has_entry F d ["input"; "jobid"] -> state_is F tr d Submitted
| StReady tr d : has_file F d ["config.txt"] -> ~ has_file F d ["metadata.txt"] ->
    ~ has_match F (d ++ ["input"]) "srun-" ".out" -> ~ has_file F d ["input"; "parent-job-path.txt"] ->
    ~ has_entry F d ["input"; "jobid"] -> has_file F d ["input"; "job.slrm"] -> state_is F tr d Ready.
End State.

(** ** Job scripts *)
(** The runs executed by job [i]. *)
Definition runs_of_job {A} (l : list A) (k i : nat) : list A := firstn k (skipn (i * k) l).

(** ** Node lists: what Slurm means by them *)
(** A node name pattern: literal text and ranges; a range is given by its two bounds as
    written, and stands for all numbers in between; if the lower bound is written with leading
    zeros, then the numbers are padded with zeros to its width. *)
Inductive seg := Lit (s : string) | Range (lo hi : string).
Definition seg_text (g : seg) : string :=
  match g with Lit s => s | Range lo hi => ("[" ++ lo ++ "-" ++ hi ++ "]")%string end.
Fixpoint pattern_text (p : list seg) : string :=
  match p with [] => ""%string | g :: r => (seg_text g ++ pattern_text r)%string end.
Definition hd_char (s : string) : ascii := match s with String a _ => a | EmptyString => " "%char end.
Definition seg_means (g : seg) (t : string) : Prop :=
  match g with
  | Lit s => t = s
  | Range lo hi => exists a b n, Z_of_str lo = Some a /\ Z_of_str hi = Some b /\ (a <= n <= b)%Z /\
      t = (if Ascii.eqb (hd_char lo) "0" && Nat.ltb 1 (String.length lo)
           then padded (String.length lo) (Z.to_nat n) else str_of_Z n)
  end.
Inductive pattern_means : list seg -> string -> Prop :=
| PmNil : pattern_means [] ""%string
| PmCons g r t u : seg_means g t -> pattern_means r u -> pattern_means (g :: r) (t ++ u)%string.
Definition list_means (ps : list (list seg)) (t : string) : Prop :=
  exists p, In p ps /\ pattern_means p t.

(** ** Creating run directories *)
(** Between [F] and [F'] the directory [p] with the file config.txt was created, and
    nothing else happened. *)
Definition created (F F' : fs) (p : path) (text : string) : Prop :=
  look F p = None /\ look F' p = Some Dir /\ look F' (p ++ ["config.txt"]) = Some (File text) /\
  (forall q, look F q <> None -> look F' q = look F q) /\
  (forall q, q <> p -> q <> p ++ ["config.txt"] -> look F' q = look F q) /\ wf_fs F'.

(** ** Conditions of job scripts, and their text *)
Definition prefix_of (p q : path) : Prop := exists x, q = p ++ x.
(** What is needed of a run directory. *)
Definition dir_ok (cwd : path) (F : fs) (r : string) : Prop :=
  r <> "" /\ look F (resolve cwd r) = Some Dir /\
  (look F (resolve cwd r ++ ["input"]) = None \/ look F (resolve cwd r ++ ["input"]) = Some Dir) /\
  look F (resolve cwd r ++ ["input"; "job.slrm"]) <> Some Dir /\
  look F (resolve cwd r ++ ["input"; "parent-job-path.txt"]) <> Some Dir.
(** No run directory is, or lies inside, another. *)
Definition apart (cwd : path) (rs : list string) : Prop :=
  forall i j r s, nth_error rs i = Some r -> nth_error rs j = Some s -> i <> j ->
    ~ prefix_of (resolve cwd r) (resolve cwd s).
Definition key_ok (k : string) : Prop := 2 <= String.length k.
Definition opts_ok (o : jobopts) : Prop :=
  (forall k v, In (k, v) (jo_slurm o) -> key_ok k) /\ (forall k v, In (k, v) (jo_srun o) -> key_ok k).
Definition run_line (cwd : path) (o : jobopts) (r line : string) : Prop :=
  exists opts, srun_opts (jo_translate o (abspath cwd r)) (jo_srun o) = Ok opts /\
    line = ("srun --chdir='" ++ jo_translate o (abspath cwd r) ++ "/input'" ++ opts ++ " '" ++ jo_exe o ++ "' "
            ++ jo_exeopts o ++ " --rundir '" ++ jo_translate o (abspath cwd r) ++ "' & " ++ nl1)%string.
Fixpoint cat (l : list string) : string := match l with [] => "" | a :: r => (a ++ cat r)%string end.
Definition slurm_options (o : jobopts) : list (string * string) :=
  match jo_excluded o with None => jo_slurm o | Some nodes => sset (jo_slurm o) "--exclude" nodes end.
(** The script of a job. *)
Definition is_script (cwd : path) (o : jobopts) (chunk : list string) (text : string) : Prop :=
  exists head lines, slurm_lines o (abspath cwd (hd "" chunk)) (List.length chunk) (slurm_options o) = Ok head /\
    Forall2 (run_line cwd o) chunk lines /\
    text = ("#!/bin/bash" ++ nl1 ++ head ++ nl1 ++ cat lines ++ "wait" ++ nl1)%string.
Definition no_conflict (o : jobopts) : Prop :=
  (jo_excluded o <> None -> forall x, In x ["-w"; "--nodelist"; "-x"; "--exclude"] -> sget (jo_slurm o) x = None) /\
  (forall x, In x ["-D"; "--chdir"] -> sget (jo_srun o) x = None).

(** ** Simple node lists *)
Definition plain_name (s : string) : Prop := has_char "[" s = false /\ has_char "," s = false.
Definition simple (p : list seg) : Prop :=
  (exists a, p = [Lit a] /\ plain_name a) \/
  (exists a x y b, p = [Lit a; Range (str_of_Z x) (str_of_Z y); Lit b] /\ plain_name a /\ plain_name b /\ (0 <= x)%Z /\ (0 <= y)%Z).

(** ** Path translation *)
Definition occurs (a s : string) : Prop := exists x y, s = (x ++ a ++ y)%string.

(** ** Status of specifications *)
Fixpoint zsum (l : list Z) : Z := match l with [] => 0%Z | a :: r => (a + zsum r)%Z end.
Definition done_sweeps (runs : list run) (ts : list (string -> string)) (c : conf) : Z :=
  zsum (map ru_sweeps (filter (fun r => equiv ts false (ru_config r) c) runs)).
Definition waiting (r : run) : Prop := ru_state r = Ok Running \/ ru_state r = Ok Submitted.
Definition wanted (target default : option Z) : option Z := match target with Some t => Some t | None => default end.
(** The specifications of a status, in their order. *)
Definition status_eqb (a b : status) : bool :=
  match a, b with SCompleted, SCompleted | SPending, SPending | SIncomplete, SIncomplete => true | _, _ => false end.
Definition with_status (runs : list run) ts default (specs : list (conf * option Z)) (st : status) : list (conf * option Z) :=
  filter (fun s => match getStatus runs ts (fst s) (snd s) default with Ok x => status_eqb x st | Err _ => false end) specs.

(** ** Texts that survive being stored in the cache *)
Definition no_space (s : string) : Prop := all_chars (fun a => negb (is_space a)) s = true.
(** A value text that survives: not empty, not beginning with white space, on one line. *)
Definition key_text_ok (k : string) : Prop := k <> "" /\ no_space k.
Definition value_text_ok (v : string) : Prop :=
  (match v with String a _ => is_space a = false | EmptyString => False end) /\ has_char "010" v = false.
(** What is needed of the entries: their texts fit on a line, and reading inverts writing. *)
Definition entry_ok (K V : Type) (str_k : K -> string) (str_v : V -> string)
    (keyI : string -> result K) (valueI : string -> result V) (kv : K * V) : Prop :=
  key_text_ok (str_k (fst kv)) /\ value_text_ok (str_v (snd kv)) /\
  keyI (str_k (fst kv)) = Ok (fst kv) /\ valueI (str_v (snd kv) ++ nl1)%string = Ok (snd kv).

