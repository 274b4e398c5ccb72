(** Proofs about job scripts and the state of runs. *)
From Coq Require Import List ZArith String Ascii Bool Lia Arith.
From Verif Require Import QcBase PyBase StrBase FsBase ConfModel RunsModel RunsSpec RunsProof.
Import ListNotations.
Close Scope Qc_scope.
Open Scope string_scope.
Open Scope nat_scope.
Open Scope list_scope.

Lemma name_input : name_ok "input". Proof. repeat split; discriminate. Qed.
Lemma name_parent : name_ok "parent-job-path.txt". Proof. repeat split; discriminate. Qed.
Lemma name_job : name_ok "job.slrm". Proof. repeat split; discriminate. Qed.
Lemma resolve_input cwd s : s <> "" -> resolve cwd (s ++ "/input")%string = resolve cwd s ++ ["input"].
Proof. intros N. exact (resolve_child cwd s "input" N name_input). Qed.
Lemma resolve_in_input cwd s n : s <> "" -> name_ok n ->
  resolve cwd (s ++ "/input/" ++ n)%string = resolve cwd s ++ ["input"; n].
Proof.
  intros N M. change ("/input/" ++ n)%string with (String slash ("input" ++ String slash n))%string.
  change (String slash ("input" ++ String slash n))%string with ((String slash "input") ++ String slash n)%string.
  rewrite str_app_assoc. rewrite resolve_child; [|destruct s; [congruence|discriminate]|exact M].
  change (String slash "input") with "/input". rewrite resolve_input by exact N. rewrite <- app_assoc. reflexivity.
Qed.

Lemma app_prefixes (a b x y : path) : a ++ x = b ++ y -> prefix_of a b \/ prefix_of b a.
Proof.
  revert b. induction a as [|n a IH]; intros b E.
  - left. exists b. reflexivity.
  - destruct b as [|m b]; [right; exists (n :: a); reflexivity|]. cbn in E. injection E as -> E.
    apply IH in E. destruct E as [(z & ->)|(z & ->)]; [left|right]; exists z; reflexivity.
Qed.


Lemma opt_sep_ok k : key_ok k -> exists s, opt_sep k = Ok s.
Proof.
  unfold key_ok, opt_sep. destruct k as [|a [|b k]]; cbn; intros L; try lia. eexists. reflexivity.
Qed.
Lemma slurm_lines_ok o jobdir n opts : (forall k v, In (k, v) opts -> key_ok k) -> exists t, slurm_lines o jobdir n opts = Ok t.
Proof.
  induction opts as [|(k, v) opts IH]; intros K; cbn [slurm_lines]; [eexists; reflexivity|].
  destruct (opt_sep_ok k) as (s & ->); [eapply K; left; reflexivity|]. cbn [bind].
  destruct IH as (t & ->); [intros k' v' HI; eapply K; right; exact HI|]. eexists. reflexivity.
Qed.
Lemma srun_opts_ok p opts : (forall k v, In (k, v) opts -> key_ok k) -> exists t, srun_opts p opts = Ok t.
Proof.
  induction opts as [|(k, v) opts IH]; intros K; cbn [srun_opts]; [eexists; reflexivity|].
  destruct (opt_sep_ok k) as (s & ->); [eapply K; left; reflexivity|].
  destruct IH as (t & ->); [intros k' v' HI; eapply K; right; exact HI|].
  destruct v; cbn [bind]; eexists; reflexivity.
Qed.

Lemma ensure_dir_spec cwd F s : s <> "" -> look F (resolve cwd s) = Some Dir ->
  (look F (resolve cwd s ++ ["input"]) = None \/ look F (resolve cwd s ++ ["input"]) = Some Dir) ->
  exists F1, ensure_dir cwd F (s ++ "/input")%string = Ok F1 /\
    forall q, look F1 q = if path_eqb q (resolve cwd s ++ ["input"]) then Some Dir else look F q.
Proof.
  intros N D I. unfold ensure_dir, isdir. rewrite resolve_input by exact N.
  destruct I as [I|I]; rewrite I.
  - unfold mkdir. rewrite resolve_input by exact N. rewrite I, removelast_snoc, D. eexists. split; [reflexivity|].
    intros q. apply look_dset. intros E. apply app_eq_nil in E. destruct E. discriminate.
  - exists F. split; [reflexivity|]. intros q. destruct (path_eqb q _) eqn:E; [|reflexivity].
    apply path_eqb_spec in E. congruence.
Qed.
Lemma write_spec cwd F s n text : s <> "" -> name_ok n -> look F (resolve cwd s ++ ["input"]) = Some Dir ->
  look F (resolve cwd s ++ ["input"; n]) <> Some Dir ->
  exists F1, write cwd F (s ++ "/input/" ++ n)%string text = Ok F1 /\
    forall q, look F1 q = if path_eqb q (resolve cwd s ++ ["input"; n]) then Some (File text) else look F q.
Proof.
  intros N M D L. unfold write. rewrite resolve_in_input by assumption.
  replace (removelast (resolve cwd s ++ ["input"; n])) with (resolve cwd s ++ ["input"]).
  2:{ change ["input"; n] with (["input"] ++ [n]). rewrite app_assoc, removelast_snoc. reflexivity. }
  rewrite D. destruct (look F (resolve cwd s ++ ["input"; n])) as [[|c]|]; [congruence| |].
  - eexists. split; [reflexivity|]. intros q. apply look_dset. intros E. apply app_eq_nil in E. destruct E. discriminate.
  - eexists. split; [reflexivity|]. intros q. apply look_dset. intros E. apply app_eq_nil in E. destruct E. discriminate.
Qed.

Lemma apart_cons cwd r rs : apart cwd (r :: rs) -> apart cwd rs /\
  (forall s, In s rs -> ~ prefix_of (resolve cwd r) (resolve cwd s) /\ ~ prefix_of (resolve cwd s) (resolve cwd r)).
Proof.
  intros A. split.
  - intros i j a b Ha Hb N. apply (A (S i) (S j) a b Ha Hb). lia.
  - intros s HI. apply In_nth_error in HI. destruct HI as (j & HJ). split.
    + apply (A 0 (S j) r s eq_refl HJ). lia.
    + apply (A (S j) 0 s r HJ eq_refl). lia.
Qed.
Lemma apart_app cwd a b : apart cwd (a ++ b) -> apart cwd a /\ apart cwd b /\
  (forall r s, In r a -> In s b -> ~ prefix_of (resolve cwd r) (resolve cwd s) /\ ~ prefix_of (resolve cwd s) (resolve cwd r)).
Proof.
  induction a as [|x a IH]; intros A; cbn [app] in A.
  - split; [intros [|i] j r s E; discriminate|]. split; [exact A|]. intros r s [].
  - apply apart_cons in A. destruct A as (A & X). destruct (IH A) as (A1 & A2 & A3). split; [|split; [exact A2|]].
    + intros i j r s Hi Hj N. destruct i as [|i], j as [|j]; cbn in Hi, Hj.
      * lia.
      * injection Hi as <-. apply X. apply in_or_app. left. eapply nth_error_In. exact Hj.
      * injection Hj as <-. apply X. apply in_or_app. left. eapply nth_error_In. exact Hi.
      * apply (A1 i j r s Hi Hj). lia.
    + intros r s [<-|HI] HS; [apply X, in_or_app; right; exact HS|apply A3; assumption].
Qed.
Lemma apart_neq (d e x y : path) : ~ prefix_of d e -> ~ prefix_of e d -> d ++ x <> e ++ y.
Proof. intros A B E. apply app_prefixes in E. tauto. Qed.
Lemma apart_neq0 (d e y : path) : ~ prefix_of d e -> ~ prefix_of e d -> d <> e ++ y.
Proof. intros A B E. apply B. exists y. exact E. Qed.

(** [F'] agrees with [F] on everything in and below [d]. *)
Definition same_below (F F' : fs) (d : path) : Prop := forall x, look F' (d ++ x) = look F (d ++ x).
Lemma dir_ok_same cwd F F' r : same_below F F' (resolve cwd r) -> dir_ok cwd F r -> dir_ok cwd F' r.
Proof.
  intros S (N & D & I & J & P). unfold dir_ok.
  assert (S0 : look F' (resolve cwd r) = look F (resolve cwd r)).
  { specialize (S []). rewrite app_nil_r in S. exact S. }
  rewrite S0, !S. auto.
Qed.


Lemma chunk_runs_spec cwd o jobdir : opts_ok o -> forall chunk F, apart cwd chunk -> (forall r, In r chunk -> dir_ok cwd F r) ->
  exists F' lines, chunk_runs cwd o jobdir F chunk = Ok (F', cat lines) /\
    Forall2 (run_line cwd o) chunk lines /\
    (forall r, In r chunk -> look F' (resolve cwd r ++ ["input"]) = Some Dir) /\
    (forall r, In r chunk -> r <> jobdir ->
       look F' (resolve cwd r ++ ["input"; "parent-job-path.txt"]) = Some (File (jo_translate o jobdir))) /\
    (forall q, (forall r, In r chunk -> q <> resolve cwd r ++ ["input"] /\
                 (r = jobdir \/ q <> resolve cwd r ++ ["input"; "parent-job-path.txt"])) -> look F' q = look F q).
Proof.
  intros O. induction chunk as [|r chunk IH]; intros F A D.
  - exists F, []. split; [reflexivity|]. split; [constructor|]. split; [intros r []|]. split; [intros r []|]. reflexivity.
  - cbn [chunk_runs]. apply apart_cons in A. destruct A as (A & X).
    assert (Dr : dir_ok cwd F r) by (apply D; left; reflexivity).
    destruct Dr as (N & DD & DI & DJ & DP).
    destruct (ensure_dir_spec cwd F r N DD DI) as (F1 & E1 & L1). rewrite E1. cbn [bind].
    assert (W : exists F2, (if String.eqb r jobdir then Ok F1
              else write cwd F1 (r ++ "/input/parent-job-path.txt")%string (jo_translate o jobdir)) = Ok F2 /\
       forall q, look F2 q = if negb (String.eqb r jobdir) && path_eqb q (resolve cwd r ++ ["input"; "parent-job-path.txt"])
                 then Some (File (jo_translate o jobdir)) else look F1 q).
    { destruct (String.eqb r jobdir); [exists F1; split; reflexivity|].
      apply (write_spec cwd F1 r "parent-job-path.txt"); [exact N|exact name_parent| |].
      - rewrite L1, path_eqb_refl. reflexivity.
      - rewrite L1. destruct (path_eqb _ _) eqn:E; [|exact DP].
        apply path_eqb_spec in E. apply app_inv_head in E. discriminate. }
    destruct W as (F2 & -> & L2). cbn [bind].
    destruct (srun_opts_ok (jo_translate o (abspath cwd r)) (jo_srun o)) as (opts & SO); [apply O|].
    unfold srun_line. rewrite SO. cbn [bind].
    assert (LF : forall q, look F2 q = if negb (String.eqb r jobdir) && path_eqb q (resolve cwd r ++ ["input"; "parent-job-path.txt"])
                 then Some (File (jo_translate o jobdir)) else if path_eqb q (resolve cwd r ++ ["input"]) then Some Dir else look F q).
    { intros q. rewrite L2, L1. reflexivity. }
    destruct (IH F2 A) as (F' & lines & E & FL & CI & CP & CF).
    { intros s HS. apply (dir_ok_same cwd F); [|apply D; right; exact HS]. intros x. rewrite LF.
      destruct (X s HS) as (X1 & X2).
      rewrite !path_eqb_neq by (apply apart_neq; assumption). rewrite andb_false_r. reflexivity. }
    rewrite E. cbn [bind fst snd]. eexists F', (_ :: lines). split; [cbn [cat]; reflexivity|].
    split; [constructor; [exists opts; split; [exact SO|reflexivity]|exact FL]|].
    assert (FR : forall x, look F' (resolve cwd r ++ x) = look F2 (resolve cwd r ++ x)).
    { intros x. apply CF. intros s HS. destruct (X s HS) as (X1 & X2).
      split; [apply apart_neq; assumption|right; apply apart_neq; assumption]. }
    split; [|split].
    + intros s [<-|HS]; [|apply CI, HS]. rewrite FR, LF, path_eqb_refl.
      rewrite (path_eqb_neq (resolve cwd r ++ ["input"])) by (intros EE; apply app_inv_head in EE; discriminate).
      rewrite andb_false_r. reflexivity.
    + intros s [<-|HS] NS; [|apply CP; assumption]. rewrite FR, LF, path_eqb_refl.
      destruct (String.eqb r jobdir) eqn:EQ; [apply String.eqb_eq in EQ; congruence|]. reflexivity.
    + intros q Q. rewrite CF by (intros s HS; apply Q; right; exact HS). rewrite LF.
      destruct (Q r (or_introl eq_refl)) as (Q1 & Q2). rewrite (path_eqb_neq _ _ Q1).
      destruct Q2 as [->|Q2]; [rewrite String.eqb_refl; reflexivity|]. rewrite (path_eqb_neq _ _ Q2), andb_false_r. reflexivity.
Qed.

Lemma slurm_options_ok o : opts_ok o -> forall k v, In (k, v) (slurm_options o) -> key_ok k.
Proof.
  intros (O & _) k v. unfold slurm_options. destruct (jo_excluded o) as [n|]; [|apply O].
  intros HI. assert (K : In k (dkeys (sset (jo_slurm o) "--exclude" n))) by (apply (in_map fst) in HI; exact HI).
  unfold sset in K. apply dset_keys_in in K; [|exact String.eqb_eq].
  destruct K as [->|K]; [unfold key_ok; cbn; lia|].
  apply in_map_iff in K. destruct K as ((k' & v') & <- & HI'). eapply O. exact HI'.
Qed.


Lemma resolve_abs_input cwd r : path_ok cwd -> resolve cwd (abspath cwd r) = resolve cwd r.
Proof. apply abspath_fix. Qed.

Lemma make_job_spec cwd o F r0 rest : path_ok cwd -> opts_ok o -> apart cwd (r0 :: rest) ->
  (forall r, In r (r0 :: rest) -> dir_ok cwd F r) ->
  exists F' text, make_job cwd o F (r0 :: rest) = Ok (F', jo_translate o (abspath cwd r0 ++ "/input/job.slrm")%string) /\
    look F' (resolve cwd r0 ++ ["input"; "job.slrm"]) = Some (File text) /\ is_script cwd o (r0 :: rest) text /\
    (forall r, In r (r0 :: rest) -> look F' (resolve cwd r ++ ["input"]) = Some Dir) /\
    (forall r, In r (r0 :: rest) -> r <> abspath cwd r0 ->
       look F' (resolve cwd r ++ ["input"; "parent-job-path.txt"]) = Some (File (jo_translate o (abspath cwd r0)))) /\
    (forall q, q <> resolve cwd r0 ++ ["input"; "job.slrm"] ->
       (forall r, In r (r0 :: rest) -> q <> resolve cwd r ++ ["input"] /\
          (r = abspath cwd r0 \/ q <> resolve cwd r ++ ["input"; "parent-job-path.txt"])) -> look F' q = look F q).
Proof.
  intros PC O A D. unfold make_job.
  assert (D0 : dir_ok cwd F r0) by (apply D; left; reflexivity).
  destruct D0 as (N & DD & DI & DJ & DP).
  assert (NA : abspath cwd r0 <> "") by discriminate.
  destruct (ensure_dir_spec cwd F (abspath cwd r0) NA) as (F1 & E1 & L1);
    [rewrite abspath_fix by exact PC; assumption|rewrite abspath_fix by exact PC; assumption|].
  rewrite abspath_fix in L1 by exact PC. rewrite E1. cbn [bind].
  change (match jo_excluded o with None => jo_slurm o | Some nodes => sset (jo_slurm o) "--exclude" nodes end) with (slurm_options o).
  destruct (slurm_lines_ok o (abspath cwd r0) (List.length (r0 :: rest)) (slurm_options o) (slurm_options_ok o O)) as (head & HE).
  rewrite HE. cbn [bind].
  destruct (apart_cons _ _ _ A) as (A' & X).
  destruct (chunk_runs_spec cwd o (abspath cwd r0) O (r0 :: rest) F1 A) as (F2 & lines & E2 & FL & CI & CP & CF).
  { intros r [<-|HR].
    - unfold dir_ok. rewrite !L1, path_eqb_refl.
      rewrite (path_eqb_neq (resolve cwd r0) (resolve cwd r0 ++ ["input"])).
      2:{ intros E. rewrite <- (app_nil_r (resolve cwd r0)) in E at 1. apply app_inv_head in E. discriminate. }
      rewrite !path_eqb_neq by (intros E; apply app_inv_head in E; discriminate). auto.
    - apply (dir_ok_same cwd F); [|apply D; right; exact HR]. intros x. rewrite L1.
      destruct (X r HR) as (X1 & X2). rewrite path_eqb_neq by (apply apart_neq; assumption). reflexivity. }
  rewrite E2. cbn [bind fst snd].
  set (script := (("#!/bin/bash" ++ nl1 ++ head ++ nl1 ++ cat lines ++ "wait" ++ nl1)%string)).
  destruct (write_spec cwd F2 (abspath cwd r0) "job.slrm" script NA name_job) as (F3 & E3 & L3).
  { rewrite abspath_fix by exact PC. apply CI. left. reflexivity. }
  { rewrite abspath_fix by exact PC. rewrite CF.
    - rewrite L1, path_eqb_neq by (intros E; apply app_inv_head in E; discriminate). exact DJ.
    - intros r [<-|HR]; [split; [|right]; intros E; apply app_inv_head in E; discriminate|].
      destruct (X r HR) as (X1 & X2). split; [apply apart_neq; assumption|right; apply apart_neq; assumption]. }
  rewrite abspath_fix in L3 by exact PC.
  change (String.append (abspath cwd r0) "/input/job.slrm") with (abspath cwd r0 ++ "/input/" ++ "job.slrm")%string.
  rewrite E3. cbn [bind]. exists F3, script. split; [reflexivity|].
  split; [rewrite L3, path_eqb_refl; reflexivity|].
  split; [exists head, lines; split; [exact HE|split; [exact FL|reflexivity]]|].
  assert (Q0 : forall r y, In r (r0 :: rest) -> y <> ["input"; "job.slrm"] -> resolve cwd r ++ y <> resolve cwd r0 ++ ["input"; "job.slrm"]).
  { intros r y [<-|HR] NY E; [apply app_inv_head in E; contradiction|]. destruct (X r HR) as (X1 & X2).
    revert E. apply apart_neq; assumption. }
  split; [|split].
  - intros r HR. rewrite L3, path_eqb_neq by (apply Q0; [exact HR|discriminate]). apply CI, HR.
  - intros r HR NR. rewrite L3, path_eqb_neq by (apply Q0; [exact HR|discriminate]). apply CP; assumption.
  - intros q Q1 Q2. rewrite L3, path_eqb_neq by exact Q1. rewrite CF by exact Q2. rewrite L1.
    rewrite path_eqb_neq; [reflexivity|]. apply (Q2 r0). left. reflexivity.
Qed.

Lemma make_jobs_spec cwd o : path_ok cwd -> opts_ok o -> forall cs F, (forall c, In c cs -> c <> []) ->
  apart cwd (concat cs) -> (forall r, In r (concat cs) -> dir_ok cwd F r) ->
  exists F' jobs, make_jobs cwd o F cs = Ok (F', jobs) /\
    Forall2 (fun c j => j = jo_translate o (abspath cwd (hd "" c) ++ "/input/job.slrm")%string) cs jobs /\
    (forall c, In c cs -> exists text, look F' (resolve cwd (hd "" c) ++ ["input"; "job.slrm"]) = Some (File text) /\ is_script cwd o c text) /\
    (forall c r, In c cs -> In r c -> look F' (resolve cwd r ++ ["input"]) = Some Dir) /\
    (forall c r, In c cs -> In r c -> r <> abspath cwd (hd "" c) ->
       look F' (resolve cwd r ++ ["input"; "parent-job-path.txt"]) = Some (File (jo_translate o (abspath cwd (hd "" c))))) /\
    (forall q, (forall c r, In c cs -> In r c -> q <> resolve cwd (hd "" c) ++ ["input"; "job.slrm"] /\ q <> resolve cwd r ++ ["input"] /\
          (r = abspath cwd (hd "" c) \/ q <> resolve cwd r ++ ["input"; "parent-job-path.txt"])) -> look F' q = look F q).
Proof.
  intros PC O. induction cs as [|c cs IH]; intros F NE A D.
  - exists F, []. split; [reflexivity|]. split; [constructor|]. split; [intros c []|]. split; [intros c r []|].
    split; [intros c r []|]. reflexivity.
  - cbn [concat] in A, D. destruct (apart_app _ _ _ A) as (A1 & A2 & A3).
    destruct c as [|r0 rest]; [exfalso; apply (NE []); [left|]; reflexivity|].
    destruct (make_job_spec cwd o F r0 rest PC O A1) as (F1 & text & E1 & T1 & S1 & I1 & P1 & K1).
    { intros r HR. apply D, in_or_app. left. exact HR. }
    destruct (IH F1) as (F' & jobs & E2 & FJ & J2 & I2 & P2 & K2).
    { intros c HC. apply NE. right. exact HC. }
    { exact A2. }
    { intros r HR. apply (dir_ok_same cwd F); [|apply D, in_or_app; right; exact HR]. intros x.
      apply K1.
      - destruct (A3 r0 r) as (X1 & X2); [left; reflexivity|exact HR|]. apply apart_neq; assumption.
      - intros s HS. destruct (A3 s r HS HR) as (X1 & X2). split; [|right]; apply apart_neq; assumption. }
    cbn [make_jobs]. rewrite E1. cbn [bind fst snd]. rewrite E2. cbn [bind fst snd].
    assert (FR : forall s x, In s (r0 :: rest) -> look F' (resolve cwd s ++ x) = look F1 (resolve cwd s ++ x)).
    { intros s x HS. apply K2. intros c r HC HR.
      assert (HR' : In r (concat cs)) by (apply in_concat; exists c; split; assumption).
      assert (HH : In (hd "" c) (concat cs)).
      { apply in_concat. exists c. split; [exact HC|]. destruct c; [destruct HR|left; reflexivity]. }
      destruct (A3 s r HS HR') as (X1 & X2). destruct (A3 s _ HS HH) as (Y1 & Y2).
      split; [apply apart_neq; assumption|]. split; [apply apart_neq; assumption|right; apply apart_neq; assumption]. }
    eexists F', (_ :: jobs). split; [reflexivity|]. split; [constructor; [reflexivity|exact FJ]|].
    split; [|split; [|split]].
    + intros c [<-|HC]; [|apply J2, HC]. exists text. cbn [hd]. rewrite FR by (left; reflexivity). split; assumption.
    + intros c r [<-|HC] HR; [|eapply I2; eassumption]. rewrite FR by exact HR. apply I1, HR.
    + intros c r [<-|HC] HR NR; [|apply P2; assumption]. rewrite FR by exact HR. apply P1; assumption.
    + intros q Q. rewrite K2 by (intros c r HC HR; apply Q; [right; exact HC|exact HR]).
      apply K1.
      * apply (Q (r0 :: rest) r0); left; reflexivity.
      * intros r HR. apply (Q (r0 :: rest) r (or_introl eq_refl) HR).
Qed.

Lemma forall2_length {A B} (P : A -> B -> Prop) l l' : Forall2 P l l' -> List.length l = List.length l'.
Proof. induction 1; cbn; congruence. Qed.
(** ** Chunks *)
Lemma chunks_eq {A} (l : list A) k : k <> 0 -> List.length l mod k = 0 ->
  chunks l k = map (runs_of_job l k) (seq 0 (List.length l / k)).
Proof.
  intros K M. unfold chunks, py_range. rewrite map_map. unfold runs_of_job.
  replace ((List.length l + k - 1) / k) with (List.length l / k); [reflexivity|].
  pose proof (Nat.div_mod (List.length l) k K) as E. rewrite M in E.
  rewrite E at 2. replace (k * (List.length l / k) + 0 + k - 1) with ((k - 1) + (List.length l / k) * k) by lia.
  rewrite Nat.div_add by exact K. rewrite (Nat.div_small (k - 1) k) by lia. reflexivity.
Qed.
Lemma skipn_twice {A} (l : list A) a b : skipn a (skipn b l) = skipn (b + a) l.
Proof.
  revert l. induction b as [|b IH]; intros l; [reflexivity|]. destruct l as [|x l]; [destruct a; reflexivity|]. apply IH.
Qed.
Lemma concat_jobs {A} (l : list A) k n : List.length l = n * k -> concat (map (runs_of_job l k) (seq 0 n)) = l.
Proof.
  unfold runs_of_job. revert l. induction n as [|n IH]; intros l E.
  - destruct l; [reflexivity|discriminate].
  - cbn [seq map concat]. rewrite <- seq_shift, map_map. cbn [skipn Nat.mul].
    transitivity (firstn k l ++ skipn k l); [|apply firstn_skipn]. f_equal.
    transitivity (concat (map (fun i => firstn k (skipn (i * k) (skipn k l))) (seq 0 n))); [|apply IH; rewrite skipn_length; lia].
    f_equal. apply map_ext. intros i. f_equal. cbn [Nat.mul]. rewrite skipn_twice. reflexivity.
Qed.
Lemma job_nonempty {A} (l : list A) k i : k <> 0 -> List.length l mod k = 0 -> i < List.length l / k ->
  List.length (runs_of_job l k i) = k.
Proof.
  intros K M L. unfold runs_of_job. rewrite firstn_length, skipn_length.
  pose proof (Nat.div_mod (List.length l) k K) as E. rewrite M in E.
  assert ((i + 1) * k <= (List.length l / k) * k) by (apply Nat.mul_le_mono_r; lia). lia.
Qed.


Lemma existsb_none {V} (d : list (string * V)) l : (forall x, In x l -> sget d x = None) ->
  existsb (fun x => match sget d x with None => false | Some _ => true end) l = false.
Proof.
  induction l as [|x l IH]; intros N; [reflexivity|]. cbn. rewrite (N x) by (left; reflexivity).
  apply IH. intros y HY. apply N. right. exact HY.
Qed.

Lemma scripts_spec cwd o F rundirs k : path_ok cwd -> opts_ok o -> no_conflict o -> k <> 0 ->
  List.length rundirs mod k = 0 -> apart cwd rundirs -> (forall r, In r rundirs -> dir_ok cwd F r) ->
  exists F' jobs, createSlurmJobScripts cwd o F rundirs (Z.of_nat k) = Ok (F', jobs) /\
    List.length jobs = List.length rundirs / k /\
    (forall i, i < List.length rundirs / k ->
       let chunk := runs_of_job rundirs k i in
       let first := nth (i * k) rundirs "" in
       nth_error jobs i = Some (jo_translate o (abspath cwd first ++ "/input/job.slrm")%string) /\
       (exists text, look F' (resolve cwd first ++ ["input"; "job.slrm"]) = Some (File text) /\ is_script cwd o chunk text) /\
       (forall r, In r chunk -> r <> abspath cwd first ->
         look F' (resolve cwd r ++ ["input"; "parent-job-path.txt"]) = Some (File (jo_translate o (abspath cwd first))))) /\
    (forall q, (forall r, In r rundirs -> q <> resolve cwd r ++ ["input"] /\
        q <> resolve cwd r ++ ["input"; "job.slrm"] /\ q <> resolve cwd r ++ ["input"; "parent-job-path.txt"]) ->
        look F' q = look F q) /\
    (forall i, i < List.length rundirs / k ->
       let first := nth (i * k) rundirs "" in first = abspath cwd first ->
       look F' (resolve cwd first ++ ["input"; "parent-job-path.txt"]) = look F (resolve cwd first ++ ["input"; "parent-job-path.txt"])).
Proof.
  intros PC O (NC1 & NC2) K M A D. unfold createSlurmJobScripts.
  rewrite (proj2 (Z.eqb_neq _ _)) by lia.
  rewrite <- Nat2Z.inj_mod, M. cbn [Z.of_nat Z.eqb negb].
  replace (match jo_excluded o with None => false | Some _ => _ end) with false.
  2:{ destruct (jo_excluded o) as [n|] eqn:E; [|reflexivity]. symmetry. apply existsb_none. apply NC1. discriminate. }
  rewrite existsb_none by exact NC2. rewrite (proj2 (Z.ltb_ge _ _)) by lia. rewrite Nat2Z.id.
  rewrite chunks_eq by assumption.
  pose proof (Nat.div_mod (List.length rundirs) k K) as DM. rewrite M in DM.
  assert (CC : concat (map (runs_of_job rundirs k) (seq 0 (List.length rundirs / k))) = rundirs) by (apply concat_jobs; lia).
  set (cs := map (runs_of_job rundirs k) (seq 0 (List.length rundirs / k))) in *.
  assert (INC : forall c, In c cs -> exists i, i < List.length rundirs / k /\ c = runs_of_job rundirs k i).
  { intros c HC. apply in_map_iff in HC. destruct HC as (i & <- & HI). apply in_seq in HI. exists i. split; [lia|reflexivity]. }
  assert (CIN : forall i, i < List.length rundirs / k -> In (runs_of_job rundirs k i) cs).
  { intros i L. apply in_map. apply in_seq. lia. }
  assert (HD : forall i, i < List.length rundirs / k -> hd "" (runs_of_job rundirs k i) = nth (i * k) rundirs "").
  { intros i L. unfold runs_of_job. pose proof (job_nonempty rundirs k i K M L) as JN. unfold runs_of_job in JN.
    assert (LI : i * k < List.length rundirs).
    { rewrite firstn_length, skipn_length in JN. lia. }
    destruct k as [|k']; [lia|].
    rewrite <- (firstn_skipn (i * S k') rundirs) at 2. rewrite app_nth2 by (rewrite firstn_length; lia).
    rewrite firstn_length, Nat.min_l by lia. rewrite Nat.sub_diag.
    destruct (skipn (i * S k') rundirs); reflexivity. }
  destruct (make_jobs_spec cwd o PC O cs F) as (F' & jobs & E & FJ & J & I & P & Q).
  { intros c HC ->. apply INC in HC. destruct HC as (i & L & E). pose proof (job_nonempty rundirs k i K M L) as JN.
    rewrite <- E in JN. cbn in JN. lia. }
  { rewrite CC. exact A. }
  { rewrite CC. exact D. }
  exists F', jobs. split; [exact E|].
  assert (LJ : List.length jobs = List.length rundirs / k).
  { rewrite <- (forall2_length _ _ _ FJ). unfold cs. rewrite map_length, seq_length. reflexivity. }
  split; [exact LJ|].
  assert (INR : forall c r, In c cs -> In r c -> In r rundirs).
  { intros c r HC HR. rewrite <- CC. apply in_concat. exists c. split; assumption. }
  split; [|split].
  - intros i L. cbv zeta. rewrite <- (HD i L). split; [|split].
    + destruct (nth_error jobs i) as [j|] eqn:EJ; [|apply nth_error_None in EJ; lia].
      f_equal. assert (EC : nth_error cs i = Some (runs_of_job rundirs k i)).
      { unfold cs. rewrite nth_error_map. rewrite (nth_error_nth' _ 0) by (rewrite seq_length; exact L).
        rewrite seq_nth by exact L. reflexivity. }
      clearbody cs. revert EC. generalize (runs_of_job rundirs k i). clear -FJ EJ. intros x EC. revert i EJ EC.
      induction FJ as [|c j0 cs jobs H FJ IH]; intros [|i] EJ EC; cbn in EJ, EC; try discriminate.
      * injection EJ as <-. injection EC as <-. exact H.
      * eapply IH; eassumption.
    + apply J, CIN, L.
    + intros r HR NR. apply (P (runs_of_job rundirs k i)); [apply CIN, L|exact HR|exact NR].
  - intros q HQ. apply Q. intros c r HC HR.
    assert (HH : In (hd "" c) rundirs).
    { apply (INR c); [exact HC|]. destruct c; [destruct HR|left; reflexivity]. }
    destruct (HQ (hd "" c) HH) as (_ & Q1 & _). destruct (HQ r (INR c r HC HR)) as (Q2 & _ & Q3).
    split; [exact Q1|]. split; [exact Q2|right; exact Q3].
  - intros i L. cbv zeta. rewrite <- (HD i L). intros AB. apply Q. intros c r HC HR.
    assert (JN := job_nonempty rundirs k i K M L).
    assert (IN0 : In (hd "" (runs_of_job rundirs k i)) (runs_of_job rundirs k i)).
    { destruct (runs_of_job rundirs k i); [cbn in JN; lia|left; reflexivity]. }
    assert (H0 : In (hd "" (runs_of_job rundirs k i)) rundirs) by (eapply INR; [apply CIN, L|exact IN0]).
    apply In_nth_error in H0. destruct H0 as (i0 & H0).
    assert (G : forall s y z, In s rundirs -> resolve cwd (hd "" (runs_of_job rundirs k i)) ++ y = resolve cwd s ++ z ->
        s = hd "" (runs_of_job rundirs k i) /\ y = z).
    { intros s y z HS EE. apply In_nth_error in HS. destruct HS as (j & HS).
      destruct (Nat.eq_dec i0 j) as [->|NJ].
      - rewrite HS in H0. injection H0 as ->. split; [reflexivity|]. apply app_inv_head in EE. exact EE.
      - exfalso. apply app_prefixes in EE. destruct EE as [EE|EE]; revert EE; [apply (A i0 j)|apply (A j i0)]; auto. }
    assert (HH : In (hd "" c) rundirs).
    { apply (INR c); [exact HC|]. destruct c; [destruct HR|left; reflexivity]. }
    split; [|split].
    + intros EE. apply G in EE; [|exact HH]. destruct EE as (_ & EE). discriminate.
    + intros EE. apply G in EE; [|eapply INR; eassumption]. destruct EE as (_ & EE). discriminate.
    + destruct (string_dec r (abspath cwd (hd "" c))) as [EQ|NQ]; [left; exact EQ|right].
      intros EE. apply G in EE; [|eapply INR; eassumption]. destruct EE as (-> & _).
      (* r is the first run of chunk i, which must be c *)
      apply NQ. clear NQ.
      destruct (INC c HC) as (i' & L' & ->).
      destruct (Nat.eq_dec i i') as [<-|NI]; [exact AB|exfalso].
      (* two positions of the same run *)
      assert (JN' := job_nonempty rundirs k i' K M L').
      apply In_nth_error in HR. destruct HR as (b & HB).
      assert (BK : b < k) by (rewrite <- JN'; apply nth_error_Some; congruence).
      assert (POS : forall u v, u < List.length rundirs / k -> v < k -> nth_error (runs_of_job rundirs k u) v = nth_error rundirs (u * k + v)).
      { intros u v LU LV. unfold runs_of_job.
        rewrite <- (firstn_skipn (u * k) rundirs) at 2.
        assert (LL := job_nonempty rundirs k u K M LU). unfold runs_of_job in LL. rewrite firstn_length, skipn_length in LL.
        rewrite nth_error_app2 by (rewrite firstn_length; lia). rewrite firstn_length, Nat.min_l by lia.
        replace (u * k + v - u * k) with v by lia.
        rewrite <- (firstn_skipn k (skipn (u * k) rundirs)) at 2.
        rewrite nth_error_app1; [reflexivity|]. rewrite firstn_length, skipn_length. lia. }
      rewrite POS in HB by assumption.
      assert (HA : nth_error rundirs (i * k + 0) = Some (hd "" (runs_of_job rundirs k i))).
      { rewrite <- POS by lia. destruct (runs_of_job rundirs k i); [cbn in JN; lia|reflexivity]. }
      assert (i * k + 0 <> i' * k + b).
      { intros X. apply NI. assert (Y : (i * k + 0) / k = (i' * k + b) / k) by congruence.
        rewrite !Nat.div_add_l in Y by exact K. rewrite !Nat.div_small in Y by lia. lia. }
      apply (A _ _ _ _ HA HB H). exists []. rewrite app_nil_r. reflexivity.
Qed.
