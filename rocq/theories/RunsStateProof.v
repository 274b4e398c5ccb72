(** Proofs about the state of runs. *)
From Coq Require Import List ZArith String Ascii Bool Lia Arith.
From Verif Require Import QcBase PyBase StrBase FsBase ConfModel RunsModel RunsSpec RunsProof RunsJobProof.
Import ListNotations.
Close Scope Qc_scope.
Open Scope string_scope.
Open Scope nat_scope.
Open Scope list_scope.

Lemma starts_iff p s : starts p s = true <-> exists r, s = (p ++ r)%string.
Proof.
  revert s. induction p as [|a p IH]; intros s; cbn.
  - split; [intros _; exists s; reflexivity|reflexivity].
  - destruct s as [|b s]; [split; [discriminate|intros (r & E); discriminate]|].
    rewrite andb_true_iff, Ascii.eqb_eq, IH. split.
    + intros (-> & r & ->). exists r. reflexivity.
    + intros (r & E). injection E as -> ->. split; [reflexivity|exists r; reflexivity].
Qed.
Lemma str_rev_acc s acc : str_rev s acc = (str_rev s "" ++ acc)%string.
Proof.
  revert acc. induction s as [|a s IH]; intros acc; [reflexivity|]. cbn [str_rev]. rewrite IH, (IH (String a "")).
  rewrite <- str_app_assoc. reflexivity.
Qed.
Lemma str_app_nil s : (s ++ "")%string = s.
Proof. induction s as [|a s IH]; [reflexivity|]. cbn. rewrite IH. reflexivity. Qed.
Lemma str_rev_app a b : str_rev (a ++ b)%string "" = (str_rev b "" ++ str_rev a "")%string.
Proof.
  induction a as [|c a IH]; cbn [append str_rev]; [rewrite str_app_nil; reflexivity|].
  rewrite (str_rev_acc _ (String c "")), IH, (str_rev_acc a (String c "")). rewrite str_app_assoc. reflexivity.
Qed.
Lemma str_rev_rev s : str_rev (str_rev s "") "" = s.
Proof.
  induction s as [|a s IH]; [reflexivity|]. cbn [str_rev]. rewrite (str_rev_acc s (String a "")), str_rev_app, IH. reflexivity.
Qed.
Lemma ends_iff p s : ends p s = true <-> exists r, s = (r ++ p)%string.
Proof.
  unfold ends. rewrite starts_iff. split; intros (r & E).
  - exists (str_rev r ""). rewrite <- (str_rev_rev s), E, str_rev_app, str_rev_rev. reflexivity.
  - exists (str_rev r ""). rewrite E, str_rev_app. reflexivity.
Qed.
Lemma str_app_length a b : String.length (a ++ b)%string = String.length a + String.length b.
Proof. induction a as [|c a IH]; [reflexivity|]. cbn. rewrite IH. reflexivity. Qed.
Lemma app_eq_longer a x y b : (a ++ x)%string = (y ++ b)%string -> String.length a <= String.length y ->
  exists m, y = (a ++ m)%string /\ x = (m ++ b)%string.
Proof.
  revert y. induction a as [|c a IH]; intros y E L.
  - exists y. split; [reflexivity|exact E].
  - destruct y as [|d y]; [cbn in L; lia|]. cbn in E, L. injection E as -> E. apply IH in E; [|lia].
    destruct E as (m & -> & ->). exists m. split; reflexivity.
Qed.
Lemma name_match pre post n :
  starts pre n && ends post n && Nat.leb (String.length pre + String.length post) (String.length n) = true <->
  exists m, n = (pre ++ m ++ post)%string.
Proof.
  rewrite !andb_true_iff, starts_iff, ends_iff, Nat.leb_le. split.
  - intros (((x & E1) & (y & E2)) & L). destruct (app_eq_longer pre x y post) as (m & E3 & E4); [congruence| |].
    + rewrite E2, str_app_length in L. lia.
    + exists m. rewrite E1, E4. reflexivity.
  - intros (m & ->). rewrite !str_app_length. split; [split|lia]; [eexists; reflexivity|].
    exists (pre ++ m)%string. rewrite str_app_assoc. reflexivity.
Qed.

Section St.
Variable cwd : path.
Lemma place_child s n : name_ok n -> resolve cwd (s ++ String slash n)%string = place cwd s ++ [n].
Proof.
  intros N. unfold place. destruct s as [|a s].
  - change ("" ++ String slash n)%string with (String slash n). change ("" ++ "/")%string with "/".
    unfold resolve. cbn [is_abs]. change (Ascii.eqb slash slash) with true. cbn iota.
    change (String slash n) with ("" ++ String slash n)%string. change "/" with ("" ++ String slash "")%string at 1.
    rewrite !split_app_gen, !norm_app. rewrite (split_none slash n) by apply N. rewrite norm_name by exact N. reflexivity.
  - change "/" with (String slash ""). rewrite resolve_child by (exact N || discriminate).
    unfold resolve at 2. rewrite is_abs_app by discriminate. rewrite split_app_gen, norm_app. cbn [split].
    cbn [norm]. rewrite rev_involutive. reflexivity.
Qed.
Lemma place_resolve s : s <> "" -> place cwd s = resolve cwd s.
Proof.
  intros N. unfold place. change "/" with (String slash ""). unfold resolve. rewrite is_abs_app by exact N.
  rewrite split_app_gen, norm_app. cbn [split norm]. rewrite rev_involutive. reflexivity.
Qed.
Lemma place_input s n : name_ok n -> resolve cwd (s ++ "/input/" ++ n)%string = place cwd s ++ ["input"; n].
Proof.
  intros N. change ("/input/" ++ n)%string with (String slash "input" ++ String slash n)%string.
  rewrite str_app_assoc, resolve_child; [|destruct s; discriminate|exact N].
  rewrite place_child by exact name_input. rewrite <- app_assoc. reflexivity.
Qed.

Lemma isfile_iff F s : isfile cwd F s = true <-> exists t, look F (resolve cwd s) = Some (File t).
Proof.
  unfold isfile. destruct (look F (resolve cwd s)) as [[|t]|]; split; try discriminate.
  - intros (t & E). discriminate.
  - intros _. exists t. reflexivity.
  - reflexivity.
  - intros (t & E). discriminate.
Qed.
Lemma look_in F (p : path) : p <> [] -> (look F p <> None <-> In p (map fst F)).
Proof.
  intros N. unfold look. destruct p as [|x p]; [congruence|]. clear N. induction F as [|(q & e) F IH].
  - cbn. split; [congruence|intros []].
  - cbn [dget map fst In]. destruct (path_eqb (x :: p) q) eqn:E.
    + apply path_eqb_spec in E. split; [left; congruence|intros _; congruence].
    + rewrite IH. split; [right; assumption|]. intros [->|HI]; [rewrite path_eqb_refl in E; discriminate|exact HI].
Qed.
Lemma snoc_iff (p d : path) n : removelast p = d /\ (exists t, rev p = n :: t) <-> p = d ++ [n].
Proof.
  split.
  - intros (E & t & R). assert (P : p = rev t ++ [n]).
    { rewrite <- (rev_involutive p), R. reflexivity. }
    rewrite P in E |- *. rewrite removelast_snoc in E. congruence.
  - intros ->. rewrite removelast_snoc. split; [reflexivity|]. rewrite rev_app_distr. exists (rev d). reflexivity.
Qed.
Lemma glob_iff F dir pre post : glob_any cwd F dir pre post = true <-> has_match F (resolve cwd dir) pre post.
Proof.
  unfold glob_any, has_match. rewrite existsb_exists. split.
  - intros ((p & e) & HI & HT). cbn [fst] in HT. apply andb_true_iff in HT. destruct HT as (H1 & H2).
    apply path_eqb_spec in H1. destruct (rev p) as [|n t] eqn:R; [discriminate|].
    apply name_match in H2. destruct H2 as (m & ->). exists m.
    assert (P : p = resolve cwd dir ++ [(pre ++ m ++ post)%string]).
    { apply snoc_iff. split; [exact H1|]. exists t. exact R. }
    rewrite <- P. apply look_in; [|apply (in_map fst) in HI; exact HI]. rewrite P. intros E. apply app_eq_nil in E. destruct E. discriminate.
  - intros (m & HL). apply look_in in HL; [|intros E; apply app_eq_nil in E; destruct E; discriminate].
    apply in_map_iff in HL. destruct HL as ((p & e) & E & HI). cbn in E. exists (p, e). split; [exact HI|].
    cbn [fst]. apply snoc_iff in E. destruct E as (E1 & t & E2). rewrite E1, path_eqb_refl, E2. cbn [andb].
    apply name_match. exists m. reflexivity.
Qed.

Lemma name_config : name_ok "config.txt". Proof. repeat split; discriminate. Qed.
Lemma name_metadata : name_ok "metadata.txt". Proof. repeat split; discriminate. Qed.
Lemma name_jobid : name_ok "jobid". Proof. repeat split; discriminate. Qed.

Lemma file_config F s : isfile cwd F (s ++ "/config.txt")%string = true <-> has_file F (place cwd s) ["config.txt"].
Proof. rewrite isfile_iff. change "/config.txt" with (String slash "config.txt"). rewrite place_child by exact name_config. reflexivity. Qed.
Lemma file_metadata F s : isfile cwd F (s ++ "/metadata.txt")%string = true <-> has_file F (place cwd s) ["metadata.txt"].
Proof. rewrite isfile_iff. change "/metadata.txt" with (String slash "metadata.txt"). rewrite place_child by exact name_metadata. reflexivity. Qed.
Lemma file_job F s : isfile cwd F (s ++ "/input/job.slrm")%string = true <-> has_file F (place cwd s) ["input"; "job.slrm"].
Proof. rewrite isfile_iff. change "/input/job.slrm" with ("/input/" ++ "job.slrm")%string. rewrite place_input by exact name_job. reflexivity. Qed.
Lemma file_parent F s : hasParentRun cwd F s = true <-> has_file F (place cwd s) ["input"; "parent-job-path.txt"].
Proof. unfold hasParentRun. rewrite isfile_iff. change "/input/parent-job-path.txt" with ("/input/" ++ "parent-job-path.txt")%string. rewrite place_input by exact name_parent. reflexivity. Qed.
Lemma entry_jobid F s : exists_ cwd F (s ++ "/input/jobid")%string = true <-> has_entry F (place cwd s) ["input"; "jobid"].
Proof.
  unfold exists_, has_entry. change "/input/jobid" with ("/input/" ++ "jobid")%string. rewrite place_input by exact name_jobid.
  destruct (look F _); split; congruence.
Qed.
Lemma glob_srun F s : glob_any cwd F (s ++ "/input")%string "srun-" ".out" = true <-> has_match F (place cwd s ++ ["input"]) "srun-" ".out".
Proof. rewrite glob_iff. change "/input" with (String slash "input"). rewrite place_child by exact name_input. reflexivity. Qed.
Lemma read_parent F s t : read cwd F (s ++ "/input/parent-job-path.txt")%string = Ok t <->
  look F (place cwd s ++ ["input"; "parent-job-path.txt"]) = Some (File t).
Proof.
  unfold read. change "/input/parent-job-path.txt" with ("/input/" ++ "parent-job-path.txt")%string. rewrite place_input by exact name_parent.
  destruct (look F _) as [[|c]|]; split; congruence.
Qed.

Lemma flag_false (b : bool) P : (b = true <-> P) -> b = false <-> ~ P.
Proof. intros (A & B). destruct b; split; try discriminate; try congruence; intros H; [exfalso; apply H, A; reflexivity|intros X; apply B in X; discriminate]. Qed.

Lemma state_sound F fuel : forall ts s st, getState cwd fuel F ts s = Ok st -> state_is cwd F (apply_translators ts) (place cwd s) st.
Proof.
  induction fuel as [|fuel IH]; intros ts s st; cbn [getState]; [discriminate|].
  destruct (isfile cwd F (s ++ "/config.txt")%string) eqn:C; cbn [negb]; [apply file_config in C|discriminate].
  destruct (isfile cwd F (s ++ "/metadata.txt")%string) eqn:M.
  { apply file_metadata in M. intros E. injection E as <-. apply StCompleted; assumption. }
  apply (flag_false _ _ (file_metadata F s)) in M.
  destruct (glob_any _ _ _ _ _) eqn:G.
  { apply glob_srun in G. intros E. injection E as <-. apply StRunning; assumption. }
  apply (flag_false _ _ (glob_srun F s)) in G.
  destruct (hasParentRun cwd F s) eqn:P.
  { destruct (read cwd F _) as [t|e] eqn:R; cbn [bind]; [|discriminate]. apply read_parent in R. intros E.
    apply IH in E. eapply StParent; try eassumption. }
  apply (flag_false _ _ (file_parent F s)) in P.
  destruct (exists_ _ _ _) eqn:J.
  { apply entry_jobid in J. intros E. injection E as <-. apply StSubmitted; assumption. }
  apply (flag_false _ _ (entry_jobid F s)) in J.
  destruct (isfile cwd F (s ++ "/input/job.slrm")%string) eqn:L; [|discriminate].
  apply file_job in L. intros E. injection E as <-. apply StReady; assumption.
Qed.

Lemma state_complete F tr d st : state_is cwd F tr d st -> forall ts s, d = place cwd s -> (forall t, apply_translators ts t = tr t) ->
  exists fuel, forall f, fuel <= f -> getState cwd f F ts s = Ok st.
Proof.
  induction 1 as [tr d C M|tr d C M G|tr d t st C M G P SI IH|tr d C M G P J|tr d C M G P J L]; intros ts s ->  TR.
  - exists 1. intros [|f] HF; [lia|]. cbn [getState]. apply file_config in C. apply file_metadata in M. rewrite C, M. reflexivity.
  - exists 1. intros [|f] HF; [lia|]. cbn [getState]. apply file_config in C. apply (flag_false _ _ (file_metadata F s)) in M.
    apply glob_srun in G. rewrite C, M, G. reflexivity.
  - destruct (IH [] (tr t) eq_refl) as (fuel & E); [reflexivity|].
    exists (S fuel). intros [|f] HF; [lia|]. cbn [getState]. apply file_config in C. apply (flag_false _ _ (file_metadata F s)) in M.
    apply (flag_false _ _ (glob_srun F s)) in G. rewrite C, M, G.
    assert (HP : hasParentRun cwd F s = true) by (apply file_parent; exists t; exact P).
    apply read_parent in P. rewrite HP, P. cbn [negb bind]. rewrite TR. apply E. lia.
  - exists 1. intros [|f] HF; [lia|]. cbn [getState]. apply file_config in C. apply (flag_false _ _ (file_metadata F s)) in M.
    apply (flag_false _ _ (glob_srun F s)) in G. apply (flag_false _ _ (file_parent F s)) in P. apply entry_jobid in J.
    rewrite C, M, G, P, J. reflexivity.
  - exists 1. intros [|f] HF; [lia|]. cbn [getState]. apply file_config in C. apply (flag_false _ _ (file_metadata F s)) in M.
    apply (flag_false _ _ (glob_srun F s)) in G. apply (flag_false _ _ (file_parent F s)) in P.
    apply (flag_false _ _ (entry_jobid F s)) in J. apply file_job in L. rewrite C, M, G, P, J, L. reflexivity.
Qed.

Lemma state_iff F ts s st :
  (exists fuel, forall f, fuel <= f -> getState cwd f F ts s = Ok st) <-> state_is cwd F (apply_translators ts) (place cwd s) st.
Proof.
  split.
  - intros (fuel & E). eapply state_sound. apply (E fuel). lia.
  - intros H. eapply state_complete; [exact H|reflexivity|reflexivity].
Qed.

Lemma state_fun F fuel fuel' ts s st : getState cwd fuel F ts s = Ok st -> fuel <= fuel' -> getState cwd fuel' F ts s = Ok st.
Proof.
  revert fuel' ts s. induction fuel as [|fuel IH]; intros fuel' ts s; [discriminate|].
  destruct fuel' as [|fuel']; [lia|]. cbn [getState]. intros E L.
  destruct (negb _); [discriminate|]. destruct (isfile _ _ _); [exact E|]. destruct (glob_any _ _ _ _ _); [exact E|].
  destruct (hasParentRun _ _ _); [|exact E]. destruct (read _ _ _) as [t|e]; cbn [bind] in E |- *; [|discriminate].
  apply IH; [exact E|lia].
Qed.

(** ** Prepared runs are ready *)
Lemma prepared_ready o F rundirs k ts : path_ok cwd -> opts_ok o -> no_conflict o -> k <> 0 ->
  List.length rundirs mod k = 0 -> apart cwd rundirs -> (forall r, In r rundirs -> dir_ok cwd F r) ->
  (forall r, In r rundirs -> r = abspath cwd r /\ has_file F (resolve cwd r) ["config.txt"] /\
     ~ has_file F (resolve cwd r) ["metadata.txt"] /\ ~ has_match F (resolve cwd r ++ ["input"]) "srun-" ".out" /\
     ~ has_file F (resolve cwd r) ["input"; "parent-job-path.txt"] /\ ~ has_entry F (resolve cwd r) ["input"; "jobid"] /\
     apply_translators ts (jo_translate o r) = r) ->
  exists F' jobs, createSlurmJobScripts cwd o F rundirs (Z.of_nat k) = Ok (F', jobs) /\
    forall r, In r rundirs -> state_is cwd F' (apply_translators ts) (resolve cwd r) Ready.
Proof.
  intros PC O NC K M A D H.
  destruct (scripts_spec cwd o F rundirs k PC O NC K M A D) as (F' & jobs & E & LJ & J & Q & P).
  exists F', jobs. split; [exact E|].
  assert (NEQ : forall r s x y, In r rundirs -> In s rundirs -> x <> y -> resolve cwd r ++ x <> resolve cwd s ++ y).
  { intros r s x y HR HS N X. destruct (string_dec r s) as [->|NS]; [apply app_inv_head in X; contradiction|].
    apply In_nth_error in HR, HS. destruct HR as (i & HI), HS as (j & HJ).
    assert (i <> j) by (intros ->; congruence).
    apply app_prefixes in X. destruct X as [X|X]; revert X; [apply (A i j)|apply (A j i)]; auto. }
  assert (SAME : forall r x, In r rundirs -> x <> ["input"] -> x <> ["input"; "job.slrm"] -> x <> ["input"; "parent-job-path.txt"] ->
      look F' (resolve cwd r ++ x) = look F (resolve cwd r ++ x)).
  { intros r x HR N1 N2 N3. apply Q. intros s HS. split; [apply NEQ; assumption|]. split; apply NEQ; assumption. }
  assert (BASE : forall r, In r rundirs -> has_file F' (resolve cwd r) ["config.txt"] /\ ~ has_file F' (resolve cwd r) ["metadata.txt"] /\
      ~ has_match F' (resolve cwd r ++ ["input"]) "srun-" ".out" /\ ~ has_entry F' (resolve cwd r) ["input"; "jobid"]).
  { intros r HR. destruct (H r HR) as (_ & B1 & B2 & B3 & _ & B5 & _).
    split; [|split; [|split]].
    - destruct B1 as (t & B1). exists t. rewrite SAME by (exact HR || discriminate). exact B1.
    - intros (t & X). apply B2. exists t. rewrite SAME in X by (exact HR || discriminate). exact X.
    - intros (m & X). apply B3. exists m. rewrite <- app_assoc in X |- *. cbn [app] in X |- *.
      rewrite SAME in X; [exact X|exact HR|discriminate| |]; intros Y; injection Y as Y; discriminate.
    - unfold has_entry in *. rewrite SAME by (exact HR || discriminate). exact B5. }
  assert (FIRST : forall i, i < List.length rundirs / k -> In (nth (i * k) rundirs "") rundirs /\
      forall tr, state_is cwd F' tr (resolve cwd (nth (i * k) rundirs "")) Ready).
  { intros i L. assert (HR : In (nth (i * k) rundirs "") rundirs).
    { apply nth_In. pose proof (job_nonempty rundirs k i K M L) as JN. unfold runs_of_job in JN.
      rewrite firstn_length, skipn_length in JN. lia. }
    split; [exact HR|]. intros tr. destruct (BASE _ HR) as (B1 & B2 & B3 & B4). destruct (H _ HR) as (AB & _ & _ & _ & NP & _).
    destruct (J i L) as (_ & (text & T & _) & _).
    apply StReady; try assumption.
    - intros (t & X). apply NP. exists t. rewrite <- (P i L AB). exact X.
    - exists text. exact T. }
  intros r HR. assert (CH : exists i, i < List.length rundirs / k /\ In r (runs_of_job rundirs k i)).
  { pose proof (Nat.div_mod (List.length rundirs) k K) as DM. rewrite M in DM.
    rewrite <- (concat_jobs rundirs k (List.length rundirs / k)) in HR by lia.
    apply in_concat in HR. destruct HR as (c & HC & HR). apply in_map_iff in HC. destruct HC as (i & <- & HI).
    apply in_seq in HI. exists i. split; [lia|exact HR]. }
  destruct CH as (i & L & HC). destruct (FIRST i L) as (HF & RD). destruct (H _ HF) as (AB & _ & _ & _ & _ & _ & TR).
  destruct (string_dec r (nth (i * k) rundirs "")) as [->|NR]; [apply RD|].
  destruct (J i L) as (_ & _ & JP). rewrite <- AB in JP.
  destruct (BASE _ HR) as (B1 & B2 & B3 & B4).
  eapply StParent; try eassumption; [apply JP; assumption|]. rewrite TR. rewrite place_resolve; [apply RD|].
  rewrite AB. discriminate.
Qed.
End St.
