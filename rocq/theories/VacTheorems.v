(** Velocity autocorrelations: what is measured and written (C105), and what the script makes of it (C106). *)
From Coq Require Import Permutation Lia Sorted.
From Verif Require Import QcBase QcLra StrBase PyBase CuModel CuProof CfgModel CfgSpec CfgProof CfgReadProof CfgSimModel CfgSimSpec CfgSimProof VtfModel OtfsSpec DddaModel MeasModel MeasProof MsdSpec VacModel VacSpec VacProof VacTextProof.
Open Scope string_scope.
Open Scope list_scope.
Open Scope Qc_scope.
Ltac prop := apply proper_check; [discriminate|vm_compute; reflexivity].

(** C105. The buffer gets the velocities of the centers of mass of the logical entities, however the threads are scheduled; particles that do not make up
    a logical entity are ignored. *)
Theorem autocorrelation_velocities : forall f particleCount velocities before, f <> Triplets -> sound f particleCount ->
  (exists after, populates f particleCount velocities before after) /\
  forall after, populates f particleCount velocities before after ->
  forall k c, (0 <= k < entity_count f particleCount)%Z -> (0 <= c < 3)%Z -> after (3 * k + c)%Z = entity_velocity f velocities k c.
Proof.
  intros f N v before T S. split; [exact (populated_exists f N v before S)|]. intros after P k c K C.
  rewrite (populated f N v before after S P k c K C). destruct f; (reflexivity || congruence).
Qed.
Print Assumptions autocorrelation_velocities.
Example autocorrelation_velocities_ex : sound (Chains 3) 7 /\ entity_count (Chains 3) 7 = 2%Z /\
  qeqb (entity_velocity (Chains 3) (fun i => qz i) 1 2) (qz 14) = true.
Proof. vm_compute. repeat split; reflexivity. Qed.

(** C105. For triplets, it is the mean of the velocities of two particles, which in general belong to other triplets. *)
Theorem autocorrelation_triplets_exact : forall particleCount velocities before after, sound Triplets particleCount ->
  populates Triplets particleCount velocities before after ->
  forall k c, (0 <= k < particleCount / 3)%Z -> (0 <= c < 3)%Z ->
  after (3 * k + c)%Z = (velocity_of velocities (2 * k) c + velocity_of velocities (2 * k + 1) c) / (1 + 1).
Proof. intros N v before after S P k c K C. rewrite (populated Triplets N v before after S P k c K C). apply entity_doublet. Qed.
Print Assumptions autocorrelation_triplets_exact.
Example autocorrelation_triplets_exact_ex : sound Triplets 9 /\ exists after, populates Triplets 9 (fun i => qz i) (fun _ => 0) after.
Proof. split; [vm_compute; repeat split; reflexivity|]. apply populated_exists. vm_compute. repeat split; reflexivity. Qed.

(** C105. The value recorded for triplets is not the documented one, whatever their number. *)
Theorem autocorrelation_triplets_refuted : forall particleCount measurementTime snapshotCount contents current, sound Triplets particleCount ->
  (0 < snapshotCount)%nat -> millionth <= measurementTime / qn snapshotCount ->
  exists velocities, forall s, measures Triplets particleCount measurementTime [(0, velocities)] (fresh contents current snapshotCount) s ->
  exists x, autocorrelations s = [(0, 0, x)] /\ x <> fluid_correlation Triplets particleCount velocities velocities.
Proof.
  intros N mt count contents cur S C M. exists (fun i => if Z.eqb i 0 then 1 else 0). intros s Hs.
  set (v := fun i : Z => if Z.eqb i 0 then 1 else 0) in *.
  pose proof (measures_records Triplets N mt count S C M [(0, v)] _ s [] (fresh_invariant Triplets N count contents cur)) as R.
  rewrite R; [|intros c [<-|[]]; discriminate|exact Hs]. clear R.
  cbn [records autocorrelations fresh app]. unfold procedure. cbn [length negb orb map rev]. rewrite (proj2 (Nat.ltb_lt 0 count) C). cbn [andb app map fst snd].
  eexists. split; [reflexivity|].
  assert (Z0 : (0 < entity_count Triplets N)%Z) by apply S.
  unfold V, fluid_correlation, correlation. cbn [as_doublets].
  set (n := entity_count Triplets N) in *.
  assert (SUM : forall f a, (forall c, (0 <= c < 3)%Z -> entity_velocity f v 0 c = if Z.eqb c 0 then a else 0) ->
    (forall k c, (0 < k)%Z -> (0 <= c < 3)%Z -> entity_velocity f v k c = 0) ->
    qsum (map (fun k => entity_velocity f v k 0 * entity_velocity f v k 0 + entity_velocity f v k 1 * entity_velocity f v k 1 + entity_velocity f v k 2 * entity_velocity f v k 2)
      (map Z.of_nat (seq 0 (Z.to_nat n)))) = a * a).
  { intros f a A B. destruct (Z.to_nat n) as [|k] eqn:E; [lia|]. cbn [seq map]. unfold qsum. cbn [fold_right].
    change (Z.of_nat 0) with 0%Z. rewrite (A 0%Z), (A 1%Z), (A 2%Z) by lia. cbn [Z.eqb].
    fold (qsum (map (fun k => entity_velocity f v k 0 * entity_velocity f v k 0 + entity_velocity f v k 1 * entity_velocity f v k 1 + entity_velocity f v k 2 * entity_velocity f v k 2) (map Z.of_nat (seq 1 k)))).
    assert (Q : qsum (map (fun k => entity_velocity f v k 0 * entity_velocity f v k 0 + entity_velocity f v k 1 * entity_velocity f v k 1 + entity_velocity f v k 2 * entity_velocity f v k 2) (map Z.of_nat (seq 1 k))) = 0).
    { rewrite (map_ext_in _ (fun _ => 0)); [rewrite qsum_map_const; ring|]. intros j J. apply in_map_iff in J. destruct J as (i & <- & I). apply in_seq in I. rewrite !B by lia. ring. }
    unfold qsum in Q. unfold qsum. rewrite Q. ring. }
  rewrite (SUM Doublets (1 / (1 + 1))), (SUM Triplets (1 / (1 + 1 + 1))).
  - intros E. assert (QN : qz n <> 0) by (intros Q; change 0 with (qz 0) in Q; apply qz_inj in Q; lia).
    assert (E' : 1 / (1 + 1) * (1 / (1 + 1)) = 1 / (1 + 1 + 1) * (1 / (1 + 1 + 1))).
    { transitivity (1 / (1 + 1) * (1 / (1 + 1)) / qz n * qz n); [field; repeat split; first [exact QN | discriminate]|]. rewrite E. field; repeat split; first [exact QN | discriminate]. }
    apply (proj2 (qeqb_spec _ _)) in E'. vm_compute in E'. discriminate.
  - intros c Hc. assert (c = 0 \/ c = 1 \/ c = 2)%Z as [->|[->| ->]] by lia; apply (proj1 (qeqb_spec _ _)); vm_compute; reflexivity.
  - intros k c K Hc. unfold entity_velocity, entity_particles. cbn [entity_size]. change (Z.to_nat 3) with 3%nat. cbn [seq map]. unfold velocity_of, v.
    rewrite !(proj2 (Z.eqb_neq _ 0)) by lia. apply (proj1 (qeqb_spec _ _)). vm_compute. reflexivity.
  - intros c Hc. assert (c = 0 \/ c = 1 \/ c = 2)%Z as [->|[->| ->]] by lia; apply (proj1 (qeqb_spec _ _)); vm_compute; reflexivity.
  - intros k c K Hc. unfold entity_velocity, entity_particles. cbn [entity_size]. change (Z.to_nat 2) with 2%nat. cbn [seq map]. unfold velocity_of, v.
    rewrite !(proj2 (Z.eqb_neq _ 0)) by lia. apply (proj1 (qeqb_spec _ _)). vm_compute. reflexivity.
Qed.
Print Assumptions autocorrelation_triplets_refuted.
Example autocorrelation_triplets_refuted_ex : sound Triplets 3 /\ millionth <= qz 1 / qn 1.
Proof. split; [vm_compute; repeat split; reflexivity|]. apply MeasProof.qleb_spec. vm_compute. reflexivity. Qed.

Lemma V_fluid f N u v : f <> Triplets -> V f N u v = fluid_correlation f N u v.
Proof. intros T. unfold V, fluid_correlation. destruct f; (reflexivity || congruence). Qed.
Lemma records_ext full V W count mt calls : (forall u v, V u v = W u v) -> forall snaps, records full V count mt snaps calls = records full W count mt snaps calls.
Proof.
  intros E. induction calls as [|c calls IH]; intros snaps; [reflexivity|]. cbn [records]. rewrite IH. f_equal. apply map_ext. intros d. now rewrite E.
Qed.

(** C105. The measurements: at every call, the snapshots that are too old are taken again, after that a snapshot is added if fewer than [snapshotCount] exist and it is due, and the
    velocities are correlated with those of all snapshots, in order. *)
Theorem autocorrelation_records : forall f particleCount measurementTime snapshotCount contents current calls, f <> Triplets -> sound f particleCount ->
  (0 < snapshotCount)%nat -> millionth <= measurementTime / qn snapshotCount -> (forall c, In c calls -> 0 <= fst c) ->
  (exists s, measures f particleCount measurementTime calls (fresh contents current snapshotCount) s) /\
  forall s, measures f particleCount measurementTime calls (fresh contents current snapshotCount) s ->
  autocorrelations s = records false (fluid_correlation f particleCount) snapshotCount measurementTime [] calls.
Proof.
  intros f N mt count contents cur calls T S C M P. split; [apply measures_exist; exact S|]. intros s Hs.
  rewrite (measures_records f N mt count S C M calls _ s [] (fresh_invariant f N count contents cur) P Hs). cbn [fresh autocorrelations app].
  apply records_ext. intros u v. apply V_fluid, T.
Qed.
Print Assumptions autocorrelation_records.
Example autocorrelation_records_ex : let calls := [(0, fun _ => qz 2); (qz 1, fun _ => qz 3); (qz 2, fun _ => qz 5)] in
  sound Simple 2 /\ millionth <= qz 1 / qn 2 /\
  forallb (fun e => qeqb (fst (fst (fst e))) (fst (fst (snd e))) && qeqb (snd (fst (fst e))) (snd (fst (snd e))) && qeqb (snd (fst e)) (snd (snd e)))
    (combine (records false (fluid_correlation Simple 2) 2 (qz 1) [] calls)
      [(0, 0, qz 12); (0, qz 1, qz 18); (qz 1, qz 1, qz 27); (qz 2, qz 2, qz 75); (qz 1, qz 2, qz 45)]) = true /\
  length (records false (fluid_correlation Simple 2) 2 (qz 1) [] calls) = 5%nat.
Proof. split; [vm_compute; repeat split; reflexivity|]. split; [apply MeasProof.qleb_spec; vm_compute; reflexivity|]. vm_compute. auto. Qed.

(** C105. Every recorded value belongs to two of the calls, the first no later than the second and at most the measurement time (and a millionth) before it. *)
Theorem autocorrelation_bounds : forall f particleCount measurementTime snapshotCount contents current calls s, f <> Triplets -> sound f particleCount ->
  (0 < snapshotCount)%nat -> millionth <= measurementTime / qn snapshotCount -> (forall c, In c calls -> 0 <= fst c) -> ordered calls ->
  measures f particleCount measurementTime calls (fresh contents current snapshotCount) s ->
  (forall t1 t2 x, In (t1, t2, x) (autocorrelations s) ->
     exists i j c1 c2, (i <= j)%nat /\ nth_error calls i = Some c1 /\ nth_error calls j = Some c2 /\ t1 = fst c1 /\ t2 = fst c2 /\
       x = fluid_correlation f particleCount (snd c1) (snd c2) /\ 0 <= t1 /\ t1 <= t2 /\ t2 <= t1 + measurementTime + millionth) /\
  exists groups, autocorrelations s = concat groups /\
    Forall2 (fun c g => (1 <= length g <= snapshotCount)%nat /\ Forall (fun e => snd (fst e) = fst c) g) calls groups.
Proof.
  intros f N mt count contents cur calls s T S C M P O Hs.
  destruct (autocorrelation_records f N mt count contents cur calls T S C M P) as (_ & R). rewrite (R s Hs). clear R.
  pose proof (mt_bound mt count C M) as MB. pose proof millionth_pos.
  assert (Hmt : 0 <= mt) by qlra. split.
  - intros t1 t2 x I.
    pose proof (records_from_pairs (fluid_correlation f N) count mt C Hmt calls [] [] ltac:(intros c [])) as F. rewrite Forall_forall in F.
    destruct (F _ I) as (i & j & c1 & c2 & L & A & B & E & G). cbn [app] in *. apply pair_equal_spec in E. destruct E as (E & ->). apply pair_equal_spec in E. destruct E as (-> & ->).
    exists i, j, c1, c2. split; [exact L|]. split; [exact A|]. split; [exact B|]. split; [reflexivity|]. split; [reflexivity|]. split; [reflexivity|].
    split; [apply P, (nth_error_In calls i), A|]. split; [exact (ordered_nth calls O i j c1 c2 L A B)|]. qlra.
  - apply records_groups; [exact C|cbn; lia].
Qed.
Print Assumptions autocorrelation_bounds.
Example autocorrelation_bounds_ex : ordered [(0, fun _ : Z => 0); (qz 1, fun _ => 0); (qz 1, fun _ => 0)].
Proof. cbn. repeat split; apply MeasProof.qleb_spec; vm_compute; reflexivity. Qed.

(** C105. The configuration. *)
Theorem autocorrelation_configured : forall neg config timestep measurementTime snapshotCount,
  (isConfigured config = true <-> present config ["instrumentation"; "velocityAutocorrelation"]) /\
  (readConfig neg config timestep = Done (measurementTime, snapshotCount) <->
  float_at config ["instrumentation"; "velocityAutocorrelation"; "measurementTime"] measurementTime /\
  unsigned_at neg config ["instrumentation"; "velocityAutocorrelation"; "snapshotCount"] snapshotCount /\
  snapshotCount <> 0%Z /\ qz snapshotCount * timestep <= measurementTime - millionth).
Proof.
  intros neg config dt mt c. split; [apply (has_iff config ["instrumentation"; "velocityAutocorrelation"]); prop|]. unfold readConfig. rewrite next_done.
  assert (P1 : proper_path ["instrumentation"; "velocityAutocorrelation"; "measurementTime"]) by prop.
  assert (P2 : proper_path ["instrumentation"; "velocityAutocorrelation"; "snapshotCount"]) by prop.
  pose proof (fun d => float_iff neg config _ d P1) as F. pose proof (fun d => unsigned_iff neg config _ d P2) as U.
  change (dotted ["instrumentation"; "velocityAutocorrelation"; "measurementTime"]) with "instrumentation.velocityAutocorrelation.measurementTime" in F.
  change (dotted ["instrumentation"; "velocityAutocorrelation"; "snapshotCount"]) with "instrumentation.velocityAutocorrelation.snapshotCount" in U.
  change tolerance with millionth. split.
  - intros (a & A & H). apply next_done in H. destruct H as (b & B & H). apply F in A. apply U in B.
    destruct (Z.eqb_spec b 0); [discriminate|]. destruct (qltb _ _) eqn:L; [discriminate|]. apply MeasProof.qltb_false in L.
    injection H as -> ->. auto.
  - intros (A & B & H1 & H2). exists mt. split; [apply F, A|]. apply next_done. exists c. split; [apply U, B|].
    rewrite (proj2 (Z.eqb_neq c 0) H1), (proj2 (MeasProof.qltb_false _ _) H2). reflexivity.
Qed.
Print Assumptions autocorrelation_configured.
Example autocorrelation_configured_ex :
  let config := Group [("instrumentation", Group [("velocityAutocorrelation", Group [("measurementTime", Scalar (VFloat (qz 4))); ("snapshotCount", Scalar (VInt 2))])])] in
  isConfigured config = true /\ readConfig (fun _ => None) config 1 = Done (qz 4, 2%Z) /\ readConfig (fun _ => None) config (qz 2) = Fails InvalidConfiguration.
Proof. repeat split; reflexivity. Qed.

(** C105. With an accepted configuration and a call after each timestep: call [k] is correlated, for each snapshot [i], with the last of the calls [i m], [i m + p], [i m + 2 p], … *)
Theorem autocorrelation_regular : forall f particleCount measurementTime snapshotCount contents current t0 h v m p count s, f <> Triplets -> sound f particleCount ->
  (0 < snapshotCount)%nat -> millionth <= h -> qn snapshotCount * h <= measurementTime - millionth -> 0 <= t0 -> intervals snapshotCount measurementTime h m p ->
  measures f particleCount measurementTime (map (regular_call t0 h v) (seq 0 count)) (fresh contents current snapshotCount) s ->
  autocorrelations s =
    flat_map (fun k => map (fun i => (t0 + qn (reference m p k i) * h, t0 + qn k * h, fluid_correlation f particleCount (v (reference m p k i)) (v k)))
                           (seq 0 (Nat.min snapshotCount (k / m + 1)))) (seq 0 count).
Proof.
  intros f N mt cnt contents cur t0 h v m p K s T S C Hh Ha Ht I Hs.
  pose proof (separation_bound cnt mt h C Ha) as SB. destruct (intervals_sound cnt mt h C Hh Ha m p I) as (M0 & P0 & MP). pose proof millionth_pos.
  destruct (autocorrelation_records f N mt cnt contents cur (map (regular_call t0 h v) (seq 0 K)) T S C) as (_ & R).
  - apply (Qcle_trans _ h); assumption.
  - intros c I'. apply in_map_iff in I'. destruct I' as (k & <- & _). cbn [regular_call fst]. assert (0 <= qn k) by apply qn_nonneg. assert (0 <= qn k * h) by (apply Qc_mul_nonneg; [assumption|qlra]). qlra.
  - rewrite (R s Hs), (records_regular t0 h mt v cnt m p (fluid_correlation f N) C M0 MP P0 I). unfold rows, references, taken_by, regular_call. apply flat_map_ext. intros k. now rewrite map_map.
Qed.
Print Assumptions autocorrelation_regular.
(** If the measurement time is [snapshotCount] times [m] intervals, then [p] is one more than that number. *)
Theorem autocorrelation_regular_intervals : forall snapshotCount m h, (0 < snapshotCount)%nat -> millionth < h ->
  intervals snapshotCount (qn (snapshotCount * m) * h) h m (snapshotCount * m + 1).
Proof. exact intervals_exact. Qed.
Print Assumptions autocorrelation_regular_intervals.
Example autocorrelation_regular_ex : intervals 2 (qn 4 * 1) 1 2 5 /\ qn 2 * 1 <= qn 4 * 1 - millionth /\
  map (fun k => map (reference 2 5 k) (seq 0 (Nat.min 2 (k / 2 + 1)))) (seq 0 9) = [[0]; [0]; [0; 2]; [0; 2]; [0; 2]; [5; 2]; [5; 2]; [5; 7]; [5; 7]]%nat.
Proof.
  split; [apply (intervals_exact 2 2 1); [lia|reflexivity]|]. split; [apply MeasProof.qleb_spec; vm_compute; reflexivity|]. reflexivity.
Qed.

(** C105. That snapshots are only replaced once there are [snapshotCount] of them, as the documentation has it, is not true, even with an accepted configuration and a call
    after each timestep. *)
Theorem autocorrelation_procedure_refuted : exists measurementTime snapshotCount calls, (0 < snapshotCount)%nat /\ qn snapshotCount * 1 <= measurementTime - millionth /\
  calls = map (regular_call 0 1 (fun _ _ => 0)) (seq 0 6) /\
  forall contents current s, measures Simple 1 measurementTime calls (fresh contents current snapshotCount) s ->
  autocorrelations s <> records true (fluid_correlation Simple 1) snapshotCount measurementTime [] calls.
Proof.
  exists (Q2Qc (22 # 5)), 4%nat, (map (regular_call 0 1 (fun _ _ => 0)) (seq 0 6)).
  split; [lia|]. split; [apply MeasProof.qleb_spec; vm_compute; reflexivity|]. split; [reflexivity|].
  intros contents cur s Hs E.
  destruct (autocorrelation_records Simple 1 (Q2Qc (22 # 5)) 4 contents cur (map (regular_call 0 1 (fun _ _ => 0)) (seq 0 6))) as (_ & R).
  - discriminate.
  - vm_compute. repeat split; reflexivity.
  - lia.
  - apply MeasProof.qleb_spec. vm_compute. reflexivity.
  - intros c I. apply in_map_iff in I. destruct I as (k & <- & _). cbn [regular_call fst]. pose proof (qn_nonneg k). qlra.
  - rewrite (R s Hs) in E. apply (f_equal (fun l => qeqb (fst (fst (nth 9 l (0, 0, 0)))) 0)) in E. vm_compute in E. discriminate.
Qed.
Print Assumptions autocorrelation_procedure_refuted.

(** C105, C106. What is saved, read by the analysis: for each time difference, the data are the recorded values, in order. *)
Theorem autocorrelation_read_back : forall show float round timestep minimumTime (runs : list (string * state)), prints_as show float (fun x => x) -> timestep <> 0 -> runs <> [] ->
  (forall r, In r runs -> exists f particleCount measurementTime snapshotCount contents current calls, f <> Triplets /\ sound f particleCount /\ (0 < snapshotCount)%nat /\
     millionth <= measurementTime / qn snapshotCount /\ (forall c, In c calls -> 0 <= fst c) /\ ordered calls /\
     measures f particleCount measurementTime calls (fresh contents current snapshotCount) (snd r)) ->
  (forall r, In r runs -> fst (saved show (fst r) (snd r)) = fst r ++ "/velocityAutocorrelations.data")%string /\
  exists s, vac_read float round minimumTime timestep (map (fun r => snd (saved show (fst r) (snd r))) runs) = Ok s /\
    forall n, let data := lag_data round timestep minimumTime (flat_map (fun r => autocorrelations (snd r)) runs) n in
      (data = [] -> vac_get s (qz n * timestep) = Err ValueError) /\ (data <> [] -> vac_get s (qz n * timestep) = Ok (fold_left ddda_add data ddda_new)).
Proof.
  intros show float round dt m runs P D Hn H. split; [reflexivity|].
  destruct (vac_made round dt m (map (fun r => autocorrelations (snd r)) runs) D) as (s & E & _ & G).
  - destruct runs; [congruence|discriminate].
  - intros l e L I. apply in_map_iff in L. destruct L as (r & <- & R). destruct (H r R) as (f & N & mt & c & contents & cur & calls & A1 & A2 & A3 & A4 & A5 & A6 & A7).
    destruct (autocorrelation_bounds f N mt c contents cur calls (snd r) A1 A2 A3 A4 A5 A6 A7) as (B & _). destruct e as ((t1, t2), x).
    destruct (B t1 t2 x I) as (i & j & c1 & c2 & _ & _ & _ & _ & _ & _ & Q1 & Q2 & _). split; assumption.
  - exists s. split.
    + unfold vac_read. assert (M : map (fun r : string * state => snd (saved show (fst r) (snd r))) runs = map (text_of show) (map (fun r => autocorrelations (snd r)) runs))
        by (rewrite map_map; reflexivity). rewrite M, (parsed_texts show float P). exact E.
    + intros n data. specialize (G n). cbv zeta in G. rewrite <- flat_map_concat_map in G. fold data in G.
      split; intros X; rewrite G; [rewrite X; reflexivity|]. destruct (Nat.eqb_spec (length data) 0) as [Z0|Z0]; [apply length_zero_iff_nil in Z0; congruence|reflexivity].
Qed.
Print Assumptions autocorrelation_read_back.
Example autocorrelation_read_back_ex :
  let calls := [(0, fun _ => qz 2); (qz 1, fun _ => qz 3); (qz 2, fun _ => qz 5)] in
  let data := lag_data (fun x => Z.quot (Qnum (this x)) 1) 1 0 (records false (fluid_correlation Simple 2) 2 (qz 1) [] calls) in
  forallb (fun e => qeqb (fst e) (snd e)) (combine (data 0%Z) [qz 12; qz 27; qz 75]) = true /\ length (data 0%Z) = 3%nat /\
  forallb (fun e => qeqb (fst e) (snd e)) (combine (data 1%Z) [qz 18; qz 45]) = true /\ length (data 1%Z) = 2%nat /\ length (data 2%Z) = 0%nat.
Proof. vm_compute. repeat split; reflexivity. Qed.

(** C106. The table: one line for each time difference with data, in increasing order, with their mean, standard error and number; if there is a time difference with a single datum,
    the script fails.  Without [--saveFilename], only the metadata are written. *)
Theorem autocorrelation_script : forall float round str str_root show timestep minimumTime (rundirs : list (string * list (Qc * Qc * Qc))) meta,
  prints_as show float (fun x => x) -> timestep <> 0 -> rundirs <> [] -> (forall r e, In r rundirs -> In e (snd r) -> in_order e) ->
  let data := lag_data round timestep minimumTime (concat (map snd rundirs)) in
  let dirs := map (fun r => (fst r, String.concat "" (map (autocorrelation_row show) (snd r)))) rundirs in
  let info := match meta with None => [] | Some name => [(name, metadata (map fst rundirs))] end in
  script float round str str_root dirs timestep minimumTime None meta = Ok (0%Z, info) /\
  forall save,
  ((forall n, length (data n) <> 1%nat) ->
   exists times lines, StronglySorted (fun a b => a < b) times /\ (forall t, In t times <-> exists n, t = qz n * timestep /\ data n <> []) /\
     Forall2 (table_line str str_root (fun D e => optimalStandardError_squared (fold_left ddda_add D ddda_new) = Ok e) data timestep) times lines /\
     script float round str str_root dirs timestep minimumTime (Some save) meta = Ok (0%Z, (save, (table_header ++ String.concat "" lines)%string) :: info)) /\
  ((exists n, length (data n) = 1%nat) -> script float round str str_root dirs timestep minimumTime (Some save) meta = Err RuntimeError).
Proof. intros float round str str_root show dt m rundirs meta P D. exact (script_runs float round str str_root show P dt m D rundirs meta). Qed.
Print Assumptions autocorrelation_script.
(** Without run directories, the exit status is 1 and nothing is written; a line that does not have three numbers is an error. *)
Theorem autocorrelation_script_errors : forall float round str str_root timestep minimumTime save meta,
  script float round str str_root [] timestep minimumTime save meta = Ok (1%Z, []) /\
  forall rundirs r line, In r rundirs -> In line (VtfPyModel.keep_lines (snd r)) -> (forall a b c x y z, words is_ws line = [a; b; c] -> float a = Some x -> float b = Some y -> float c = Some z -> False) ->
  script float round str str_root rundirs timestep minimumTime save meta = Err ValueError.
Proof.
  intros float round str str_root dt m save meta. split; [reflexivity|]. intros rundirs r line R L B. unfold script.
  destruct rundirs as [|r0 rs]; [destruct R|]. cbn [length Nat.eqb]. set (dirs := r0 :: rs) in *.
  assert (E : vac_read float round m dt (map snd dirs) = Err ValueError); [|rewrite E; reflexivity].
  unfold vac_read.
  assert (FE : forall l, floats float l = Err ValueError \/ exists x, floats float l = Ok x /\ Forall2 (fun w q => float w = Some q) l x).
  { induction l as [|w l IH]; [right; exists []; split; [reflexivity|constructor]|]. cbn [floats]. destruct (float w) as [q|] eqn:F; [|left; reflexivity].
    destruct IH as [->|(x & -> & F2)]; [left; reflexivity|right]. exists (q :: x). split; [reflexivity|constructor; assumption]. }
  assert (PE : forall l, parsed float l = Err ValueError \/ exists x, parsed float l = Ok x /\ forall line, In line l -> exists y, In y x /\ floats float (words is_ws line) = Ok y).
  { induction l as [|w l IH]; [right; exists []; split; [reflexivity|intros line' []]|]. cbn [parsed].
    destruct (FE (words is_ws w)) as [->|(x & X & _)]; [left; reflexivity|]. rewrite X. cbn [bind]. destruct IH as [->|(y & -> & Y)]; [left; reflexivity|right].
    exists (x :: y). split; [reflexivity|]. intros l' [->|I]; [exists x; split; [left; reflexivity|exact X]|]. destruct (Y l' I) as (z & Z1 & Z2). exists z. split; [right; exact Z1|exact Z2]. }
  assert (FI : forall l, parsed_files float l = Err ValueError \/ exists x, parsed_files float l = Ok x /\ forall c line, In c l -> In line (VtfPyModel.keep_lines c) -> exists f y, In f x /\ In y f /\ floats float (words is_ws line) = Ok y).
  { induction l as [|c l IH]; [right; exists []; split; [reflexivity|intros c line' []]|]. cbn [parsed_files].
    destruct (PE (VtfPyModel.keep_lines c)) as [->|(x & -> & X)]; [left; reflexivity|]. cbn [bind]. destruct IH as [->|(y & -> & Y)]; [left; reflexivity|right].
    exists (x :: y). split; [reflexivity|]. intros c' l' [->|I] J.
    - destruct (X l' J) as (z & Z1 & Z2). exists x, z. split; [left; reflexivity|]. split; assumption.
    - destruct (Y c' l' I J) as (f & z & Z0 & Z1 & Z2). exists f, z. split; [right; exact Z0|]. split; assumption. }
  destruct (FI (map snd dirs)) as [->|(x & -> & X)]; [reflexivity|]. cbn [bind].
  destruct (X (snd r) line) as (f & y & F1 & F2 & F3); [apply in_map; exact R|exact L|].
  assert (BAD : forall t1 t2 v, y <> [t1; t2; v]).
  { intros t1 t2 v ->. destruct (FE (words is_ws line)) as [Q|(q & Q & F)]; [congruence|]. rewrite F3 in Q. injection Q as <-.
    inversion F as [|w1 q1 l1 m1 G1 F' E1 E2]; subst. inversion F' as [|w2 q2 l2 m2 G2 F'' E3 E4]; subst. inversion F'' as [|w3 q3 l3 m3 G3 F3' E5 E6]; subst. inversion F3'; subst.
    apply (B w1 w2 w3 t1 t2 v); auto. }
  assert (LE : forall s l, (exists s', vac_line round s l = Ok s') \/ vac_line round s l = Err ValueError).
  { intros s l. unfold vac_line. destruct l as [|a [|b [|c [|d l]]]]; auto. destruct (MeasModel.qltb b (v_min s)); [left; eauto|]. unfold getDeltaT.
    destruct (_ || _); [right; reflexivity|left; cbn [bind]; eauto]. }
  assert (NE : forall ls s, In y ls -> vac_parse round s ls = Err ValueError).
  { induction ls as [|l ls IH]; intros s I; [destruct I|]. cbn [vac_parse]. destruct I as [->|I].
    - assert (Q : vac_line round s y = Err ValueError) by (unfold vac_line; destruct y as [|a [|b [|c [|d y]]]]; try reflexivity; exfalso; exact (BAD a b c eq_refl)). rewrite Q. reflexivity.
    - destruct (LE s l) as [(s' & ->)| ->]; [cbn [bind]; apply IH; exact I|reflexivity]. }
  unfold vac_new. destruct x as [|x0 xs]; [destruct F1|]. apply NE. apply in_concat. exists f. auto.
Qed.
Print Assumptions autocorrelation_script_errors.
Example autocorrelation_script_ex :
  let float := fun s => if String.eqb s "0" then Some 0 else if String.eqb s "1" then Some 1 else if String.eqb s "5" then Some (qz 5) else if String.eqb s "7" then Some (qz 7) else None in
  let str := fun x => if qeqb x 0 then "0" else if qeqb x (qz 6) then "6" else "?" in
  let tab := String "009" "" in
  script float (fun x => 0%Z) str (fun e => if qeqb e 1 then "1" else "?") [("run", ("0" ++ tab ++ "0" ++ tab ++ "5" ++ eol ++ "1" ++ tab ++ "1" ++ tab ++ "7" ++ eol)%string)] 1 0 (Some "t") (Some "m")
  = Ok (0%Z, [("t", (table_header ++ "0" ++ tab ++ "6" ++ tab ++ "1" ++ tab ++ "2" ++ tab ++ eol)%string); ("m", ("{""runDirectories"": [" ++ eol ++ """run""]" ++ eol ++ "}")%string)]) /\
  script float (fun x => 0%Z) str (fun e => "?") [("run", ("0" ++ tab ++ "0" ++ tab ++ "5" ++ eol)%string)] 1 0 (Some "t") None = Err RuntimeError /\
  script float (fun x => 0%Z) str (fun e => "?") [("run", ("0" ++ tab ++ "0" ++ eol)%string)] 1 0 (Some "t") None = Err ValueError.
Proof. vm_compute. repeat split; reflexivity. Qed.

(** C106. The first line of the table, and the metadata: the names in quotation marks, separated by commas. *)
Theorem autocorrelation_texts : 
  (let tab := String "009" "" in table_header = ("#correlation-time" ++ tab ++ "mean-autocorrelation" ++ tab ++ "DDDA-optimal-standard-error-of-the-mean" ++ tab ++ "sample-size" ++ eol)%string) /\
  forall rundirs, metadata rundirs = ("{""runDirectories"": [" ++ eol ++ String.concat "," (map (fun r => """" ++ r ++ """") rundirs) ++ "]" ++ eol ++ "}")%string.
Proof.
  split; [reflexivity|]. intros l. unfold metadata.
  assert (Q : forall l, quoted true l = String.concat "," (map (fun r => """" ++ r ++ """")%string l)); [|rewrite Q; reflexivity].
  assert (F : forall l, l <> [] -> quoted false l = ("," ++ quoted true l)%string) by (intros [|r r']; [congruence|reflexivity]).
  intros m. induction m as [|r m IH]; [reflexivity|]. destruct m as [|r' m]; [reflexivity|].
  change (quoted true (r :: r' :: m)) with ("""" ++ r ++ """" ++ quoted false (r' :: m))%string. rewrite F by discriminate. rewrite IH.
  change (String.concat "," (map (fun r => """" ++ r ++ """")%string (r :: r' :: m))) with (("""" ++ r ++ """") ++ "," ++ String.concat "," (map (fun r => """" ++ r ++ """")%string (r' :: m)))%string.
  rewrite !str_app_assoc. reflexivity.
Qed.
Print Assumptions autocorrelation_texts.
Example autocorrelation_texts_ex : metadata ["a"; "b"] = ("{""runDirectories"": [" ++ eol ++ """a"",""b""]" ++ eol ++ "}")%string.
Proof. reflexivity. Qed.

(** C106. That [--metadataFilename] is ignored without [--saveFilename], as the help says, is not true; nor do the metadata determine the run directories. *)
Theorem autocorrelation_metadata_refuted : forall float round str str_root,
  (exists rundirs name text, script float round str str_root rundirs 1 0 None (Some name) = Ok (0%Z, [(name, text)])) /\
  (exists a b, a <> b /\ metadata a = metadata b).
Proof.
  intros float round str str_root. split.
  - exists [("run", "")], "metadata", (metadata ["run"]). reflexivity.
  - exists ["a"; "b"], ["a"",""b"]. split; [discriminate|reflexivity].
Qed.
Print Assumptions autocorrelation_metadata_refuted.
