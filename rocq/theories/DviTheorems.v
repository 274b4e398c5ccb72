(** Theorems about interactions of star polymers in device memory. *)
From Coq Require Import List ZArith Bool Lia Reals.
From Verif Require Import PotModel StarModel StarSpec StarMdProof ResModel ResProof DviModel DviSpec DviProof.
Import ListNotations.
Open Scope Z_scope.

(** C126: what is created: for each pair of types, in either order, the array of potentials leads to the one of the documented mixing rules,
    and so for bonds; ten objects and three arrays are new, and [destroyInteractionsOnDevice] can be called. Where there is no
    bond, the pointer is NULL in debug builds, and is not set otherwise. *)
Theorem interactions_created : forall debug p answers new d w f m, strengths_nonneg p ->
  answers 0%nat = Some w -> answers 1%nat = Some f -> answers 2%nat = Some m -> arrays_fit (live (memory d)) w f m -> objects_fit (objects d) new ->
  exists d' l x, createInteractionsOnDevice debug p answers new d = (d', Created w f m) /\
    (forall t u, finds d' (slot w (t, u)) (mixed_wca p t u)) /\
    (forall t u, bondable t u -> finds d' (slot f (t, u)) (mixed_fene p t u)) /\
    (forall t u, ~ bondable t u -> pointers d' (slot f (t, u)) = if debug then Some 0 else None) /\
    finds d' m (dipoles p) /\
    objects d' = x ++ objects d /\ length x = 10%nat /\ live (memory d') = [(m, 8); (f, 48); (w, 48)] ++ live (memory d) /\
    faults d' = faults d /\ owns debug w f m l d'.
Proof.
  intros debug p answers new d w f m H A0 A1 A2 AF OF.
  destruct (create_ok debug p answers new d w f m H A0 A1 A2 AF) as (d' & E & M & O & F & P & U & _).
  exists d', (ten new), (things p new). split; [exact E|].
  assert (NZ : forall i, (i < 10)%nat -> new i <> 0) by (intros i L; apply (OF i L)).
  pose proof P as P'. unfold slots, slot, ten in P'. cbn [map pairs_of_types bonds_of_types app fst snd] in P'.
  injection P' as Q0 Q1 Q2 Q3 Q4 Q5 Q6 Q7 Q8 Q9.
  assert (SW : forall t u, mixed_wca p t u = mixed_wca p u t).
  { intros t u. unfold mixed_wca. now rewrite (Rmult_comm (epsilon p t)), (Rplus_comm (sigma p t)), (Rplus_comm (D p t)). }
  assert (SF : forall t u, mixed_fene p t u = mixed_fene p u t).
  { intros t u. unfold mixed_fene. now rewrite (Rmult_comm (epsilon p t)), (Rplus_comm (sigma p t)), (Rplus_comm (D p t)). }
  assert (FI : forall c i x, pointers d' c = Some (new i) -> (i < 10)%nat -> In (new i, x) (things p new) -> finds d' c x).
  { intros c i x E1 L I. exists (new i). split; [exact E1|]. split; [now apply NZ|]. rewrite O. apply in_app_iff. now left. }
  split.
  { intros t u. unfold slot. cbn [fst snd].
    destruct t, u; try rewrite (index_sym TArm TCore), (SW TArm TCore); try rewrite (index_sym TMagnetic TCore), (SW TMagnetic TCore);
      try rewrite (index_sym TMagnetic TArm), (SW TMagnetic TArm); (eapply FI; [eassumption|lia|cbn; tauto]). }
  split.
  { intros t u B. unfold slot. cbn [fst snd].
    destruct t, u; try (exfalso; destruct B; discriminate); try rewrite (index_sym TArm TCore), (SF TArm TCore);
      try rewrite (index_sym TMagnetic TArm), (SF TMagnetic TArm); (eapply FI; [eassumption|lia|cbn; tauto]). }
  split; [exact U|]. split; [eapply FI; [exact Q9|lia|cbn; tauto]|]. split; [exact O|]. split; [reflexivity|]. split; [now rewrite M|]. split; [exact F|].
  destruct AF as ((W & _) & (F0 & RF) & (M0 & RM)).
  destruct (RF w 48 (or_introl eq_refl)) as [NF _]. destruct (RM f 48 (or_introl eq_refl)) as [NM _]. destruct (RM w 48 (or_intror (or_introl eq_refl))) as [NM' _].
  split; [split; [|lia]|].
  { constructor; [cbn; intros [X|[X|[]]]; lia|]. constructor; [cbn; intros [X|[]]; lia|]. constructor; [intros []|constructor]. }
  split; [rewrite M; cbn [live]; cbn; tauto|]. split; [exact P|].
  assert (NE : forall i j, (i < 10)%nat -> (j < 10)%nat -> i <> j -> new i <> new j).
  { intros i j I J N. destruct (Nat.lt_ge_cases i j); [apply (OF j J); lia|]. intros X. symmetry in X. revert X. apply (OF i I). lia. }
  split. { unfold ten. cbn [map]. repeat constructor; cbn; repeat (intros [X|X]; [revert X; apply NE; lia|revert X]); intros []. }
  split. { unfold ten. cbn [map]. cbn. repeat (intros [X|X]; [revert X; apply NZ; lia|revert X]); intros []. }
  split. { intros a A. rewrite O, map_app, in_app_iff. left. unfold ten, things in *. cbn in *. tauto. }
  intros -> t u B. now rewrite U.
Qed.
Print Assumptions interactions_created.
(** The hypotheses hold, with room for everything. *)
Example interactions_created_example : arrays_fit (live (memory empty_device)) 1000 1064 1128 /\ objects_fit (objects empty_device) addresses /\ malloc 0 = Some 1000.
Proof.
  split; [|split; [|reflexivity]].
  - split; [split; [lia|intros q k []]|]. split; (split; [lia|]); intros q k; cbn; intros; repeat match goal with H : _ \/ _ |- _ => destruct H end; try contradiction;
      match goal with H : (_, _) = (_, _) |- _ => injection H as <- <- end; lia.
  - intros i L. unfold addresses. split; [lia|]. split; [intros []|]. intros j J. lia.
Qed.

(** C126: what is destroyed: with arrays as above, all assertions hold, each of the ten objects is deleted once, the three arrays are
    released once, and nothing else is touched. *)
Theorem interactions_destroyed : forall debug w f m l d, owns debug w f m l d ->
  exists d', destroyInteractionsOnDevice debug w f m d = (d', Done) /\
    objects d' = without l (objects d) /\ live (memory d') = without [w; f; m] (live (memory d)) /\
    released (memory d') = released (memory d) ++ [w; f; m] /\ faults d' = faults d /\ invalid (memory d') = invalid (memory d).
Proof. intros debug w f m l d O. eexists. split; [exact (destroy_ok debug w f m l d O)|]. repeat split. Qed.
Print Assumptions interactions_destroyed.
Example interactions_destroyed_example :
  without [1; 3] [(1, 10); (2, 20); (3, 30); (4, 40)] = [(2, 20); (4, 40)].
Proof. reflexivity. Qed.

(** C126: nothing is left of interactions that have been created and destroyed. *)
Theorem interactions_leave_nothing : forall debug p answers new d w f m, strengths_nonneg p ->
  answers 0%nat = Some w -> answers 1%nat = Some f -> answers 2%nat = Some m -> arrays_fit (live (memory d)) w f m -> objects_fit (objects d) new ->
  exists d' d'', createInteractionsOnDevice debug p answers new d = (d', Created w f m) /\
    destroyInteractionsOnDevice debug w f m d' = (d'', Done) /\ unchanged d d''.
Proof.
  intros debug p answers new d w f m H A0 A1 A2 AF OF.
  destruct (interactions_created debug p answers new d w f m H A0 A1 A2 AF OF) as (d' & l & _ & E & _ & _ & _ & _ & _ & _ & _ & _ & OW).
  destruct (create_ok debug p answers new d w f m H A0 A1 A2 AF) as (d1 & E1 & M & O & F & P & _).
  rewrite E in E1. injection E1 as <-.
  assert (L : l = ten new).
  { destruct OW as (_ & _ & X & _). rewrite P in X. clear - X. revert X. generalize (ten new). intros k. revert k.
    induction l as [|a l IH]; intros [|b k] X; try discriminate; [reflexivity|]. cbn in X. injection X as -> X. f_equal. now apply IH. }
  subst l. exists d'. eexists. split; [reflexivity || exact E|]. split; [exact (destroy_ok debug w f m _ d' OW)|].
  unfold unchanged. cbn [memory objects faults live invalid]. rewrite O, M, F. cbn [live invalid].
  split; [|split; [|split; reflexivity]].
  - apply (without_app [(m, 8); (f, 48); (w, 48)] (live (memory d))).
    + destruct OW as ((N & _) & _). exact N.
    + right. cbn. tauto.
    + destruct AF as ((W & RW) & (F0 & RF) & (M0 & RM)). intros a A I. apply in_map_iff in I. destruct I as ([q k] & E1 & I). cbn in E1. subst q.
      destruct A as [<- |[<- |[<- |[]]]]; [destruct (RW w k I)|destruct (RF f k (or_intror I))|destruct (RM m k (or_intror (or_intror I)))]; congruence.
  - apply without_app.
    + now destruct OW as (_ & _ & _ & N & _).
    + right. intros a A. unfold ten, things in *. cbn in *. tauto.
    + intros a A. unfold ten in A. apply in_map_iff in A. destruct A as (i & <- & I). apply (OF i). cbn in I. repeat (destruct I as [<- |I]; [lia|]). destruct I.
Qed.
Print Assumptions interactions_leave_nothing.
(** In numbers, from an empty device, with and without debugging. *)
Definition run_example (debug : bool) : device * device :=
  match createInteractionsOnDevice debug plain malloc addresses empty_device with
  | (d, Created w f m) => (d, fst (destroyInteractionsOnDevice debug w f m d))
  | (d, NotCreated _) => (d, d)
  end.
Example interactions_leave_nothing_example : forall debug,
  (map fst (live (memory (fst (run_example debug)))), length (objects (fst (run_example debug))), faults (fst (run_example debug))) = ([1128; 1064; 1000], 10%nat, 0%nat) /\
  (live (memory (snd (run_example debug))), length (objects (snd (run_example debug))), faults (snd (run_example debug)), released (memory (snd (run_example debug)))) = ([], 0%nat, 0%nat, [1000; 1064; 1128]).
Proof. intros []; split; vm_compute; reflexivity. Qed.

(** C126: if the memory for an array cannot be had, an exception is thrown, and no object is created. *)
Theorem interactions_refused : forall debug p answers new d, (answers 0%nat = None \/ (exists w, answers 0%nat = Some w /\ 0 < w) /\ answers 1%nat = None \/
    (exists w f, answers 0%nat = Some w /\ answers 1%nat = Some f /\ 0 < w /\ 0 < f) /\ answers 2%nat = None) ->
  exists d', createInteractionsOnDevice debug p answers new d = (d', NotCreated MemoryManagementException) /\
    objects d' = objects d /\ faults d' = faults d /\
    live (memory d') = match answers 0%nat, answers 1%nat with
                       | Some w, Some f => [(f, 48); (w, 48)] | Some w, None => [(w, 48)] | None, _ => [] end ++ live (memory d).
Proof.
  intros debug p answers new d H. unfold createInteractionsOnDevice.
  destruct H as [-> | [((w & -> & W) & ->) | ((w & f & -> & -> & W & F) & ->)]].
  - rewrite array_fails by lia. eexists. split; [reflexivity|]. repeat split.
  - rewrite array_ok by lia. rewrite array_fails by lia. eexists. split; [reflexivity|]. repeat split.
  - rewrite array_ok by lia. rewrite array_ok by lia. rewrite array_fails by lia. eexists. split; [reflexivity|]. repeat split.
Qed.
Print Assumptions interactions_refused.
(** C126: then, arrays that were allocated before are not released. *)
Theorem interactions_refused_refuted : ~ (forall debug p answers new d d' e, createInteractionsOnDevice debug p answers new d = (d', NotCreated e) ->
  live (memory d') = live (memory d)).
Proof.
  intros H. specialize (H false plain (fun i => if Nat.eqb i 0 then Some 1000 else None) addresses empty_device).
  destruct (interactions_refused false plain (fun i => if Nat.eqb i 0 then Some 1000 else None) addresses empty_device) as (d' & E & _ & _ & L).
  - right. left. split; [exists 1000; split; [reflexivity|lia]|reflexivity].
  - specialize (H d' _ E). rewrite H in L. discriminate L.
Qed.
Print Assumptions interactions_refused_refuted.

(** C127: star polymers that have been constructed and destroyed leave nothing behind in device memory, and nothing is released twice. *)
Theorem stars_leave_nothing : forall debug size n p answers new d w f m, strengths_nonneg p -> sizes_ok size n ->
  (forall i, (i < 7)%nat -> answers i <> None) -> fits (size * n) (four answers) (live (memory d)) ->
  answers 0%nat = Some w -> answers 1%nat = Some f -> answers 2%nat = Some m ->
  arrays_fit (obtained (size * n) (four answers) (live (memory d))) w f m -> objects_fit (objects d) new ->
  exists d' s d'', construct debug size (Some n) (Some p) true answers new d = (d', Some s) /\ destruct debug s d' = (d'', Done) /\ unchanged d d''.
Proof.
  intros debug size n p answers new d w f m H SO AL FI A0 A1 A2 AF OF. unfold construct.
  fold (four answers). set (s0 := setAutofree true manager_new).
  destruct (allocate_all debug size n (four answers) s0 (memory d)) as [[s r] b] eqn:EA.
  destruct (allocate_all_ok debug size n (live (memory d)) SO (four answers) s0 (memory d) s r b (tracks_start _ _ eq_refl) FI EA) as (T & RR & RI & RL & B).
  assert (B' : b = true).
  { rewrite B. unfold four. cbn [forallb]. pose proof (AL 3%nat ltac:(lia)). pose proof (AL 4%nat ltac:(lia)). pose proof (AL 5%nat ltac:(lia)). pose proof (AL 6%nat ltac:(lia)).
    destruct (answers 3%nat), (answers 4%nat), (answers 5%nat), (answers 6%nat); reflexivity || congruence. }
  rewrite B'. clear B B' b EA.
  assert (AF' : arrays_fit (live (memory (with_memory r d))) w f m) by (cbn [with_memory memory]; rewrite RL; exact AF).
  destruct (interactions_leave_nothing debug p answers new (with_memory r d) w f m H A0 A1 A2 AF' OF) as (d1 & d2 & E1 & E2 & U1 & U2 & U3 & U4).
  rewrite E1. exists d1, (Star s w f m). unfold destruct. cbn [wcaPotentials fenePotentials magneticPotentials buffers]. rewrite E2.
  eexists. split; [reflexivity|]. split; [reflexivity|].
  destruct (memory d2) as [L2 R2 I2] eqn:M2. cbn [live invalid with_memory memory] in U1, U4. subst L2 I2.
  destruct (manager_gone s (live (memory d)) r T [] (fun a F => match F with end) R2 (invalid r)) as (rel & G). cbn [app] in G.
  unfold unchanged. cbn [with_memory memory objects faults]. rewrite G. cbn [live invalid].
  split; [reflexivity|]. split; [exact U2|]. split; [exact U3|]. exact RI.
Qed.
Print Assumptions stars_leave_nothing.
(** In numbers: two particles, of which the coordinates have eight bytes. *)
Definition stars_example (debug started : bool) (p : option parameters) : device * device :=
  match construct debug 8 (Some 6) p started malloc addresses empty_device with
  | (d, Some s) => (d, fst (destruct debug s d))
  | (d, None) => (d, d)
  end.
Example stars_leave_nothing_example : forall debug,
  (live (memory (fst (stars_example debug true (Some plain)))), length (objects (fst (stars_example debug true (Some plain))))) =
    ([(1128, 8); (1064, 48); (1000, 48); (1384, 48); (1320, 48); (1256, 48); (1192, 48)], 10%nat) /\
  (live (memory (snd (stars_example debug true (Some plain)))), length (objects (snd (stars_example debug true (Some plain)))),
   released (memory (snd (stars_example debug true (Some plain))))) = ([], 0%nat, [1000; 1064; 1128; 1192; 1256; 1320; 1384]).
Proof. intros []; split; vm_compute; reflexivity. Qed.

(** C127: nor does a constructor that throws before the interactions are created: because of settings, or as a buffer cannot be had. *)
Theorem stars_failed_early : forall debug size n p started answers new d, sizes_ok size n -> fits (size * n) (four answers) (live (memory d)) ->
  (p = None \/ exists i, (3 <= i < 7)%nat /\ answers i = None) ->
  exists d', construct debug size (Some n) p started answers new d = (d', None) /\ unchanged d d'.
Proof.
  intros debug size n p started answers new d SO FI C. unfold construct. fold (four answers). set (s0 := setAutofree true manager_new).
  destruct (allocate_all debug size n (four answers) s0 (memory d)) as [[s r] b] eqn:EA.
  destruct (allocate_all_ok debug size n (live (memory d)) SO (four answers) s0 (memory d) s r b (tracks_start _ _ eq_refl) FI EA) as (T & RR & RI & RL & B).
  assert (G : unchanged d (fst (unwound s (with_memory r d)))).
  { unfold unwound, unchanged. cbn [fst with_memory memory objects faults].
    destruct (manager_gone s (live (memory d)) r T [] (fun a F => match F with end) (released r) (invalid r)) as (rel & G). cbn [app] in G.
    replace (Runtime (live r) (released r) (invalid r)) with r in G by now destruct r. rewrite G. cbn [live invalid]. auto. }
  destruct b; [|eexists; split; [reflexivity|exact G]].
  destruct C as [-> | (i & I & N)]; [eexists; split; [reflexivity|exact G]|]. exfalso.
  unfold four in B. cbn [forallb] in B. assert (J : i = 3%nat \/ i = 4%nat \/ i = 5%nat \/ i = 6%nat) by lia.
  destruct J as [-> | [-> | [-> | ->]]]; rewrite N in B; rewrite ?andb_false_r in B; discriminate B.
Qed.
Print Assumptions stars_failed_early.
Example stars_failed_early_example : forall debug, live (memory (fst (stars_example debug true None))) = [] /\
  released (memory (fst (stars_example debug true None))) = [1192; 1256; 1320; 1384].
Proof. intros []; split; vm_compute; reflexivity. Qed.

(** C127: if the constructor throws afterwards, e.g. as a snapshot does not exist, all buffers are released, but neither the
    ten objects nor the three arrays. *)
Theorem stars_failed_late : forall debug size n p answers new d w f m, strengths_nonneg p -> sizes_ok size n ->
  (forall i, (i < 7)%nat -> answers i <> None) -> fits (size * n) (four answers) (live (memory d)) ->
  answers 0%nat = Some w -> answers 1%nat = Some f -> answers 2%nat = Some m ->
  arrays_fit (obtained (size * n) (four answers) (live (memory d))) w f m -> objects_fit (objects d) new ->
  exists d' x, construct debug size (Some n) (Some p) false answers new d = (d', None) /\
    live (memory d') = [(m, 8); (f, 48); (w, 48)] ++ live (memory d) /\ objects d' = x ++ objects d /\ length x = 10%nat.
Proof.
  intros debug size n p answers new d w f m H SO AL FI A0 A1 A2 AF OF. unfold construct.
  fold (four answers). set (s0 := setAutofree true manager_new).
  destruct (allocate_all debug size n (four answers) s0 (memory d)) as [[s r] b] eqn:EA.
  destruct (allocate_all_ok debug size n (live (memory d)) SO (four answers) s0 (memory d) s r b (tracks_start _ _ eq_refl) FI EA) as (T & RR & RI & RL & B).
  assert (B' : b = true).
  { rewrite B. unfold four. cbn [forallb]. pose proof (AL 3%nat ltac:(lia)). pose proof (AL 4%nat ltac:(lia)). pose proof (AL 5%nat ltac:(lia)). pose proof (AL 6%nat ltac:(lia)).
    destruct (answers 3%nat), (answers 4%nat), (answers 5%nat), (answers 6%nat); reflexivity || congruence. }
  rewrite B'. clear B B' b EA.
  assert (AF' : arrays_fit (live (memory (with_memory r d))) w f m) by (cbn [with_memory memory]; rewrite RL; exact AF).
  destruct (create_ok debug p answers new (with_memory r d) w f m H A0 A1 A2 AF') as (d1 & E1 & M & O & _). rewrite E1. unfold unwound.
  eexists. exists (things p new). split; [reflexivity|]. cbn [with_memory memory objects] in *. rewrite M.
  assert (X : forall a, In a (map fst [(m, 8); (f, 48); (w, 48)]) -> ~ In a (allocatedBuffers s)).
  { intros a A I. destruct T as (_ & _ & new0 & T3 & T4 & _). apply T4 in I.
    assert (I' : In a (map fst (live r))) by (rewrite T3, map_app, in_app_iff; now left).
    apply in_map_iff in I'. destruct I' as ([q k] & E2 & I'). cbn in E2. subst q. rewrite RL in I'. destruct AF as ((W & RW) & (F0 & RF) & (M0 & RM)).
    destruct A as [<- |[<- |[<- |[]]]]; [destruct (RM m k (or_intror (or_intror I')))|destruct (RF f k (or_intror I'))|destruct (RW w k I')]; congruence. }
  destruct (manager_gone s (live (memory d)) r T [(m, 8); (f, 48); (w, 48)] X (released r) (invalid r)) as (rel & G).
  cbn [app] in G. rewrite G. cbn [live]. repeat split. exact O.
Qed.
Print Assumptions stars_failed_late.
Example stars_failed_late_example : forall debug,
  (map fst (live (memory (fst (stars_example debug false (Some plain))))), length (objects (fst (stars_example debug false (Some plain)))),
   released (memory (fst (stars_example debug false (Some plain))))) = ([1128; 1064; 1000], 10%nat, [1192; 1256; 1320; 1384]).
Proof. intros []; vm_compute; reflexivity. Qed.
(** C127: so, not every failed construction leaves device memory as it was. *)
Theorem stars_failed_refuted : ~ (forall debug size n p started answers new d d', construct debug size n p started answers new d = (d', None) -> unchanged d d').
Proof.
  intros H. specialize (H false 8 (Some 6) (Some plain) false malloc addresses empty_device (fst (stars_example false false (Some plain)))).
  assert (E : construct false 8 (Some 6) (Some plain) false malloc addresses empty_device = (fst (stars_example false false (Some plain)), None)).
  { unfold stars_example. assert (X : snd (construct false 8 (Some 6) (Some plain) false malloc addresses empty_device) = None) by reflexivity.
    destruct (construct false 8 (Some 6) (Some plain) false malloc addresses empty_device) as [x [y|]]; [discriminate X|reflexivity]. }
  destruct (H E) as [L _]. apply (f_equal (@length _)) in L. vm_compute in L. discriminate L.
Qed.
Print Assumptions stars_failed_refuted.
