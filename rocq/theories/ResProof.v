From Coq Require Import List ZArith Bool Lia Permutation Sorted.
From Verif Require Import CuModel CuProof ResModel ResSpec.
Import ListNotations.
Open Scope Z_scope.

Lemma set_count_in p l : set_count p l = true <-> In p l.
Proof. unfold set_count. rewrite existsb_exists. split; [intros (x & H & E); apply Z.eqb_eq in E; now subst|intros H; exists p; split; [exact H|apply Z.eqb_refl]]. Qed.
Lemma set_count_out p l : set_count p l = false <-> ~ In p l.
Proof. rewrite <- set_count_in. destruct (set_count p l); split; congruence. Qed.
Lemma insert_in p q l : In q (set_insert p l) <-> q = p \/ In q l.
Proof.
  induction l as [|a l IH]; cbn; [intuition|]. destruct (Z.ltb_spec p a); [cbn; intuition|]. destruct (Z.eqb_spec p a); cbn.
  - subst. intuition.
  - rewrite IH. intuition.
Qed.
Lemma insert_sorted p l : StronglySorted Z.lt l -> StronglySorted Z.lt (set_insert p l).
Proof.
  induction l as [|a l IH]; intros H; cbn; [constructor; [constructor|constructor]|]. inversion H; subst.
  destruct (Z.ltb_spec p a).
  - constructor; [exact H|]. constructor; [exact H0|]. eapply Forall_impl; [|eassumption]. intros x Hx; cbn in Hx. lia.
  - destruct (Z.eqb_spec p a); [exact H|]. constructor; [auto|]. apply Forall_forall. intros q Hq. apply insert_in in Hq.
    rewrite Forall_forall in H3. destruct Hq as [->|Hq]; [lia|auto].
Qed.
Lemma insert_perm p l : ~ In p l -> Permutation (set_insert p l) (p :: l).
Proof.
  induction l as [|a l IH]; intros H; cbn; [reflexivity|]. destruct (Z.ltb_spec p a); [reflexivity|].
  destruct (Z.eqb_spec p a) as [->|]; [exfalso; apply H; now left|].
  rewrite IH by (intros G; apply H; now right). constructor.
Qed.
Lemma sorted_nodup l : StronglySorted Z.lt l -> NoDup l.
Proof.
  induction 1 as [|a l Hs IH F]; constructor; [|exact IH]. intros H. rewrite Forall_forall in F. specialize (F a H). lia.
Qed.
Lemma filter_sorted f l : StronglySorted Z.lt l -> StronglySorted Z.lt (filter f l).
Proof.
  induction 1 as [|a l Hs IH F]; cbn; [constructor|]. destruct (f a); [|exact IH]. constructor; [exact IH|].
  apply Forall_forall. intros x Hx. apply filter_In in Hx. rewrite Forall_forall in F. now apply F.
Qed.
Lemma erase_perm p l : StronglySorted Z.lt l -> In p l -> Permutation (p :: set_erase p l) l.
Proof.
  intros H. apply sorted_nodup in H. induction l as [|a l IH]; intros Hi; [contradiction|]. inversion H; subst. unfold set_erase in *. cbn [filter].
  destruct (Z.eqb_spec p a) as [->|Hn]; cbn.
  - constructor. replace (filter _ l) with l; [reflexivity|]. symmetry.
    clear IH Hi H H3. induction l as [|b l IH]; [reflexivity|]. cbn. destruct (Z.eqb_spec a b); cbn.
    + subst. exfalso. apply H2. now left.
    + f_equal. apply IH. intros G. apply H2. now right.
  - destruct Hi as [Hi|Hi]; [congruence|]. etransitivity; [apply perm_swap|]. constructor. auto.
Qed.
Lemma is_live_in r p : is_live r p = true <-> In p (map fst (live r)).
Proof.
  unfold is_live. rewrite existsb_exists, in_map_iff. split.
  - intros (a & H & E). apply Z.eqb_eq in E. eauto.
  - intros (a & E & H). exists a. split; [exact H|]. now apply Z.eqb_eq.
Qed.
Lemma device_in r p n : In (p, n) (live r) -> 0 < n -> isDeviceMemoryPointer r p = true.
Proof. intros H Hn. unfold isDeviceMemoryPointer. apply existsb_exists. exists (p, n). split; [exact H|]. cbn. apply andb_true_intro. split; [apply Z.leb_le|apply Z.ltb_lt]; lia. Qed.

(** What holds after each call. *)
Definition inv (r0 : runtime) (m : manager) (r : runtime) (os : list outcome) : Prop :=
  StronglySorted Z.lt (allocatedBuffers m) /\
  (forall p, In p (allocatedBuffers m) -> p <> 0 /\ exists n, 0 < n /\ In (p, n) (live r)) /\
  invalid r = invalid r0 /\
  exists l, released r = released r0 ++ l /\ Permutation (l ++ allocatedBuffers m) (obtained os).

Lemma obtained_snoc os o : obtained (os ++ [o]) = obtained os ++ obtained [o].
Proof. unfold obtained. apply flat_map_app. Qed.
Lemma keeps_live (p q n : Z) l : In (q, n) l -> p <> q -> In (q, n) (filter (fun a => negb (Z.eqb (fst a) p)) l).
Proof. intros H N. apply filter_In. split; [exact H|]. cbn. destruct (Z.eqb_spec q p); [congruence|reflexivity]. Qed.

(** Freeing one of the buffers. *)
Lemma free_ok debug r0 m r os p : inv r0 m r os -> In p (allocatedBuffers m) ->
  exists r', freeMemory debug p m r = (Manager (set_erase p (allocatedBuffers m)) (autofree m), r', Done) /\
  released r' = released r ++ [p] /\ live r' = filter (fun a => negb (Z.eqb (fst a) p)) (live r) /\ invalid r' = invalid r.
Proof.
  intros (Hs & Hl & Hi & _) Hp. destruct (Hl p Hp) as (N0 & n & Hn & In').
  unfold freeMemory, freeMemoryUnregistered. rewrite (proj2 (Z.eqb_neq p 0) N0).
  rewrite (proj2 (set_count_in p _) Hp). cbn [negb]. rewrite (device_in r p n In' Hn). cbn [negb]. rewrite andb_false_r.
  unfold cudaFree. rewrite (proj2 (Z.eqb_neq p 0) N0), (proj2 (is_live_in r p)); [|apply in_map_iff; now exists (p, n)].
  eexists. split; [reflexivity|]. split; [reflexivity|]. split; reflexivity.
Qed.
Lemma step debug r0 m r os c : inv r0 m r os -> honest c m r ->
  let '(m', r', o) := perform debug c m r in inv r0 m' r' (os ++ [o]).
Proof.
  intros Iv H. pose proof Iv as (Hs & Hl & Hi & l & Hr & Hp).
  assert (Idem : forall o, obtained [o] = [] -> inv r0 m r (os ++ [o])).
  { intros o E. split; [exact Hs|]. split; [exact Hl|]. split; [exact Hi|]. exists l. split; [exact Hr|]. now rewrite obtained_snoc, E, app_nil_r. }
  destruct c as [size count answer|p|b|others]; cbn [perform].
  - unfold allocateMemory, allocateMemoryInternal. set (bytes := u64 _).
    assert (Hb : 0 <= bytes) by (unfold bytes, u64; apply Z.mod_pos_bound; lia).
    destruct (Z.eqb_spec bytes 0) as [|Nb]; [now apply Idem|].
    unfold allocateMemoryInternalUnregistered. rewrite (proj2 (Z.eqb_neq bytes 0) Nb). destruct answer as [p|]; [|now apply Idem].
    cbn in H. destruct H as [N0 Fr]. rewrite (proj2 (Z.eqb_neq p 0) N0), andb_false_r.
    assert (Out : ~ In p (allocatedBuffers m)).
    { intros G. destruct (Hl p G) as (_ & n & _ & In'). apply Fr. apply in_map_iff. now exists (p, n). }
    rewrite (proj2 (set_count_out p _) Out), andb_false_r.
    split; [now apply insert_sorted|]. split; [|split; [exact Hi|]].
    + cbn [allocatedBuffers live]. intros q Hq. apply insert_in in Hq. destruct Hq as [->|Hq].
      * split; [exact N0|]. exists bytes. split; [lia|now left].
      * destruct (Hl q Hq) as (A & n & B & C). split; [exact A|]. exists n. split; [exact B|now right].
    + exists l. split; [exact Hr|]. cbn [allocatedBuffers]. rewrite obtained_snoc. cbn [obtained flat_map].
      rewrite (proj2 (Z.eqb_neq p 0) N0). cbn [app]. rewrite (insert_perm p _ Out).
      rewrite <- Permutation_middle. rewrite Hp. apply Permutation_cons_append.
  - destruct (Z.eq_dec p 0) as [->|N0]; [unfold freeMemory; rewrite Z.eqb_refl; now apply Idem|].
    destruct (in_dec Z.eq_dec p (allocatedBuffers m)) as [Hin|Hout].
    + destruct (free_ok debug r0 m r os p Iv Hin) as (r' & E & E1 & E2 & E3). rewrite E.
      split; [now apply filter_sorted|]. split; [|split; [congruence|]].
      * cbn [allocatedBuffers]. intros q Hq. apply filter_In in Hq. destruct Hq as [Hq Nq]. destruct (Hl q Hq) as (A & n & B & C).
        split; [exact A|]. exists n. split; [exact B|]. rewrite E2. apply keeps_live; [exact C|]. intros ->. now rewrite Z.eqb_refl in Nq.
      * exists (l ++ [p]). split; [rewrite E1, Hr; now rewrite app_assoc|]. rewrite obtained_snoc. cbn [obtained flat_map]. rewrite !app_nil_r.
        rewrite <- Hp, <- app_assoc. apply Permutation_app_head. now apply erase_perm.
    + unfold freeMemory. rewrite (proj2 (Z.eqb_neq p 0) N0), (proj2 (set_count_out p _) Hout). cbn [negb]. now apply Idem.
  - split; [exact Hs|]. split; [exact Hl|]. split; [exact Hi|]. exists l. split; [exact Hr|]. rewrite obtained_snoc. cbn [obtained flat_map]. now rewrite app_nil_r.
  - split; [exact Hs|]. split; [|split; [exact Hi|]].
    + intros q Hq. destruct (Hl q Hq) as (A & n & B & C). split; [exact A|]. exists n. split; [exact B|]. cbn [live].
      apply in_or_app. left. apply filter_In. split; [exact C|]. now apply set_count_in.
    + exists l. split; [exact Hr|]. rewrite obtained_snoc. cbn [obtained flat_map]. now rewrite app_nil_r.
Qed.
Lemma steps debug r0 cs : forall m r os, inv r0 m r os -> all_honest debug cs m r ->
  let '(m', r', os') := perform_all debug cs m r in inv r0 m' r' (os ++ os').
Proof.
  induction cs as [|c cs IH]; intros m r os Iv H; cbn [perform_all].
  - now rewrite app_nil_r.
  - cbn [all_honest] in H. destruct H as [Hc H]. pose proof (step debug r0 m r os c Iv Hc) as P.
    destruct (perform debug c m r) as [[m1 r1] o]. specialize (IH m1 r1 (os ++ [o]) P H).
    destruct (perform_all debug cs m1 r1) as [[m2 r2] os2]. now rewrite <- app_assoc in IH.
Qed.
Lemma inv_start r0 : inv r0 manager_new r0 [].
Proof. split; [constructor|]. split; [intros p []|]. split; [reflexivity|]. exists []. now rewrite app_nil_r. Qed.
Lemma delete_all l : forall r, NoDup l -> (forall p, In p l -> p <> 0 /\ In p (map fst (live r))) ->
  let r' := fold_left (fun r p => fst (cudaFree p r)) l r in released r' = released r ++ l /\ invalid r' = invalid r.
Proof.
  induction l as [|p l IH]; intros r N H; cbn [fold_left].
  - now rewrite app_nil_r.
  - inversion N; subst. destruct (H p (or_introl eq_refl)) as [N0 L].
    unfold cudaFree at 2 4. rewrite (proj2 (Z.eqb_neq p 0) N0), (proj2 (is_live_in r p) L). cbn [fst].
    destruct (IH (Runtime (filter (fun a => negb (Z.eqb (fst a) p)) (live r)) (released r ++ [p]) (invalid r)) H3) as [E1 E2].
    + intros q Hq. destruct (H q (or_intror Hq)) as [A B]. split; [exact A|]. apply in_map_iff in B. destruct B as ([q' n] & <- & B). cbn in *.
      apply in_map_iff. exists (q', n). split; [reflexivity|]. apply keeps_live; [exact B|]. congruence.
    + split; [rewrite E1; cbn; now rewrite <- app_assoc|exact E2].
Qed.
Lemma delete_ok r0 m r os : inv r0 m r os ->
  let '(r', printed) := manager_delete m r in
  exists l, released r' = released r0 ++ l /\ Permutation (l ++ printed) (obtained os) /\ invalid r' = invalid r0 /\
  StronglySorted Z.lt printed /\ (autofree m = true -> printed = []) /\ (autofree m = false -> r' = r).
Proof.
  intros (Hs & Hl & Hi & l & Hr & Hp). unfold manager_delete. destruct (allocatedBuffers m) as [|a bs] eqn:Eb.
  - exists l. repeat (split; [assumption || reflexivity || constructor|]). split; reflexivity || (intros; reflexivity).
  - destruct (autofree m) eqn:Ea.
    + destruct (delete_all (a :: bs) r) as [E1 E2].
      * now apply sorted_nodup.
      * intros p Hp'. destruct (Hl p Hp') as (A & n & _ & B). split; [exact A|]. apply in_map_iff. now exists (p, n).
      * exists (l ++ a :: bs). split; [rewrite E1, Hr; now rewrite app_assoc|]. rewrite app_nil_r. split; [exact Hp|]. split; [congruence|].
        split; [constructor|]. split; [reflexivity|discriminate].
    + exists l. split; [exact Hr|]. split; [exact Hp|]. split; [exact Hi|]. split; [exact Hs|]. split; [discriminate|reflexivity].
Qed.
Lemma free_any debug r0 m r os : inv r0 m r os ->
  exists l, released r = released r0 ++ l /\ forall p, p <> 0 ->
  if Nat.ltb (count_occ Z.eq_dec l p) (count_occ Z.eq_dec (obtained os) p)
  then exists m' r', freeMemory debug p m r = (m', r', Done) /\ released r' = released r ++ [p]
  else freeMemory debug p m r = (m, r, Thrown MemoryManagementException).
Proof.
  intros Iv. pose proof Iv as (Hs & Hl & Hi & l & Hr & Hp). exists l. split; [exact Hr|]. intros p N0.
  pose proof (proj1 (Permutation_count_occ Z.eq_dec _ _) Hp p) as E. rewrite count_occ_app in E.
  destruct (in_dec Z.eq_dec p (allocatedBuffers m)) as [Hin|Hout].
  - pose proof (proj1 (count_occ_In Z.eq_dec _ p) Hin). destruct (Nat.ltb_spec (count_occ Z.eq_dec l p) (count_occ Z.eq_dec (obtained os) p)); [|lia].
    destruct (free_ok debug r0 m r os p Iv Hin) as (r' & F & F1 & _). eauto.
  - pose proof (proj1 (count_occ_not_In Z.eq_dec _ p) Hout). destruct (Nat.ltb_spec (count_occ Z.eq_dec l p) (count_occ Z.eq_dec (obtained os) p)); [lia|].
    unfold freeMemory. rewrite (proj2 (Z.eqb_neq p 0) N0), (proj2 (set_count_out p _) Hout). reflexivity.
Qed.
