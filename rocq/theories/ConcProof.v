(** Proofs about concurrent additions. *)
From Coq Require Import List ZArith Bool Reals Lra Lia.
From Verif Require Import VecBase VecModel PartSpec SimModel SimSpec SimProof ConcModel ConcSpec.
Import ListNotations.
Open Scope R_scope.

Definition pending (ts : list thread) : list addition := flat_map todo ts.
Lemma added_app a l l' : added a (l ++ l') = added a l + added a l'.
Proof. unfold added. rewrite map_app. apply rsum_app. Qed.
Lemma added_cons a x l : added a (x :: l) = (if address_eq_dec (target x) a then amount x else 0) + added a l.
Proof. reflexivity. Qed.
Lemma write_eq m a v b : write m a v b = if address_eq_dec b a then v else m b.
Proof. reflexivity. Qed.
Lemma thread_step_sum m t m' t' : thread_step m t m' t' -> forall a, m' a + added a (todo t') = m a + added a (todo t).
Proof.
  intros H a. destruct H; cbn [todo]; try reflexivity; rewrite added_cons, write_eq; cbn [target amount];
  destruct (address_eq_dec a a0) as [->|N]; destruct (address_eq_dec a0 _) as [E|E]; try congruence; try lra.
Qed.
Lemma step_sum s s' : step s s' -> forall a, fst s' a + added a (pending (snd s')) = fst s a + added a (pending (snd s)).
Proof.
  intros H a. destruct H as [m m' t t' l r H]. cbn [fst snd]. unfold pending. rewrite !flat_map_app. cbn [flat_map].
  rewrite !added_app. pose proof (thread_step_sum _ _ _ _ H a). lra.
Qed.
Lemma steps_sum n s s' : steps n s s' -> forall a, fst s' a + added a (pending (snd s')) = fst s a + added a (pending (snd s)).
Proof. intros H a. induction H as [|n s s' s'' H H1 IH]; [reflexivity|]. rewrite IH. now apply step_sum. Qed.
Lemma pending_start ls : pending (map start ls) = concat ls.
Proof. induction ls as [|l ls IH]; [reflexivity|]. cbn. now rewrite <- IH. Qed.
Lemma finished_pending ts : finished ts -> pending ts = [].
Proof.
  induction ts as [|t ts IH]; intros H; [reflexivity|]. cbn. rewrite (H t) by now left. apply IH. intros u Hu. apply H. now right.
Qed.
Lemma conc_sum n m ls m' ts : steps n (m, map start ls) (m', ts) -> finished ts -> forall a, m' a = m a + added a (concat ls).
Proof.
  intros H F a. pose proof (steps_sum _ _ _ H a) as E. cbn [fst snd] in E. rewrite pending_start, (finished_pending ts F) in E.
  unfold added at 1 in E. cbn in E. lra.
Qed.
(** Termination. *)
Definition stage (m : memory) (t : thread) : nat :=
  match todo t, old t with
  | [], _ => 0
  | _, None => 2
  | x :: _, Some o => if Req_EM_T (m (target x)) o then 0 else 1
  end.
Definition stages (m : memory) (ts : list thread) : nat := list_sum (map (stage m) ts).
Definition measure (s : state) : nat := length (pending (snd s)) * (2 * length (snd s) + 1) + stages (fst s) (snd s).
Lemma stage_le m t : (stage m t <= 2)%nat.
Proof. unfold stage. destruct (todo t), (old t); try lia. destruct (Req_EM_T _ _); lia. Qed.
Lemma list_sum_app' l l' : list_sum (l ++ l') = (list_sum l + list_sum l')%nat.
Proof. apply list_sum_app. Qed.
Lemma stages_le m ts : (stages m ts <= 2 * length ts)%nat.
Proof.
  unfold stages, list_sum. induction ts as [|t ts IH]; [reflexivity|]. cbn [map fold_right length]. pose proof (stage_le m t). lia.
Qed.
Lemma stages_split m l t r : stages m (l ++ t :: r) = (stages m l + stage m t + stages m r)%nat.
Proof. unfold stages. rewrite map_app, list_sum_app. cbn [map]. unfold list_sum. cbn [fold_right]. lia. Qed.
Lemma stage_first m x r : stage m (Thread (x :: r) None) = 2%nat.
Proof. reflexivity. Qed.
Lemma stage_fresh m a x r : stage m (Thread (Loop a x :: r) (Some (m a))) = 0%nat.
Proof. unfold stage. cbn [todo old target]. destruct (Req_EM_T (m a) (m a)); [reflexivity|contradiction]. Qed.
Lemma stage_stale m a x r o : m a <> o -> stage m (Thread (Loop a x :: r) (Some o)) = 1%nat.
Proof. intros H. unfold stage. cbn [todo old target]. destruct (Req_EM_T (m a) o); [contradiction|reflexivity]. Qed.
Lemma step_measure s s' : step s s' -> (measure s' < measure s)%nat.
Proof.
  intros H. destruct H as [m m' t t' l r H]. unfold measure. cbn [fst snd].
  assert (L : length (l ++ t' :: r) = length (l ++ t :: r)) by (rewrite !app_length; reflexivity).
  rewrite L. pose proof (stages_le m' (l ++ t' :: r)) as B. rewrite L in B.
  assert (P : forall t, length (pending (l ++ t :: r)) = (length (pending l) + length (todo t) + length (pending r))%nat).
  { intros u. unfold pending. rewrite flat_map_app. cbn [flat_map]. rewrite !app_length. lia. }
  rewrite !P. destruct H; cbn [todo length].
  - nia.
  - rewrite !stages_split, stage_first, stage_fresh. lia.
  - nia.
  - rewrite !stages_split, stage_fresh, stage_stale by assumption. lia.
Qed.
Lemma steps_measure n s s' : steps n s s' -> (n + measure s' <= measure s)%nat.
Proof. intros H. induction H as [|n s s' s'' H H1 IH]; [lia|]. pose proof (step_measure _ _ H). lia. Qed.
(** Progress. *)
Definition sound (t : thread) := old t <> None -> exists a x r, todo t = Loop a x :: r.
Lemma step_sound s s' : step s s' -> (forall t, In t (snd s) -> sound t) -> forall t, In t (snd s') -> sound t.
Proof.
  intros H S0 u Hu. destruct H as [m m' t t' l r H]. cbn [snd] in *. apply in_app_iff in Hu. destruct Hu as [Hu|[<-|Hu]].
  - apply S0. apply in_app_iff. now left.
  - unfold sound. destruct H; cbn; intros N; try congruence; eauto.
  - apply S0. apply in_app_iff. right. now right.
Qed.
Lemma steps_sound n s s' : steps n s s' -> (forall t, In t (snd s) -> sound t) -> forall t, In t (snd s') -> sound t.
Proof. intros H. induction H as [|n s s' s'' H H1 IH]; intros S0; [exact S0|]. apply IH. now apply (step_sound s). Qed.
Lemma progress s : (forall t, In t (snd s) -> sound t) -> finished (snd s) \/ exists s', step s s'.
Proof.
  destruct s as [m ts]. cbn [snd]. intros S0.
  destruct (existsb (fun t => match todo t with [] => false | _ => true end) ts) eqn:E.
  - right. apply existsb_exists in E. destruct E as (t & Ht & Et). pose proof (S0 t Ht) as St. apply in_split in Ht. destruct Ht as (l & r & ->).
    destruct t as [[|[a x|a x] td] [o|]]; cbn in Et; try discriminate.
    + destruct (Req_EM_T (m a) o); eexists; constructor; [now apply step_swapped|now apply step_again].
    + eexists. constructor. apply step_read.
    + exfalso. destruct St as (b & y & q & X); [discriminate|]. discriminate.
    + eexists. constructor. apply step_hardware.
  - left. intros t Ht. destruct (todo t) eqn:T; [reflexivity|]. exfalso.
    assert (existsb (fun t => match todo t with [] => false | _ => true end) ts = true); [|congruence].
    apply existsb_exists. exists t. split; [exact Ht|]. now rewrite T.
Qed.
Lemma start_sound ls t : In t (map start ls) -> sound t.
Proof. intros H. apply in_map_iff in H. destruct H as (l & <- & _). intros N. now destruct N. Qed.
Lemma conc_progress n m ls s : steps n (m, map start ls) s -> finished (snd s) \/ exists s', step s s'.
Proof. intros H. apply progress. apply (steps_sound _ _ _ H). apply start_sound. Qed.
Lemma conc_bounded m ls : exists bound, forall n s, steps n (m, map start ls) s -> (n <= bound)%nat.
Proof. exists (measure (m, map start ls)). intros n s H. pose proof (steps_measure _ _ _ H). lia. Qed.
Lemma steps_trans n s s' : steps n s s' -> forall k s'', steps k s' s'' -> exists j, steps j s s''.
Proof.
  intros H. induction H as [s|n s s1 s2 H H1 IH]; intros k s'' K; [eauto|].
  destruct (IH k s'' K) as (j & J). exists (S j). econstructor; eassumption.
Qed.
Lemma conc_completes n m ls s : steps n (m, map start ls) s -> exists k s', steps k s s' /\ finished (snd s').
Proof.
  remember (measure s) as M eqn:EM. revert n s EM. induction M as [M IH] using lt_wf_ind. intros n s -> H.
  destruct (conc_progress _ _ _ _ H) as [F|(s1 & H1)].
  - exists 0%nat, s. split; [constructor|exact F].
  - assert (H2 : steps 1 s s1) by (econstructor; [exact H1|constructor]). destruct (steps_trans _ _ _ H _ _ H2) as (j & J).
    destruct (IH (measure s1) (step_measure _ _ H1) j s1 eq_refl J) as (k & s2 & K & F).
    exists (S k), s2. split; [|exact F]. econstructor; eassumption.
Qed.
(** The cells. *)
Definition by_cell (c : Z) (ps : list part) := filter (fun p => Z.eqb (p_idx p) c) ps.
Lemma atomicAdd_target d a x : target (atomicAdd d a x) = a /\ amount (atomicAdd d a x) = x.
Proof. destruct d; split; reflexivity. Qed.
Lemma added_contribution dv dm mass (arr : array) c p :
  added (arr, c) (contribution_thread dv dm mass p) =
  if Z.eqb (p_idx p) c then
    match arr with MomentumX => mass * vx (p_vel p) | MomentumY => mass * vy (p_vel p) | MomentumZ => mass * vz (p_vel p) | Masses => mass | _ => 0 end
  else 0.
Proof.
  unfold contribution_thread, atomicAddMomentum. cbn [app]. rewrite !added_cons.
  rewrite !(proj1 (atomicAdd_target _ _ _)), !(proj2 (atomicAdd_target _ _ _)). unfold added. cbn [map rsum fold_right].
  destruct (Z.eqb_spec (p_idx p) c) as [->|N].
  - destruct arr; repeat match goal with |- context [address_eq_dec ?a ?b] => destruct (address_eq_dec a b) as [?E|?E]; try discriminate; try (now destruct E) end; cbn; ring.
  - repeat match goal with |- context [address_eq_dec ?a ?b] => destruct (address_eq_dec a b) as [?E|?E]; try congruence end. cbn. ring.
Qed.
Lemma added_concat a l (f : part -> list addition) : added a (concat (map f l)) = rsum (map (fun p => added a (f p)) l).
Proof. induction l as [|p l IH]; [reflexivity|]. cbn [map concat]. rewrite added_app, IH. reflexivity. Qed.
Lemma contributions_value m ps : forall PM c,
  let PM' := contributions PM (m, ps) in
  vx (fst PM' c) = vx (fst PM c) + rsum (map (fun p => if Z.eqb (p_idx p) c then m * vx (p_vel p) else 0) ps) /\
  vy (fst PM' c) = vy (fst PM c) + rsum (map (fun p => if Z.eqb (p_idx p) c then m * vy (p_vel p) else 0) ps) /\
  vz (fst PM' c) = vz (fst PM c) + rsum (map (fun p => if Z.eqb (p_idx p) c then m * vz (p_vel p) else 0) ps) /\
  snd PM' c = snd PM c + rsum (map (fun p => if Z.eqb (p_idx p) c then m else 0) ps).
Proof.
  unfold contributions. cbn [fst snd]. induction ps as [|p ps IH]; intros PM c; cbn [fold_left map].
  - unfold rsum. cbn. repeat split; ring.
  - destruct (IH (contribute m PM p) c) as (A & B & C & D). rewrite A, B, C, D. unfold contribute, upd. cbn [fst snd].
    rewrite (Z.eqb_sym c (p_idx p)). unfold rsum. cbn [fold_right].
    destruct (Z.eqb_spec (p_idx p) c) as [->|N]; cbn [vadd vscale vx vy vz]; repeat split; ring.
Qed.
Lemma conc_contributions dv dm s PM n m m' ts :
  steps n (m, map start (map (contribution_thread dv dm (fst s)) (snd s))) (m', ts) -> finished ts ->
  holds_cells m PM -> holds_cells m' (contributions PM s).
Proof.
  intros H F HC c. destruct s as [mass ps]. cbn [fst snd] in *. destruct (HC c) as (A & B & C & D).
  destruct (contributions_value mass ps PM c) as (A' & B' & C' & D'). cbv zeta in *.
  rewrite A', B', C', D', <- A, <- B, <- C, <- D.
  repeat split; rewrite (conc_sum _ _ _ _ _ H F), added_concat; f_equal; f_equal; apply map_ext; intros p; apply added_contribution.
Qed.
Lemma added_step1 d PM mass (arr : array) c p :
  added (arr, c) (step1_thread d PM mass p) =
  if Z.eqb (p_idx p) c then
    match arr with KineticEnergies => mass * vmag2 (vsub (p_vel p) (com_velocity PM (p_idx p))) / 2 | ParticleCounts => 1 | _ => 0 end
  else 0.
Proof.
  unfold step1_thread. rewrite !added_cons. cbn [target amount].
  rewrite !(proj1 (atomicAdd_target _ _ _)), !(proj2 (atomicAdd_target _ _ _)). unfold added. cbn [map rsum fold_right].
  destruct (Z.eqb_spec (p_idx p) c) as [E0|N].
  - rewrite E0. destruct arr; repeat match goal with |- context [address_eq_dec ?a ?b] => destruct (address_eq_dec a b) as [?E|?E]; try discriminate; try (now destruct E) end; cbn; ring.
  - repeat match goal with |- context [address_eq_dec ?a ?b] => destruct (address_eq_dec a b) as [?E|?E]; try congruence end. cbn. ring.
Qed.
Lemma step1_value cf PM mass ps : forall EN c, let EN' := snd (step1_list cf PM mass ps EN) in
  fst EN' c = fst EN c + rsum (map (fun p => if Z.eqb (p_idx p) c then mass * vmag2 (vsub (p_vel p) (com_velocity PM (p_idx p))) / 2 else 0) ps) /\
  INR (snd EN' c) = INR (snd EN c) + rsum (map (fun p => if Z.eqb (p_idx p) c then 1 else 0) ps).
Proof.
  induction ps as [|p ps IH]; intros EN c; cbn [step1_list map].
  - unfold rsum. cbn. split; ring.
  - unfold step1_particle. specialize (IH (upd (fst EN) (p_idx p) (fst EN (p_idx p) + mass * vmag2 (vsub (p_vel p) (com_velocity PM (p_idx p))) / 2), upd (snd EN) (p_idx p) (S (snd EN (p_idx p)))) c).
    destruct (step1_list cf PM mass ps _) as [ps' EN2]. cbn [snd fst] in *. destruct IH as [A B]. rewrite A, B. unfold rsum, upd. cbn [fold_right fst snd].
    rewrite (Z.eqb_sym c (p_idx p)). destruct (Z.eqb_spec (p_idx p) c) as [E|N]; [rewrite E, S_INR|]; split; ring.
Qed.
Lemma conc_step1 d cf PM s EN n m m' ts :
  steps n (m, map start (map (step1_thread d PM (fst s)) (snd s))) (m', ts) -> finished ts ->
  holds_energies m EN -> holds_energies m' (snd (step1_list cf PM (fst s) (snd s) EN)).
Proof.
  intros H F HC c. destruct s as [mass ps]. cbn [fst snd] in *. destruct (HC c) as (A & B).
  destruct (step1_value cf PM mass ps EN c) as (A' & B'). cbv zeta in *. rewrite A', B', <- A, <- B.
  split; rewrite (conc_sum _ _ _ _ _ H F), added_concat; f_equal; f_equal; apply map_ext; intros p; apply added_step1.
Qed.
