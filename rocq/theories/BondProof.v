From Coq Require Import List ZArith Bool Reals Lra Lia String.
From Verif Require Import PyBase StrBase VecBase VecModel VecSpec VecProof PartSpec PartProof BondModel BondSpec.
Import ListNotations.
Open Scope R_scope.
Open Scope list_scope.

Lemma recorded_flat A name (f : A -> fills) (g : A -> R) l : (forall i, recorded name (f i) = [g i]) ->
  recorded name (flat_map f l) = map g l.
Proof.
  intros H. induction l as [|i l IH]; [reflexivity|].
  cbn [flat_map map]. change (g i :: map g l) with ([g i] ++ map g l). rewrite <- IH, <- (H i). unfold recorded.
  rewrite filter_app, map_app. reflexivity.
Qed.
Lemma every_nth_count m N : (0 < m)%nat -> every_nth m (m * N) = map (fun k => (m * k)%nat) (seq 0 N).
Proof.
  intros H. unfold every_nth. f_equal. f_equal.
  rewrite (Nat.mul_comm m N). rewrite Nat.div_add_l by lia. rewrite Nat.div_small by lia. lia.
Qed.
Lemma recorded_each name (f : nat -> fills) (g : nat -> R) m N : (0 < m)%nat -> (forall i, recorded name (f i) = [g i]) ->
  recorded name (flat_map f (every_nth m (m * N))) = each N (fun k => g (m * k)%nat).
Proof.
  intros Hm H. rewrite (recorded_flat _ _ _ g) by exact H. rewrite every_nth_count by exact Hm. rewrite map_map. reflexivity.
Qed.
Lemma each_ext N f g : (forall i, f i = g i) -> each N f = each N g.
Proof. intros H. apply map_ext, H. Qed.

Lemma angle_ok b : b <> zero3 -> angle_to_x b (vangle b flowDirection).
Proof.
  intros H. assert (F : flowDirection <> zero3) by (intros E; apply vec_inj in E; lra).
  destruct (angle_cos b flowDirection H F) as [A B]. split; [exact A|].
  cbv [flowDirection dot3 vx vy vz] in B.
  replace (1 * 1 + 0 * 0 + 0 * 0) with 1 in B by ring. rewrite sqrt_1 in B.
  change (vangle b (Vec 1 0 0)) with (vangle b flowDirection) in B. unfold dot3. destruct b as [x y z]. cbn [vx vy vz] in *. lra.
Qed.
Lemma angles_ok m k x N : Forall2 (fun i a => onto_xy (bond x m k i) <> zero3 -> angle_to_x (onto_xy (bond x m k i)) a)
  (seq 0 N) (each N (fun i => vangle (onto_xy (bond x m k i)) flowDirection)).
Proof.
  unfold each. induction (seq 0 N) as [|i l IH]; constructor; [|exact IH]. apply angle_ok.
Qed.

Ltac trimer_file := unfold trimers_fills, bond_dir; match goal with |- recorded _ (flat_map (trimer_fills ?x) _) = each _ ?g =>
  etransitivity; [apply recorded_each; [lia|intros i; reflexivity]|apply each_ext; intros i;
    unfold bond; change vsub with minus3; rewrite ?Nat.add_0_r, <- ?Nat.add_assoc; reflexivity] end.
Lemma trimer_files x N k : (k < 2)%nat ->
  let f := trimers_fills x (3 * N) in
  let B := bond x 3 k in
  recorded (bond_dir k ++ "lengthHistogram.data") f = each N (fun i => sqrt (dot3 (B i) (B i)))
  /\ recorded (bond_dir k ++ "lengthSquaredHistogram.data") f = each N (fun i => dot3 (B i) (B i))
  /\ recorded (bond_dir k ++ "XXHistogram.data") f = each N (fun i => vx (B i) * vx (B i))
  /\ recorded (bond_dir k ++ "YYHistogram.data") f = each N (fun i => vy (B i) * vy (B i))
  /\ recorded (bond_dir k ++ "ZZHistogram.data") f = each N (fun i => vz (B i) * vz (B i))
  /\ (k = 0%nat -> recorded (bond_dir k ++ "XYHistogram.data") f = each N (fun i => vx (B i) * vy (B i)))
  /\ recorded (bond_dir k ++ "angleWithFlowDirectionHistogram.data") f = each N (fun i => vangle (onto_xy (B i)) flowDirection).
Proof.
  intros Hk f B. subst f B. destruct k as [|[|k]]; [| |lia].
  - repeat split; try intros _; trimer_file.
  - repeat split; try discriminate; trimer_file.
Qed.
Lemma trimer_xy2 x N : recorded "harmonicTrimers/bond2/XYHistogram.data" (trimers_fills x (3 * N))
  = each N (fun i => vx (bond x 3 0 i) * vy (bond x 3 1 i)).
Proof. trimer_file. Qed.

Ltac dumbbell_file := unfold dumbbells_fills; match goal with |- recorded _ (flat_map (dumbbell_fills ?x) _) = each _ ?g =>
  etransitivity; [apply recorded_each; [lia|intros i; reflexivity]|apply each_ext; intros i;
    unfold bond; change vsub with minus3; rewrite ?Nat.add_0_r, <- ?Nat.add_assoc; reflexivity] end.
Lemma dumbbell_files x N :
  let f := dumbbells_fills x (2 * N) in
  let B := bond x 2 0 in
  recorded "dumbbellBondLengthHistogram.data" f = each N (fun i => sqrt (dot3 (B i) (B i)))
  /\ recorded "dumbbellBondLengthSquaredHistogram.data" f = each N (fun i => dot3 (B i) (B i))
  /\ recorded "dumbbellBondXHistogram.data" f = each N (fun i => vx (B i))
  /\ recorded "dumbbellBondYHistogram.data" f = each N (fun i => vy (B i))
  /\ recorded "dumbbellBondZHistogram.data" f = each N (fun i => vz (B i))
  /\ recorded "dumbbellBondXXHistogram.data" f = each N (fun i => vx (B i) * vx (B i))
  /\ recorded "dumbbellBondYYHistogram.data" f = each N (fun i => vy (B i) * vy (B i))
  /\ recorded "dumbbellBondZZHistogram.data" f = each N (fun i => vz (B i) * vz (B i))
  /\ recorded "dumbbellBondXYHistogram.data" f = each N (fun i => vx (B i) * vy (B i))
  /\ recorded "dumbbellBondAngleWithFlowDirectionHistogram.data" f = each N (fun i => vangle (B i) flowDirection)
  /\ recorded "dumbbellBondXYAngleWithFlowDirectionHistogram.data" f = each N (fun i => vangle (onto_xy (B i)) flowDirection).
Proof. intros f B. subst f B. repeat split; dumbbell_file. Qed.
Lemma rod_file x N : recorded "gaussianRods/bondLengthHistogram.data" (rods_fills x (2 * N))
  = each N (fun i => sqrt (dot3 (bond x 2 0 i) (bond x 2 0 i))).
Proof.
  unfold rods_fills. rewrite every_nth_count by lia. rewrite map_map. unfold recorded, each.
  induction (seq 0 N) as [|i l IH]; [reflexivity|]. cbn [map filter fst String.eqb]. cbn -[Nat.mul Nat.add].
  f_equal; [|exact IH]. unfold bond, vmag, vmag2. rewrite Nat.add_0_r. reflexivity.
Qed.
Lemma fold_sum A (f : A -> R) l : forall s, fold_left (fun s i => s + f i) l s = s + rsum (map f l).
Proof. induction l as [|a l IH]; intros s; cbn; [lra|]. rewrite IH. lra. Qed.
Lemma dumbbell_averages x N : (0 < N)%nat ->
  dumbbells_points x (2 * N) =
  [("dumbbellAverageBondXXVSTime.data", average (each N (fun i => vx (bond x 2 0 i) * vx (bond x 2 0 i))));
   ("dumbbellAverageBondYYVSTime.data", average (each N (fun i => vy (bond x 2 0 i) * vy (bond x 2 0 i))));
   ("dumbbellAverageBondZZVSTime.data", average (each N (fun i => vz (bond x 2 0 i) * vz (bond x 2 0 i))))]%string.
Proof.
  intros H. unfold dumbbells_points. rewrite every_nth_count by lia.
  rewrite (Nat.mul_comm 2 N), Nat.div_mul by lia.
  unfold average, each. rewrite !map_length, !seq_length.
  rewrite !fold_sum, !Rplus_0_l, !map_map.
  unfold bond. change vsub with minus3.
  assert (E : forall f : vec -> R, map (fun k => f (minus3 (x (2 * k + 1)%nat) (x (2 * k)%nat))) (seq 0 N) =
    map (fun k => f (minus3 (x (2 * k + 0 + 1)%nat) (x (2 * k + 0)%nat))) (seq 0 N)).
  { intros f. apply map_ext. intros k. rewrite !Nat.add_0_r. reflexivity. }
  rewrite (E (fun B => vx B * vx B)), (E (fun B => vy B * vy B)), (E (fun B => vz B * vz B)). reflexivity.
Qed.

(** Self-diffusion. *)
Lemma centre x i : getTrimerCenterOfMass x i = centre3 x i.
Proof.
  unfold getTrimerCenterOfMass, centre3. rewrite (Nat.mul_comm i 3), Nat.add_0_r.
  apply vec_ext; cbn; lra.
Qed.
Lemma neighbours_snoc A (s : list A) d n : s <> [] -> neighbours (s ++ [n]) = neighbours s ++ [(last s d, n)].
Proof.
  induction s as [|a [|b s] IH]; intros H; [congruence|reflexivity|].
  change (neighbours ((a :: b :: s) ++ [n])) with ((a, b) :: neighbours ((b :: s) ++ [n])).
  rewrite IH by discriminate. reflexivity.
Qed.
Section Waits.
Variables (t : nat -> R) (T : R).
Lemma waits_ne n i s : waits t n T i s -> s <> [].
Proof. intros []; discriminate. Qed.
Lemma waits_last n i s : waits t n T i s -> (i < n)%nat -> (last s 0 < n)%nat.
Proof.
  induction 1 as [i H|i j l H H1 H2 W IH]; intros Hi; [exact Hi|].
  pose proof (waits_ne _ _ _ W). destruct l; [congruence|]. apply IH. lia.
Qed.
Lemma waits_more n i s : waits t n T i s -> (i < n)%nat ->
  (t n - t (last s 0%nat) < T -> waits t (S n) T i s) /\
  (T <= t n - t (last s 0%nat) -> waits t (S n) T i (s ++ [n])).
Proof.
  induction 1 as [i H|i j l H H1 H2 W IH]; intros Hi.
  - cbn [last]. split; intros Ht.
    + apply waits_end. intros j Hj. destruct (Nat.eq_dec j n) as [->|]; [exact Ht|]. apply H. lia.
    + apply waits_next with n; [lia|exact Ht| |].
      * intros k Hk. apply H. lia.
      * apply waits_end. intros j Hj. lia.
  - pose proof (waits_ne _ _ _ W) as N. assert (L : last (i :: l) 0%nat = last l 0%nat) by (destruct l; [congruence|reflexivity]).
    rewrite L. destruct IH as [A B]; [lia|]. split; intros Ht.
    + apply waits_next with j; auto. lia.
    + apply waits_next with j; auto. lia.
Qed.
End Waits.

Lemma squares N (f : nat -> vec) (g : nat -> vec) :
  fold_left (fun s i => s + vmag2 (vsub (nth i (map f (seq 0 N)) (Vec 0 0 0)) (nth i (map g (seq 0 N)) (Vec 0 0 0)))) (seq 0 N) 0
  = rsum (each N (fun i => dot3 (minus3 (f i) (g i)) (minus3 (f i) (g i)))).
Proof.
  rewrite fold_sum, Rplus_0_l. unfold each. f_equal. apply map_ext_in. intros i Hi. apply in_seq in Hi.
  assert (E : forall h : nat -> vec, nth i (map h (seq 0 N)) (Vec 0 0 0) = h i).
  { intros h. rewrite nth_indep with (d' := h 0%nat) by (rewrite map_length, seq_length; lia).
    rewrite map_nth, seq_nth by lia. reflexivity. }
  rewrite !E. reflexivity.
Qed.

Lemma rless_true x y : x < y -> rless x y = true.
Proof. intros H. unfold rless. destruct (Rlt_dec x y); [reflexivity|contradiction]. Qed.
Lemma rless_false x y : y <= x -> rless x y = false.
Proof. intros H. unfold rless. destruct (Rlt_dec x y); [lra|reflexivity]. Qed.

Lemma diffusion_ok T N t x n : 0 < T -> (0 < N)%nat -> (0 < n)%nat -> (forall j, (j < n)%nat -> 0 <= t j) ->
  let d := measure_diffusion_all T N (map (fun j => (t j, x j)) (seq 0 n)) in
  exists s, waits t n T 0 s /\ snapshotTime d = t (last s 0%nat) /\ snapshot d = map (centre3 (x (last s 0%nat))) (seq 0 N)
  /\ coefficients d = map (fun p => (t (fst p), einstein N t (fun j => centre3 (x j)) p)) (neighbours s).
Proof.
  intros HT HN. induction n as [|n IH]; intros Hn Ht; [lia|]. cbv zeta.
  unfold measure_diffusion_all. rewrite seq_S, map_app, fold_left_app. cbn [map fold_left fst snd Nat.add].
  assert (C : forall j, map (getTrimerCenterOfMass (x j)) (seq 0 N) = map (centre3 (x j)) (seq 0 N)) by (intros j; apply map_ext; intros; apply centre).
  destruct n as [|n].
  - exists [0%nat]. cbn [seq map fold_left]. unfold measure_diffusion. cbn [diffusion_new snapshotTime].
    rewrite (rless_true (-1) 0) by lra. cbn [snapshotTime snapshot coefficients app]. rewrite Rminus_diag_eq by reflexivity.
    rewrite rless_true by exact HT. cbn [snapshotTime snapshot coefficients last neighbours map]. rewrite C.
    repeat split. apply waits_end. intros; lia.
  - destruct IH as (s & W & ST & SN & CO); [lia|intros; apply Ht; lia|].
    unfold measure_diffusion_all in ST, SN, CO.
    match type of ST with snapshotTime ?d = _ => generalize dependent d end. intros d ST SN CO.
    pose proof (waits_last t T _ _ _ W ltac:(lia)) as LL. pose proof (waits_ne t T _ _ _ W) as NE.
    destruct (waits_more t T _ _ _ W ltac:(lia)) as [A B].
    unfold measure_diffusion. rewrite (rless_false (snapshotTime d) 0) by (rewrite ST; apply Ht; lia). rewrite ST.
    destruct (Rlt_dec (t (S n) - t (last s 0%nat)) T) as [L|L].
    + rewrite rless_true by exact L. exists s. repeat split; auto.
    + rewrite rless_false by lra. exists (s ++ [S n]). cbn [snapshotTime snapshot coefficients].
      rewrite last_last. split; [apply B; lra|]. split; [reflexivity|]. rewrite SN, !C.
      split.
      * rewrite skipn_all2 by (rewrite map_length, seq_length; lia). apply app_nil_r.
      * rewrite squares, (neighbours_snoc _ _ 0%nat) by exact NE. rewrite map_app, CO. f_equal.
        cbn [map fst]. f_equal. f_equal. unfold einstein, average, each. rewrite map_length, seq_length.
        assert (INR N <> 0) by (apply not_0_INR; lia). field. split; [exact H|lra].
Qed.
