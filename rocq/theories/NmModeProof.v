(** Facts about normal coordinates. *)
From Coq Require Import List ZArith Bool Reals Lia Lra.
From Verif Require Import NmModel VecBase VecSpec PartSpec PartProof NmSpec.
Import ListNotations.
Open Scope R_scope.

Lemma vsum_ext {A} (f g : A -> vec) l : (forall a, In a l -> f a = g a) -> vsum (map f l) = vsum (map g l).
Proof. intros H. f_equal. apply map_ext_in, H. Qed.
Lemma vsum_shift {A} (k : A -> R) (f : A -> vec) v l :
  vsum (map (fun a => times3 (k a) (plus3 (f a) v)) l) = plus3 (vsum (map (fun a => times3 (k a) (f a)) l)) (times3 (rsum (map k l)) v).
Proof.
  induction l as [|a l IH]; [cbn [map vsum rsum]; unfold plus3, times3, zero3; cbn [vx vy vz]; f_equal; ring|]. cbn [map vsum rsum]. rewrite IH.
  unfold plus3, times3. cbn. f_equal; ring.
Qed.
(** The zeroth one is the mean of the vectors. *)
Lemma mode_zero N S r : normal_coordinate N S r 0 = times3 (/ INR N) (vsum (map r (seq 1 N))).
Proof.
  unfold normal_coordinate. f_equal. apply vsum_ext. intros n _. cbn [INR].
  replace (0 * PI * (INR n + S) / INR N) with 0 by (unfold Rdiv; ring). rewrite cos_0. destruct (r n). unfold times3. cbn. f_equal; ring.
Qed.
(** Effect of a displacement. *)
Definition mode_weight (N : nat) (S : R) (i : nat) : R := / INR N * rsum (map (fun n => cos (INR i * PI * (INR n + S) / INR N)) (seq 1 N)).
Lemma mode_displaced N S r v i : normal_coordinate N S (fun n => plus3 (r n) v) i =
  plus3 (normal_coordinate N S r i) (times3 (mode_weight N S i) v).
Proof.
  unfold normal_coordinate, mode_weight. rewrite vsum_shift. unfold plus3, times3. cbn. f_equal; ring.
Qed.
(** Sums of cosines. *)
Lemma cos_sum (a : R) n : 2 * sin (a / 2) * rsum (map (fun k => cos (a * (INR k - 1 / 2))) (seq 1 n)) = sin (a * INR n).
Proof.
  induction n as [|n IH].
  - cbn. rewrite !Rmult_0_r, sin_0. reflexivity.
  - rewrite seq_S, map_app, rsum_app, Rmult_plus_distr_l, IH. cbn [map rsum plus]. rewrite S_INR.
    replace (a * (INR n + 1 - 1 / 2)) with (a * INR n + a / 2) by field.
    replace (a * (INR n + 1)) with (a * INR n + a / 2 + a / 2) by field.
    rewrite (sin_plus (a * INR n + a / 2) (a / 2)).
    replace (sin (a * INR n)) with (sin ((a * INR n + a / 2) - a / 2)) by (f_equal; ring). rewrite sin_minus. ring.
Qed.
Lemma sin_positive N i : (0 < i < 2 * N)%nat -> 0 < sin (INR i * PI / INR N / 2).
Proof.
  intros H. assert (HN : 0 < INR N) by (apply lt_0_INR; lia). assert (Hi : 0 < INR i) by (apply lt_0_INR; lia).
  assert (INR i < 2 * INR N) by (change 2 with (INR 2); rewrite <- mult_INR; apply lt_INR; lia).
  pose proof PI_RGT_0.
  apply sin_gt_0.
  - repeat apply Rdiv_lt_0_compat; try lra. now apply Rmult_lt_0_compat.
  - apply Rmult_lt_reg_r with (2 * INR N); [lra|]. unfold Rdiv.
    replace (INR i * PI * / INR N * / 2 * (2 * INR N)) with (INR i * PI) by (field; lra). nra.
Qed.
Lemma weight_zero N i : (0 < i < 2 * N)%nat -> mode_weight N (- 1 / 2) i = 0.
Proof.
  intros H. unfold mode_weight. assert (HN : 0 < INR N) by (apply lt_0_INR; lia).
  replace (rsum _) with 0; [ring|]. symmetry.
  pose proof (cos_sum (INR i * PI / INR N) N) as E.
  replace (INR i * PI / INR N * INR N) with (INR i * PI) in E by (field; lra).
  assert (Z : sin (INR i * PI) = 0).
  { rewrite INR_IZR_INZ. apply sin_eq_0_1. exists (Z.of_nat i). reflexivity. }
  rewrite Z in E. apply Rmult_integral in E. destruct E as [E|E].
  - pose proof (sin_positive N i H). lra.
  - rewrite <- E. f_equal. apply map_ext. intros n. f_equal. field. lra.
Qed.
Lemma mode_invariant N r v i : (0 < i <= N)%nat -> normal_coordinate N (- 1 / 2) (fun n => plus3 (r n) v) i = normal_coordinate N (- 1 / 2) r i.
Proof.
  intros H. rewrite mode_displaced, weight_zero by lia. destruct (normal_coordinate N (-1 / 2) r i). unfold plus3, times3. cbn. f_equal; ring.
Qed.
Lemma mode_last N r : (0 < N)%nat -> normal_coordinate N (- 1 / 2) r N = zero3.
Proof.
  intros H. assert (HN : 0 < INR N) by (apply lt_0_INR; lia). unfold normal_coordinate.
  replace (vsum _) with zero3; [unfold times3, zero3; cbn; f_equal; ring|]. symmetry.
  induction (seq 1 N) as [|n l IH]; [reflexivity|]. cbn [map vsum]. rewrite IH.
  replace (INR N * PI * (INR n + -1 / 2) / INR N) with (INR n * PI - PI / 2) by (field; lra).
  rewrite cos_minus, cos_PI2, sin_PI2, INR_IZR_INZ.
  replace (sin (IZR (Z.of_nat n) * PI)) with 0 by (symmetry; apply sin_eq_0_1; exists (Z.of_nat n); reflexivity).
  unfold plus3, times3, zero3. cbn. f_equal; ring.
Qed.
(** The vectors can be computed from their normal coordinates. *)
Lemma cos_k k : cos (INR k * PI) = if Nat.even k then 1 else -1.
Proof.
  induction k as [|k IH]; [cbn; rewrite Rmult_0_l; apply cos_0|].
  rewrite S_INR, Rmult_plus_distr_r, Rmult_1_l, neg_cos, IH, Nat.even_succ, <- Nat.negb_even. destruct (Nat.even k); cbn; ring.
Qed.
Lemma sin_k k : sin (INR k * PI) = 0.
Proof. rewrite INR_IZR_INZ. apply sin_eq_0_1. exists (Z.of_nat k). reflexivity. Qed.
Lemma cos_sum' (a : R) n : 2 * sin (a / 2) * rsum (map (fun k => cos (INR k * a)) (seq 1 n)) = sin (INR n * a + a / 2) - sin (a / 2).
Proof.
  induction n as [|n IH].
  - cbn [seq map rsum INR]. rewrite Rmult_0_l, Rplus_0_l, Rmult_0_r. ring.
  - rewrite seq_S, map_app, rsum_app, Rmult_plus_distr_l, IH. cbn [map rsum plus]. rewrite S_INR.
    replace ((INR n + 1) * a + a / 2) with ((INR n + 1) * a + a / 2) by ring.
    rewrite (sin_plus ((INR n + 1) * a)).
    replace (INR n * a + a / 2) with ((INR n + 1) * a - a / 2) by field. rewrite sin_minus. ring.
Qed.
Lemma half_sum N k : (0 < k < 2 * N)%nat ->
  rsum (map (fun i => cos (INR i * (INR k * PI / INR N))) (seq 1 (N - 1))) = if Nat.even k then -1 else 0.
Proof.
  intros H. assert (HN : 0 < INR N) by (apply lt_0_INR; lia).
  pose proof (cos_sum' (INR k * PI / INR N) (N - 1)) as E. pose proof (sin_positive N k H) as Hp.
  rewrite minus_INR in E by lia. cbn [INR] in E.
  replace ((INR N - 1) * (INR k * PI / INR N) + INR k * PI / INR N / 2) with (INR k * PI - INR k * PI / INR N / 2) in E by (field; lra).
  rewrite sin_minus, sin_k, cos_k in E. set (s := sin (INR k * PI / INR N / 2)) in *. set (r := rsum _) in *.
  destruct (Nat.even k).
  - apply Rmult_eq_reg_l with (2 * s); [lra|lra].
  - apply Rmult_eq_reg_l with (2 * s); [lra|lra].
Qed.
Lemma product_cos a b : cos a * cos b = (cos (a - b) + cos (a + b)) / 2.
Proof. rewrite cos_minus, cos_plus. field. Qed.
Lemma product_sum_le N n m : (1 <= n <= m)%nat -> (m <= N)%nat ->
  1 + 2 * rsum (map (fun i => cos (INR i * PI * (INR n + - 1 / 2) / INR N) * cos (INR i * PI * (INR m + - 1 / 2) / INR N)) (seq 1 (N - 1))) =
  if Nat.eqb n m then INR N else 0.
Proof.
  intros H1 H2. assert (HN : 0 < INR N) by (apply lt_0_INR; lia).
  rewrite (rsum_ext _ _ (fun i => / 2 * cos (INR i * (INR (m - n) * PI / INR N)) + / 2 * cos (INR i * (INR (n + m - 1) * PI / INR N)))).
  2:{ intros i. rewrite Rmult_comm, product_cos. rewrite !minus_INR, plus_INR by lia. cbn [INR]. unfold Rdiv at 1. rewrite Rmult_plus_distr_r.
      f_equal; rewrite Rmult_comm; do 2 f_equal; field; lra. }
  rewrite rsum_add, !rsum_scale. rewrite (half_sum N (n + m - 1)) by lia.
  destruct (Nat.eqb_spec n m) as [->|NE].
  - rewrite Nat.sub_diag. cbn [INR].
    rewrite (rsum_ext _ _ (fun _ => 1)).
    2:{ intros i. replace (INR i * (0 * PI / INR N)) with 0 by (unfold Rdiv; ring). apply cos_0. }
    rewrite rsum_const, seq_length, minus_INR by lia. cbn [INR].
    replace (Nat.even (m + m - 1)) with false; [lra|]. symmetry. replace (m + m - 1)%nat with (1 + 2 * (m - 1))%nat by lia.
    rewrite Nat.even_add_mul_2. reflexivity.
  - rewrite half_sum by lia.
    replace (Nat.even (n + m - 1)) with (negb (Nat.even (m - n))); [destruct (Nat.even (m - n)); cbn; lra|].
    replace (n + m - 1)%nat with ((1 + (m - n)) + 2 * (n - 1))%nat by lia. rewrite Nat.even_add_mul_2, Nat.even_succ, <- Nat.negb_even. reflexivity.
Qed.
Lemma product_sum N n m : (1 <= n <= N)%nat -> (1 <= m <= N)%nat ->
  1 + 2 * rsum (map (fun i => cos (INR i * PI * (INR n + - 1 / 2) / INR N) * cos (INR i * PI * (INR m + - 1 / 2) / INR N)) (seq 1 (N - 1))) =
  if Nat.eqb n m then INR N else 0.
Proof.
  intros H1 H2. destruct (Nat.le_gt_cases n m) as [H|H]; [apply product_sum_le; lia|].
  rewrite Nat.eqb_sym, <- product_sum_le by lia. do 2 f_equal. apply rsum_ext. intros i. ring.
Qed.
Lemma rsum_swap {A B} (f : A -> B -> R) l l' : rsum (map (fun a => rsum (map (f a) l')) l) = rsum (map (fun b => rsum (map (fun a => f a b) l)) l').
Proof.
  induction l as [|a l IH].
  - cbn [map rsum]. symmetry. rewrite rsum_const. ring.
  - cbn [map rsum]. rewrite IH, <- rsum_add. reflexivity.
Qed.
Lemma rsum_pick (f : nat -> R) n a k : (a <= n < a + k)%nat -> rsum (map (fun m => if Nat.eqb n m then f m else 0) (seq a k)) = f n.
Proof.
  revert a. induction k as [|k IH]; intros a H; [lia|]. cbn [seq map rsum]. destruct (Nat.eqb_spec n a) as [->|NE].
  - replace (rsum _) with 0; [ring|]. symmetry. transitivity (rsum (map (fun _ : nat => 0) (seq (S a) k))); [|rewrite rsum_const; ring].
    f_equal. apply map_ext_in. intros m Hm. apply in_seq in Hm. destruct (Nat.eqb_spec a m); [lia|reflexivity].
  - rewrite IH by lia. ring.
Qed.
Lemma inversion1 N (x : nat -> R) n : (1 <= n <= N)%nat ->
  let q i := / INR N * rsum (map (fun m => cos (INR i * PI * (INR m + - 1 / 2) / INR N) * x m) (seq 1 N)) in
  q 0%nat + 2 * rsum (map (fun i => cos (INR i * PI * (INR n + - 1 / 2) / INR N) * q i) (seq 1 (N - 1))) = x n.
Proof.
  intros H q. assert (HN : 0 < INR N) by (apply lt_0_INR; lia).
  set (c := fun i m => cos (INR i * PI * (INR m + - 1 / 2) / INR N)).
  rewrite (rsum_ext _ _ (fun i => / INR N * rsum (map (fun m => c i n * c i m * x m) (seq 1 N)))).
  2:{ intros i. unfold q. rewrite <- Rmult_assoc, (Rmult_comm _ (/ INR N)), Rmult_assoc. f_equal. rewrite <- rsum_scale. apply rsum_ext. intros m. unfold c. ring. }
  rewrite rsum_scale, rsum_swap.
  assert (Q0 : q 0%nat = / INR N * rsum (map (fun m => 1 * x m) (seq 1 N))).
  { unfold q. f_equal. apply rsum_ext. intros m. f_equal. cbn [INR]. replace (0 * PI * (INR m + - 1 / 2) / INR N) with 0 by (unfold Rdiv; ring). apply cos_0. }
  rewrite Q0. transitivity (/ INR N * rsum (map (fun m => if Nat.eqb n m then INR N * x m else 0) (seq 1 N))).
  2:{ rewrite rsum_pick by lia. field. lra. }
  rewrite (Rmult_comm 2), Rmult_assoc, <- Rmult_plus_distr_l. f_equal. rewrite Rmult_comm, <- rsum_scale, <- rsum_add. f_equal. apply map_ext_in.
  intros m Hm. apply in_seq in Hm. rewrite (rsum_ext _ _ (fun i => x m * (c i n * c i m))) by (intros i; ring). rewrite rsum_scale.
  pose proof (product_sum N n m H ltac:(lia)) as E. fold c in E.
  transitivity (x m * (1 + 2 * rsum (map (fun i => c i n * c i m) (seq 1 (N - 1))))); [ring|]. unfold c. rewrite E.
  destruct (Nat.eqb n m); ring.
Qed.
Lemma mode_inversion N r n : (1 <= n <= N)%nat ->
  r n = plus3 (normal_coordinate N (- 1 / 2) r 0)
    (times3 2 (vsum (map (fun i => times3 (cos (INR i * PI * (INR n + - 1 / 2) / INR N)) (normal_coordinate N (- 1 / 2) r i)) (seq 1 (N - 1))))).
Proof.
  intros H.
  assert (X : forall l, vx (vsum l) = rsum (map vx l)) by (induction l as [|v l IH]; [reflexivity|]; cbn [vsum map rsum]; rewrite <- IH; reflexivity).
  assert (Y : forall l, vy (vsum l) = rsum (map vy l)) by (induction l as [|v l IH]; [reflexivity|]; cbn [vsum map rsum]; rewrite <- IH; reflexivity).
  assert (Z : forall l, vz (vsum l) = rsum (map vz l)) by (induction l as [|v l IH]; [reflexivity|]; cbn [vsum map rsum]; rewrite <- IH; reflexivity).
  rewrite (vec_eta (r n)). unfold plus3, times3, normal_coordinate. cbn [vx vy vz]. unfold times3. cbn [vx vy vz].
  rewrite !X, !Y, !Z, !map_map. cbn [vx vy vz].
  f_equal; symmetry.
  - rewrite <- (inversion1 N (fun k => vx (r k)) n H). cbv zeta. f_equal. f_equal. apply rsum_ext. intros i. do 2 f_equal. rewrite X, map_map. reflexivity.
  - rewrite <- (inversion1 N (fun k => vy (r k)) n H). cbv zeta. f_equal. f_equal. apply rsum_ext. intros i. do 2 f_equal. rewrite Y, map_map. reflexivity.
  - rewrite <- (inversion1 N (fun k => vz (r k)) n H). cbv zeta. f_equal. f_equal. apply rsum_ext. intros i. do 2 f_equal. rewrite Z, map_map. reflexivity.
Qed.

(** The default shift. *)
Lemma weight_default N i : (0 < i <= N)%nat -> mode_weight N 0 i = if Nat.even i then 0 else - / INR N.
Proof.
  intros H. unfold mode_weight. assert (HN : 0 < INR N) by (apply lt_0_INR; lia).
  pose proof (cos_sum' (INR i * PI / INR N) N) as E. pose proof (sin_positive N i ltac:(lia)) as Hs.
  set (s := sin (INR i * PI / INR N / 2)) in *.
  replace (INR N * (INR i * PI / INR N) + INR i * PI / INR N / 2) with (INR i * PI + INR i * PI / INR N / 2) in E by (field; lra).
  rewrite sin_plus, sin_k, cos_k in E. fold s in E.
  replace (rsum _) with (if Nat.even i then 0 else -1); [destruct (Nat.even i); ring|].
  apply Rmult_eq_reg_l with (2 * s); [|lra].
  transitivity (2 * s * rsum (map (fun k => cos (INR k * (INR i * PI / INR N))) (seq 1 N))).
  - rewrite E. destruct (Nat.even i); ring.
  - do 2 f_equal. apply map_ext. intros n. f_equal. field. lra.
Qed.
Lemma mode_default N r v i : (0 < i <= N)%nat ->
  normal_coordinate N 0 (fun n => plus3 (r n) v) i =
  if Nat.even i then normal_coordinate N 0 r i else plus3 (normal_coordinate N 0 r i) (times3 (- / INR N) v).
Proof.
  intros H. rewrite mode_displaced, weight_default by exact H. destruct (Nat.even i); [|reflexivity].
  destruct (normal_coordinate N 0 r i). unfold plus3, times3. cbn. f_equal; ring.
Qed.
(** The computation on the host. *)
Lemma fold_vsum (f : nat -> vec) l : forall a, fold_left (fun ret n => VecModel.vadd ret (f n)) l a = plus3 a (vsum (map f l)).
Proof.
  induction l as [|n l IH]; intros a; cbn [fold_left map vsum]; [|rewrite IH]; destruct a; unfold plus3, zero3, VecModel.vadd; cbn; f_equal; ring.
Qed.
Lemma host_eq i vectors N shift : (0 < N)%nat ->
  host_computeNormalCoordinate i vectors N shift = normal_coordinate N shift (fun n => vectors (n - 1)%nat) i.
Proof.
  intros H. assert (HN : 0 < INR N) by (apply lt_0_INR; lia). unfold host_computeNormalCoordinate, normal_coordinate.
  rewrite (fold_vsum (fun n => VecModel.vscale (cos (INR i * PI / INR N * (INR n + shift))) (vectors (n - 1)%nat))).
  replace (map _ (seq 1 N)) with (map (fun n => times3 (cos (INR i * PI * (INR n + shift) / INR N)) (vectors (n - 1)%nat)) (seq 1 N)).
  - unfold VecModel.vdivs, plus3, times3. cbn. f_equal; field; lra.
  - apply map_ext. intros n. unfold times3, VecModel.vscale. replace (INR i * PI / INR N * (INR n + shift)) with (INR i * PI * (INR n + shift) / INR N) by (field; lra).
    f_equal; ring.
Qed.
