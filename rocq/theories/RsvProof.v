(** Proofs about vectors that are stored elsewhere, and two-dimensional vectors. *)
From Coq Require Import List ZArith Bool Reals Lia Lra Psatz.
From Verif Require Import PyBase VecModel RsvModel RsvSpec.
Import ListNotations.
Open Scope Z_scope.

Ltac pokes :=
  repeat match goal with
         | |- context [?a =? ?b] => destruct (Z.eqb_spec a b); try lia
         end.
Lemma becomes_intro (m m' : Z -> R) base i (v : vec) :
  (forall c, m' c = if c =? base + 3 * i + 0 then vx v else if c =? base + 3 * i + 1 then vy v else if c =? base + 3 * i + 2 then vz v else m c) ->
  vector_becomes m m' base i v.
Proof.
  intros H j. unfold vector_number. rewrite !H. destruct v as [x y z]; cbn [vx vy vz]. destruct (Z.eq_dec j i) as [->|N]; pokes; reflexivity.
Qed.
Ltac store := apply becomes_intro; intros c; cbv [setX setY setZ addToX assign_vector add_assign times_assign over_assign atomicAdd_vector located poke vector_number vx vy vz]; pokes;
  repeat match goal with E : ?x = _ |- _ => is_var x; rewrite E; clear E end; try rewrite Z.add_0_r; reflexivity.
Lemma updates (m : Z -> R) base i v x :
  vector_becomes m (setX m (located 3 base i) x) base i (Vec x (vy (vector_number m base i)) (vz (vector_number m base i))) /\
  vector_becomes m (setY m (located 3 base i) x) base i (Vec (vx (vector_number m base i)) x (vz (vector_number m base i))) /\
  vector_becomes m (setZ m (located 3 base i) x) base i (Vec (vx (vector_number m base i)) (vy (vector_number m base i)) x) /\
  vector_becomes m (addToX m (located 3 base i) x) base i (Vec (vx (vector_number m base i) + x)%R (vy (vector_number m base i)) (vz (vector_number m base i))) /\
  vector_becomes m (assign_vector m (located 3 base i) v) base i v /\
  vector_becomes m (add_assign m (located 3 base i) v) base i (Vec (vx (vector_number m base i) + vx v) (vy (vector_number m base i) + vy v) (vz (vector_number m base i) + vz v))%R /\
  vector_becomes m (atomicAdd_vector m (located 3 base i) v) base i (Vec (vx (vector_number m base i) + vx v) (vy (vector_number m base i) + vy v) (vz (vector_number m base i) + vz v))%R /\
  vector_becomes m (times_assign m (located 3 base i) x) base i (Vec (vx (vector_number m base i) * x) (vy (vector_number m base i) * x) (vz (vector_number m base i) * x))%R /\
  vector_becomes m (over_assign m (located 3 base i) x) base i (Vec (vx (vector_number m base i) / x) (vy (vector_number m base i) / x) (vz (vector_number m base i) / x))%R.
Proof. repeat split; store. Qed.

Section Elements.
Context {V : Type}.
Lemma assign_from_spec (more : nat) : forall (m : Z -> V) d s i, d <= s \/ s + i + Z.of_nat more <= d + i ->
  forall c, assign_from m d s i more c = if (d + i <=? c) && (c <? d + i + Z.of_nat more) then m (s + (c - d)) else m c.
Proof.
  induction more as [|n IH]; intros m d s i H c; cbn [assign_from].
  - destruct (Z.leb_spec (d + i) c), (Z.ltb_spec c (d + i + Z.of_nat 0)); cbn [andb]; try reflexivity; lia.
  - rewrite IH by lia. cbv [poke].
    destruct (Z.leb_spec (d + (i + 1)) c), (Z.ltb_spec c (d + (i + 1) + Z.of_nat n)),
      (Z.leb_spec (d + i) c), (Z.ltb_spec c (d + i + Z.of_nat (S n))); cbn [andb]; try lia; pokes; try reflexivity; f_equal; lia.
Qed.
Lemma elements_length (m : Z -> V) a D : length (elements m a D) = D.
Proof. unfold elements. rewrite map_length. apply seq_length. Qed.
Lemma only_intro (m m' : Z -> V) d (f : Z -> V) D :
  (forall c, m' c = if (d <=? c) && (c <? d + Z.of_nat D) then f (c - d) else m c) ->
  only_elements m m' d (map (fun k => f (Z.of_nat k)) (seq 0 D)).
Proof.
  intros H. unfold only_elements. rewrite map_length, seq_length. split.
  - unfold elements. apply map_ext_in. intros k I. apply in_seq in I. rewrite H.
    destruct (Z.leb_spec d (d + Z.of_nat k)), (Z.ltb_spec (d + Z.of_nat k) (d + Z.of_nat D)); cbn [andb]; try lia. f_equal; lia.
  - intros c C. rewrite H. destruct (Z.leb_spec d c), (Z.ltb_spec c (d + Z.of_nat D)); cbn [andb]; try reflexivity; lia.
Qed.
Lemma assigned (m : Z -> V) D d s : readable_in_order D d s -> only_elements m (assign D m d s) d (elements m s D).
Proof.
  intros H. apply (only_intro m (assign D m d s) d (fun k => m (s + k))). intros c. unfold assign.
  rewrite assign_from_spec by (unfold readable_in_order in H; lia). rewrite !Z.add_0_r. reflexivity.
Qed.
Lemma finite_from_spec isfinite (m : Z -> V) a : forall more i,
  finite_from isfinite m a i more = forallb isfinite (map (fun k => m (a + i + Z.of_nat k)) (seq 0 more)).
Proof.
  induction more as [|n IH]; intros i; [reflexivity|]. cbn [finite_from seq map forallb]. rewrite IH.
  change (Z.of_nat 0) with 0. rewrite Z.add_0_r. rewrite <- seq_shift, map_map.
  rewrite (map_ext (fun k => m (a + (i + 1) + Z.of_nat k)) (fun k => m (a + i + Z.of_nat (S k)))) by (intros k; f_equal; lia).
  destruct (isfinite (m (a + i))); reflexivity.
Qed.
Lemma finite_elements isfinite (m : Z -> V) a D : isFinite isfinite D m a = forallb isfinite (elements m a D).
Proof. unfold isFinite. rewrite finite_from_spec, Z.add_0_r. reflexivity. Qed.
Lemma dot_from_spec (add mul : V -> V -> V) (m : Z -> V) a b : forall more i ret,
  dot_from add mul m a b i more ret = fold_left add (map (fun k => mul (m (a + i + Z.of_nat k)) (m (b + i + Z.of_nat k))) (seq 0 more)) ret.
Proof.
  induction more as [|n IH]; intros i ret; [reflexivity|]. cbn [dot_from seq map fold_left]. rewrite IH.
  change (Z.of_nat 0) with 0. rewrite !Z.add_0_r. rewrite <- seq_shift, map_map. f_equal.
  apply map_ext. intros k. f_equal; f_equal; lia.
Qed.
End Elements.
Lemma total_left l : forall r, fold_left Rplus l r = (r + total l)%R.
Proof. induction l as [|x l IH]; intros r; cbn; [lra|]. rewrite IH. unfold total. lra. Qed.
Lemma dot_total D m a b : dot D m a b = total (map (fun k => m (a + Z.of_nat k)%Z * m (b + Z.of_nat k)%Z)%R (seq 0 D)).
Proof.
  unfold dot, dot_of. rewrite dot_from_spec, total_left, Rplus_0_l. f_equal. apply map_ext. intros k. rewrite !Z.add_0_r. reflexivity.
Qed.
Lemma added_from (more : nat) : forall (m : Z -> R) d s i, d <= s \/ s + i + Z.of_nat more <= d + i ->
  forall c, atomicAdd_from m d s i more c = if (d + i <=? c) && (c <? d + i + Z.of_nat more) then (m c + m (s + (c - d))%Z)%R else m c.
Proof.
  induction more as [|n IH]; intros m d s i H c; cbn [atomicAdd_from].
  - destruct (Z.leb_spec (d + i) c), (Z.ltb_spec c (d + i + Z.of_nat 0)); cbn [andb]; try reflexivity; lia.
  - rewrite IH by lia. cbv [poke].
    destruct (Z.leb_spec (d + (i + 1)) c), (Z.ltb_spec c (d + (i + 1) + Z.of_nat n)),
      (Z.leb_spec (d + i) c), (Z.ltb_spec c (d + i + Z.of_nat (S n))); cbn [andb]; try lia; pokes; try reflexivity; repeat (f_equal; try lia).
Qed.
Lemma added (m : Z -> R) D d s : readable_in_order D d s ->
  only_elements m (atomicAdd_remote D m d s) d (map (fun k => m (d + Z.of_nat k)%Z + m (s + Z.of_nat k)%Z)%R (seq 0 D)).
Proof.
  intros H. apply (only_intro m (atomicAdd_remote D m d s) d (fun k => m (d + k)%Z + m (s + k)%Z)%R). intros c. unfold atomicAdd_remote.
  rewrite added_from by (unfold readable_in_order in H; lia). rewrite !Z.add_0_r. replace (d + (c - d)) with c by lia. reflexivity.
Qed.
Lemma same_array D base i j : readable_in_order D (located (Z.of_nat D) base i) (located (Z.of_nat D) base j).
Proof. unfold readable_in_order, located. destruct (Z_le_gt_dec i j); [left|right]; nia. Qed.
Lemma reqb_spec x y : reflect (x = y) (reqb x y).
Proof. unfold reqb. destruct (Req_EM_T x y); constructor; assumption. Qed.
Lemma equals_spec m base i v : equals m (located 3 base i) v = true <-> vector_number m base i = v.
Proof.
  unfold equals, located, vector_number. rewrite Z.add_0_r. destruct v as [x y z]; cbn [vx vy vz].
  destruct (reqb_spec (m (base + 3 * i)) x); cbn [negb]; [|split; [discriminate|intros E; injection E; intros; contradiction]].
  destruct (reqb_spec (m (base + 3 * i + 1)) y); cbn [negb]; [|split; [discriminate|intros E; injection E; intros; contradiction]].
  destruct (reqb_spec (m (base + 3 * i + 2)) z); cbn [negb]; [|split; [discriminate|intros E; injection E; intros; contradiction]].
  split; [intros _; congruence|reflexivity].
Qed.

(** ** Two dimensions *)
Open Scope R_scope.
Lemma squares_nonneg (v : vec2) : 0 <= magnitude2_squared v.
Proof. unfold magnitude2_squared, dot2. nra. Qed.
Lemma squares_zero (v : vec2) : magnitude2_squared v = 0 <-> v = Vec2 0 0.
Proof.
  destruct v as [x y]. unfold magnitude2_squared, dot2; cbn [x2 y2]. split.
  - intros H. assert (x = 0) by nra. assert (y = 0) by nra. subst; reflexivity.
  - intros H. injection H as -> ->. lra.
Qed.
Lemma squares_positive (v : vec2) : v <> Vec2 0 0 -> 0 < magnitude2_squared v.
Proof. intros N. pose proof (squares_nonneg v). destruct (Req_dec (magnitude2_squared v) 0) as [E|E]; [apply squares_zero in E; contradiction|lra]. Qed.
Lemma magnitude2_positive (v : vec2) : v <> Vec2 0 0 -> 0 < magnitude2 v.
Proof. intros N. apply sqrt_lt_R0, squares_positive, N. Qed.
Lemma magnitude2_square (v : vec2) : magnitude2 v * magnitude2 v = magnitude2_squared v.
Proof. apply sqrt_sqrt, squares_nonneg. Qed.
Lemma divisor (v w : vec2) : sqrt (magnitude2_squared v * magnitude2_squared w) = magnitude2 v * magnitude2 w.
Proof. apply sqrt_mult; apply squares_nonneg. Qed.
Lemma lagrange (v w : vec2) : dot2 v w * dot2 v w + (x2 v * y2 w - y2 v * x2 w) * (x2 v * y2 w - y2 v * x2 w) = magnitude2_squared v * magnitude2_squared w.
Proof. unfold magnitude2_squared, dot2. ring. Qed.
Lemma bounded (d p : R) : 0 < p -> d * d <= p * p -> -1 <= d / p <= 1.
Proof.
  intros P H. assert (- p <= d) by nra. assert (d <= p) by nra. split.
  - apply (Rmult_le_reg_r p); [lra|]. unfold Rdiv. rewrite Rmult_assoc, Rinv_l by lra. lra.
  - apply (Rmult_le_reg_r p); [lra|]. unfold Rdiv. rewrite Rmult_assoc, Rinv_l by lra. lra.
Qed.
Lemma cosine2_some (v w : vec2) : v <> Vec2 0 0 -> w <> Vec2 0 0 ->
  cosine2 v w = Some (dot2 v w / (magnitude2 v * magnitude2 w)) /\ -1 <= dot2 v w / (magnitude2 v * magnitude2 w) <= 1.
Proof.
  intros Nv Nw. pose proof (magnitude2_positive v Nv) as Pv. pose proof (magnitude2_positive w Nw) as Pw.
  assert (P : 0 < magnitude2 v * magnitude2 w) by (apply Rmult_lt_0_compat; assumption).
  unfold cosine2. rewrite divisor. split.
  - destruct (Req_EM_T (magnitude2 v * magnitude2 w) 0); [lra|reflexivity].
  - apply bounded; [assumption|].
    replace (magnitude2 v * magnitude2 w * (magnitude2 v * magnitude2 w)) with (magnitude2_squared v * magnitude2_squared w)
      by (rewrite <- !magnitude2_square; ring).
    rewrite <- (lagrange v w). pose proof (Rle_0_sqr (x2 v * y2 w - y2 v * x2 w)) as Q. unfold Rsqr in Q. lra.
Qed.
Lemma cosine2_none (v w : vec2) : cosine2 v w = None <-> v = Vec2 0 0 \/ w = Vec2 0 0.
Proof.
  split.
  - intros H. destruct (Req_dec (magnitude2_squared v) 0) as [E|E]; [left; apply squares_zero, E|].
    destruct (Req_dec (magnitude2_squared w) 0) as [E'|E']; [right; apply squares_zero, E'|].
    assert (Nv : v <> Vec2 0 0) by (intros ->; apply E, squares_zero; reflexivity).
    assert (Nw : w <> Vec2 0 0) by (intros ->; apply E', squares_zero; reflexivity).
    rewrite (proj1 (cosine2_some v w Nv Nw)) in H. discriminate.
  - intros H. unfold cosine2. rewrite divisor.
    destruct (Req_EM_T (magnitude2 v * magnitude2 w) 0) as [_|N]; [reflexivity|]. exfalso. apply N.
    unfold magnitude2. destruct H as [-> | ->]; rewrite (proj2 (squares_zero (Vec2 0 0)) eq_refl), sqrt_0; ring.
Qed.
Lemma angle2_some (v w : vec2) : v <> Vec2 0 0 -> w <> Vec2 0 0 ->
  exists th, angle2 v w = Some th /\ 0 <= th <= PI /\ dot2 v w = magnitude2 v * magnitude2 w * cos th.
Proof.
  intros Nv Nw. destruct (cosine2_some v w Nv Nw) as [E B]. exists (acos (dot2 v w / (magnitude2 v * magnitude2 w))).
  unfold angle2. rewrite E. split; [reflexivity|]. split; [apply acos_bound|].
  rewrite cos_acos by exact B. pose proof (magnitude2_positive v Nv). pose proof (magnitude2_positive w Nw). field. split; lra.
Qed.
