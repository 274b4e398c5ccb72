(** Proofs about numbers with a limited number of digits. *)
From Coq Require Import ZArith Reals Lra Lia Psatz.
From Verif Require Import DigSpec.
Open Scope R_scope.

Lemma bpow_pos b e : (0 < b)%Z -> 0 < bpow b e.
Proof. intros H. apply powerRZ_lt. apply IZR_lt. exact H. Qed.
Lemma bpow_add b e f : (0 < b)%Z -> bpow b (e + f) = bpow b e * bpow b f.
Proof. intros H. apply powerRZ_add. apply not_0_IZR. lia. Qed.
Lemma bpow_Z b e : (0 <= e)%Z -> bpow b e = IZR (b ^ e).
Proof.
  intros H. unfold bpow. rewrite <- (Z2Nat.id e H). rewrite <- pow_powerRZ. symmetry. rewrite pow_IZR. reflexivity.
Qed.
Lemma bpow_0 b : bpow b 0 = 1.
Proof. reflexivity. Qed.

Lemma Rabs_IZR z : Rabs (IZR z) = IZR (Z.abs z).
Proof. symmetry. apply abs_IZR. Qed.
Lemma abs_scaled m b e : (0 < b)%Z -> Rabs (IZR m * bpow b e) = IZR (Z.abs m) * bpow b e.
Proof. intros H. rewrite Rabs_mult, Rabs_IZR. f_equal. apply Rabs_right. left. apply bpow_pos, H. Qed.

(** Two different numbers with [p] digits are at a relative distance of at least [b^-p]. *)
Lemma gap_int P M m : (Z.abs m < P)%Z -> M <> m -> (Z.abs M <= P * Z.abs (M - m))%Z.
Proof. intros H N. assert (1 <= Z.abs (M - m))%Z by lia. assert (Z.abs M <= Z.abs m + Z.abs (M - m))%Z by lia. nia. Qed.
Lemma gap_int' P M m : (Z.abs m < P)%Z -> M <> m -> (Z.abs m <= P * Z.abs (M - m))%Z.
Proof. intros H N. assert (1 <= Z.abs (M - m))%Z by lia. nia. Qed.
Lemma gap b p x y : (0 < b)%Z -> (0 <= p)%Z -> short b p x -> short b p y -> x <> y -> Rabs x <= IZR (b ^ p) * Rabs (y - x).
Proof.
  intros B P (m & e & Hm & ->) (n & f & Hn & ->) N.
  destruct (Z.le_ge_cases e f) as [L|L].
  - assert (E : IZR n * bpow b f = IZR (n * b ^ (f - e)) * bpow b e).
    { replace f with (f - e + e)%Z at 1 by lia. rewrite bpow_add, (bpow_Z b (f - e)), mult_IZR by lia. ring. }
    rewrite E in N |- *. rewrite <- Rmult_minus_distr_r, <- minus_IZR, !abs_scaled by exact B.
    rewrite <- Rmult_assoc, <- mult_IZR. apply Rmult_le_compat_r; [left; apply bpow_pos, B|]. apply IZR_le.
    apply gap_int'; [exact Hm|]. intros X. apply N. rewrite X. reflexivity.
  - assert (E : IZR m * bpow b e = IZR (m * b ^ (e - f)) * bpow b f).
    { replace e with (e - f + f)%Z at 1 by lia. rewrite bpow_add, (bpow_Z b (e - f)), mult_IZR by lia. ring. }
    rewrite E in N |- *. rewrite (Rabs_minus_sym (IZR n * _)). rewrite <- Rmult_minus_distr_r, <- minus_IZR, !abs_scaled by exact B.
    rewrite <- Rmult_assoc, <- mult_IZR. apply Rmult_le_compat_r; [left; apply bpow_pos, B|]. apply IZR_le.
    apply gap_int; [exact Hn|]. intros X. apply N. rewrite X. reflexivity.
Qed.

(** There is a number with [p] digits close to any number. *)
Lemma round_int x : exists n, Rabs (x - IZR n) <= 1 / 2.
Proof.
  destruct (archimed (x - 1 / 2)) as [A B]. exists (up (x - 1 / 2)). apply Rabs_le. split; lra.
Qed.
Lemma bpow_lt b e f : (1 < b)%Z -> (e < f)%Z -> bpow b e < bpow b f.
Proof.
  intros B L. replace f with (f - e + e)%Z by lia. rewrite bpow_add by lia. rewrite (bpow_Z b (f - e)) by lia.
  assert (1 < b ^ (f - e))%Z by (apply Z.pow_gt_1; lia). apply IZR_lt in H. pose proof (bpow_pos b e ltac:(lia)). nra.
Qed.
Lemma scale_of b x : (1 < b)%Z -> 0 < x -> exists k, bpow b k <= x < bpow b (k + 1).
Proof.
  intros B X. assert (LB : 0 < ln (IZR b)). { rewrite <- ln_1. apply ln_increasing; [lra|]. apply IZR_lt. exact B. }
  assert (E : forall k, bpow b k = exp (IZR k * ln (IZR b))).
  { intros k. unfold bpow. rewrite powerRZ_Rpower by (apply IZR_lt; lia). reflexivity. }
  exists (up (ln x / ln (IZR b)) - 1)%Z. destruct (archimed (ln x / ln (IZR b))) as [A C].
  replace (up (ln x / ln (IZR b)) - 1 + 1)%Z with (up (ln x / ln (IZR b))) by lia.
  set (u := up (ln x / ln (IZR b))) in *. rewrite !E. set (l := ln x / ln (IZR b)) in *.
  assert (Q : x = exp (l * ln (IZR b))). { unfold l. replace (ln x / ln (IZR b) * ln (IZR b)) with (ln x) by (field; lra). symmetry. apply exp_ln, X. }
  clearbody u l. subst x. split.
  - destruct (Rle_lt_or_eq_dec (IZR (u - 1)) l) as [L|L].
    + rewrite minus_IZR. lra.
    + left. apply exp_increasing. apply Rmult_lt_compat_r; assumption.
    + right. rewrite L. reflexivity.
  - apply exp_increasing. apply Rmult_lt_compat_r; assumption.
Qed.
Lemma close b p x : (1 < b)%Z -> (1 <= p)%Z -> exists d, short b p d /\ IZR (b ^ (p - 1)) * Rabs (x - d) <= Rabs x / 2.
Proof.
  intros B P. destruct (Req_dec x 0) as [->|X].
  - exists 0. split; [exists 0%Z, 0%Z; split; [lia|ring]|]. rewrite Rminus_0_r, Rabs_R0. lra.
  - destruct (scale_of b (Rabs x) B (Rabs_pos_lt _ X)) as (k & L & U).
    set (u := (k - (p - 1))%Z). pose proof (bpow_pos b u ltac:(lia)) as PU.
    destruct (round_int (x / bpow b u)) as (n & Hn).
    assert (D : Rabs (x - IZR n * bpow b u) <= bpow b u / 2).
    { replace (x - IZR n * bpow b u) with ((x / bpow b u - IZR n) * bpow b u) by (field; lra).
      rewrite Rabs_mult, (Rabs_right (bpow b u)) by lra. nra. }
    exists (IZR n * bpow b u). split.
    + assert (Z.abs n <= b ^ p)%Z.
      { apply Z.lt_succ_r. apply lt_IZR. rewrite succ_IZR. rewrite <- Rabs_IZR.
        assert (Rabs (x / bpow b u) < IZR (b ^ p)).
        { unfold Rdiv. rewrite Rabs_mult, (Rabs_right (/ bpow b u)) by (left; apply Rinv_0_lt_compat, PU).
          apply (Rmult_lt_reg_r (bpow b u)); [exact PU|]. rewrite Rmult_assoc, Rinv_l by lra.
          rewrite <- bpow_Z, <- bpow_add by lia. rewrite Rmult_1_r. replace (p + u)%Z with (k + 1)%Z by (unfold u; lia). exact U. }
        pose proof (Rabs_triang_inv (IZR n) (x / bpow b u)) as T. rewrite (Rabs_minus_sym (IZR n)) in T. lra. }
      destruct (Z.eq_dec (Z.abs n) (b ^ p)) as [E|E].
      * exists (Z.sgn n * b ^ (p - 1))%Z, (u + 1)%Z. split.
        -- rewrite Z.abs_mul. assert (Z.abs (Z.sgn n) <= 1)%Z by lia.
           assert (b ^ (p - 1) < b ^ p)%Z by (apply Z.pow_lt_mono_r; lia). assert (0 < b ^ (p - 1))%Z by (apply Z.pow_pos_nonneg; lia).
           rewrite (Z.abs_eq (b ^ (p - 1))) by lia. nia.
        -- rewrite bpow_add, (bpow_Z b 1), Z.pow_1_r by lia. replace n with (Z.sgn n * Z.abs n)%Z at 1 by (rewrite Z.mul_comm; apply Z.abs_sgn).
           rewrite E. replace p with (p - 1 + 1)%Z at 1 by lia. rewrite Z.pow_add_r, Z.pow_1_r by lia. rewrite !mult_IZR. ring.
      * exists n, u. split; [lia|reflexivity].
    + apply Rle_trans with (IZR (b ^ (p - 1)) * (bpow b u / 2)).
      * apply Rmult_le_compat_l; [apply IZR_le, Z.pow_nonneg; lia|exact D].
      * rewrite <- bpow_Z by lia. replace (bpow b (p - 1) * (bpow b u / 2)) with (bpow b (p - 1) * bpow b u / 2) by field.
        rewrite <- bpow_add by lia. replace (p - 1 + u)%Z with k by (unfold u; lia). lra.
Qed.

Lemma binary_short p emin emax x : binary p emin emax x -> short 2 p x.
Proof. intros (m & e & M & _ & E). exists m, e. split; assumption. Qed.

(** What is printed with enough digits is read as the same number. *)
Lemma printed_read (f : R -> Prop) p q x d y : (0 <= p)%Z -> (1 <= q)%Z -> (2 ^ p < 10 ^ (q - 1))%Z -> (forall x, f x -> short 2 p x) ->
  f x -> nearest (decimal q) x d -> nearest f d y -> y = x.
Proof.
  intros HP HQ HH FS FX (DD & DN) (FY & YN). destruct (Req_dec y x) as [E|N]; [exact E|exfalso].
  destruct (close 10 q x ltac:(lia) HQ) as (d' & SD & CD). specialize (DN d' SD). specialize (YN x FX).
  pose proof (gap 2 p x y ltac:(lia) HP (FS x FX) (FS y FY) (not_eq_sym N)) as G.
  assert (T : Rabs (y - x) <= Rabs (d - y) + Rabs (x - d)).
  { replace (y - x) with (- (d - y) - (x - d)) by ring. eapply Rle_trans; [apply Rabs_triang|]. rewrite !Rabs_Ropp. lra. }
  rewrite (Rabs_minus_sym d x) in YN.
  assert (A : 0 < Rabs (y - x)) by (apply Rabs_pos_lt; lra).
  apply IZR_lt in HH. assert (0 < 2 ^ p)%Z as P0 by (apply Z.pow_pos_nonneg; lia). apply IZR_lt in P0.
  assert (X1 : IZR (10 ^ (q - 1)) * Rabs (x - d) <= Rabs x / 2).
  { eapply Rle_trans; [|exact CD]. apply Rmult_le_compat_l; [lra|exact DN]. }
  destruct (Req_dec (Rabs (x - d)) 0) as [Z|Z]; [lra|]. assert (0 < Rabs (x - d)) by (pose proof (Rabs_pos (x - d)); lra).
  assert (X2 : IZR (2 ^ p) * Rabs (x - d) < Rabs x / 2).
  { eapply Rlt_le_trans; [|exact X1]. apply Rmult_lt_compat_r; assumption. }
  assert (X3 : IZR (2 ^ p) * Rabs (y - x) <= IZR (2 ^ p) * (2 * Rabs (x - d))) by (apply Rmult_le_compat_l; lra).
  lra.
Qed.
(** Numbers with [q] digits are at least a unit of the last digit from one with exactly [q] digits. *)
Lemma gap_last b q n k d : (1 < b)%Z -> (1 <= q)%Z -> (b ^ (q - 1) < n)%Z -> short b q d -> d <> IZR n * bpow b k -> bpow b k <= Rabs (d - IZR n * bpow b k).
Proof.
  intros B Q Hn (m & e & Hm & ->) N. pose proof (bpow_pos b k ltac:(lia)) as PK. pose proof (bpow_pos b e ltac:(lia)) as PE.
  destruct (Z.le_gt_cases k e) as [L|L].
  - assert (E : IZR m * bpow b e = IZR (m * b ^ (e - k)) * bpow b k).
    { replace e with (e - k + k)%Z at 1 by lia. rewrite bpow_add, (bpow_Z b (e - k)), mult_IZR by lia. ring. }
    rewrite E in N |- *. rewrite <- Rmult_minus_distr_r, <- minus_IZR, abs_scaled by lia.
    assert (1 <= Z.abs (m * b ^ (e - k) - n))%Z. { assert (m * b ^ (e - k) <> n)%Z by (intros X; apply N; rewrite X; reflexivity). lia. }
    apply IZR_le in H. nra.
  - assert (E : IZR n * bpow b k = IZR (n * b ^ (k - e)) * bpow b e).
    { replace k with (k - e + e)%Z at 1 by lia. rewrite bpow_add, (bpow_Z b (k - e)), mult_IZR by lia. ring. }
    rewrite E. rewrite <- Rmult_minus_distr_r, <- minus_IZR, abs_scaled by lia.
    replace (bpow b k) with (IZR (b ^ (k - e)) * bpow b e). 2: { rewrite <- bpow_Z, <- bpow_add by lia. f_equal. lia. }
    apply Rmult_le_compat_r; [lra|]. apply IZR_le.
    assert (b ^ 1 <= b ^ (k - e))%Z by (apply Z.pow_le_mono_r; lia). rewrite Z.pow_1_r in H.
    assert (b ^ q = b ^ (q - 1) * b)%Z. { replace q with (q - 1 + 1)%Z at 1 by lia. rewrite Z.pow_add_r, Z.pow_1_r by lia. reflexivity. }
    assert (0 < b ^ (q - 1))%Z by (apply Z.pow_pos_nonneg; lia). nia.
Qed.
Lemma nearest_last q n k x : (1 <= q)%Z -> (10 ^ (q - 1) < n < 10 ^ q)%Z -> Rabs (x - IZR n * bpow 10 k) <= bpow 10 k / 2 ->
  nearest (decimal q) x (IZR n * bpow 10 k).
Proof.
  intros Q Hn H. split; [exists n, k; split; [lia|reflexivity]|]. intros z D.
  destruct (Req_dec z (IZR n * bpow 10 k)) as [->|N]; [lra|].
  pose proof (gap_last 10 q n k z ltac:(lia) Q ltac:(lia) D N) as G.
  assert (T : Rabs (z - IZR n * bpow 10 k) <= Rabs (x - z) + Rabs (x - IZR n * bpow 10 k)).
  { replace (z - IZR n * bpow 10 k) with (- (x - z) + (x - IZR n * bpow 10 k)) by ring. eapply Rle_trans; [apply Rabs_triang|]. rewrite Rabs_Ropp. lra. }
  lra.
Qed.
Lemma nearest_one q x : (1 <= q)%Z -> IZR (10 ^ q) * Rabs (x - 1) <= 1 / 2 -> nearest (decimal q) x 1.
Proof.
  intros Q H. assert (S1 : short 10 q 1). { exists 1%Z, 0%Z. split; [|rewrite bpow_0; ring]. change (Z.abs 1) with 1%Z. apply Z.pow_gt_1; lia. }
  split; [exact S1|]. intros z D. destruct (Req_dec z 1) as [->|N]; [lra|].
  pose proof (gap 10 q 1 z ltac:(lia) ltac:(lia) S1 D (not_eq_sym N)) as G. rewrite (Rabs_right 1) in G by lra.
  assert (T : Rabs (z - 1) <= Rabs (x - z) + Rabs (x - 1)).
  { replace (z - 1) with (- (x - z) + (x - 1)) by ring. eapply Rle_trans; [apply Rabs_triang|]. rewrite Rabs_Ropp. lra. }
  assert (0 < 10 ^ q)%Z as P0 by (apply Z.pow_pos_nonneg; lia). apply IZR_lt in P0.
  apply (Rmult_le_reg_l (IZR (10 ^ q))); [exact P0|]. nra.
Qed.
