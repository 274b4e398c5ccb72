(** Rounding to a number of digits gives the nearest number with so many digits. *)
From Coq Require Import ZArith Reals Lra Lia Psatz Bool.
From Verif Require Import DigModel DigSpec DigProof.
Open Scope R_scope.

Lemma log_loop_spec b : (2 <= b)%Z -> forall fuel n, (1 <= n)%Z -> (n < 2 ^ Z.of_nat fuel)%Z ->
  (0 <= log_loop b fuel n /\ b ^ log_loop b fuel n <= n < b ^ (log_loop b fuel n + 1))%Z.
Proof.
  intros B. induction fuel as [|f IH]; intros n N L.
  - cbn in L. lia.
  - cbn [log_loop]. destruct (Z.ltb_spec n b) as [C|C].
    + change (0 + 1)%Z with 1%Z. rewrite Z.pow_0_r, Z.pow_1_r. lia.
    + assert (1 <= n / b)%Z by (apply Z.div_le_lower_bound; lia).
      assert (n / b < 2 ^ Z.of_nat f)%Z.
      { apply Z.div_lt_upper_bound; [lia|]. rewrite Nat2Z.inj_succ, Z.pow_succ_r in L by lia.
        assert (0 < 2 ^ Z.of_nat f)%Z by (apply Z.pow_pos_nonneg; lia). nia. }
      destruct (IH (n / b)%Z H H0) as (K & A & D). set (k := log_loop b f (n / b)) in *.
      split; [lia|]. replace (1 + k)%Z with (Z.succ k) by lia. replace (Z.succ k + 1)%Z with (Z.succ (k + 1)) by lia.
      rewrite !Z.pow_succ_r by lia. pose proof (Z.div_mod n b ltac:(lia)) as E. pose proof (Z.mod_pos_bound n b ltac:(lia)) as M.
      split; nia.
Qed.
Lemma log_loop_ok b n : (2 <= b)%Z -> (1 <= n)%Z ->
  let k := log_loop b (Z.to_nat (Z.log2 n + 1)) n in (0 <= k /\ b ^ k <= n < b ^ (k + 1))%Z.
Proof.
  intros B N. apply log_loop_spec; [exact B|exact N|]. rewrite Z2Nat.id by (pose proof (Z.log2_nonneg n); lia).
  apply Z.log2_spec. lia.
Qed.

Lemma Rabs_le_inv x a : Rabs x <= a -> - a <= x <= a.
Proof. intros H. pose proof (Rle_abs x). pose proof (Rle_abs (- x)) as Q. rewrite Rabs_Ropp in Q. lra. Qed.
Definition quotient (num den : Z) : R := IZR num / IZR den.
Lemma log_quotient_ok b num den : (2 <= b)%Z -> (0 < num)%Z -> (0 < den)%Z ->
  bpow b (log_quotient b num den) <= quotient num den < bpow b (log_quotient b num den + 1).
Proof.
  intros B N D. unfold log_quotient. set (j := (Z.log2 den + 1)%Z). set (t := (num * b ^ j / den)%Z).
  assert (J : (0 <= j)%Z) by (pose proof (Z.log2_nonneg den); lia).
  assert (DB : (den < b ^ j)%Z).
  { apply Z.lt_le_trans with (2 ^ j)%Z; [apply Z.log2_spec, D|]. apply Z.pow_le_mono_l. lia. }
  assert (T1 : (1 <= t)%Z) by (apply Z.div_le_lower_bound; [exact D|nia]).
  destruct (log_loop_ok b t B T1) as (K & L & U). set (k := log_loop b _ t) in *.
  pose proof (Z.div_mod (num * b ^ j) den ltac:(lia)) as E. fold t in E. pose proof (Z.mod_pos_bound (num * b ^ j) den D) as M.
  assert (L' : (b ^ k * den <= num * b ^ j)%Z) by nia. assert (U' : (num * b ^ j < b ^ (k + 1) * den)%Z) by nia.
  apply IZR_le in L'. apply IZR_lt in U'. rewrite !mult_IZR in L', U'. rewrite <- !bpow_Z in L', U' by lia.
  assert (DP : 0 < IZR den) by (apply IZR_lt; exact D). pose proof (bpow_pos b j ltac:(lia)) as JP. unfold quotient.
  assert (S : forall i, bpow b i = bpow b (i - j) * bpow b j) by (intros i; rewrite <- bpow_add by lia; f_equal; lia).
  replace (k - j + 1)%Z with (k + 1 - j)%Z by lia. rewrite (S k) in L'. rewrite (S (k + 1)%Z) in U'.
  split; apply (Rmult_le_reg_r (IZR den)) || apply (Rmult_lt_reg_r (IZR den)); try exact DP;
    replace (IZR num / IZR den * IZR den) with (IZR num) by (field; lra).
  - apply (Rmult_le_reg_r (bpow b j)); [exact JP|lra].
  - apply (Rmult_lt_reg_r (bpow b j)); [exact JP|lra].
Qed.
Lemma round_even_ok num den : (0 < den)%Z -> Rabs (quotient num den - IZR (round_even num den)) <= 1 / 2.
Proof.
  intros D. assert (DP : 0 < IZR den) by (apply IZR_lt; exact D). pose proof (Z.div_mod num den ltac:(lia)) as E. pose proof (Z.mod_pos_bound num den D) as M.
  assert (H : (2 * Z.abs (num - round_even num den * den) <= den)%Z).
  { unfold round_even. destruct (Z.ltb_spec (2 * (num mod den)) den); [lia|]. destruct (Z.ltb_spec den (2 * (num mod den))); [lia|]. destruct (Z.even _); lia. }
  apply IZR_le in H. rewrite mult_IZR, abs_IZR, minus_IZR, mult_IZR in H. unfold quotient.
  replace (IZR num / IZR den - IZR (round_even num den)) with ((IZR num - IZR (round_even num den) * IZR den) / IZR den) by (field; lra).
  unfold Rdiv. rewrite Rabs_mult, (Rabs_right (/ IZR den)) by (left; apply Rinv_0_lt_compat, DP).
  apply (Rmult_le_reg_r (IZR den)); [exact DP|]. rewrite Rmult_assoc, Rinv_l by lra. lra.
Qed.
Lemma scaled_quotient b num den s : (1 < b)%Z -> (0 < den)%Z ->
  quotient (num * b ^ Z.max 0 (- s)) (den * b ^ Z.max 0 s) = quotient num den / bpow b s.
Proof.
  intros B D. assert (DP : IZR den <> 0) by (apply not_0_IZR; lia). pose proof (bpow_pos b s ltac:(lia)) as SP. unfold quotient. rewrite !mult_IZR, <- !bpow_Z by lia.
  destruct (Z.le_ge_cases 0 s) as [L|L].
  - replace (Z.max 0 (- s)) with 0%Z by lia. replace (Z.max 0 s) with s by lia. rewrite bpow_0. field. split; lra.
  - replace (Z.max 0 (- s)) with (- s)%Z by lia. replace (Z.max 0 s) with 0%Z by lia. rewrite bpow_0.
    pose proof (bpow_add b s (- s) ltac:(lia)) as E. replace (s + - s)%Z with 0%Z in E by lia. rewrite bpow_0 in E.
    replace (bpow b (- s)) with (/ bpow b s); [field; split; lra|]. apply (Rmult_eq_reg_l (bpow b s)); [|lra]. rewrite <- E. field. lra.
Qed.
Lemma round_at_ok b num den s : (1 < b)%Z -> (0 < den)%Z ->
  Rabs (quotient num den - IZR (round_at b num den s) * bpow b s) <= bpow b s / 2.
Proof.
  intros B D. pose proof (bpow_pos b s ltac:(lia)) as SP. unfold round_at.
  pose proof (round_even_ok (num * b ^ Z.max 0 (- s)) (den * b ^ Z.max 0 s)) as H.
  rewrite scaled_quotient in H by lia. set (n := round_even _ _) in *.
  assert (P : (0 < b ^ Z.max 0 s)%Z) by (apply Z.pow_pos_nonneg; lia). specialize (H ltac:(lia)).
  replace (quotient num den - IZR n * bpow b s) with ((quotient num den / bpow b s - IZR n) * bpow b s) by (field; lra).
  rewrite Rabs_mult, (Rabs_right (bpow b s)) by lra. nra.
Qed.

(** Numbers with [p] digits of which none is worth less than [b^low]. *)
Definition limited (b p : Z) (low : option Z) (x : R) : Prop :=
  exists m e, (Z.abs m < b ^ p)%Z /\ (match low with Some l => (l <= e)%Z | None => True end) /\ x = IZR m * bpow b e.

Lemma bpow_le b e f : (1 < b)%Z -> (e <= f)%Z -> bpow b e <= bpow b f.
Proof. intros B L. destruct (Z.eq_dec e f) as [->|N]; [lra|]. left. apply bpow_lt; lia. Qed.
Lemma IZR_small z : Rabs (IZR z) < 1 -> z = 0%Z.
Proof. rewrite Rabs_IZR. intros H. apply lt_IZR in H. lia. Qed.
Lemma round_digits_ok b p low num den n s : (2 <= b)%Z -> (1 <= p)%Z -> (0 < num)%Z -> (0 < den)%Z ->
  round_digits b p low num den = (n, s) ->
  nearest (limited b p low) (quotient num den) (IZR n * bpow b s) /\ (0 <= n < b ^ p)%Z /\
  match low with Some l => (l <= s /\ (b ^ (p - 1) <= n \/ s = l))%Z | None => (b ^ (p - 1) <= n)%Z end.
Proof.
  intros B P N D. unfold round_digits. pose proof (log_quotient_ok b num den B N D) as [LL LU]. set (lq := log_quotient b num den) in *.
  set (s0 := match low with Some l => Z.max l (lq - (p - 1)) | None => (lq - (p - 1))%Z end).
  set (x := quotient num den) in *. assert (XP : 0 < x). { eapply Rlt_le_trans; [|exact LL]. apply bpow_pos. lia. }
  pose proof (round_at_ok b num den s0 ltac:(lia) D) as RA. set (n0 := round_at b num den s0) in *. fold x in RA.
  pose proof (bpow_pos b s0 ltac:(lia)) as SP.
  assert (BP : (b ^ p = b ^ (p - 1) * b)%Z). { replace p with (p - 1 + 1)%Z at 1 by lia. rewrite Z.pow_add_r, Z.pow_1_r by lia. reflexivity. }
  assert (B1 : (0 < b ^ (p - 1))%Z) by (apply Z.pow_pos_nonneg; lia).
  assert (S0 : (lq - (p - 1) <= s0)%Z) by (unfold s0; destruct low; lia).
  assert (UP : x < IZR (b ^ p) * bpow b s0).
  { eapply Rlt_le_trans; [exact LU|]. rewrite <- bpow_Z, <- bpow_add by lia. apply bpow_le; lia. }
  assert (LO : IZR (b ^ (p - 1)) * bpow b s0 <= x \/ (exists l, low = Some l /\ s0 = l)).
  { destruct (Z.eq_dec s0 (lq - (p - 1))) as [E|E].
    - left. eapply Rle_trans; [|exact LL]. rewrite <- bpow_Z, <- bpow_add by lia. apply bpow_le; lia.
    - right. destruct low as [l|]; unfold s0 in *; [|lia]. exists l. split; [reflexivity|lia]. }
  apply Rabs_le_inv in RA.
  assert (N0 : (0 <= n0 <= b ^ p)%Z).
  { split.
    - apply Z.lt_succ_r. replace (Z.succ n0) with (n0 + 1)%Z by lia. apply lt_IZR. rewrite plus_IZR.
      apply (Rmult_lt_reg_r (bpow b s0)); [exact SP|]. nra.
    - apply Z.lt_succ_r. replace (Z.succ (b ^ p)) with (b ^ p + 1)%Z by lia. apply lt_IZR. rewrite plus_IZR.
      apply (Rmult_lt_reg_r (bpow b s0)); [exact SP|]. nra. }
  assert (NL : (b ^ (p - 1) <= n0)%Z \/ (exists l, low = Some l /\ s0 = l)).
  { destruct LO as [LO|LO]; [left|right; exact LO]. apply Z.lt_succ_r. replace (Z.succ n0) with (n0 + 1)%Z by lia. apply lt_IZR. rewrite plus_IZR.
    apply (Rmult_lt_reg_r (bpow b s0)); [exact SP|]. nra. }
  assert (NE : forall z, limited b p low z -> Rabs (x - IZR n0 * bpow b s0) <= Rabs (x - z)).
  { intros z (m & e & Hm & He & ->).
    destruct (Z.le_gt_cases s0 e) as [L|L].
    - assert (E : IZR m * bpow b e = IZR (m * b ^ (e - s0)) * bpow b s0).
      { replace e with (e - s0 + s0)%Z at 1 by lia. rewrite bpow_add, (bpow_Z b (e - s0)), mult_IZR by lia. ring. }
      rewrite E. set (k := (m * b ^ (e - s0))%Z). destruct (Z.eq_dec k n0) as [->|K]; [lra|].
      assert (1 <= Z.abs (k - n0))%Z by lia. apply IZR_le in H. rewrite abs_IZR, minus_IZR in H.
      assert (bpow b s0 <= Rabs ((IZR k - IZR n0) * bpow b s0)). { rewrite Rabs_mult, (Rabs_right (bpow b s0)) by lra. nra. }
      assert (T : Rabs ((IZR k - IZR n0) * bpow b s0) <= Rabs (x - IZR n0 * bpow b s0) + Rabs (x - IZR k * bpow b s0)).
      { replace ((IZR k - IZR n0) * bpow b s0) with ((x - IZR n0 * bpow b s0) - (x - IZR k * bpow b s0)) by ring.
        eapply Rle_trans; [apply Rabs_triang|]. rewrite Rabs_Ropp. lra. }
      assert (Rabs (x - IZR n0 * bpow b s0) <= bpow b s0 / 2) by (apply Rabs_le; lra). lra.
    - destruct LO as [LO|(l & -> & ->)]; [|lia].
      (* the number b^(p-1) * b^s0 is between *)
      assert (Zb : IZR m * bpow b e < IZR (b ^ (p - 1)) * bpow b s0).
      { apply Rle_lt_trans with (IZR (Z.abs m) * bpow b e).
        - apply Rmult_le_compat_r; [left; apply bpow_pos; lia|]. apply IZR_le. lia.
        - apply Rlt_le_trans with (IZR (b ^ p) * bpow b e); [apply Rmult_lt_compat_r; [apply bpow_pos; lia|apply IZR_lt, Hm]|].
          rewrite <- !bpow_Z, <- !bpow_add by lia. apply bpow_le; lia. }
      assert (G : Rabs (x - IZR n0 * bpow b s0) <= x - IZR (b ^ (p - 1)) * bpow b s0).
      { set (k := (b ^ (p - 1))%Z) in *. destruct NL as [NL|(l & -> & ->)]; [|lia].
        destruct (Z.eq_dec k n0) as [<-|K]; [rewrite Rabs_right; lra|].
        assert (k + 1 <= n0)%Z by lia. apply IZR_le in H. rewrite plus_IZR in H. apply Rabs_le. split; nra. }
      rewrite (Rabs_right (x - IZR m * bpow b e)); lra. }
  assert (LS : match low with Some l => (l <= s0)%Z | None => True end) by (unfold s0; destruct low; [lia|exact I]).
  destruct (Z.eqb_spec n0 (b ^ p)) as [E|E]; intros H; injection H as <- <-.
  - assert (V : IZR (b ^ (p - 1)) * bpow b (s0 + 1) = IZR n0 * bpow b s0).
    { rewrite E, BP, bpow_add, (bpow_Z b 1), Z.pow_1_r, mult_IZR by lia. ring. }
    split; [split|].
    + exists (b ^ (p - 1))%Z, (s0 + 1)%Z. split; [|split; [destruct low; [lia|exact I]|reflexivity]]. rewrite Z.abs_eq by lia. nia.
    + intros z HZ. rewrite V. apply NE, HZ.
    + split; [nia|]. destruct low as [l|]; [split; [lia|left; lia]|lia].
  - split; [split|].
    + exists n0, s0. split; [lia|]. split; [exact LS|reflexivity].
    + exact NE.
    + split; [lia|]. destruct low as [l|]; [split; [exact LS|]|]; destruct NL as [NL|(l' & L1 & L2)]; try (left; exact NL); try exact NL.
      * right. congruence.
      * discriminate L1.
Qed.
