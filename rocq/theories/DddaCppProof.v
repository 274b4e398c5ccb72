(** The C++ choice of block: equal to the documented one below 2^24 data, different for some 2^24 data. *)
From Coq Require Import Lia.
From Verif Require Import QcBase PyBase OtfsModel OtfsSpec DddaModel DddaSpec DddaProof.
Open Scope Qc_scope.

Lemma cpp_loop_top d raw k : maxBlockID d = S k -> hasBlockVariance d (S k) = Ok false -> hasBlockVariance d k = Ok true -> (k <= 22)%nat ->
  cpp_optimal_loop d raw (S (S k)) (S k) = optimal_loop d raw (S (S k)) (S k).
Proof.
  intros M V1 V2 K. cbn [cpp_optimal_loop optimal_loop]. rewrite V1, V2, M, Nat.eqb_refl. cbn [bind negb].
  replace (S k - 1)%nat with k by lia.
  destruct (getStandardErrorOfTheMean_squared (block d k)) as [x|e]; cbn [bind]; [|reflexivity].
  rewrite (@cpp_loop_eq d raw k k) by (intros; lia).
  destruct (cpp_threshold_exceeded _ _ _ _), (threshold_exceeded _ _ _ _); reflexivity.
Qed.

Lemma cpp_optimal_eq24 d D : good d D -> (Z.of_nat (length D) < 2 ^ 24)%Z -> cpp_optimalBlockID d = optimalBlockID d.
Proof.
  intros G H. destruct (Z.lt_ge_cases (Z.of_nat (length D)) (2 ^ 23)) as [L|L]; [apply (cpp_optimal_eq G L)|].
  unfold cpp_optimalBlockID, optimalBlockID. destruct (Nat.ltb (ddda_size d) 2); [reflexivity|].
  destruct (getStandardErrorOfTheMean_squared (block d 0)) as [a|e]; cbn [bind]; [|reflexivity].
  destruct (qeqb a 0); [reflexivity|].
  assert (P : forall n, Z.of_nat (2 ^ n) = (2 ^ Z.of_nat n)%Z) by (intros n; rewrite Nat2Z.inj_pow; reflexivity).
  assert (LG : exists k, Nat.log2 (length D) = S k /\ (k <= 22)%nat).
  { exists 22%nat. split; [|lia]. apply Nat.log2_unique; [lia|].
    split; [apply Nat2Z.inj_le|apply Nat2Z.inj_lt]; rewrite P; [exact L|exact H]. }
  destruct LG as (k & LG & K).
  assert (PO : (0 < length D)%nat) by (destruct D; [cbn in L; lia|cbn; lia]).
  destruct (Nat.log2_spec (length D) PO) as [A B]. rewrite LG in A, B.
  pose proof (good_count G) as LL. unfold block_count in LL. rewrite LG in LL.
  assert (M : maxBlockID d = S k) by (unfold maxBlockID; lia).
  rewrite M. apply cpp_loop_top; [exact M|..|exact K].
  - unfold hasBlockVariance. rewrite M. destruct (Nat.ltb_spec (S k) (S k)); [lia|]. f_equal. rewrite (good_size _ G).
    apply Nat.leb_gt. apply Nat.div_lt_upper_bound; [apply Nat.pow_nonzero; lia|]. cbn [Nat.pow] in B |- *. lia.
  - unfold hasBlockVariance. rewrite M. destruct (Nat.ltb_spec (S k) k); [lia|]. f_equal. rewrite (good_size _ G).
    apply Nat.leb_le. apply Nat.div_le_lower_bound; [apply Nat.pow_nonzero; lia|]. cbn [Nat.pow] in A |- *. lia.
Qed.

(** Pairs around 0, then pairs around 1. *)
Fixpoint pairs (a b : Qc) (m : nat) : list Qc := match m with O => [] | S m => a :: b :: pairs a b m end.
Lemma pairs_length a b m : length (pairs a b m) = (2 * m)%nat.
Proof. induction m as [|m IH]; cbn [pairs length]; lia. Qed.
Lemma halve_pairs a b m r : halve (pairs a b m ++ r) = repeat ((a + b) / two) m ++ halve r.
Proof. induction m as [|m IH]; [reflexivity|]. cbn [pairs repeat app halve]. rewrite IH. reflexivity. Qed.
Lemma repeat_pairs x m : repeat x (2 * m) = pairs x x m.
Proof. induction m as [|m IH]; [reflexivity|]. replace (2 * S m)%nat with (S (S (2 * m))) by lia. cbn [repeat pairs]. rewrite IH. reflexivity. Qed.
Lemma two_neq : two <> 0. Proof. discriminate. Qed.
Lemma halve_repeat x m r : halve (repeat x (2 * m) ++ r) = repeat x m ++ halve r.
Proof. rewrite repeat_pairs, halve_pairs. do 2 f_equal. unfold two. field. discriminate. Qed.
Definition steps (k : nat) : list Qc := repeat 0 k ++ repeat 1 k.
Lemma steps_halve k : halve (steps (2 * k)) = steps k.
Proof.
  unfold steps. rewrite halve_repeat. f_equal. rewrite <- (app_nil_r (repeat 1 (2 * k))), halve_repeat. cbn. apply app_nil_r.
Qed.
Lemma steps_block i k : block_data (steps (2 ^ i * k)) i = steps k.
Proof.
  induction i as [|i IH]; [rewrite block_data_0; f_equal; cbn; lia|]. rewrite <- block_data_halve.
  replace (2 ^ S i * k)%nat with (2 * (2 ^ i * k))%nat by (cbn [Nat.pow]; lia). rewrite steps_halve. exact IH.
Qed.
Definition jitter (s : Qc) (m : nat) : list Qc := pairs s (- s) m ++ pairs (1 + s) (1 - s) m.
Lemma jitter_halve s m : halve (jitter s m) = steps m.
Proof.
  unfold jitter, steps. rewrite halve_pairs. f_equal; [f_equal; unfold two; field; discriminate|].
  rewrite <- (app_nil_r (pairs _ _ m)), halve_pairs. cbn. rewrite app_nil_r. f_equal. unfold two. field. discriminate.
Qed.
Lemma jitter_length s m : length (jitter s m) = (4 * m)%nat.
Proof. unfold jitter. rewrite app_length, !pairs_length. lia. Qed.
Lemma steps_length k : length (steps k) = (2 * k)%nat.
Proof. unfold steps. rewrite app_length, !repeat_length. lia. Qed.
Lemma jitter_block s j b : (b <= j)%nat -> block_data (jitter s (2 ^ j)) (S b) = steps (2 ^ (j - b)).
Proof.
  intros H. rewrite <- block_data_halve, jitter_halve. rewrite <- (steps_block b (2 ^ (j - b))). f_equal. f_equal.
  rewrite <- Nat.pow_add_r. f_equal. lia.
Qed.
Lemma qsum_app l r : qsum (l ++ r) = qsum l + qsum r.
Proof. induction l as [|x l IH]; cbn; [ring|]. rewrite IH. ring. Qed.
Lemma qsum_pairs (f : Qc -> Qc) a b m : qsum (map f (pairs a b m)) = qn m * (f a + f b).
Proof. induction m as [|m IH]; [rewrite qn_0; cbn; ring|]. cbn [pairs map qsum fold_right]. fold (qsum (map f (pairs a b m))). rewrite IH, qn_S. ring. Qed.
Lemma qsum_repeat (f : Qc -> Qc) x m : qsum (map f (repeat x m)) = qn m * f x.
Proof. induction m as [|m IH]; [rewrite qn_0; cbn; ring|]. cbn [repeat map qsum fold_right]. fold (qsum (map f (repeat x m))). rewrite IH, qn_S. ring. Qed.
Lemma steps_devsq k : k <> 0%nat -> devsq (steps k) = qn k / two.
Proof.
  intros K. assert (M : mean (steps k) = 1 / two).
  { unfold mean. rewrite steps_length, <- (map_id (steps k)). unfold steps. rewrite map_app, qsum_app, !qsum_repeat, qn_mul, qn_2.
    unfold two. field. split; [discriminate|apply qn_neq0, K]. }
  unfold devsq. rewrite M. unfold steps. rewrite map_app, qsum_app, !qsum_repeat. unfold two. field. discriminate.
Qed.
Lemma jitter_devsq s m : m <> 0%nat -> devsq (jitter s m) = qn m * (qz 4 * s * s + 1).
Proof.
  intros K. assert (M : mean (jitter s m) = 1 / two).
  { unfold mean. rewrite jitter_length, <- (map_id (jitter s m)). unfold jitter. rewrite map_app, qsum_app, !qsum_pairs, qn_mul.
    assert (F : qn 4 = two * two) by (apply Qc_is_canon; reflexivity). rewrite F. unfold two. field. repeat match goal with |- _ /\ _ => split end; try discriminate; apply qn_neq0, K. }
  unfold devsq. rewrite M. unfold jitter. rewrite map_app, qsum_app, !qsum_pairs.
  replace (qz 4) with (two * two) by (apply Qc_is_canon; reflexivity). unfold two. field. discriminate.
Qed.

Lemma se2_of s l : answers s l -> (2 <= length l)%nat -> se2 s = devsq l / (qn (length l) - 1) / qn (length l).
Proof.
  intros (A & _ & B) L. unfold se2. rewrite A, B. unfold spec_variance. destruct l as [|x [|y l]]; [cbn in L; lia..|reflexivity].
Qed.
Lemma qn_big n : (2 <= n)%nat -> qn n - 1 <> 0.
Proof. intros H E. assert (X : qn n = qn 1) by (rewrite qn_1; transitivity (qn n - 1 + 1); [ring|rewrite E; ring]). apply qn_inj in X. lia. Qed.
Lemma cpp_loop_none d raw k o : (forall i, (i < k)%nat -> hasBlockVariance d i = Ok true /\ (2 <= getSampleSize (block d i))%nat /\ cpp_threshold_exceeded (ddda_size d) i (se2 (block d i)) raw = false) ->
  cpp_optimal_loop d raw k o = Ok o.
Proof.
  intros H. induction k as [|k IH]; [reflexivity|]. cbn [cpp_optimal_loop]. destruct (H k) as (V & B & T); [lia|].
  rewrite V. cbn [bind negb]. rewrite se2_ok by exact B. cbn [bind]. rewrite T. apply IH. intros i Hi. apply H. lia.
Qed.

Section Counter.
Variables (s t : Qc) (j : nat).
Hypothesis T : qz 4 * s * s + 1 = t.
Hypothesis T0 : t <> 0.
Let m := (2 ^ j)%nat.
Let d := fold_left ddda_add (jitter s m) ddda_new.
Lemma m_pos : m <> 0%nat. Proof. apply Nat.pow_nonzero. lia. Qed.
Lemma d_good : good d (jitter s m).
Proof.
  assert (G : forall l a D, good a D -> good (fold_left ddda_add l a) (D ++ l)).
  { induction l as [|x l IH]; intros a D H; cbn [fold_left]; [rewrite app_nil_r; exact H|].
    replace (D ++ x :: l) with ((D ++ [x]) ++ l) by (rewrite <- app_assoc; reflexivity). apply IH, good_add, H. }
  apply (G _ _ [] good_new).
Qed.
Lemma d_log : Nat.log2 (length (jitter s m)) = (j + 2)%nat.
Proof. rewrite jitter_length. unfold m. replace (4 * 2 ^ j)%nat with (2 ^ (j + 2))%nat by (rewrite Nat.pow_add_r; cbn; lia). apply Nat.log2_pow2. lia. Qed.
Lemma d_len : length d = (j + 3)%nat.
Proof. rewrite (good_count d_good). unfold block_count. rewrite d_log. lia. Qed.
Lemma se2_raw : se2 (block d 0) = t / qn 4 / (qn 4 * qn m - 1).
Proof.
  destruct (stream_correct (jitter s m)) as [_ A]. destruct (A 0%nat) as [B _]; [fold d; rewrite d_len; lia|]. fold d in B. rewrite block_data_0 in B.
  pose proof m_pos as MP. rewrite (se2_of _ _ B) by (rewrite jitter_length; lia). rewrite jitter_devsq by exact MP. rewrite T, jitter_length, qn_mul.
  field. repeat split; [apply qn_neq0; discriminate| |apply qn_neq0, MP].
  rewrite <- qn_mul. apply qn_big. lia.
Qed.
Lemma se2_block b : (b <= j)%nat -> se2 (block d (S b)) = 1 / qn 4 / (qn (2 ^ (j + 1 - b)) - 1).
Proof.
  intros H. destruct (stream_correct (jitter s m)) as [_ A]. destruct (A (S b)) as [B _]; [fold d; rewrite d_len; lia|]. fold d in B. unfold m in B. rewrite jitter_block in B by exact H.
  assert (K : (2 ^ (j - b))%nat <> 0%nat) by (apply Nat.pow_nonzero; lia).
  rewrite (se2_of _ _ B) by (rewrite steps_length; lia). rewrite steps_devsq by exact K. rewrite steps_length.
  replace (j + 1 - b)%nat with (S (j - b)) by lia. cbn [Nat.pow]. replace (2 ^ (j - b) + (2 ^ (j - b) + 0))%nat with (2 * 2 ^ (j - b))%nat by lia.
  rewrite !qn_mul, qn_2. replace (qn 4) with (two * two) by (apply Qc_is_canon; reflexivity).
  assert (X : two * qn (2 ^ (j - b)) - 1 <> 0) by (rewrite <- qn_2, <- qn_mul; apply qn_big; lia).
  field. repeat match goal with |- _ /\ _ => split end; first [exact X|discriminate|apply qn_neq0, K].
Qed.
Lemma quotient b : (b <= j)%nat -> se2 (block d (S b)) / se2 (block d 0) = (qn 4 * qn m - 1) / (t * (qn (2 ^ (j + 1 - b)) - 1)).
Proof.
  intros H. rewrite se2_raw, se2_block by exact H. pose proof m_pos as MP.
  assert (Y : (2 <= 2 ^ (j + 1 - b))%nat) by (change 2%nat with (2 ^ 1)%nat at 1; apply Nat.pow_le_mono_r; lia).
  apply qn_big in Y. assert (X : qn 4 * qn m - 1 <> 0) by (rewrite <- qn_mul; apply qn_big; lia).
  field. repeat match goal with |- _ /\ _ => split end; first [exact X|exact Y|exact T0|discriminate|apply qn_neq0; discriminate].
Qed.
Lemma raw_neq : se2 (block d 0) <> 0.
Proof.
  intros E. pose proof m_pos as MP. assert (X : qn 4 * qn m - 1 <> 0) by (rewrite <- qn_mul; apply qn_big; lia).
  apply T0. rewrite se2_raw in E. transitivity (t / qn 4 / (qn 4 * qn m - 1) * (qn 4 * (qn 4 * qn m - 1))).
  - field. split; [apply qn_neq0; discriminate|exact X].
  - rewrite E. ring.
Qed.
End Counter.

Lemma run_cpp_optimal24 os st i : no_self os -> drun dstore0 os = Ok st ->
  (Z.of_nat (length (ddata_of os i)) < 2 ^ 24)%Z ->
  cpp_optimalBlockID (st i) = optimalBlockID (st i).
Proof.
  intros N E. destruct (good_run0 N) as (st' & E' & G). rewrite E in E'. injection E' as <-.
  apply cpp_optimal_eq24, G.
Qed.

Lemma scale x y q : 0 < q -> (x < y <-> x * q < y * q).
Proof.
  intros Q. split; intros H; [apply Qcmult_lt_compat_r; assumption|].
  apply Qcnot_le_lt. intros L. apply (Qclt_not_le _ _ H). apply Qcmult_le_compat_r; [exact L|apply Qclt_le_weak, Q].
Qed.
Lemma compare A B N C : (0 < B)%Z ->
  (two * qz N * (qz A / (qz 389 / qz 100 * qz B) * (qz A / (qz 389 / qz 100 * qz B))) < qz C <-> (2 * N * (100 * A) * (100 * A) < C * (389 * B) * (389 * B))%Z).
Proof.
  intros HB. assert (B0 : qz B <> 0) by (intros E; change 0 with (qz 0) in E; apply qz_inj in E; lia).
  assert (D : 0 < qz (389 * B) * qz (389 * B)) by (rewrite <- qz_mul; change 0 with (qz 0); apply qz_lt; nia).
  rewrite (scale _ _ _ D), !qz_mul.
  replace (two * qz N * (qz A / (qz 389 / qz 100 * qz B) * (qz A / (qz 389 / qz 100 * qz B))) * (qz 389 * qz B * (qz 389 * qz B))) with (qz (2 * N * (100 * A) * (100 * A))).
  2:{ rewrite !qz_mul. change (qz 2) with two. unfold two. field. repeat match goal with |- _ /\ _ => split end; first [exact B0|discriminate]. }
  replace (qz C * (qz 389 * qz B * (qz 389 * qz B))) with (qz (C * (389 * B) * (389 * B))) by (rewrite !qz_mul; ring).
  split; [|apply qz_lt]. intros H. destruct (Z.lt_ge_cases (2 * N * (100 * A) * (100 * A)) (C * (389 * B) * (389 * B))) as [L|L]; [exact L|].
  exfalso. apply (Qclt_not_le _ _ H), qz_le, L.
Qed.
Lemma four_pow j : (4 * 2 ^ j = 2 ^ (2 + j))%nat.
Proof. rewrite Nat.pow_add_r. reflexivity. Qed.
Lemma four_pow24 : (4 * 2 ^ 22 = 2 ^ 24)%nat.
Proof. exact (four_pow 22). Qed.
Definition wobble : Qc := qz 17 / qz 20.
Lemma counter_at K : K = 22%nat -> exists l d, length l = (4 * 2 ^ K)%nat /\ d = fold_left ddda_add l ddda_new
  /\ optimalBlockID d = Ok K /\ cpp_optimalBlockID d = Ok (1 + K)%nat.
Proof.
  intros HK. assert (ZK : Z.of_nat K = 22%Z) by lia.
  exists (jitter wobble (2 ^ K)), (fold_left ddda_add (jitter wobble (2 ^ K)) ddda_new).
  split; [apply jitter_length|]. split; [reflexivity|].
  assert (T : qz 4 * wobble * wobble + 1 = qz 389 / qz 100) by (apply Qc_is_canon; reflexivity).
  assert (T0 : qz 389 / qz 100 <> 0) by discriminate.
  pose proof (d_good wobble K) as G. pose proof (d_log wobble K) as LG. pose proof (d_len wobble K) as LD.
  pose proof (se2_raw wobble _ K T) as RAW. pose proof (quotient wobble _ K T T0) as QU. pose proof (raw_neq wobble _ K T T0) as R0.
  assert (PW : forall n, qn (2 ^ n) = qz (2 ^ Z.of_nat n)).
  { intros n. rewrite qn_qz, Nat2Z.inj_pow. reflexivity. }
  set (d := fold_left ddda_add (jitter wobble (2 ^ K)) ddda_new) in *.
  set (D := jitter wobble (2 ^ K)) in *.
  assert (LEN : length D = (4 * 2 ^ K)%nat) by apply jitter_length. clearbody d D.
  assert (SZ : qn (ddda_size d) = qz (2 ^ 24)).
  { rewrite (good_size0 G). rewrite LEN, qn_mul, PW, ZK. change (qn 4) with (qz 4). rewrite <- qz_mul. reflexivity. }
  assert (NUM : qn 4 * qn (2 ^ K) - 1 = qz (2 ^ 24 - 1)).
  { rewrite PW, ZK. change (qn 4) with (qz 4). rewrite <- qz_mul. unfold Qcminus. change 1 with (qz 1). rewrite <- qz_opp, <- qz_add. reflexivity. }
  assert (CR : forall b, (b <= 22)%nat -> forall C, two * qn (ddda_size d) * (se2 (block d (S b)) / se2 (block d 0) * (se2 (block d (S b)) / se2 (block d 0))) < qz C
     <-> (2 * 2 ^ 24 * (100 * (2 ^ 24 - 1)) * (100 * (2 ^ 24 - 1)) < C * (389 * (2 ^ Z.of_nat (23 - b) - 1)) * (389 * (2 ^ Z.of_nat (23 - b) - 1)))%Z).
  { intros b Hb C. rewrite SZ, QU, NUM by lia. rewrite PW. replace (K + 1 - b)%nat with (23 - b)%nat by lia.
    unfold Qcminus. change 1 with (qz 1) at 1 2. rewrite <- qz_opp, <- qz_add. apply compare.
    assert (2 ^ 1 <= 2 ^ Z.of_nat (23 - b))%Z by (apply Z.pow_le_mono_r; lia). lia. }
  assert (CB : forall b, qn ((2 ^ b) ^ 3) = qz ((2 ^ Z.of_nat b) ^ 3)) by (intros b; rewrite qn_qz, !Nat2Z.inj_pow; reflexivity).
  set (above := fun b C => Z.ltb (2 * 2 ^ 24 * (100 * (2 ^ 24 - 1)) * (100 * (2 ^ 24 - 1))) (C * (389 * (2 ^ Z.of_nat (23 - b) - 1)) * (389 * (2 ^ Z.of_nat (23 - b) - 1)))).
  assert (C22 : criterion d K).
  { destruct K as [|k]; [discriminate HK|]. assert (k = 21%nat) by lia. unfold criterion. rewrite CB, ZK. apply (CR k); [lia|]. subst k. vm_compute. reflexivity. }
  assert (NC : forall b, (b < K)%nat -> ~ criterion d b).
  { intros [|b] Hb; unfold criterion; rewrite CB.
    - rewrite SZ. replace (se2 (block d 0) / se2 (block d 0)) with 1 by (field; exact R0). intros H.
      apply (Qclt_not_le _ _ H). vm_compute. discriminate.
    - rewrite CR by lia. intros H.
      assert (CH : forallb (fun b => negb (above b ((2 ^ Z.of_nat (S b)) ^ 3)%Z)) (seq 0 21) = true) by (vm_compute; reflexivity).
      rewrite forallb_forall in CH. specialize (CH b ltac:(apply in_seq; lia)). unfold above in CH. apply negb_true_iff, Z.ltb_ge in CH. lia. }
  assert (SIZE : forall b, (b <= 23)%nat -> (2 <= getSampleSize (block d b))%nat).
  { intros b Hb. rewrite (good_size b G). rewrite LEN. apply Nat.div_le_lower_bound; [apply Nat.pow_nonzero; lia|].
    rewrite (four_pow K).
    rewrite Nat.mul_comm. change (2 * 2 ^ b)%nat with (2 ^ S b)%nat. apply Nat.pow_le_mono_r; lia. }
  assert (DS : (2 <= length D)%nat). { rewrite <- (good_size0 G). apply (SIZE 0%nat). lia. }
  split.
  - destruct (good_optimal G DS) as (b & E & DB & _). rewrite E. f_equal. rewrite LG in DB.  unfold documented_block in DB.
    destruct (qeqb (se2 (block d 0)) 0) eqn:Q; [apply qeqb_spec in Q; contradiction|].
    destruct DB as [(A & B & C)|(A & B)].
    + destruct (Nat.lt_trichotomy b K) as [L|[L|L]]; [destruct (NC b L B)|exact L|destruct (C _ L C22)].
    + destruct (B K); [lia|exact C22].
  - unfold cpp_optimalBlockID. rewrite (good_size0 G). destruct (Nat.ltb_spec (length D) 2); [lia|]. rewrite se2_ok by (apply SIZE; lia). cbn [bind].
    destruct (qeqb (se2 (block d 0)) 0) eqn:Q; [apply qeqb_spec in Q; contradiction|].
    assert (M : maxBlockID d = (2 + K)%nat) by (unfold maxBlockID; rewrite LD; lia).
    rewrite M. remember (2 + K)%nat as k24 eqn:K24. cbn [cpp_optimal_loop]. unfold hasBlockVariance at 1. rewrite M.
    destruct (Nat.ltb_spec k24 k24); [lia|]. cbn [bind].
    assert (Z : Nat.leb 2 (getSampleSize (block d k24)) = false).
    { rewrite (good_size _ G). rewrite LEN. subst k24.
      rewrite four_pow. rewrite Nat.div_same by (apply Nat.pow_nonzero; lia). reflexivity. }
    rewrite Z. cbn [negb]. rewrite Nat.eqb_refl. subst k24. rewrite cpp_loop_none; [reflexivity|].
    intros i Hi. split; [|split; [apply SIZE; lia|]].
    + unfold hasBlockVariance. rewrite M. destruct (Nat.ltb_spec (2 + K) i); [lia|]. f_equal. apply Nat.leb_le, SIZE. lia.
    + destruct (Nat.lt_ge_cases i K) as [L|L].
      * rewrite cpp_threshold by lia. destruct (threshold_exceeded _ _ _ _) eqn:X; [|reflexivity]. apply threshold_criterion in X. destruct (NC i L X).
      * destruct i as [|b]; [lia|]. unfold cpp_threshold_exceeded. destruct (qltb _ _) eqn:X; [|reflexivity]. exfalso. apply qltb_spec in X.
        assert (W : ((2 ^ Z.of_nat (S b)) ^ 3 mod 2 ^ 64 = 0)%Z).
        { assert (b = 21 \/ b = 22)%nat as [->| ->] by lia; vm_compute; reflexivity. }
        rewrite W in X. apply CR in X; [|lia]. rewrite !Z.mul_0_l in X. clear - X. lia.
Qed.
Lemma counter : exists l d, length l = (4 * 2 ^ 22)%nat /\ d = fold_left ddda_add l ddda_new
  /\ optimalBlockID d = Ok 22%nat /\ cpp_optimalBlockID d = Ok 23%nat.
Proof. exact (counter_at 22 eq_refl). Qed.
