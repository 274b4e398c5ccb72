From Coq Require Import Qround.
From Verif Require Import QcBase QcLra PyBase DictBase OtfsModel OtfsSpec OtfsProof DddaModel DddaSpec DddaProof
  MeasModel MeasSpec.
Set Implicit Arguments.
Open Scope Qc_scope.

Lemma qleb_spec a b : qleb a b = true <-> a <= b.
Proof. unfold qleb. rewrite Qle_bool_iff. reflexivity. Qed.
Lemma qltb_spec a b : qltb a b = true <-> a < b.
Proof.
  unfold qltb. rewrite negb_true_iff. split.
  - intros H. apply Qcnot_le_lt. intros L. apply Qle_bool_iff in L. congruence.
  - intros H. destruct (Qle_bool (this b) (this a)) eqn:E; [|reflexivity].
    apply Qle_bool_iff in E. exfalso. apply (Qclt_not_le _ _ H E).
Qed.
Lemma qltb_false a b : qltb a b = false <-> b <= a.
Proof.
  split; intros H.
  - apply Qcnot_lt_le. intros L. apply qltb_spec in L. congruence.
  - destruct (qltb a b) eqn:E; [|reflexivity]. apply qltb_spec in E. exfalso. apply (Qclt_not_le _ _ E H).
Qed.
Lemma qleb_false a b : qleb a b = false <-> b < a.
Proof.
  split; intros H.
  - apply Qcnot_le_lt. intros L. apply qleb_spec in L. congruence.
  - destruct (qleb a b) eqn:E; [|reflexivity]. apply qleb_spec in E. exfalso. apply (Qclt_not_le _ _ H E).
Qed.
Lemma qltb_negb a b : qltb a b = negb (qleb b a).
Proof. reflexivity. Qed.

(** * Velocity autocorrelation *)
Section Vac.
Variable round : Qc -> Z.
Definition vsel (m : Qc) : Qc -> Qc -> bool := fun _ t2 => qleb m t2.

Definition vinv (m dt : Qc) (ls : list (list Qc)) (s : vac) : Prop :=
  v_min s = m /\ v_dt s = dt /\
  forall n, dget qeqb (v_stats s) (qz n * dt) =
    match vac_values round dt (vsel m) n ls with
    | [] => None
    | l => Some (fold_left ddda_add l ddda_new)
    end.

Lemma vac_values_app dt sel n a b :
  vac_values round dt sel n (a ++ b) = vac_values round dt sel n a ++ vac_values round dt sel n b.
Proof. apply flat_map_app. Qed.

Lemma qz_mul_inj dt a b : dt <> 0 -> qz a * dt = qz b * dt -> a = b.
Proof.
  intros D E. apply qz_inj. transitivity (qz a * dt / dt); [field; exact D|]. rewrite E. field. exact D.
Qed.

Lemma vac_line_inv m dt ls s l : dt <> 0 -> vinv m dt ls s -> vac_wellformed l ->
  exists s', vac_line round s l = Ok s' /\ vinv m dt (ls ++ [l]) s'.
Proof.
  intros D (I1 & I2 & I3) (t1 & t2 & v & -> & H1 & H2). unfold vac_line. rewrite I1.
  assert (VV : forall n, vac_values round dt (vsel m) n (ls ++ [[t1; t2; v]]) =
    vac_values round dt (vsel m) n ls ++
    (if qleb m t2 && Z.eqb (round ((t2 - t1) / dt)) n then [v] else [])).
  { intros n. rewrite vac_values_app. cbn. rewrite app_nil_r. reflexivity. }
  rewrite qltb_negb. destruct (qleb m t2) eqn:L; cbn [negb].
  - unfold getDeltaT. rewrite I2.
    rewrite (proj2 (qltb_false _ _) H1), (proj2 (qltb_false _ _) H2). cbn [orb bind].
    set (n0 := round ((t2 - t1) / dt)) in *.
    eexists. split; [reflexivity|]. split; [reflexivity|]. split; [reflexivity|].
    cbn [v_stats]. intros n. rewrite VV. cbn [andb].
    pose proof (I3 n0) as G0.
    set (st := match dget qeqb (v_stats s) (qz n0 * dt) with
               | Some _ => v_stats s
               | None => dset qeqb (v_stats s) (qz n0 * dt) ddda_new end).
    rewrite dget_dset by apply qeqb_spec.
    destruct (Z.eqb_spec n0 n) as [<-|N].
    + replace (qeqb (qz n0 * dt) (qz n0 * dt)) with true by (symmetry; apply qeqb_spec; reflexivity).
      unfold st. destruct (vac_values round dt (vsel m) n0 ls) as [|a r].
      * rewrite G0. rewrite dget_dset by apply qeqb_spec.
        replace (qeqb (qz n0 * dt) (qz n0 * dt)) with true by (symmetry; apply qeqb_spec; reflexivity).
        reflexivity.
      * rewrite G0, G0. cbn [app]. change (a :: r ++ [v]) with ((a :: r) ++ [v]).
        rewrite fold_left_app. reflexivity.
    + assert (Q : qeqb (qz n * dt) (qz n0 * dt) = false).
      { destruct (qeqb (qz n * dt) (qz n0 * dt)) eqn:Q; [|reflexivity].
        apply qeqb_spec in Q. apply qz_mul_inj in Q; [congruence|exact D]. }
      rewrite Q, app_nil_r. unfold st. destruct (dget qeqb (v_stats s) (qz n0 * dt)).
      * apply I3.
      * rewrite dget_dset by apply qeqb_spec. rewrite Q. apply I3.
  - exists s. split; [reflexivity|]. split; [exact I1|]. split; [exact I2|].
    intros n. rewrite VV. cbn [andb]. rewrite app_nil_r. apply I3.
Qed.

Lemma vac_parse_inv m dt ls : dt <> 0 -> (forall l, In l ls -> vac_wellformed l) ->
  forall pre s, vinv m dt pre s -> exists s', vac_parse round s ls = Ok s' /\ vinv m dt (pre ++ ls) s'.
Proof.
  intros D. induction ls as [|l ls IH]; intros W pre s I.
  - exists s. rewrite app_nil_r. auto.
  - destruct (vac_line_inv D I (W l (or_introl eq_refl))) as (s1 & E1 & I1).
    destruct (IH (fun l' H => W l' (or_intror H)) _ _ I1) as (s2 & E2 & I2).
    exists s2. cbn. rewrite E1. cbn [bind]. rewrite <- app_assoc in I2. auto.
Qed.

Lemma vac_content m dt files : dt <> 0 -> files <> [] ->
  (forall f l, In f files -> In l f -> vac_wellformed l) ->
  exists s, vac_new round m dt files = Ok s /\
  forall n, match vac_values round dt (fun _ t2 => qleb m t2) n (concat files) with
            | [] => vac_get s (qz n * dt) = Err ValueError
            | l => vac_get s (qz n * dt) = Ok (fold_left ddda_add l ddda_new)
            end.
Proof.
  intros D N W. unfold vac_new. destruct files as [|f fs]; [congruence|].
  destruct (@vac_parse_inv m dt (concat (f :: fs)) D) with (pre := @nil (list Qc)) (s := mk_vac m dt []) as (s & E & I).
  - intros l Hl. apply in_concat in Hl. destruct Hl as (g & Hg & Hl). apply (W g l Hg Hl).
  - split; [reflexivity|]. split; [reflexivity|]. intros n. reflexivity.
  - exists s. split; [exact E|]. intros n. unfold vac_get. destruct I as (_ & _ & I). rewrite I.
    cbn [app]. unfold vsel. destruct (vac_values round dt (fun _ t2 => qleb m t2) n (concat (f :: fs))); reflexivity.
Qed.
End Vac.

(** * Histogram *)
Lemma nth_incr l : forall i j, (i < length l)%nat ->
  nth j (incr l i) 0%nat = ((if Nat.eqb i j then 1 else 0) + nth j l 0)%nat.
Proof.
  induction l as [|a l IH]; intros [|i] [|j] H; cbn in *; try lia; try reflexivity.
  apply IH. lia.
Qed.
Lemma incr_length l : forall i, length (incr l i) = length l.
Proof. induction l as [|a l IH]; intros [|i]; cbn; congruence. Qed.

Lemma bin_low_step low high n i : n <> 0%nat ->
  bin_low low high n i = low + qn i * ((high - low) / qn n).
Proof. intros N. unfold bin_low. field. apply qn_neq0, N. Qed.

Lemma Qclt_div_iff (a b c : Qc) : 0 < c -> (a <= b / c <-> a * c <= b).
Proof.
  intros H. assert (N : c <> 0) by (intros ->; apply (Qclt_not_le _ _ H), Qcle_refl).
  split; intros L.
  - replace b with (b / c * c) by (field; exact N).
    apply Qcmult_le_compat_r; [exact L|apply Qclt_le_weak, H].
  - apply Qcmult_lt_0_le_reg_r with (z := c); [exact H|]. replace (b / c * c) with b by (field; exact N). exact L.
Qed.

Lemma trunc_bin x i : 0 <= x -> (trunc x = i <-> qn i <= x /\ x < qn (S i)).
Proof.
  intros H. unfold trunc. rewrite !qn_qz.
  assert (FL : (0 <= Qfloor (this x))%Z).
  { change 0%Z with (Qfloor 0). apply Qfloor_resp_le. exact H. }
  pose proof (Qfloor_le (this x)) as F1. pose proof (Qlt_floor (this x)) as F2.
  assert (QZ : forall z, (this (qz z) == inject_Z z)%Q) by (intros z; apply (Qred_correct (inject_Z z))).
  split.
  - intros <-. split.
    + unfold Qcle. rewrite QZ, Z2Nat.id by exact FL. exact F1.
    + unfold Qclt. rewrite QZ, Nat2Z.inj_succ, Z2Nat.id by exact FL. exact F2.
  - intros [L1 L2]. unfold Qcle in L1. unfold Qclt in L2. rewrite QZ in L1, L2.
    assert ((Z.of_nat i <= Qfloor (this x))%Z).
    { rewrite <- (Qfloor_Z (Z.of_nat i)). apply Qfloor_resp_le. exact L1. }
    assert ((Qfloor (this x) < Z.of_nat (S i))%Z).
    { rewrite Zlt_Qlt. eapply Qle_lt_trans; [exact F1|exact L2]. }
    lia.
Qed.

Definition hinv (low high : Qc) (n : nat) (l : list Qc) (h : hist) : Prop :=
  h_low h = low /\ h_high h = high /\ h_size h = (high - low) / qn n /\ length (h_bins h) = n /\
  h_under h = count (fun v => qltb v low) l /\ h_over h = count (fun v => qleb high v) l /\
  forall i, (i < n)%nat -> nth i (h_bins h) 0%nat = count (bin_has low high n i) l.

Lemma count_snoc p l v : count p (l ++ [v]) = (count p l + if p v then 1 else 0)%nat.
Proof. unfold count. rewrite filter_app, app_length. cbn. destruct (p v); reflexivity. Qed.

Lemma bin_low_0 low high n : n <> 0%nat -> bin_low low high n 0 = low.
Proof. intros N. rewrite bin_low_step by exact N. rewrite qn_0. ring. Qed.
Lemma bin_low_n low high n : n <> 0%nat -> bin_low low high n n = high.
Proof. intros N. rewrite bin_low_step by exact N. field. apply qn_neq0, N. Qed.
Lemma size_pos low high n : n <> 0%nat -> low < high -> 0 < (high - low) / qn n.
Proof.
  intros N L. apply Qcnot_le_lt. intros H.
  assert (P : 0 < qn n) by (apply qn_pos; lia).
  assert (H' : (high - low) / qn n * qn n <= 0 * qn n) by (apply Qcmult_le_compat_r; [exact H|apply Qclt_le_weak, P]).
  replace ((high - low) / qn n * qn n) with (high - low) in H' by (field; apply qn_neq0, N).
  revert H' L. generalize (qn n). intros q. qlra.
Qed.
Lemma bin_low_mono low high n i j : n <> 0%nat -> low < high -> (i <= j)%nat ->
  bin_low low high n i <= bin_low low high n j.
Proof.
  intros N L H. rewrite !bin_low_step by exact N.
  apply Qcplus_le_compat; [apply Qcle_refl|]. apply Qcmult_le_compat_r.
  - rewrite !qn_qz. apply qz_le. lia.
  - apply Qclt_le_weak, size_pos; assumption.
Qed.

Lemma hist_fill_inv low high n l h v : n <> 0%nat -> low < high -> hinv low high n l h ->
  exists h', hist_fill h v = Ok h' /\ hinv low high n (l ++ [v]) h'.
Proof.
  intros N L (I1 & I2 & I3 & I4 & I5 & I6 & I7). unfold hist_fill. rewrite I1, I2, I3, I4.
  assert (SP := size_pos N L).
  destruct (qltb v low) eqn:U.
  - assert (O : qleb high v = false).
    { apply qleb_false. apply qltb_spec in U. eapply Qclt_trans; eassumption. }
    eexists. split; [reflexivity|]. unfold hinv. cbn.
    split; [first [exact I1|reflexivity]|]. split; [first [exact I2|reflexivity]|]. split; [first [exact I3|reflexivity]|]. split; [exact I4|].
    rewrite !count_snoc, U, O. split; [lia|]. split; [lia|].
    intros i Hi. rewrite count_snoc, (I7 i Hi).
    assert (B : bin_has low high n i v = false).
    { unfold bin_has. replace (qleb (bin_low low high n i) v) with false; [reflexivity|].
      symmetry. apply qleb_false. apply qltb_spec in U. eapply Qclt_le_trans; [exact U|].
      rewrite <- (bin_low_0 low high N) at 1. apply bin_low_mono; [exact N|exact L|lia]. }
    rewrite B. lia.
  - destruct (qleb high v) eqn:O.
    + eexists. split; [reflexivity|]. unfold hinv. cbn.
      split; [first [exact I1|reflexivity]|]. split; [first [exact I2|reflexivity]|]. split; [first [exact I3|reflexivity]|]. split; [exact I4|].
      rewrite !count_snoc, U, O. split; [lia|]. split; [lia|].
      intros i Hi. rewrite count_snoc, (I7 i Hi).
      assert (B : bin_has low high n i v = false).
      { unfold bin_has. replace (qltb v (bin_low low high n (S i))) with false; [apply andb_false_r|].
        symmetry. apply qltb_false. apply qleb_spec in O. eapply Qcle_trans; [|exact O].
        rewrite <- (bin_low_n low high N) at 2. apply bin_low_mono; [exact N|exact L|lia]. }
      rewrite B. lia.
    + apply qltb_false in U. apply qleb_false in O.
      set (x := (v - low) / ((high - low) / qn n)).
      assert (X0 : 0 <= x).
      { apply Qc_div_nonneg; [revert U; qlra|apply Qclt_le_weak, SP]. }
      assert (XB : forall i, qn i <= x <-> bin_low low high n i <= v).
      { intros i. unfold x. rewrite Qclt_div_iff by exact SP. rewrite bin_low_step by exact N.
        generalize (qn i * ((high - low) / qn n)). intros q. split; qlra. }
      assert (BT : forall i, bin_has low high n i v = Nat.eqb (trunc x) i).
      { intros i. unfold bin_has.
        destruct (Nat.eqb_spec (trunc x) i) as [E|E].
        - apply (trunc_bin i X0) in E. destruct E as [E1 E2].
          apply andb_true_iff. split; [apply qleb_spec, XB, E1|].
          apply qltb_spec, Qcnot_le_lt. intros Q. apply XB in Q. apply (Qclt_not_le _ _ E2 Q).
        - apply not_true_iff_false. intros B. apply andb_true_iff in B. destruct B as [B1 B2].
          apply E, (trunc_bin i X0). split; [apply XB, qleb_spec, B1|].
          apply Qcnot_le_lt. intros Q. apply XB in Q. apply qltb_spec in B2. apply (Qclt_not_le _ _ B2 Q). }
      assert (TN : (trunc x < n)%nat).
      { destruct (Nat.lt_ge_cases (trunc x) n) as [H|H]; [exact H|]. exfalso.
        destruct (proj1 (trunc_bin (trunc x) X0) eq_refl) as [E1 _]. apply XB in E1.
        assert (Q : high <= v).
        { rewrite <- (bin_low_n low high N). eapply Qcle_trans; [|exact E1]. apply bin_low_mono; assumption. }
        apply (Qclt_not_le _ _ O Q). }
      fold x. rewrite (proj2 (Nat.ltb_lt _ _) TN). cbn [negb].
      eexists. split; [reflexivity|]. unfold hinv. cbn.
      split; [first [exact I1|reflexivity]|]. split; [first [exact I2|reflexivity]|]. split; [first [exact I3|reflexivity]|]. split; [rewrite incr_length; exact I4|].
      rewrite !count_snoc, (proj2 (qltb_false _ _) U), (proj2 (qleb_false _ _) O).
      split; [lia|]. split; [lia|].
      intros i Hi. rewrite count_snoc, BT, nth_incr by (rewrite I4; exact TN). rewrite (I7 i Hi). lia.
Qed.

Lemma hist_run low high n l : n <> 0%nat -> low < high ->
  exists h, hist_fill_all (hist_new low high n) l = Ok h /\ hinv low high n l h.
Proof.
  intros N L.
  assert (G : forall l pre h, hinv low high n pre h -> exists h', hist_fill_all h l = Ok h' /\ hinv low high n (pre ++ l) h').
  { clear l. induction l as [|v l IH]; intros pre h I.
    - exists h. rewrite app_nil_r. auto.
    - destruct (@hist_fill_inv low high n pre h v N L I) as (h1 & E1 & I1).
      destruct (IH _ _ I1) as (h2 & E2 & I2). exists h2. cbn. rewrite E1. cbn [bind].
      rewrite <- app_assoc in I2. auto. }
  apply (G l []). unfold hinv, hist_new. cbn. rewrite repeat_length. repeat split; try reflexivity.
  intros i _. apply nth_repeat.
Qed.

Lemma fold_plus_qsum l : forall a, fold_left (fun s b => s + qn b) l a = a + qsum (map qn l).
Proof.
  induction l as [|b l IH]; intros a; cbn; [ring|]. rewrite IH. ring.
Qed.
Fixpoint nsum (l : list nat) : nat := match l with [] => 0%nat | a :: r => (a + nsum r)%nat end.
Lemma qsum_nsum l : qsum (map qn l) = qn (nsum l).
Proof. induction l as [|a l IH]; cbn [map qsum nsum]; [symmetry; apply qn_0|]. rewrite IH, qn_add. reflexivity. Qed.

(** Every value is in one class. *)
Lemma count_total p q l : (forall v, q v = negb (p v)) -> (count p l + count q l)%nat = length l.
Proof.
  intros H. unfold count. induction l as [|v l IH]; [reflexivity|]. cbn. rewrite H.
  destruct (p v); cbn; lia.
Qed.
Lemma classes_total low high n l : n <> 0%nat -> low < high ->
  (count (fun v => qltb v low) l + count (fun v => qleb high v) l +
   nsum (map (fun i => count (bin_has low high n i) l) (seq 0 n)))%nat = length l.
Proof.
  intros N L.
  assert (P : forall m, (nsum (map (fun i => count (bin_has low high n i) l) (seq 0 m)) =
     count (fun v => qleb low v && qltb v (bin_low low high n m)) l)%nat).
  { induction m as [|m IH].
    - cbn. symmetry. unfold count. rewrite bin_low_0 by exact N. induction l as [|v l IH]; [reflexivity|].
      cbn. rewrite qltb_negb. destruct (qleb low v) eqn:Q; cbn; exact IH.
    - rewrite seq_S, map_app. cbn [Nat.add map].
      assert (A : forall a b, nsum (a ++ b) = (nsum a + nsum b)%nat) by (clear; induction a; intros b; cbn; rewrite ?IHa; lia).
      rewrite A, IH. cbn. rewrite Nat.add_0_r. unfold count. clear IH.
      assert (M1 : low <= bin_low low high n m)
        by (rewrite <- (bin_low_0 low high N) at 1; apply bin_low_mono; [exact N|exact L|lia]).
      assert (M2 : bin_low low high n m <= bin_low low high n (S m)) by (apply bin_low_mono; [exact N|exact L|lia]).
      induction l as [|v l IH]; [reflexivity|]. cbn.
      assert (E : (qleb low v && qltb v (bin_low low high n (S m))) =
        (qleb low v && qltb v (bin_low low high n m)) || bin_has low high n m v).
      { unfold bin_has. rewrite !qltb_negb.
        destruct (qleb (bin_low low high n m) v) eqn:Q1; cbn [negb andb orb].
        - replace (qleb low v) with true; [cbn; reflexivity|]. symmetry. apply qleb_spec.
          apply qleb_spec in Q1. eapply Qcle_trans; eassumption.
        - rewrite orb_false_r. f_equal.
          replace (qleb (bin_low low high n (S m)) v) with false; [reflexivity|]. symmetry.
          apply qleb_false. apply qleb_false in Q1. eapply Qclt_le_trans; eassumption. }
      assert (X : (qleb low v && qltb v (bin_low low high n m)) && bin_has low high n m v = false).
      { unfold bin_has. rewrite !qltb_negb. destruct (qleb (bin_low low high n m) v); cbn;
        rewrite ?andb_false_r; reflexivity. }
      rewrite E. destruct (qleb low v && qltb v (bin_low low high n m)), (bin_has low high n m v);
      cbn in X |- *; try discriminate; lia. }
  rewrite P, bin_low_n by exact N. unfold count. clear P.
  induction l as [|v l IH]; [reflexivity|]. cbn. rewrite !qltb_negb.
  destruct (qleb low v) eqn:Q1, (qleb high v) eqn:Q2; cbn; try lia.
  exfalso. apply qleb_false in Q1. apply qleb_spec in Q2.
  apply (Qclt_not_le _ _ (Qclt_trans _ _ _ Q1 L) Q2).
Qed.

Lemma list_nth_map (bins : list nat) n f : length bins = n ->
  (forall i, (i < n)%nat -> nth i bins 0%nat = f i) -> bins = map f (seq 0 n).
Proof.
  intros H G. apply nth_ext with (d := 0%nat) (d' := f 0%nat); [rewrite map_length, seq_length; exact H|].
  intros i Hi. rewrite map_nth, seq_nth by lia. cbn. apply G. lia.
Qed.

Lemma hist_counts low high n l : n <> 0%nat -> low < high ->
  exists h, hist_fill_all (hist_new low high n) l = Ok h /\
    h_under h = count (fun v => qltb v low) l /\
    h_over h = count (fun v => qleb high v) l /\
    h_bins h = map (fun i => count (bin_has low high n i) l) (seq 0 n) /\
    (h_under h + h_over h + nsum (h_bins h))%nat = length l.
Proof.
  intros N L. destruct (@hist_run low high n l N L) as (h & E & I1 & I2 & I3 & I4 & I5 & I6 & I7).
  exists h. split; [exact E|]. split; [exact I5|]. split; [exact I6|].
  assert (B : h_bins h = map (fun i => count (bin_has low high n i) l) (seq 0 n))
    by (apply list_nth_map; assumption).
  split; [exact B|]. rewrite I5, I6, B. apply classes_total; assumption.
Qed.

Lemma graph_points_length h bp I i bins : length (graph_points h bp I i bins) = length bins.
Proof. revert i. induction bins as [|b r IH]; intros i; cbn; [reflexivity|]. rewrite IH. reflexivity. Qed.
Lemma graph_points_nth h bp I bins : forall i k d, (k < length bins)%nat ->
  nth k (graph_points h bp I i bins) d =
  (h_low h + qn (i + k) * h_size h + bp * h_size h, qn (nth k bins 0%nat) / I).
Proof.
  induction bins as [|b r IH]; intros i k d H; cbn in H; [lia|].
  destruct k as [|k]; cbn [graph_points nth].
  - rewrite Nat.add_0_r. reflexivity.
  - rewrite IH by lia. rewrite Nat.add_succ_r. reflexivity.
Qed.
Lemma graph_points_sum h bp I bins : I <> 0 -> forall i,
  qsum (map snd (graph_points h bp I i bins)) = qsum (map qn bins) / I.
Proof.
  intros N. induction bins as [|b r IH]; intros i; cbn; [field; exact N|]. rewrite IH. field. exact N.
Qed.

Lemma hist_normalized low high n l bp h : n <> 0%nat -> low < high ->
  hist_fill_all (hist_new low high n) l = Ok h ->
  ((bp < 0 \/ 1 < bp) -> hist_graph h bp = Err InvalidArgumentException) /\
  (0 <= bp <= 1 -> exists g, hist_graph h bp = Ok g /\ length g = n /\
    (forall i d, (i < n)%nat ->
       bin_low low high n i <= fst (nth i g d) <= bin_low low high n (S i) /\
       fst (nth i g d) = bin_low low high n i + bp * (bin_low low high n (S i) - bin_low low high n i)) /\
    ((exists v, In v l /\ low <= v < high) ->
       qsum (map (fun p => snd p * ((high - low) / qn n)) g) = 1)).
Proof.
  intros N L E. destruct (@hist_run low high n l N L) as (h' & E' & I).
  rewrite E in E'. injection E' as <-. destruct I as (I1 & I2 & I3 & I4 & I5 & I6 & I7).
  unfold hist_graph. split.
  - intros H. replace (qltb bp 0 || qltb 1 bp) with true; [reflexivity|]. symmetry. apply orb_true_iff.
    destruct H as [H|H]; [left|right]; apply qltb_spec; exact H.
  - intros [H1 H2]. rewrite (proj2 (qltb_false _ _) H1), (proj2 (qltb_false _ _) H2). cbn [orb].
    eexists. split; [reflexivity|]. split; [rewrite graph_points_length; exact I4|]. split.
    + intros i d Hi. rewrite graph_points_nth by (rewrite I4; exact Hi). cbn [fst Nat.add].
      rewrite I1, I3. rewrite !bin_low_step by exact N.
      assert (SP := size_pos N L). set (w := (high - low) / qn n) in *.
      rewrite (qn_S i).
      assert (F : low + qn i * w + bp * w = low + qn i * w + bp * (low + (qn i + 1) * w - (low + qn i * w))) by ring.
      split; [|first [exact F | rewrite F; ring]].
      assert (B1 : 0 <= bp * w) by (apply Qc_mul_nonneg; [exact H1|apply Qclt_le_weak, SP]).
      assert (B2 : bp * w <= 1 * w) by (apply Qcmult_le_compat_r; [exact H2|apply Qclt_le_weak, SP]).
      replace ((qn i + 1) * w) with (qn i * w + w) by ring.
      revert B1 B2. generalize (bp * w), (qn i * w). intros p q. clear. split; qlra.
    + intros (v & Hv & V1 & V2).
      unfold hist_integral. rewrite I3, fold_plus_qsum. set (w := (high - low) / qn n).
      assert (SP : 0 < w) by (apply size_pos; assumption).
      assert (W : w <> 0) by (intros W; rewrite W in SP; apply (Qclt_not_le _ _ SP), Qcle_refl).
      assert (S0 : qsum (map qn (h_bins h)) <> 0).
      { rewrite qsum_nsum. apply qn_neq0.
        rewrite (@list_nth_map (h_bins h) n _ I4 I7).
        pose proof (@classes_total low high n l N L) as T.
        assert (C : forall p q, (forall v, p v = true -> q v = true -> False) ->
          forall l, In v l -> p v = false -> q v = false -> (count p l + count q l < length l)%nat).
        { clear. intros p q D l. induction l as [|a l IH]; intros I P Q; [destruct I|].
          unfold count in *. cbn. 
          assert (LE : (length (filter p l) + length (filter q l) <= length l)%nat).
          { clear -D. induction l as [|b l IH]; [cbn; lia|]. cbn. specialize (D b).
            destruct (p b), (q b); cbn; try lia; exfalso; auto. }
          destruct I as [->|I].
          - rewrite P, Q. lia.
          - specialize (IH I P Q). specialize (D a). destruct (p a), (q a); cbn; try lia; exfalso; auto. }
        assert (LT : (count (fun v => qltb v low) l + count (fun v => qleb high v) l < length l)%nat).
        { apply C; [|exact Hv| |].
          - intros u U1 U2. apply qltb_spec in U1. apply qleb_spec in U2.
            apply (Qclt_not_le _ _ (Qclt_trans _ _ _ U1 L) U2).
          - apply qltb_false, V1.
          - apply qleb_false, V2. }
        lia. }
      set (S := qsum (map qn (h_bins h))) in *.
      assert (M : forall (g : list (Qc * Qc)), qsum (map (fun p => snd p * w) g) = qsum (map snd g) * w).
      { induction g as [|a g IH]; cbn; [ring|]. rewrite IH. ring. }
      rewrite M, graph_points_sum; [fold S; field|]; replace (0 + S) with S by ring.
      * split; assumption.
      * intros Z0. apply Qcmult_integral in Z0. destruct Z0; contradiction.
Qed.

(** * Density profile *)
Lemma cell_eqb_spec a b : cell_eqb a b = true <-> a = b.
Proof.
  destruct a as [[x y] z], b as [[x' y'] z']. unfold cell_eqb.
  rewrite !andb_true_iff, !Nat.eqb_eq. split; [intros [[-> ->] ->]; reflexivity|].
  intros E. injection E as -> -> ->. auto.
Qed.
Lemma cell_eqb_sym a b : cell_eqb a b = cell_eqb b a.
Proof.
  destruct (cell_eqb a b) eqn:E.
  - apply cell_eqb_spec in E. subst. symmetry. apply cell_eqb_spec. reflexivity.
  - destruct (cell_eqb b a) eqn:E2; [|reflexivity]. apply cell_eqb_spec in E2. subst.
    assert (cell_eqb a a = true) by (apply cell_eqb_spec; reflexivity). congruence.
Qed.
Lemma dens_run_inv os : forall s s', dens_run s os = Ok s' ->
  d_shape s' = d_shape s /\ d_subs s' = d_subs s /\ d_fills s' = (d_fills s + fills os)%nat /\
  forall c, d_points s' c = d_points s c + qsum (masses os c).
Proof.
  induction os as [|o os IH]; intros s s' E.
  - cbn in E. injection E as <-. do 2 (split; [reflexivity|]). split; [cbn; lia|]. intros c. cbn. ring.
  - cbn [dens_run] in E. destruct (dens_op s o) as [s1|] eqn:E1; [|discriminate]. cbn [bind] in E.
    destruct (IH _ _ E) as (J1 & J2 & J3 & J4). destruct o as [|c m]; cbn [dens_op] in E1.
    + injection E1 as <-. cbn [d_shape d_subs d_points d_fills fills] in *.
      split; [exact J1|]. split; [exact J2|]. split; [lia|exact J4].
    + destruct c as [[x y] z]. destruct (d_shape s) as [[nx ny] nz] eqn:ES.
      destruct (Nat.ltb x nx && Nat.ltb y ny && Nat.ltb z nz); cbn [negb] in E1; [|discriminate].
      injection E1 as <-. cbn [d_shape d_subs d_points d_fills fills] in *.
      split; [congruence|]. split; [exact J2|]. split; [exact J3|].
      intros c. rewrite J4. unfold masses. cbn [flat_map]. rewrite cell_eqb_sym.
      destruct (cell_eqb (x, y, z) c); cbn [app qsum]; ring.
Qed.

Lemma dens_file box subs s0 os s : dens_new box subs = Ok s0 -> dens_run s0 os = Ok s ->
  (0 < fills os)%nat ->
  let '(bx, by_, bz) := box in let '(sx, sy, sz) := subs in
  dens_rows s =
  flat_map (fun x => flat_map (fun y => map (fun z =>
      (qn x / qn sx, qn y / qn sy, qn z / qn sz, qsum (masses os (x, y, z)) / qn (fills os)))
    (seq 0 (bz * sz))) (seq 0 (by_ * sy))) (seq 0 (bx * sx)).
Proof.
  destruct box as [[bx by_] bz], subs as [[sx sy] sz]. unfold dens_new.
  destruct (Nat.eqb sx 0 || Nat.eqb sy 0 || Nat.eqb sz 0); [discriminate|]. intros E0 E F.
  injection E0 as <-. destruct (dens_run_inv _ _ E) as (J1 & J2 & J3 & J4). cbn in J1, J2, J3, J4.
  unfold dens_rows. rewrite J1, J2. apply flat_map_ext. intros x. apply flat_map_ext. intros y.
  apply map_ext. intros z. rewrite J3, J4. cbn [Nat.add]. rewrite Qcplus_0_l. reflexivity.
Qed.

(** Reading. *)
Notation drow := (Qc * Qc * Qc * Qc)%type.
Definition rx (r : drow) : Qc := fst (fst (fst r)).
Definition ry (r : drow) : Qc := snd (fst (fst r)).
Definition rz (r : drow) : Qc := snd (fst r).
Definition rd (r : drow) : Qc := snd r.
Definition inner (p : dpoints) (x y : Qc) : list (Qc * Qc) :=
  odflt [] (dget qeqb (odflt [] (dget qeqb p x)) y).

Lemma dset_fresh {V} (d : list (Qc * V)) k v : dget qeqb d k = None -> dset qeqb d k v = d ++ [(k, v)].
Proof.
  induction d as [|[k' v'] d IH]; cbn; [reflexivity|]. destruct (qeqb k k'); [discriminate|].
  intros H. rewrite IH by exact H. reflexivity.
Qed.
Lemma dget_app_none {V} (d : list (Qc * V)) k : ~ In k (map fst d) -> dget qeqb d k = None.
Proof.
  induction d as [|[k' v'] d IH]; cbn; [reflexivity|]. intros H.
  destruct (qeqb k k') eqn:E; [apply qeqb_spec in E; subst; exfalso; auto|]. apply IH. auto.
Qed.

Lemma inner_setPoint p r x y : inner (setPoint p r) x y =
  if qeqb x (rx r) && qeqb y (ry r) then dset qeqb (inner p x y) (rz r) (rd r) else inner p x y.
Proof.
  destruct r as [[[a b] c] d]. unfold setPoint, inner, rx, ry, rz, rd. cbn [fst snd].
  rewrite dget_dset by apply qeqb_spec. destruct (qeqb x a) eqn:E; cbn [andb odflt]; [|reflexivity].
  apply qeqb_spec in E. subst a. rewrite dget_dset by apply qeqb_spec.
  destruct (qeqb y b) eqn:E; cbn [odflt]; [|reflexivity]. apply qeqb_spec in E. subst b. reflexivity.
Qed.
Definition at_xy (x y : Qc) (r : drow) : bool := qeqb x (rx r) && qeqb y (ry r).
Lemma inner_read rows x y : NoDup (map fst rows) ->
  inner (dens_read rows) x y = map (fun r => (rz r, rd r)) (filter (at_xy x y) rows).
Proof.
  unfold dens_read. induction rows as [|r rows IH] using rev_ind; intros ND.
  - reflexivity.
  - rewrite fold_left_app. cbn [fold_left]. rewrite inner_setPoint, filter_app, map_app.
    rewrite map_app in ND. cbn [map] in ND. apply NoDup_remove in ND. rewrite app_nil_r in ND. destruct ND as [ND NI].
    rewrite (IH ND). cbn [filter]. fold (at_xy x y r). destruct (at_xy x y r) eqn:E; cbn [map].
    + unfold at_xy in E. apply dset_fresh, dget_app_none. intros I. rewrite map_map in I. cbn [fst] in I.
      apply in_map_iff in I. destruct I as (r' & E' & I). apply filter_In in I. destruct I as [I A].
      apply NI. apply in_map_iff. exists r'. split; [|exact I].
      unfold at_xy in A. apply andb_true_iff in A, E. destruct A as [A1 A2], E as [E1 E2].
      apply qeqb_spec in A1, A2, E1, E2. destruct r as [[[a b] c] d], r' as [[[a' b'] c'] d'].
      unfold rx, ry, rz in *. cbn in *. congruence.
    + rewrite app_nil_r. reflexivity.
Qed.

Lemma fold_qsum {A} (f : A -> Qc) l : forall a, fold_left (fun s v => s + f v) l a = a + qsum (map f l).
Proof. induction l as [|b l IH]; intros a; cbn; [ring|]. rewrite IH. ring. Qed.

Lemma dget_map {V W} (f : V -> W) (d : list (Qc * V)) k :
  dget qeqb (map (fun xv => (fst xv, f (snd xv))) d) k = option_map f (dget qeqb d k).
Proof. induction d as [|[k' v] d IH]; cbn; [reflexivity|]. destruct (qeqb k k'); auto. Qed.

Lemma setPoint_get p r x y :
  match dget qeqb (setPoint p r) x with Some px => dget qeqb px y | None => None end =
  if at_xy x y r then Some (dset qeqb (inner p x y) (rz r) (rd r))
  else match dget qeqb p x with Some px => dget qeqb px y | None => None end.
Proof.
  destruct r as [[[a b] c] d]. unfold setPoint, inner, at_xy, rx, ry, rz, rd. cbn [fst snd].
  rewrite dget_dset by apply qeqb_spec. destruct (qeqb x a) eqn:E; cbn [andb]; [|reflexivity].
  apply qeqb_spec in E. subst a. rewrite dget_dset by apply qeqb_spec.
  destruct (qeqb y b) eqn:E.
  - apply qeqb_spec in E. subst b. reflexivity.
  - destruct (dget qeqb p x); reflexivity.
Qed.
Lemma dset_nonempty {V} (d : list (Qc * V)) k v : dset qeqb d k v <> [].
Proof. destruct d as [|[k' v'] d]; cbn; [discriminate|]. destruct (qeqb k k'); discriminate. Qed.
Lemma read_get rows x y :
  match dget qeqb (dens_read rows) x with Some px => dget qeqb px y | None => None end =
  match inner (dens_read rows) x y with [] => None | l => Some l end.
Proof.
  unfold dens_read. induction rows as [|r rows IH] using rev_ind; [reflexivity|].
  rewrite fold_left_app. cbn [fold_left]. rewrite setPoint_get, inner_setPoint. fold (at_xy x y r).
  destruct (at_xy x y r); [|exact IH].
  destruct (dset qeqb (inner (fold_left setPoint rows []) x y) (rz r) (rd r)) eqn:E; [|reflexivity].
  exfalso. apply (dset_nonempty _ _ _ E).
Qed.

Lemma reduce_mean rows x y : NoDup (map fst rows) ->
  match dget qeqb (reduceToXY (dens_read rows)) x with Some px => dget qeqb px y | None => None end =
  match map rd (filter (at_xy x y) rows) with [] => None | l => Some (mean l) end.
Proof.
  intros ND. unfold reduceToXY.
  rewrite (dget_map (fun v => map (fun yv => (fst yv, fold_left (fun s zv => s + snd zv) (snd yv) 0 / qn (length (snd yv)))) v)).
  pose proof (read_get rows x y) as G. rewrite (@inner_read rows x y ND) in G.
  destruct (dget qeqb (dens_read rows) x) as [px|]; cbn [option_map].
  - rewrite (dget_map (fun v => fold_left (fun s zv => s + snd zv) v 0 / qn (length v))). rewrite G.
    destruct (filter (at_xy x y) rows) as [|r rs]; [reflexivity|]. cbn [map option_map].
    rewrite fold_qsum. f_equal. unfold mean. cbn [map length].
    rewrite map_map, !map_length, Qcplus_0_l. reflexivity.
  - destruct (filter (at_xy x y) rows) as [|r rs]; [reflexivity|]. discriminate.
Qed.
