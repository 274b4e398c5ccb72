From Coq Require Import Reals List ZArith Bool Lia Lra.
From Verif Require Import PyBase VecModel VecSpec PartSpec PartProof CuModel CuProof VecProof InitModel InitSpec.
Import ListNotations.
Open Scope Z_scope.

Lemma idx a b : 0 <= a -> 3 * a + 3 <= 2 ^ 32 -> 0 <= b < 3 -> u32 (a * 3 + b) = 3 * a + b.
Proof. intros. rewrite u32_small; lia. Qed.
Lemma idx0 a : 0 <= a -> 3 * a + 3 <= 2 ^ 32 -> u32 (a * 3) = 3 * a.
Proof. intros. rewrite u32_small; lia. Qed.
Lemma store_at m p v i : 0 <= p -> 3 * p + 3 <= 2 ^ 32 -> vector_at (store m p v) i = if i =? p then v else vector_at m i.
Proof.
  intros P Q. unfold vector_at, store. rewrite !idx, idx0 by lia.
  destruct (Z.eqb_spec i p) as [->|N].
  - destruct v as [a b c]. cbn [vx vy vz]. f_equal; repeat match goal with |- context [?x =? ?y] => destruct (Z.eqb_spec x y); try lia end; reflexivity.
  - f_equal; repeat match goal with |- context [?x =? ?y] => destruct (Z.eqb_spec x y); try lia end; reflexivity.
Qed.
Lemma stores_at (f : vec -> Z -> vec) (step : memory -> Z -> memory) n :
  (forall m p i, 0 <= p < n -> vector_at (step m p) i = if i =? p then f (vector_at m p) p else vector_at m i) ->
  forall m i, vector_at (fold_left step (zrange n) m) i = if (0 <=? i) && (i <? n) then f (vector_at m i) i else vector_at m i.
Proof.
  revert step. induction n as [n H|n H IH] using zrange_ind; intros step St m i.
  - rewrite zrange_nil by assumption. cbn. destruct (Z.leb_spec 0 i), (Z.ltb_spec i n); try reflexivity; lia.
  - rewrite zrange_succ, fold_left_app by assumption. cbn [fold_left]. rewrite St by lia.
    assert (St' : forall m p i, 0 <= p < n -> vector_at (step m p) i = if i =? p then f (vector_at m p) p else vector_at m i) by (intros; apply St; lia).
    rewrite !(IH step St'). destruct (Z.eqb_spec i n) as [->|N].
    + destruct (Z.leb_spec 0 n), (Z.ltb_spec n n), (Z.ltb_spec n (n + 1)); try lia; reflexivity.
    + destruct (Z.leb_spec 0 i), (Z.ltb_spec i n), (Z.ltb_spec i (n + 1)); try lia; reflexivity.
Qed.
Lemma vectors_ext m n l : (forall i, 0 <= i < n -> vector_at m i = l i) -> vectors m n = map l (zrange n).
Proof. intros H. apply map_ext_in. intros i I. apply H. now apply In_zrange. Qed.

(** Sums. *)
Lemma fold_vadd (f : Z -> vec) : forall l a, fold_left (fun r i => vadd r (f i)) l a = plus3 a (vsum (map f l)).
Proof.
  induction l as [|x l IH]; intros a; cbn [fold_left map vsum].
  - destruct a. unfold plus3, zero3. cbn. f_equal; ring.
  - rewrite IH. destruct a, (f x), (vsum (map f l)). unfold plus3, vadd. cbn. f_equal; ring.
Qed.
Lemma total_momentum m n : getTotalMomentum m n = vsum (vectors m n).
Proof.
  unfold getTotalMomentum, vectors. rewrite fold_vadd. destruct (vsum (map (vector_at m) (zrange n))). unfold vscale, plus3. cbn. f_equal; ring.
Qed.
Lemma vectors_length m n : length (vectors m n) = Z.to_nat n.
Proof. unfold vectors. now rewrite map_length, zrange_length. Qed.
Lemma INR_IZR n : 0 <= n -> INR (Z.to_nat n) = IZR n.
Proof. intros. rewrite INR_IZR_INZ. f_equal. lia. Qed.
Lemma mean_momentum m n : 0 < n -> vdivs (getMeanMomentum m n) 1 = mean (vectors m n).
Proof.
  intros H. unfold getMeanMomentum, mean. rewrite total_momentum, vectors_length, INR_IZR by lia.
  assert (IZR n <> 0)%R by (apply not_0_IZR; lia). destruct (vsum (vectors m n)). unfold vdivs, times3. cbn. f_equal; field; assumption.
Qed.
Lemma vsum_shift (c : vec) l : vsum (map (fun v => minus3 v c) l) = minus3 (vsum l) (times3 (INR (length l)) c).
Proof.
  induction l as [|v l IH].
  - destruct c. cbn. unfold minus3, times3, zero3. cbn. f_equal; ring.
  - cbn [map vsum length]. rewrite IH, S_INR. destruct v, c, (vsum l). unfold plus3, minus3, times3. cbn. f_equal; ring.
Qed.
Lemma vsum_scale k l : vsum (map (times3 k) l) = times3 k (vsum l).
Proof.
  induction l as [|v l IH]; cbn [map vsum].
  - cbn. unfold times3, zero3. cbn. f_equal; ring.
  - rewrite IH. destruct v, (vsum l). unfold plus3, times3. cbn. f_equal; ring.
Qed.
Lemma centred_zero l : l <> [] -> vsum (map (fun v => minus3 v (mean l)) l) = zero3.
Proof.
  intros N. rewrite vsum_shift. unfold mean. destruct (vsum l) as [a b c].
  assert (INR (length l) <> 0)%R by (apply not_0_INR; destruct l; [congruence|discriminate]). unfold minus3, times3, zero3. cbn [vx vy vz]. f_equal; field; assumption.
Qed.
Lemma squares_fold m n : 3 * n <= 2 ^ 32 ->
  fold_left (fun ret i => fold_left (fun ret c => ret + m (u32 (3 * i + c)%Z) * m (u32 (3 * i + c)%Z))%R (zrange 3) ret) (zrange n) 0%R = squares (vectors m n).
Proof.
  intros H.
  assert (G : forall l a, (forall i, In i l -> 0 <= i < n) ->
    fold_left (fun ret i => fold_left (fun ret c => ret + m (u32 (3 * i + c)%Z) * m (u32 (3 * i + c)%Z))%R (zrange 3) ret) l a = (a + squares (map (vector_at m) l))%R).
  { induction l as [|i l IH]; intros a L; cbn [fold_left map squares]; [ring|].
    rewrite IH by (intros; apply L; now right). change (zrange 3) with [0; 1; 2]. cbn [fold_left]. specialize (L i (or_introl eq_refl)).
    rewrite !u32_small by lia. unfold dot3, vector_at. cbn [vx vy vz]. rewrite Z.add_0_r. ring. }
  rewrite G by (intros i I; now apply In_zrange). unfold vectors. ring.
Qed.
Lemma kinetic_kT m n : 0 < n -> 3 * n <= 2 ^ 32 -> getkTViaKineticEnergy m n = (squares (vectors m n) / (3 * IZR n))%R.
Proof.
  intros P H. unfold getkTViaKineticEnergy, getKineticEnergy. rewrite squares_fold by assumption. field. apply not_0_IZR. lia.
Qed.
Lemma squares_nonneg l : (0 <= squares l)%R.
Proof. induction l as [|v l IH]; cbn; [lra|]. unfold dot3. pose proof (Rle_0_sqr (vx v)). pose proof (Rle_0_sqr (vy v)). pose proof (Rle_0_sqr (vz v)). unfold Rsqr in *. lra. Qed.
Lemma squares_zero l : squares l = 0%R -> forall v, In v l -> v = zero3.
Proof.
  induction l as [|w l IH]; intros H v I; [destruct I|]. cbn in H. pose proof (squares_nonneg l). unfold dot3 in H.
  pose proof (Rle_0_sqr (vx w)). pose proof (Rle_0_sqr (vy w)). pose proof (Rle_0_sqr (vz w)). unfold Rsqr in *.
  destruct I as [->|I]; [|apply IH; [lra|assumption]]. destruct v as [a b c]. cbn in *.
  assert (a * a = 0 /\ b * b = 0 /\ c * c = 0)%R as (A & B & C) by lra.
  apply Rmult_integral in A, B, C. unfold zero3. f_equal; tauto.
Qed.
Lemma squares_scale k l : squares (map (times3 k) l) = (k * k * squares l)%R.
Proof. induction l as [|v l IH]; cbn [map squares]; [ring|]. rewrite IH. unfold dot3, times3. cbn. ring. Qed.

(** The velocities before the thermostat. *)
Lemma drawn_velocities drawn n m i : 0 <= n -> 3 * n <= 2 ^ 32 ->
  vector_at (fold_left (fun m pID => store m pID (Vec (drawn (3 * pID)) (drawn (3 * pID + 1)) (drawn (3 * pID + 2)))) (zrange n) m) i
  = if (0 <=? i) && (i <? n) then triple drawn i else vector_at m i.
Proof.
  intros N H. apply (stores_at (fun _ i => triple drawn i)). intros m' p j P. rewrite store_at by lia. reflexivity.
Qed.
Lemma centred_velocities c n m i : 0 <= n -> 3 * n <= 2 ^ 32 ->
  vector_at (fold_left (fun m pID => store m pID (vsub (Vec (m (u32 (pID * 3))) (m (u32 (pID * 3 + 1))) (m (u32 (pID * 3 + 2)))) c)) (zrange n) m) i
  = if (0 <=? i) && (i <? n) then minus3 (vector_at m i) c else vector_at m i.
Proof.
  intros N H. apply (stores_at (fun v _ => minus3 v c)). intros m' p j P. rewrite store_at by lia.
  unfold vector_at at 2. rewrite !idx, idx0 by lia. reflexivity.
Qed.
Lemma scaled_velocities s n m i : 0 <= n -> 3 * n <= 2 ^ 32 ->
  vector_at (fold_left (fun m i => fold_left (fun m c => fun j => if j =? u32 (3 * i + c) then (m j * s)%R else m j) (zrange 3) m) (zrange n) m) i
  = if (0 <=? i) && (i <? n) then times3 s (vector_at m i) else vector_at m i.
Proof.
  intros N H. apply (stores_at (fun v _ => times3 s v)). intros m' p j P. change (zrange 3) with [0; 1; 2]. cbn [fold_left]. rewrite !u32_small by lia.
  unfold vector_at, times3. cbn [vx vy vz].
  destruct (Z.eqb_spec j p) as [->|Ne]; f_equal; repeat match goal with |- context [?x =? ?y] => destruct (Z.eqb_spec x y); try lia end; try reflexivity; apply Rmult_comm.
Qed.
Lemma range_true i n : 0 <= i < n -> (0 <=? i) && (i <? n) = true.
Proof. intros. apply andb_true_iff. split; [apply Z.leb_le|apply Z.ltb_lt]; lia. Qed.
Definition centred (drawn : Z -> R) (n : Z) : list vec := map (fun v => minus3 v (mean (triples drawn n))) (triples drawn n).
Lemma velocities_without drawn n m : 0 < n -> 3 * n <= 2 ^ 32 -> vectors (initializeVelocitiesOnHost drawn None n m) n = centred drawn n.
Proof.
  intros P H. unfold initializeVelocitiesOnHost, centred, triples. rewrite map_map. apply vectors_ext. intros i I.
  rewrite centred_velocities, drawn_velocities, range_true by lia. rewrite mean_momentum by assumption. f_equal. f_equal.
  apply vectors_ext. intros j J. now rewrite drawn_velocities, range_true by lia.
Qed.
Lemma velocities_with drawn n m kT : 0 < n -> 3 * n <= 2 ^ 32 ->
  vectors (initializeVelocitiesOnHost drawn (Some kT) n m) n = map (times3 (sqrt (kT / (squares (centred drawn n) / (3 * IZR n))))) (centred drawn n).
Proof.
  intros P H. pose proof (velocities_without drawn n m P H) as W. unfold initializeVelocitiesOnHost in *.
  set (m2 := fold_left _ _ (fold_left _ _ _)) in *. unfold globalUnbiasedThermostat. rewrite kinetic_kT, W by assumption.
  rewrite <- W. unfold vectors. rewrite map_map. apply map_ext_in. intros i I. apply In_zrange in I. now rewrite scaled_velocities, range_true by lia.
Qed.

(** Positions. *)
Lemma interval_iff a b : in_interval a b = true <-> (0 <= a < b)%R.
Proof. unfold in_interval. destruct (Rle_dec 0 a), (Rlt_dec a b); split; intros; try lra; try discriminate; reflexivity. Qed.
Lemma in_box_iff box p : in_boxb box p = true <-> in_box box p.
Proof. destruct box as [[x y] z]. cbn. rewrite !andb_true_iff, !interval_iff. tauto. Qed.
Lemma outside_iff x y z p : outside x y z p = negb (in_boxb (x, y, z) p).
Proof.
  unfold outside, in_boxb, in_interval, rltb.
  destruct (Rlt_dec (vx p) (IZR x)), (Rlt_dec (vy p) (IZR y)), (Rlt_dec (vz p) (IZR z)), (Rlt_dec (vx p) 0), (Rlt_dec (vy p) 0), (Rlt_dec (vz p) 0),
    (Rle_dec 0 (vx p)), (Rle_dec 0 (vy p)), (Rle_dec 0 (vz p)); try reflexivity; exfalso; lra.
Qed.
Lemma random_position_point u x y z n : random_position u x y z n = point u (x, y, z) n.
Proof. reflexivity. Qed.
Lemma random_unit_towards u n : random_unit u n = towards u n.
Proof. apply unit_vector_direction. Qed.
Lemma point_in_box u box n : unit_interval u -> (let '(x, y, z) := box in 0 < x /\ 0 < y /\ 0 < z) -> in_box box (point u box n).
Proof.
  destruct box as [[x y] z]. intros U (X & Y & Z). cbn.
  assert (G : forall k b, 0 < b -> (0 <= u k * IZR b < IZR b)%R).
  { intros k b B. destruct (U k) as [L R]. apply IZR_lt in B. split; [apply Rmult_le_pos; lra|]. rewrite <- (Rmult_1_l (IZR b)) at 2. apply Rmult_lt_compat_r; lra. }
  auto.
Qed.
Lemma towards_unit u n : unit_interval u -> dot3 (towards u n) (towards u n) = 1%R.
Proof. intros U. unfold towards. apply direction_unit. destruct (U n). lra. Qed.
Lemma distance_shift p d : distance (plus3 p d) p = sqrt (dot3 d d).
Proof. unfold distance. f_equal. destruct p, d. unfold dot3, minus3, plus3. cbn. ring. Qed.
Lemma times_square k d : dot3 (times3 k d) (times3 k d) = (k * k * dot3 d d)%R.
Proof. unfold dot3, times3. cbn. ring. Qed.

Section Positions.
Variables (u : nat -> R) (x y z : Z).
Let box := (x, y, z).
Lemma each_placed : forall fuel count p n m m' n', 0 <= p <= count -> 3 * count <= 2 ^ 32 -> initialize_each u x y z fuel count p n m = Some (m', n') ->
  n' = (n + 3 * Z.to_nat (count - p))%nat
  /\ (forall i, p <= i < count -> vector_at m' i = point u box (n + 3 * Z.to_nat (i - p))) /\ (forall i, i < p -> vector_at m' i = vector_at m i).
Proof.
  induction fuel as [|fuel IH]; intros count p n m m' n' P C E; [discriminate|]. cbn [initialize_each] in E.
  destruct (Z.ltb_spec p count).
  - rewrite u32_small in E by lia. apply IH in E; [|lia|lia]. destruct E as (-> & A & B). split; [lia|]. split.
    + intros i I. destruct (Z.eq_dec i p) as [->|].
      * rewrite B, store_at, Z.eqb_refl by lia. rewrite random_position_point. f_equal. lia.
      * rewrite A by lia. f_equal. lia.
    + intros i I. rewrite B, store_at by lia. destruct (Z.eqb_spec i p); [lia|reflexivity].
  - injection E as <- <-. split; [lia|]. split; [intros; lia|reflexivity].
Qed.
Lemma each_ends : forall k fuel count p n m, count - p = Z.of_nat k -> 0 <= p -> 3 * count <= 2 ^ 32 -> (k < fuel)%nat -> exists r, initialize_each u x y z fuel count p n m = Some r.
Proof.
  induction k as [|k IH]; intros fuel count p n m K P C F; (destruct fuel as [|fuel]; [lia|]); cbn [initialize_each].
  - destruct (Z.ltb_spec p count); [lia|]. eauto.
  - destruct (Z.ltb_spec p count); [|lia]. rewrite u32_small by lia. apply IH; lia.
Qed.

Section Pairs.
Variables (partner : vec -> nat -> vec * nat) (shift : nat -> vec) (used : nat).
Hypothesis partner_is : forall p n, partner p n = (plus3 p (shift n), used).
Let width := (3 + used)%nat.
Lemma attempts_succ n N : attempts n width (S N) = n :: attempts (n + width) width N.
Proof.
  unfold attempts. cbn [seq map]. f_equal; [lia|]. rewrite <- seq_shift, map_map. apply map_ext. intros k. lia.
Qed.
Lemma successes_succ n N : successes u box shift n width (S N) =
  if in_boxb box (plus3 (point u box n) (shift (n + 3)%nat)) then n :: successes u box shift (n + width) width N else successes u box shift (n + width) width N.
Proof. unfold successes. rewrite attempts_succ. reflexivity. Qed.
Lemma pairs_loop : forall fuel pairs j n m m' n', 0 <= j <= pairs -> 3 * (2 * pairs) <= 2 ^ 32 ->
  initialize_pairs u x y z partner fuel (2 * pairs) (2 * j) n m = Some (m', n') ->
  exists N, n' = (n + width * N)%nat /\ length (successes u box shift n width N) = Z.to_nat (pairs - j)
  /\ (forall i k, nth_error (successes u box shift n width N) i = Some k ->
      vector_at m' (2 * (j + Z.of_nat i)) = point u box k /\ vector_at m' (2 * (j + Z.of_nat i) + 1) = plus3 (point u box k) (shift (k + 3)%nat))
  /\ (forall i, i < 2 * j -> vector_at m' i = vector_at m i).
Proof.
  induction fuel as [|fuel IH]; intros pairs j n m m' n' J C E; [discriminate|]. cbn [initialize_pairs] in E.
  destruct (Z.ltb_spec (2 * j) (2 * pairs)).
  - rewrite store_at, Z.eqb_refl, partner_is, outside_iff in E by lia. change (random_position u x y z n) with (point u box n) in E. fold box in E.
    replace (n + 3 + used)%nat with (n + width)%nat in E by (unfold width; lia).
    destruct (in_boxb box (plus3 (point u box n) (shift (n + 3)%nat))) eqn:B; cbn [negb] in E.
    + rewrite !u32_small in E by lia. replace (2 * j + 2) with (2 * (j + 1)) in E by lia. apply IH in E; [|lia|lia]. destruct E as (N & -> & L & A & R).
      exists (S N). rewrite successes_succ, B. split; [lia|]. split; [cbn [length]; rewrite L; lia|]. split.
      * intros [|i] k K; cbn [nth_error] in K.
        -- injection K as <-. rewrite Z.add_0_r. rewrite !R by lia. rewrite !store_at by lia. rewrite Z.eqb_refl.
           destruct (Z.eqb_spec (2 * j) (2 * j + 1)); [lia|]. rewrite Z.eqb_refl. auto.
        -- apply A in K. replace (j + Z.of_nat (S i)) with (j + 1 + Z.of_nat i) by lia. exact K.
      * intros i I. rewrite R by lia. rewrite !store_at by lia. destruct (Z.eqb_spec i (2 * j + 1)), (Z.eqb_spec i (2 * j)); try lia; reflexivity.
    + replace (u32 (u32 (2 * j - 2) + 2)) with (2 * j) in E.
      2:{ rewrite u32_add. replace (2 * j - 2 + 2) with (2 * j) by lia. now rewrite u32_small by lia. }
      apply IH in E; [|lia|lia]. destruct E as (N & -> & L & A & R). exists (S N). rewrite successes_succ, B. split; [lia|]. split; [exact L|]. split; [exact A|].
      intros i I. rewrite R by lia. rewrite store_at by lia. destruct (Z.eqb_spec i (2 * j)); [lia|reflexivity].
  - injection E as <- <-. exists 0%nat. split; [lia|]. split; [cbn; lia|]. split; [intros [|i] k K; discriminate|reflexivity].
Qed.
Lemma pairs_end : forall N fuel pairs j n m, 0 <= j <= pairs -> 3 * (2 * pairs) <= 2 ^ 32 -> (Z.to_nat (pairs - j) <= length (successes u box shift n width N))%nat -> (N < fuel)%nat ->
  exists r, initialize_pairs u x y z partner fuel (2 * pairs) (2 * j) n m = Some r.
Proof.
  induction N as [|N IH]; intros fuel pairs j n m J C L F; (destruct fuel as [|fuel]; [lia|]); cbn [initialize_pairs].
  - cbn in L. destruct (Z.ltb_spec (2 * j) (2 * pairs)); [lia|]. eauto.
  - destruct (Z.ltb_spec (2 * j) (2 * pairs)); [|eauto].
    rewrite store_at, Z.eqb_refl, partner_is, outside_iff by lia. change (random_position u x y z n) with (point u box n). fold box.
    replace (n + 3 + used)%nat with (n + width)%nat by (unfold width; lia). rewrite successes_succ in L.
    destruct (in_boxb box (plus3 (point u box n) (shift (n + 3)%nat))) eqn:B; cbn [negb].
    + rewrite !u32_small by lia. replace (2 * j + 2) with (2 * (j + 1)) by lia. apply IH; [lia|lia| |lia]. cbn [length] in L. lia.
    + replace (u32 (u32 (2 * j - 2) + 2)) with (2 * j). 2:{ rewrite u32_add. replace (2 * j - 2 + 2) with (2 * j) by lia. now rewrite u32_small by lia. }
      apply IH; [lia|lia|exact L|lia].
Qed.
Lemma pairs_endless : (forall n, ~ in_box box (plus3 (point u box n) (shift (n + 3)%nat))) -> forall fuel pairs n m, 0 < pairs -> 3 * (2 * pairs) <= 2 ^ 32 ->
  initialize_pairs u x y z partner fuel (2 * pairs) 0 n m = None.
Proof.
  intros O fuel pairs n m P C. destruct (initialize_pairs u x y z partner fuel (2 * pairs) 0 n m) as [[m' n']|] eqn:E; [|reflexivity]. exfalso.
  change 0 with (2 * 0) in E. apply pairs_loop in E; [|lia|lia]. destruct E as (N & _ & L & _).
  destruct (successes u box shift n width N) as [|k l] eqn:S; [cbn in L; lia|].
  assert (I : In k (successes u box shift n width N)) by (rewrite S; now left). apply filter_In in I. destruct I as [_ I]. apply in_box_iff in I. exact (O k I).
Qed.
Lemma placed_good n m n' pairs length_ : unit_interval u -> 0 < x /\ 0 < y /\ 0 < z -> (forall k, sqrt (dot3 (shift k) (shift k)) = length_) ->
  pairs_placed u box shift n width m n' pairs -> pairs_good box length_ m pairs.
Proof.
  intros U B S (N & _ & L & A) i I.
  assert (X : exists k, nth_error (successes u box shift n width N) (Z.to_nat i) = Some k).
  { destruct (nth_error (successes u box shift n width N) (Z.to_nat i)) as [k|] eqn:E; [eauto|]. apply nth_error_None in E. lia. }
  destruct X as [k K]. pose proof (A _ _ K) as [A1 A2]. replace (Z.of_nat (Z.to_nat i)) with i in A1, A2 by lia. rewrite A1, A2.
  split; [now apply point_in_box|]. split; [|rewrite distance_shift; apply S].
  apply nth_error_In in K. apply filter_In in K. destruct K as [_ K]. now apply in_box_iff.
Qed.
End Pairs.

(** Chains. *)
Variable l : Z.
Definition good (m : memory) (i : Z) : Prop := in_box box (vector_at m i) /\ (i mod l <> 0 -> distance (vector_at m i) (vector_at m (l * (i / l))) = 1%R).
Lemma good_store m p v i : 0 < l -> 0 <= p -> 3 * p + 3 <= 2 ^ 32 -> 0 <= i < p -> good m i -> good (store m p v) i.
Proof.
  intros L P Q I G. unfold good in *. rewrite !store_at by assumption.
  assert (l * (i / l) <= i) by (apply Z.mul_div_le; lia). destruct (Z.eqb_spec i p), (Z.eqb_spec (l * (i / l)) p); try lia. exact G.
Qed.
Lemma chains_loop : unit_interval u -> 0 < x /\ 0 < y /\ 0 < z -> 0 < l -> forall fuel chains j off n m m' n', 0 <= j <= chains -> 3 * (l * chains) <= 2 ^ 32 ->
  match off with Some o => 1 <= o <= l /\ j < chains | None => True end ->
  (forall i, 0 <= i < l * j + match off with Some o => o | None => 0 end -> good m i) ->
  initialize_chains u x y z l fuel (l * chains) (l * j) off n m = Some (m', n') ->
  forall i, 0 <= i < l * chains -> good m' i.
Proof.
  intros U B L. induction fuel as [|fuel IH]; intros chains j off n m m' n' J C O G E; [discriminate|]. cbn [initialize_chains] in E.
  assert (JL : j < chains -> l * j + l <= l * chains) by nia.
  destruct off as [o|].
  - destruct O as [O1 O2]. specialize (JL O2). destruct (Z.ltb_spec o l).
    + rewrite outside_iff, random_unit_towards in E. fold box in E. destruct (in_boxb box (vadd (vector_at m (l * j)) (towards u n))) eqn:I; cbn [negb] in E.
      * assert (0 <= l * j) by nia. rewrite !u32_small in E by lia. refine (IH chains j (Some (o + 1)) _ _ m' n' _ C _ _ E); [lia|lia|]. intros i Hi.
        destruct (Z.eq_dec i (l * j + o)) as [->|Ne].
        -- assert (D : (l * j + o) / l = j) by (rewrite Z.mul_comm, Z.div_add_l by lia; rewrite Z.div_small; lia).
           unfold good. rewrite D. rewrite !store_at by lia. rewrite Z.eqb_refl. destruct (Z.eqb_spec (l * j) (l * j + o)); [lia|].
           split; [now apply in_box_iff|]. intros _. change (vadd ?a ?b) with (plus3 a b). rewrite distance_shift, towards_unit by assumption. apply sqrt_1.
        -- apply good_store; try lia. apply G. lia.
      * replace (u32 (u32 (o - 1) + 1)) with o in E.
        2:{ rewrite u32_add. replace (o - 1 + 1) with o by lia. rewrite u32_small; [reflexivity|]. assert (0 <= l * j) by nia. lia. }
        refine (IH chains j (Some o) _ _ m' n' J C _ G E). lia.
    + assert (0 <= l * j) by nia. destruct (Z.eq_dec (l * j + l) (2 ^ 32)); [exfalso; lia|]. rewrite u32_small in E by lia. replace (l * j + l) with (l * (j + 1)) in E by lia.
      refine (IH chains (j + 1) None _ _ m' n' _ C Logic.I _ E); [lia|]. intros i Hi. apply G. lia.
  - destruct (Z.ltb_spec (l * j) (l * chains)).
    + assert (j < chains) by nia. specialize (JL H0). assert (0 <= l * j) by nia. refine (IH chains j (Some 1) _ _ m' n' J C _ _ E); [lia|]. intros i Hi. destruct (Z.eq_dec i (l * j)) as [->|Ne].
      * unfold good. rewrite store_at, Z.eqb_refl by lia. split; [now apply (point_in_box u box)|]. intros K. exfalso. apply K. rewrite Z.mul_comm. apply Z.mod_mul. lia.
      * apply good_store; try lia. apply G. lia.
    + injection E as <- <-. intros i Hi. apply G. nia.
Qed.
End Positions.

(** The cubic polynomial. *)
Lemma ratio_above_one Wi mu : Wi <> 0%R -> multiplier_ratio Wi mu -> (1 < mu)%R.
Proof.
  unfold multiplier_ratio. intros W H. assert (0 < Wi * Wi)%R by (apply Rlt_0_sqr in W; exact W).
  assert (P : (mu * mu * (mu - 1) = Wi * Wi / 6)%R) by lra. destruct (Rlt_le_dec 1 mu) as [|L]; [assumption|]. exfalso.
  pose proof (Rle_0_sqr mu). unfold Rsqr in *. assert (mu * mu * (mu - 1) <= 0)%R by nra. lra.
Qed.
Lemma ratio_unique Wi a b : Wi <> 0%R -> multiplier_ratio Wi a -> multiplier_ratio Wi b -> a = b.
Proof.
  intros W A B. pose proof (ratio_above_one _ _ W A). pose proof (ratio_above_one _ _ W B). unfold multiplier_ratio in *.
  assert (E : ((a - b) * (a * a + a * b + b * b - a - b) = 0)%R) by lra. apply Rmult_integral in E. destruct E as [E|E]; [lra|]. exfalso.
  assert (a < a * a)%R by nra. assert (b < b * b)%R by nra. assert (0 < a * b)%R by nra. lra.
Qed.
Lemma perfect_length cubic len Wi : (0 <= len)%R -> (Wi <> 0%R -> multiplier_ratio Wi (cubic (-1) 0 (- Wi * Wi / 6))%R) ->
  sqrt (dot3 (perfect_displacement cubic len Wi) (perfect_displacement cubic len Wi)) = len.
Proof.
  intros P H. unfold perfect_displacement. set (mu := lagrangianMultiplierRatio cubic Wi).
  assert (M : (1 <= mu)%R /\ (mu * mu * mu - mu * mu = Wi * Wi / 6)%R).
  { unfold mu, lagrangianMultiplierRatio. destruct (Req_EM_T Wi 0) as [->|N]; [split; lra|]. specialize (H N). split; [left; now apply (ratio_above_one Wi)|exact H]. }
  destruct M as [M E]. unfold dot3. cbn [vx vy vz].
  assert (Q : (0 <= len * len / (3 * mu))%R) by (apply Rmult_le_pos; [nra|]; left; apply Rinv_0_lt_compat; lra).
  assert (Q2 : (0 <= Wi * Wi / (2 * mu * mu))%R).
  { apply Rmult_le_pos; [apply (Rle_0_sqr Wi)|]. left. apply Rinv_0_lt_compat. nra. }
  rewrite !sqrt_sqrt by (try assumption; apply Rmult_le_pos; lra).
  replace (len * len / (3 * mu) * (1 + Wi * Wi / (2 * mu * mu)) + len * len / (3 * mu) + len * len / (3 * mu))%R with (len * len)%R; [now apply sqrt_square|].
  replace (Wi * Wi)%R with (6 * (mu * mu * mu - mu * mu))%R by lra. field. lra.
Qed.
