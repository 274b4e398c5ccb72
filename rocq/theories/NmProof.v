(** Proofs about normal modes and their autocorrelations. *)
From Coq Require Import List ZArith Bool Reals Lia Lra Permutation.
From Verif Require Import PyBase VecBase VecModel VecSpec PartSpec PartProof CuModel CuProof NmModel NmSpec.
From Verif Require StarModel.
Import ListNotations.
Open Scope R_scope.
Open Scope list_scope.

(** A component of a vector. *)
Definition comp (j : Z) (v : vec) : R := if Z.eqb j 0 then vx v else if Z.eqb j 1 then vy v else vz v.

Lemma store_at m b i v a : store m b i v a =
  if Z.leb (b + 3 * i) a && Z.ltb a (b + 3 * i + 3) then comp (a - (b + 3 * i)) v else m a.
Proof.
  unfold store, comp.
  destruct (Z.eqb_spec a (b + 3 * i)) as [E|E].
  { destruct (Z.leb_spec (b + 3 * i) a), (Z.ltb_spec a (b + 3 * i + 3)); try lia. cbn [andb].
    now rewrite (proj2 (Z.eqb_eq _ _)) by lia. }
  destruct (Z.eqb_spec a (b + 3 * i + 1)) as [E1|E1].
  { destruct (Z.leb_spec (b + 3 * i) a), (Z.ltb_spec a (b + 3 * i + 3)); try lia. cbn [andb].
    rewrite (proj2 (Z.eqb_neq _ _)) by lia. now rewrite (proj2 (Z.eqb_eq _ _)) by lia. }
  destruct (Z.eqb_spec a (b + 3 * i + 2)) as [E2|E2].
  { destruct (Z.leb_spec (b + 3 * i) a), (Z.ltb_spec a (b + 3 * i + 3)); try lia. cbn [andb].
    now rewrite !(proj2 (Z.eqb_neq _ _)) by lia. }
  destruct (Z.leb_spec (b + 3 * i) a), (Z.ltb_spec a (b + 3 * i + 3)); try lia; reflexivity.
Qed.
Lemma fold_ext_in {A B} (f g : A -> B -> A) l : (forall a x, In x l -> f a x = g a x) -> forall a, fold_left f l a = fold_left g l a.
Proof.
  induction l as [|x l IH]; intros H a; [reflexivity|]. cbn. rewrite H by (left; reflexivity).
  apply IH. intros. apply H. now right.
Qed.
Lemma cnc_ext m m' i V N S : (forall a, (V <= a < V + 3 * N)%Z -> m a = m' a) ->
  computeNormalCoordinate m i V N S = computeNormalCoordinate m' i V N S.
Proof.
  intros H. unfold computeNormalCoordinate. f_equal. apply fold_ext_in. intros v n Hn. apply In_zrange in Hn.
  unfold load. now rewrite !H by lia.
Qed.

(** One chain. *)
Lemma chain_prefix m V N Rr S : (0 <= N)%Z -> (V + 3 * N <= Rr \/ Rr + 3 * (N + 1) <= V)%Z -> forall n, (n <= N + 1)%Z -> forall a,
  fold_left (fun m i => store m Rr i (computeNormalCoordinate m i V N S)) (zrange n) m a =
  if Z.leb Rr a && Z.ltb a (Rr + 3 * n) then comp ((a - Rr) mod 3) (computeNormalCoordinate m ((a - Rr) / 3) V N S) else m a.
Proof.
  intros HN HD. apply (zrange_ind (fun n => (n <= N + 1)%Z -> forall a,
    fold_left (fun m i => store m Rr i (computeNormalCoordinate m i V N S)) (zrange n) m a = _)).
  - intros n Hn _ a. rewrite zrange_nil by exact Hn. cbn [fold_left]. destruct (Z.leb_spec Rr a), (Z.ltb_spec a (Rr + 3 * n)); try lia; reflexivity.
  - intros n Hn IH Hle a. rewrite zrange_succ by exact Hn. rewrite fold_left_app. cbn [fold_left].
    rewrite store_at. rewrite (cnc_ext _ m).
    2:{ intros b Hb. rewrite IH by lia. destruct (Z.leb_spec Rr b), (Z.ltb_spec b (Rr + 3 * n)); try lia; reflexivity. }
    rewrite IH by lia.
    destruct (Z.leb_spec (Rr + 3 * n) a), (Z.ltb_spec a (Rr + 3 * n + 3)); cbn [andb].
    + destruct (Z.leb_spec Rr a), (Z.ltb_spec a (Rr + 3 * (n + 1))); try lia. cbn [andb].
      replace (a - Rr)%Z with ((a - (Rr + 3 * n)) + n * 3)%Z by ring.
      rewrite Z.mod_add, Z.div_add by lia. rewrite Z.mod_small, Z.div_small by lia. reflexivity.
    + destruct (Z.leb_spec Rr a), (Z.ltb_spec a (Rr + 3 * (n + 1))), (Z.ltb_spec a (Rr + 3 * n)); try lia; reflexivity.
    + destruct (Z.leb_spec Rr a), (Z.ltb_spec a (Rr + 3 * (n + 1))), (Z.ltb_spec a (Rr + 3 * n)); try lia; reflexivity.
    + lia.
Qed.

Section Nm.
Variables N C P : Z.
Variable S : R.
Hypothesis HN : (1 <= N)%Z.
Hypothesis HC : (1 <= C)%Z.
Notation K := (3 * (N + 1))%Z.
Hypothesis H32 : (C * K < 2 ^ 32)%Z.

(** Element [k] of the normal coordinates of the positions in [m]. *)
Definition value (m : memory) (k : Z) : R :=
  comp (k mod 3) (computeNormalCoordinate m ((k mod K) / 3) (P + 3 * N * (k / K)) N S).
Lemma block_range k : (0 <= k < C * K)%Z -> (0 <= k / K < C)%Z.
Proof. intros H. split; [apply Z.div_pos; lia|apply Z.div_lt_upper_bound; lia]. Qed.
Lemma value_ext m m' k : (0 <= k < C * K)%Z -> (forall a, (P <= a < P + 3 * C * N)%Z -> m a = m' a) -> value m k = value m' k.
Proof.
  intros Hk H. unfold value. f_equal. apply cnc_ext. intros a Ha. apply H.
  pose proof (block_range k Hk). nia.
Qed.
Definition apart (B : Z) : Prop := (P + 3 * C * N <= B \/ B + C * K <= P)%Z.
Lemma thread_writes B m u : apart B -> (0 <= u)%Z -> forall a,
  nm_thread N C P B S m u a = if (Z.leb B a && Z.ltb a (B + C * K) && Z.eqb ((a - B) / K) u)%bool then value m (a - B) else m a.
Proof.
  intros A Hu a. unfold nm_thread. destruct (Z.leb_spec C u) as [H|H].
  - destruct (Z.leb_spec B a), (Z.ltb_spec a (B + C * K)), (Z.eqb_spec ((a - B) / K) u) as [E|E]; try reflexivity.
    exfalso. pose proof (block_range (a - B) ltac:(lia)). lia.
  - rewrite !u32_small by nia. unfold chainNormalCoordinates.
    rewrite chain_prefix by (try lia; unfold apart in A; nia).
    pose proof (Z.div_mod (a - B) K ltac:(lia)) as D. pose proof (Z.mod_pos_bound (a - B) K ltac:(lia)) as D'.
    destruct (Z.eqb_spec ((a - B) / K) u) as [E|E].
    + destruct (Z.leb_spec (B + 3 * u * (N + 1)) a), (Z.ltb_spec a (B + 3 * u * (N + 1) + 3 * (N + 1))),
        (Z.leb_spec B a), (Z.ltb_spec a (B + C * K)); try nia. cbn [andb].
      unfold value. rewrite E. replace (a - (B + 3 * u * (N + 1)))%Z with ((a - B) mod K)%Z by nia.
      f_equal.
      * replace (a - B)%Z with ((a - B) mod K + (N + 1) * u * 3)%Z at 2 by nia. now rewrite Z.mod_add by lia.
      * f_equal. ring.
    + rewrite andb_false_r. destruct (Z.leb_spec (B + 3 * u * (N + 1)) a), (Z.ltb_spec a (B + 3 * u * (N + 1) + 3 * (N + 1))); try reflexivity.
      exfalso. apply E. symmetry. apply Z.div_unique with (a - B - K * u)%Z; lia.
Qed.
Lemma all_writes B units : apart B -> Forall (fun u => (0 <= u)%Z) units -> forall m a,
  computeNormalCoordinates units N C P B S m a =
  if (Z.leb B a && Z.ltb a (B + C * K) && existsb (Z.eqb ((a - B) / K)) units)%bool then value m (a - B) else m a.
Proof.
  intros A F m. unfold computeNormalCoordinates. induction units as [|u units IH] using rev_ind; intros a.
  - cbn. now rewrite andb_false_r.
  - apply Forall_app in F. destruct F as [F1 F2]. inversion F2 as [|? ? Hu _]; subst.
    rewrite fold_left_app. cbn [fold_left]. rewrite thread_writes by assumption. rewrite existsb_app. cbn [existsb]. rewrite orb_false_r.
    rewrite IH by assumption.
    destruct (Z.leb_spec B a), (Z.ltb_spec a (B + C * K)); cbn [andb]; try reflexivity.
    assert (V : value (fold_left (nm_thread N C P B S) units m) (a - B) = value m (a - B)).
    { apply value_ext; [lia|]. intros b Hb. rewrite IH by assumption. unfold apart in A.
      destruct (Z.leb_spec B b), (Z.ltb_spec b (B + C * K)); cbn [andb]; try reflexivity. lia. }
    destruct (Z.eqb_spec ((a - B) / K) u); [rewrite orb_true_r; exact V|]. now rewrite orb_false_r.
Qed.
Lemma host_writes B units m a : apart B -> StarModel.launched C units ->
  computeNormalCoordinates units N C P B S m a = if (Z.leb B a && Z.ltb a (B + C * K))%bool then value m (a - B) else m a.
Proof.
  intros A [F L]. rewrite all_writes by assumption.
  destruct (Z.leb_spec B a), (Z.ltb_spec a (B + C * K)); cbn [andb]; try reflexivity.
  replace (existsb (Z.eqb ((a - B) / K)) units) with true; [reflexivity|]. symmetry. apply existsb_exists.
  exists ((a - B) / K)%Z. split; [|apply Z.eqb_refl].
  pose proof (block_range (a - B) ltac:(lia)).
  assert (X : In ((a - B) / K)%Z (filter (fun u => Z.ltb u C) units)).
  { apply (Permutation_in _ (Permutation_sym L)), In_zrange. lia. }
  apply filter_In in X. apply X.
Qed.

(** The normal coordinates. *)
Definition n_ := Z.to_nat N.
Definition element (x : Z -> R) (k : Z) : R :=
  comp (k mod 3) (normal_coordinate n_ S (chain n_ x (Z.to_nat (k / K))) (Z.to_nat ((k mod K) / 3))).
Lemma fold_vsum {A} (f : A -> vec) l a : fold_left (fun r n => vadd r (f n)) l a = plus3 a (vsum (map f l)).
Proof.
  revert a. induction l as [|x l IH]; intros a.
  - destruct a. cbn. unfold plus3. cbn. f_equal; ring.
  - cbn [fold_left map vsum]. rewrite IH. unfold plus3, vadd. cbn. f_equal; ring.
Qed.
Lemma coordinate_eq m V x i c : (0 <= i)%Z -> (0 <= c)%Z ->
  (forall k, (0 <= k < 3 * N)%Z -> m (V + k)%Z = x (3 * N * c + k)%Z) ->
  computeNormalCoordinate m i V N S = normal_coordinate n_ S (chain n_ x (Z.to_nat c)) (Z.to_nat i).
Proof.
  intros Hi Hc H. unfold computeNormalCoordinate, normal_coordinate. rewrite fold_vsum.
  assert (EN : INR n_ = IZR N) by (unfold n_; rewrite INR_IZR_INZ, Z2Nat.id by lia; reflexivity). rewrite EN.
  assert (E : vsum (map (fun n : Z => vscale (cospi (IZR i / IZR N * (IZR (n + 1) + S))) (load m V n)) (zrange N)) =
              vsum (map (fun n => times3 (cos (INR (Z.to_nat i) * PI * (INR n + S) / IZR N)) (chain n_ x (Z.to_nat c) n)) (seq 1 n_))).
  { unfold zrange. fold n_. rewrite map_map. rewrite <- seq_shift, map_map. f_equal. apply map_ext_in. intros k Hk. apply in_seq in Hk.
    unfold cospi, chain, vector_at, load.
    replace (IZR i / IZR N * (IZR (Z.of_nat k + 1) + S) * PI) with (INR (Z.to_nat i) * PI * (INR (Datatypes.S k) + S) / IZR N).
    2:{ rewrite (INR_IZR_INZ (Z.to_nat i)), Z2Nat.id by lia. rewrite S_INR, plus_IZR, <- INR_IZR_INZ. unfold Rdiv. ring. }
    assert (B : (0 <= Z.of_nat k < N)%Z) by (unfold n_ in Hk; lia).
    rewrite <- !Z.add_assoc. rewrite !H by lia.
    replace (Z.of_nat (n_ * Z.to_nat c + Datatypes.S k - 1)) with (N * c + Z.of_nat k)%Z.
    2:{ rewrite Nat2Z.inj_sub by lia. rewrite Nat2Z.inj_add, Nat2Z.inj_mul. unfold n_. rewrite !Z2Nat.id by lia. lia. }
    unfold vscale, times3. cbn [vx vy vz].
    replace (3 * (N * c + Z.of_nat k))%Z with (3 * N * c + 3 * Z.of_nat k)%Z by ring.
    rewrite <- !Z.add_assoc. f_equal; ring. }
  rewrite E. unfold vdivs, times3, plus3. cbn [vx vy vz]. unfold Rdiv. f_equal; ring.
Qed.
Lemma value_element m x k : (0 <= k < C * K)%Z ->
  (forall a, (0 <= a < 3 * C * N)%Z -> m (P + a)%Z = x a) -> value m k = element x k.
Proof.
  intros Hk H. unfold value, element. f_equal. pose proof (block_range k Hk).
  apply coordinate_eq; [apply Z.div_pos; [apply Z.mod_pos_bound|]; lia|lia|].
  intros j Hj. rewrite <- Z.add_assoc. apply H. nia.
Qed.

(** The elements that belong to a mode. *)
Lemma bunch_range' b g n : (0 < b < 2 ^ 32)%Z -> (0 <= g)%Z -> (0 <= n <= 2 ^ 32)%Z ->
  bunch_visited (Datatypes.S (Z.to_nat n)) b g n = Some (filter (fun k => Z.ltb (k mod (b + g)) b) (zrange n)).
Proof.
  intros Hb Hg Hn.
  destruct (bunch_visits b g ltac:(lia) Hg (Z.to_nat n) n 0 ltac:(lia) ltac:(lia) (Datatypes.S (Z.to_nat n)) ltac:(lia)) as (c & Hc & E & M).
  unfold bunch_visited. rewrite E. cbn [option_map]. rewrite Z.add_0_l. f_equal. transitivity (map (bunch_position b g) (zrange c)); [|exact M].
  apply map_ext_in. intros i Hi. apply bunch_advance_eq; try lia.
  - apply In_zrange in Hi. lia.
  - assert (X : In (bunch_position b g i) (filter (in_bunch b g) (zrange n))) by (rewrite <- M; apply in_map, Hi).
    apply filter_In in X. destruct X as [X _]. apply In_zrange in X. unfold bunch_position in X. lia.
Qed.
Definition triple (c : Z) : list Z := [K * c; K * c + 1; K * c + 2]%Z.
Lemma one_bunch c len : (3 <= len <= K)%Z ->
  filter (fun k => Z.ltb (k mod K) 3) (zfrom (K * c) len) = triple c.
Proof.
  intros H. replace len with (3 + (len - 3))%Z by ring. rewrite <- zfrom_app by lia. rewrite filter_app.
  replace (filter _ (zfrom (K * c + 3) (len - 3))) with (@nil Z).
  - rewrite app_nil_r. unfold zfrom. change (zrange 3) with [0; 1; 2]%Z. cbn [map filter].
    replace (K * c + 0)%Z with (0 + c * K)%Z by ring. replace (K * c + 1)%Z with (1 + c * K)%Z by ring. replace (K * c + 2)%Z with (2 + c * K)%Z by ring.
    rewrite !Z.mod_add, !Z.mod_small by lia. cbn [Z.ltb Z.compare Pos.compare Pos.compare_cont]. unfold triple.
    now rewrite (Z.mul_comm c), !(Z.add_comm _ (K * c)), Z.add_0_r.
  - symmetry. apply filter_none. intros k Hk. apply In_zfrom in Hk.
    replace k with ((k - K * c) + c * K)%Z by ring. rewrite Z.mod_add, Z.mod_small by lia. apply Z.ltb_ge. lia.
Qed.
Lemma bunches c : (0 <= c)%Z -> filter (fun k => Z.ltb (k mod K) 3) (zrange (K * c)) = flat_map triple (zrange c).
Proof.
  apply (zrange_ind (fun c => (0 <= c)%Z -> filter (fun k => Z.ltb (k mod K) 3) (zrange (K * c)) = flat_map triple (zrange c))).
  - intros n Hn H0. rewrite !zrange_nil by nia. reflexivity.
  - intros n Hn IH _. rewrite zrange_succ, flat_map_app, <- IH by lia. cbn [flat_map]. rewrite app_nil_r.
    replace (K * (n + 1))%Z with (K * n + K)%Z by ring. rewrite <- (zfrom_0 (K * n + K)), <- zfrom_app, zfrom_0 by nia.
    rewrite filter_app, Z.add_0_l. f_equal. apply one_bunch. lia.
Qed.
Lemma mode_places p : (0 <= p <= N)%Z ->
  filter (fun k => Z.ltb (k mod K) 3) (zrange (C * K - 3 * p)) = flat_map triple (zrange C).
Proof.
  intros Hp. replace (C * K - 3 * p)%Z with (K * (C - 1) + (K - 3 * p))%Z by ring.
  rewrite <- zfrom_0, <- zfrom_app, zfrom_0 by nia. rewrite filter_app, bunches by lia. rewrite Z.add_0_l, one_bunch by lia.
  replace (zrange C) with (zrange (C - 1) ++ [(C - 1)%Z]) by (rewrite <- zrange_succ by lia; f_equal; ring). rewrite flat_map_app. cbn [flat_map]. now rewrite app_nil_r.
Qed.
Lemma inner_sum m f f' l : forall init,
  inner_product m (map (fun k => f + k)%Z l) (map (fun k => f' + k)%Z l) init =
  init + rsum (map (fun k => m (f + k)%Z * m (f' + k)%Z) l).
Proof.
  induction l as [|k l IH]; intros init; [cbn; ring|]. cbn [map inner_product rsum]. rewrite IH. ring.
Qed.
Lemma rsum_flat {A} (f : A -> list R) l : rsum (flat_map f l) = rsum (map (fun a => rsum (f a)) l).
Proof. induction l as [|a l IH]; [reflexivity|]. cbn. now rewrite rsum_app, IH. Qed.
Lemma rsum_ext_in {A} (f g : A -> R) l : (forall a, In a l -> f a = g a) -> rsum (map f l) = rsum (map g l).
Proof. intros H. f_equal. apply map_ext_in, H. Qed.
Definition c_ := Z.to_nat C.
Definition correlation (p : nat) := mode_correlation n_ c_ S p.
Definition holds (m : memory) (B : Z) (x : Z -> R) : Prop := forall k, (0 <= k < C * K)%Z -> m (B + k)%Z = element x k.
Lemma element_triple x p c j : (0 <= p <= N)%Z -> (0 <= c)%Z -> (0 <= j < 3)%Z ->
  element x (3 * p + (K * c + j)) = comp j (normal_coordinate n_ S (chain n_ x (Z.to_nat c)) (Z.to_nat p)).
Proof.
  intros Hp Hc Hj. unfold element.
  assert (E3 : ((3 * p + (K * c + j)) mod 3 = j)%Z).
  { replace (3 * p + (K * c + j))%Z with (j + (p + (N + 1) * c) * 3)%Z by ring. now rewrite Z.mod_add, Z.mod_small by lia. }
  assert (ED : ((3 * p + (K * c + j)) / K = c)%Z).
  { replace (3 * p + (K * c + j))%Z with ((3 * p + j) + c * K)%Z by ring. rewrite Z.div_add, Z.div_small by lia. lia. }
  assert (EM : ((3 * p + (K * c + j)) mod K = 3 * p + j)%Z).
  { replace (3 * p + (K * c + j))%Z with ((3 * p + j) + c * K)%Z by ring. now rewrite Z.mod_add, Z.mod_small by lia. }
  rewrite E3, ED, EM. replace (3 * p + j)%Z with (j + p * 3)%Z by ring. rewrite Z.div_add, Z.div_small by lia. reflexivity.
Qed.
Lemma mode_value m b b' x y p : (0 <= p <= N)%Z -> holds m b x -> holds m b' y ->
  nm_mode m N C b b' p = Some (correlation (Z.to_nat p) x y).
Proof.
  intros Hp Hx Hy. unfold nm_mode, nm_range. rewrite !u32_small by nia.
  replace (b + 3 * C * (N + 1) - (b + 3 * p))%Z with (C * K - 3 * p)%Z by ring.
  replace (b' + 3 * C * (N + 1) - (b' + 3 * p))%Z with (C * K - 3 * p)%Z by ring.
  rewrite bunch_range' by nia. cbn [option_map]. f_equal.
  replace (3 + 3 * N)%Z with K by ring. rewrite mode_places by exact Hp. rewrite inner_sum, Rplus_0_l.
  unfold correlation, mode_correlation. f_equal.
  2:{ unfold c_. rewrite INR_IZR_INZ, Z2Nat.id by lia. reflexivity. }
  rewrite flat_map_concat_map, concat_map, map_map, <- flat_map_concat_map, rsum_flat.
  unfold zrange. fold c_. rewrite map_map. apply rsum_ext_in. intros c Hc. apply in_seq in Hc.
  assert (B : (0 <= Z.of_nat c < C)%Z) by (unfold c_ in Hc; lia).
  unfold triple. cbn [map rsum]. rewrite <- !Z.add_assoc. rewrite !Hx, !Hy by nia.
  pose proof (element_triple x p (Z.of_nat c) 0 Hp ltac:(lia) ltac:(lia)) as Ex. rewrite Z.add_0_r in Ex.
  pose proof (element_triple y p (Z.of_nat c) 0 Hp ltac:(lia) ltac:(lia)) as Ey. rewrite Z.add_0_r in Ey.
  rewrite Ex, Ey, !element_triple by lia. rewrite !Nat2Z.id. unfold dot3, comp. cbn. ring.
Qed.
Lemma all_some_map {A B} (f : A -> option B) g l : (forall a, In a l -> f a = Some (g a)) -> all_some (map f l) = Some (map g l).
Proof.
  induction l as [|a l IH]; intros H; [reflexivity|]. cbn. rewrite H by (left; reflexivity).
  rewrite IH; [reflexivity|]. intros b Hb. apply H. now right.
Qed.
Lemma average_value m b b' x y : holds m b x -> holds m b' y ->
  getAverageNormalCoordinateAutocorrelation m N C b b' = Some (map (fun p => correlation p x y) (seq 0 (n_ + 1))).
Proof.
  intros Hx Hy. unfold getAverageNormalCoordinateAutocorrelation. unfold zrange.
  replace (Z.to_nat (N + 1)) with (n_ + 1)%nat by (unfold n_; lia). rewrite map_map.
  apply all_some_map. intros p Hp. apply in_seq in Hp. rewrite (mode_value m b b' x y) by (auto; unfold n_ in Hp; lia).
  now rewrite Nat2Z.id.
Qed.

(** Whatever the memory holds: the mean of the scalar products of the vectors at the places of a mode. *)
Definition at_ (m : memory) (b : Z) : Z -> R := fun k => m (b + k)%Z.
Definition general (m : memory) (b b' : Z) (p : nat) : R :=
  rsum (map (fun c => dot3 (vector_at (at_ m b) (Z.of_nat (c * (n_ + 1) + p))) (vector_at (at_ m b') (Z.of_nat (c * (n_ + 1) + p)))) (seq 0 c_)) / INR c_.
Lemma mode_general m b b' p : (0 <= p <= N)%Z -> nm_mode m N C b b' p = Some (general m b b' (Z.to_nat p)).
Proof.
  intros Hp. unfold nm_mode, nm_range. rewrite !u32_small by nia.
  replace (b + 3 * C * (N + 1) - (b + 3 * p))%Z with (C * K - 3 * p)%Z by ring.
  replace (b' + 3 * C * (N + 1) - (b' + 3 * p))%Z with (C * K - 3 * p)%Z by ring.
  rewrite bunch_range' by nia. cbn [option_map]. f_equal.
  replace (3 + 3 * N)%Z with K by ring. rewrite mode_places by exact Hp. rewrite inner_sum, Rplus_0_l.
  unfold general. f_equal.
  2:{ unfold c_. rewrite INR_IZR_INZ, Z2Nat.id by lia. reflexivity. }
  rewrite flat_map_concat_map, concat_map, map_map, <- flat_map_concat_map, rsum_flat.
  unfold zrange. fold c_. rewrite map_map. apply rsum_ext_in. intros c Hc. apply in_seq in Hc.
  replace (Z.of_nat (c * (n_ + 1) + Z.to_nat p)) with (Z.of_nat c * (N + 1) + p)%Z.
  2:{ rewrite Nat2Z.inj_add, Nat2Z.inj_mul, Nat2Z.inj_add. unfold n_. rewrite !Z2Nat.id by lia. reflexivity. }
  unfold triple, vector_at, dot3, at_. cbn [map rsum vx vy vz].
  replace (3 * (Z.of_nat c * (N + 1) + p))%Z with (3 * p + K * Z.of_nat c)%Z by ring.
  rewrite <- !Z.add_assoc. rewrite Rplus_0_r, Rplus_assoc. reflexivity.
Qed.
Lemma average_general m b b' :
  getAverageNormalCoordinateAutocorrelation m N C b b' = Some (map (general m b b') (seq 0 (n_ + 1))).
Proof.
  unfold getAverageNormalCoordinateAutocorrelation. unfold zrange.
  replace (Z.to_nat (N + 1)) with (n_ + 1)%nat by (unfold n_; lia). rewrite map_map.
  apply all_some_map. intros p Hp. apply in_seq in Hp. rewrite mode_general by (unfold n_ in Hp; lia).
  now rewrite Nat2Z.id.
Qed.
(** The vectors of a computed array. *)
Lemma holds_vector m b x : holds m b x -> forall c i, (c < c_)%nat -> (i <= n_)%nat ->
  vector_at (at_ m b) (Z.of_nat (c * (n_ + 1) + i)) = normal_coordinate n_ S (chain n_ x c) i.
Proof.
  intros H c i Hc Hi. unfold vector_at, at_. unfold c_, n_ in Hc, Hi.
  assert (B : (0 <= Z.of_nat c < C)%Z) by lia. assert (B' : (0 <= Z.of_nat i <= N)%Z) by lia.
  replace (Z.of_nat (c * (n_ + 1) + i)) with (Z.of_nat c * (N + 1) + Z.of_nat i)%Z.
  2:{ rewrite Nat2Z.inj_add, Nat2Z.inj_mul, Nat2Z.inj_add. unfold n_. rewrite !Z2Nat.id by lia. reflexivity. }
  replace (3 * (Z.of_nat c * (N + 1) + Z.of_nat i))%Z with (3 * Z.of_nat i + (K * Z.of_nat c + 0))%Z by ring.
  rewrite <- !Z.add_assoc. rewrite !Z.add_0_l. rewrite !H by nia.
  pose proof (element_triple x (Z.of_nat i) (Z.of_nat c) 0 B' ltac:(lia) ltac:(lia)) as E0.
  rewrite E0, !element_triple by lia. rewrite !Nat2Z.id. rewrite (vec_eta (normal_coordinate _ _ _ _)). reflexivity.
Qed.
End Nm.
