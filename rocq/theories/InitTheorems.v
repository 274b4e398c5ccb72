(** Theorems on initial positions and velocities (C95). *)
From Coq Require Import String.
From Coq Require Import Reals List ZArith Bool Lia Lra.
From Verif Require Import PyBase VecModel VecSpec PartSpec PartProof CuModel CuProof VecProof InitModel InitSpec InitProof.
Import ListNotations.
Open Scope Z_scope.

(** C95: the velocities are the numbers that were drawn without their mean; the total momentum is zero. *)
Theorem initial_velocities : forall drawn n m, 0 < n -> 3 * n <= 2 ^ 32 -> let v := vectors (initializeVelocitiesOnHost drawn None n m) n in
  v = map (fun w => minus3 w (mean (triples drawn n))) (triples drawn n) /\ vsum v = zero3.
Proof.
  intros drawn n m P H v. unfold v. rewrite velocities_without by assumption. split; [reflexivity|]. apply centred_zero. intros E. apply (f_equal (@length vec)) in E.
  unfold triples in E. rewrite map_length, zrange_length in E. cbn in E. lia.
Qed.
Print Assumptions initial_velocities.
Example initial_velocities_ex : vectors (initializeVelocitiesOnHost IZR None 2 (fun _ => 0%R)) 2 = [Vec (-3 / 2) (-3 / 2) (-3 / 2); Vec (3 / 2) (3 / 2) (3 / 2)]%R.
Proof.
  rewrite (proj1 (initial_velocities IZR 2 _ eq_refl ltac:(discriminate))). change (triples IZR 2) with [triple IZR 0; triple IZR 1].
  unfold mean, triple, vsum, minus3, times3, plus3. cbn. f_equal; [apply vec_ext; lra|]. f_equal. apply vec_ext; lra.
Qed.
Lemma triples_not_empty drawn n : 0 < n -> triples drawn n <> [].
Proof. intros P E. apply (f_equal (@length vec)) in E. unfold triples in E. rewrite map_length, zrange_length in E. cbn in E. lia. Qed.
Lemma centred_squares drawn n : 0 < n -> squares (centred drawn n) = 0%R <-> forall i j, 0 <= i < n -> 0 <= j < n -> triple drawn i = triple drawn j.
Proof.
  intros P. split.
  - intros H. assert (E : forall i, 0 <= i < n -> triple drawn i = mean (triples drawn n)).
    { intros i I. assert (Z : minus3 (triple drawn i) (mean (triples drawn n)) = zero3).
      { apply (squares_zero _ H). unfold centred. apply in_map with (f := fun v => minus3 v (mean (triples drawn n))). unfold triples. apply in_map. now apply In_zrange. }
      destruct (triple drawn i), (mean (triples drawn n)). unfold minus3, zero3 in Z. cbn in Z. apply vec_inj in Z. destruct Z as (? & ? & ?). apply vec_ext; lra. }
    intros i j I J. now rewrite (E i), (E j).
  - intros H. assert (C : forall l c, (forall v, In v l -> v = c) -> l <> [] -> map (fun v => minus3 v (mean l)) l = map (fun _ => zero3) l).
    { intros l c L N. assert (S : vsum l = times3 (INR (length l)) c).
      { clear N. induction l as [|v l IH]; [destruct c; cbn; unfold times3, zero3; cbn; f_equal; ring|]. cbn [vsum length]. rewrite IH by (intros; apply L; now right). rewrite (L v) by now left. rewrite S_INR.
        destruct c. unfold plus3, times3. cbn. f_equal; ring. }
      apply map_ext_in. intros v V. rewrite (L v V). unfold mean. rewrite S. assert (INR (length l) <> 0)%R by (apply not_0_INR; destruct l; [congruence|discriminate]).
      destruct c. unfold minus3, times3, zero3. cbn. f_equal; field; assumption. }
    unfold centred. rewrite (C _ (triple drawn 0)).
    + generalize (triples drawn n). intros l. induction l as [|v l IH]; [reflexivity|]. cbn [map squares]. rewrite IH. unfold dot3, zero3. cbn. ring.
    + intros v V. unfold triples in V. apply in_map_iff in V. destruct V as (i & <- & I). apply In_zrange in I. apply H; lia.
    + now apply triples_not_empty.
Qed.
(** C95: with a temperature, all velocities are multiplied with the same number, so that the temperature is the given one; the total momentum is still zero. *)
Theorem initial_temperature : forall drawn n m kT i j, 0 < n -> 3 * n <= 2 ^ 32 -> (0 <= kT)%R -> 0 <= i < n -> 0 <= j < n -> triple drawn i <> triple drawn j ->
  let v := vectors (initializeVelocitiesOnHost drawn (Some kT) n m) n in
  squares v = (3 * IZR n * kT)%R /\ vsum v = zero3
  /\ exists s, (0 <= s)%R /\ v = map (times3 s) (map (fun w => minus3 w (mean (triples drawn n))) (triples drawn n)).
Proof.
  intros drawn n m kT i j P H K I J D v. unfold v. rewrite velocities_with by assumption. set (s := sqrt _).
  assert (Q : (0 < squares (centred drawn n))%R).
  { destruct (squares_nonneg (centred drawn n)) as [|E]; [assumption|]. exfalso. symmetry in E. rewrite centred_squares in E by assumption. apply D. now apply E. }
  assert (N : (0 < IZR n)%R) by (apply IZR_lt; lia).
  split; [|split].
  - rewrite squares_scale. unfold s. rewrite sqrt_sqrt.
    + field. lra.
    + apply Rmult_le_pos; [assumption|]. left. apply Rinv_0_lt_compat. apply Rmult_lt_0_compat; [assumption|]. apply Rinv_0_lt_compat. lra.
  - rewrite vsum_scale. unfold centred. rewrite centred_zero by now apply triples_not_empty. unfold times3, zero3. cbn. f_equal; ring.
  - exists s. split; [apply sqrt_pos|reflexivity].
Qed.
Print Assumptions initial_temperature.
Example initial_temperature_ex : triple IZR 0 <> triple IZR 1.
Proof. intros E. apply vec_inj in E. destruct E as [E _]. apply eq_IZR in E. lia. Qed.
(** C95: what it is divided by is zero if and only if the same numbers were drawn for all particles, as for a single particle: there, no temperature can be reached. *)
Theorem initial_temperature_divisor : forall drawn n m, 0 < n -> 3 * n <= 2 ^ 32 ->
  (getkTViaKineticEnergy (initializeVelocitiesOnHost drawn None n m) n = 0%R <-> forall i j, 0 <= i < n -> 0 <= j < n -> triple drawn i = triple drawn j).
Proof.
  intros drawn n m P H. rewrite kinetic_kT, velocities_without, <- centred_squares by assumption. assert (0 < IZR n)%R by (apply IZR_lt; lia). split.
  - intros E. apply Rmult_integral in E. destruct E as [E|E]; [assumption|]. exfalso. apply (Rinv_neq_0_compat (3 * IZR n)%R); [lra|assumption].
  - intros ->. field. lra.
Qed.
Print Assumptions initial_temperature_divisor.
Example initial_temperature_divisor_ex : getkTViaKineticEnergy (initializeVelocitiesOnHost IZR None 1 (fun _ => 0%R)) 1 = 0%R.
Proof. apply initial_temperature_divisor; [lia|lia|]. intros i j I J. f_equal. lia. Qed.

(** C95: particles of simple fluids, and of trimers, are placed independently, anywhere in the box. *)
Theorem initial_positions : forall u x y z count n m, unit_interval u -> 0 < x /\ 0 < y /\ 0 < z -> 0 <= count -> 3 * count <= 2 ^ 32 ->
  forall fuel, (Z.to_nat count < fuel)%nat -> exists m', initialize_each u x y z fuel count 0 n m = Some (m', n + 3 * Z.to_nat count)%nat
  /\ forall i, 0 <= i < count -> vector_at m' i = point u (x, y, z) (n + 3 * Z.to_nat i) /\ in_box (x, y, z) (vector_at m' i).
Proof.
  intros u x y z count n m U B C L fuel F. destruct (each_ends u x y z (Z.to_nat count) fuel count 0 n m) as [[m' n'] E]; try lia.
  exists m'. pose proof (each_placed u x y z fuel count 0 n m m' n' ltac:(lia) L E) as (N & A & _). rewrite E. subst n'. split; [do 2 f_equal; lia|].
  intros i I. rewrite A by lia. rewrite Z.sub_0_r. split; [reflexivity|]. now apply point_in_box.
Qed.
Print Assumptions initial_positions.
Definition halves (n : nat) : R := (1 / 2)%R.
Lemma halves_unit : unit_interval halves.
Proof. intros n. unfold halves. lra. Qed.
Example initial_positions_ex : exists m', initialize_each halves 10 20 30 3 2 0 0 (fun _ => 0%R) = Some (m', 6%nat) /\ vector_at m' 1 = Vec 5 10 15.
Proof.
  destruct (initial_positions halves 10 20 30 2 0 (fun _ => 0%R) halves_unit ltac:(lia) ltac:(lia) ltac:(lia) 3 ltac:(cbn; lia)) as (m' & E & A).
  exists m'. split; [exact E|]. rewrite (proj1 (A 1 ltac:(lia))). cbn. unfold halves. f_equal; lra.
Qed.

Lemma rod_partner_is u len p n : rod_partner u len p n = (plus3 p (times3 len (towards u n)), 2%nat).
Proof. unfold rod_partner. rewrite random_unit_towards. f_equal. destruct p, (towards u n). unfold vadd, vscale, plus3, times3. cbn. f_equal; ring. Qed.
Lemma towards_length u len k : unit_interval u -> (0 <= len)%R -> sqrt (dot3 (times3 len (towards u k)) (times3 len (towards u k))) = len.
Proof. intros U L. rewrite times_square, towards_unit by assumption. rewrite Rmult_1_r. now apply sqrt_square. Qed.
Lemma far_outside x y z p d : in_box (x, y, z) p -> in_box (x, y, z) (plus3 p d) -> (dot3 d d < IZR x * IZR x + IZR y * IZR y + IZR z * IZR z)%R.
Proof.
  destruct p as [a b c], d as [d e f]. cbn. intros (A & B & C) (D & E & F). unfold dot3. cbn.
  assert (G : forall s t b, (0 <= s < b -> 0 <= s + t < b -> t * t < b * b)%R) by (intros s t b0 S T; nra).
  pose proof (G _ _ _ A D). pose proof (G _ _ _ B E). pose proof (G _ _ _ C F). lra.
Qed.
(** C95: rods: each has its particles in the box, at the distance that is given; they are the pairs of the successful attempts in order. *)
Theorem initial_rods : forall u x y z len fuel rods n m m' n', unit_interval u -> 0 < x /\ 0 < y /\ 0 < z -> (0 <= len)%R -> 0 <= rods -> 3 * (2 * rods) <= 2 ^ 32 ->
  initialize_rods u x y z len fuel (2 * rods) n m = Some (m', n') ->
  pairs_placed u (x, y, z) (fun k => times3 len (towards u k)) n 5 m' n' rods /\ pairs_good (x, y, z) len m' rods.
Proof.
  intros u x y z len fuel rods n m m' n' U B L R C E. unfold initialize_rods in E. change 0 with (2 * 0) in E at 1.
  apply (pairs_loop u x y z _ (fun k => times3 len (towards u k)) 2 (rod_partner_is u len)) in E; [|lia|lia].
  assert (P : pairs_placed u (x, y, z) (fun k => times3 len (towards u k)) n 5 m' n' rods).
  { destruct E as (N & -> & Ln & A & _). exists N. split; [reflexivity|]. split; [etransitivity; [exact Ln|f_equal; lia]|]. intros i k K. apply A in K. rewrite Z.add_0_l in K. exact K. }
  split; [exact P|]. apply (placed_good u x y z (fun k => times3 len (towards u k)) 2 n m' n'); try assumption. intros k. now apply towards_length.
Qed.
Print Assumptions initial_rods.
(** C95: they are placed as soon as there are enough successful attempts. *)
Theorem initial_rods_end : forall u x y z len rods n m N fuel, 0 <= rods -> 3 * (2 * rods) <= 2 ^ 32 ->
  (Z.to_nat rods <= length (successes u (x, y, z) (fun k => times3 len (towards u k)) n 5 N))%nat -> (N < fuel)%nat -> exists r, initialize_rods u x y z len fuel (2 * rods) n m = Some r.
Proof.
  intros u x y z len rods n m N fuel R C L F. unfold initialize_rods. change 0 with (2 * 0) at 1.
  apply (pairs_end u x y z _ (fun k => times3 len (towards u k)) 2 (rod_partner_is u len) N); try lia. rewrite Z.sub_0_r. exact L.
Qed.
Print Assumptions initial_rods_end.
(** C95: rods that do not fit into the box are accepted, and the program does not end. *)
Theorem initial_rods_endless_refuted : forall u x y z len fuel rods n m, unit_interval u -> 0 < x /\ 0 < y /\ 0 < z -> 0 < rods -> 3 * (2 * rods) <= 2 ^ 32 ->
  (IZR x * IZR x + IZR y * IZR y + IZR z * IZR z <= len * len)%R -> initialize_rods u x y z len fuel (2 * rods) n m = None.
Proof.
  intros u x y z len fuel rods n m U B R C L. apply (pairs_endless u x y z _ (fun k => times3 len (towards u k)) 2 (rod_partner_is u len)); try lia.
  intros k I. apply far_outside in I; [|now apply point_in_box]. rewrite times_square, towards_unit in I by assumption. lra.
Qed.
Print Assumptions initial_rods_endless_refuted.
Lemma halves_towards n : towards halves n = Vec (-1) 0 0.
Proof.
  unfold towards, direction, halves. replace (2 * (1 / 2) - 1)%R with 0%R by lra. replace (2 * PI * (1 / 2))%R with PI by lra. rewrite cos_PI, sin_PI.
  replace (1 - 0 * 0)%R with 1%R by ring. rewrite sqrt_1. f_equal; ring.
Qed.
Example initial_rods_ex : exists m', initialize_rods halves 10 10 10 2 3 4 0 (fun _ => 0%R) = Some (m', 10%nat) /\ vector_at m' 2 = Vec 5 5 5 /\ vector_at m' 3 = Vec 3 5 5.
Proof.
  assert (A : forall k, in_boxb (10, 10, 10) (plus3 (point halves (10, 10, 10) k) (times3 2 (towards halves (k + 3)%nat))) = true).
  { intros k. apply in_box_iff. rewrite halves_towards. cbn. unfold halves. lra. }
  assert (S : successes halves (10, 10, 10) (fun k => times3 2 (towards halves k)) 0 5 2 = [0; 5]%nat) by (unfold successes; cbn [attempts map seq filter]; unfold attempts; cbn [map seq filter]; rewrite !A; reflexivity).
  destruct (initial_rods_end halves 10 10 10 2 2 0 (fun _ => 0%R) 2 3) as [[m' n'] E]; [lia|lia|rewrite S; cbn; lia|lia|]. exists m'.
  change (2 * 2) with 4 in E. pose proof E as E'. apply (initial_rods _ _ _ _ _ _ 2) in E'; [|exact halves_unit|lia|lra|lia|lia].
  destruct E' as [(N & -> & L & P) _].
  assert (N2 : (N = 2)%nat).
  { assert (LN : length (successes halves (10, 10, 10) (fun k => times3 2 (towards halves k)) 0 5 N) = N).
    { unfold successes. rewrite (filter_all _ (attempts 0 5 N)) by (intros k _; apply A). unfold attempts. now rewrite map_length, seq_length. }
    rewrite LN in L. exact L. }
  subst N. split; [exact E|]. rewrite S in P. destruct (P 1%nat 5%nat eq_refl) as [P1 P2]. cbn in P1, P2. rewrite P1, P2. rewrite halves_towards. unfold plus3, times3, point, halves. cbn. split; f_equal; lra.
Qed.

(** Dumbbells. *)
Lemma root_below_one a : (0 <= a < 1 -> 0 <= sqrt a < 1)%R.
Proof. intros [A B]. split; [apply sqrt_pos|]. apply sqrt_lt_1 in B; [|lra|lra]. now rewrite sqrt_1 in B. Qed.
Lemma ratio_holds cubic Wi : (Wi <> 0%R -> multiplier_ratio Wi (cubic (-1) 0 (- Wi * Wi / 6))%R) -> let mu := lagrangianMultiplierRatio cubic Wi in (0 < mu)%R /\ multiplier_ratio Wi mu.
Proof.
  intros H. unfold lagrangianMultiplierRatio. destruct (Req_EM_T Wi 0) as [->|N]; [unfold multiplier_ratio; split; lra|]. specialize (H N). split; [|exact H].
  apply Rlt_trans with 1%R; [lra|]. eapply ratio_above_one; eassumption.
Qed.
Lemma relative_length u cubic mode len Wi k : unit_interval u -> (0 <= len)%R -> (Wi <> 0%R -> multiplier_ratio Wi (cubic (-1) 0 (- Wi * Wi / 6))%R) ->
  let d := relative u mode len Wi (lagrangianMultiplierRatio cubic Wi) k in sqrt (dot3 d d) = len.
Proof. intros U L H. unfold relative. destruct (String.eqb mode "relaxed"); [now apply towards_length|now apply (perfect_length cubic)]. Qed.
Lemma relaxed_partner_is u len p n : (vadd p (vscale len (random_unit u n)), 2%nat) = (plus3 p (times3 len (towards u n)), 2%nat).
Proof. exact (rod_partner_is u len p n). Qed.
Lemma placed_of_loop u x y z partner shift used fuel pairs n m m' n' : (forall p n, partner p n = (plus3 p (shift n), used)) -> 0 <= pairs -> 3 * (2 * pairs) <= 2 ^ 32 ->
  initialize_pairs u x y z partner fuel (2 * pairs) 0 n m = Some (m', n') -> pairs_placed u (x, y, z) shift n (3 + used) m' n' pairs.
Proof.
  intros PI_ P C E. change 0 with (2 * 0) in E at 1. apply (pairs_loop u x y z _ shift used PI_) in E; [|lia|lia].
  destruct E as (N & -> & Ln & A & _). exists N. split; [reflexivity|]. split; [etransitivity; [exact Ln|f_equal; lia]|]. intros i k K. apply A in K. rewrite Z.add_0_l in K. exact K.
Qed.
Lemma dumbbell_partner_is u cubic mode len Wi s : mode = "relaxed"%string \/ mode = "perfect"%string -> positioning s = Some mode -> (mode = "perfect"%string -> displacement s = Some (perfect_displacement cubic len Wi)) ->
  exists partner used, dumbbell_partner u len s = Some partner /\ (3 + used)%nat = mode_width mode /\ forall p n, partner p n = (plus3 p (relative u mode len Wi (lagrangianMultiplierRatio cubic Wi) n), used).
Proof.
  intros M P D. unfold dumbbell_partner. rewrite P. destruct M as [->| ->]; cbn [String.eqb Ascii.eqb Bool.eqb].
  - eexists. exists 2%nat. split; [reflexivity|]. split; [reflexivity|]. intros p n. apply relaxed_partner_is.
  - rewrite D by reflexivity. eexists. exists 0%nat. split; [reflexivity|]. split; [reflexivity|]. intros p n. reflexivity.
Qed.
Lemma initialise_fresh cubic mode len Wi : mode = "relaxed"%string \/ mode = "perfect"%string -> let s := initialise_statics cubic mode len Wi fresh in
  positioning s = Some mode /\ (mode = "perfect"%string -> displacement s = Some (perfect_displacement cubic len Wi)).
Proof. intros [->| ->]; (split; [reflexivity|]); [discriminate|reflexivity]. Qed.
(** C95: dumbbells, for the first fluid in the process: the same, with either way to choose the relative positions, whose length is the root mean square length. *)
Theorem initial_dumbbells : forall u x y z cubic mode len rate tau fuel pairs n m m' n' s', unit_interval u -> 0 < x /\ 0 < y /\ 0 < z -> (0 <= len)%R -> 0 <= pairs -> 3 * (2 * pairs) <= 2 ^ 32 ->
  mode = "relaxed"%string \/ mode = "perfect"%string ->
  (let Wi := (rate * tau)%R in Wi <> 0%R -> multiplier_ratio Wi (cubic (-1) 0 (- Wi * Wi / 6))%R) ->
  initialize_dumbbells u x y z cubic mode len rate tau fresh fuel (2 * pairs) n m = (Placed m' n', s') ->
  (exists mu, (0 < mu)%R /\ multiplier_ratio (rate * tau) mu /\ pairs_placed u (x, y, z) (relative u mode len (rate * tau) mu) n (mode_width mode) m' n' pairs) /\ pairs_good (x, y, z) len m' pairs.
Proof.
  intros u x y z cubic mode len rate tau fuel pairs n m m' n' s' U B L P C M W E.
  assert (PP : pairs_placed u (x, y, z) (relative u mode len (rate * tau) (lagrangianMultiplierRatio cubic (rate * tau))) n (mode_width mode) m' n' pairs).
  { unfold initialize_dumbbells, weissenbergNumber in E. destruct (Z.ltb_spec 0 (2 * pairs)) as [Q|Q].
    - destruct (initialise_fresh cubic mode len (rate * tau) M) as [I1 I2].
      destruct (dumbbell_partner_is u cubic mode len (rate * tau) _ M I1 I2) as (partner & used & DP & Wd & PI_). rewrite DP in E.
      destruct (initialize_pairs u x y z partner fuel (2 * pairs) 0 n m) as [[m1 n1]|] eqn:Lp; [|discriminate]. injection E as <- <- _. rewrite <- Wd. exact (placed_of_loop _ _ _ _ _ _ _ _ _ _ _ _ _ PI_ P C Lp).
    - injection E as <- <- _. assert (pairs = 0) by lia. subst pairs. exists 0%nat. split; [lia|]. split; [reflexivity|]. intros [|i] k K; discriminate. }
  split; [exists (lagrangianMultiplierRatio cubic (rate * tau)); destruct (ratio_holds _ _ W); auto|].
  assert (Wd : exists used, (3 + used)%nat = mode_width mode) by (destruct M as [->| ->]; [exists 2%nat|exists 0%nat]; reflexivity). destruct Wd as [used Wd]. rewrite <- Wd in PP.
  refine (placed_good _ _ _ _ _ _ _ _ _ _ _ U B _ PP). intros k. now apply relative_length.
Qed.
Print Assumptions initial_dumbbells.
Example initial_dumbbells_ex : exists m' n' s', let Wi := sqrt 24 in multiplier_ratio Wi 2
  /\ initialize_dumbbells halves 10 10 10 (fun _ _ _ => 2%R) "perfect" 1 Wi 1 fresh 2 (2 * 1) 0 (fun _ => 0%R) = (Placed m' n', s') /\ vy (vector_at m' 1) = (5 + sqrt (1 / 6))%R.
Proof.
  set (d := perfect_displacement (fun _ _ _ => 2%R) 1 (sqrt 24 * 1)).
  assert (G : (0 < sqrt 24)%R) by (apply sqrt_lt_R0; lra).
  assert (D : d = Vec (sqrt (1 / 6 * 4)) (sqrt (1 / 6)) (sqrt (1 / 6))).
  { unfold d, perfect_displacement, lagrangianMultiplierRatio. destruct (Req_EM_T (sqrt 24 * 1) 0) as [N|N]; [exfalso; clear - N G; rewrite Rmult_1_r in N; lra|].
    replace (sqrt 24 * 1 * (sqrt 24 * 1))%R with 24%R by (rewrite Rmult_1_r, sqrt_sqrt; lra). apply vec_ext; f_equal; field. }
  assert (S1 : (0 <= sqrt (1 / 6 * 4) < 1)%R) by (apply root_below_one; lra).
  assert (S2 : (0 <= sqrt (1 / 6) < 1)%R) by (apply root_below_one; lra).
  assert (B : in_boxb (10, 10, 10) (plus3 (point halves (10, 10, 10) 0) d) = true) by (apply in_box_iff; rewrite D; cbn; unfold halves; lra).
  destruct (pairs_end halves 10 10 10 (fun p _ => (vadd p d, 0%nat)) (fun _ => d) 0 (fun _ _ => eq_refl) 1 2 1 0 0 (fun _ => 0%R)) as [[m' n'] E]; try lia.
  { unfold successes, attempts. cbn [map seq filter]. change (0 + (3 + 0) * 0)%nat with 0%nat. rewrite B. cbn. lia. }
  change (2 * 0) with 0 in E.
  exists m', n', (Statics (Some "perfect"%string) (Some d)). split; [unfold multiplier_ratio; rewrite sqrt_sqrt; lra|]. split.
  - unfold initialize_dumbbells, weissenbergNumber. change (0 <? 2 * 1) with true. cbv iota.
    cbn [snd initialise_statics dumbbell_partner positioning displacement fresh String.eqb Ascii.eqb Bool.eqb negb andb]. fold d. rewrite E. reflexivity.
  - apply placed_of_loop with (shift := fun _ => d) (used := 0%nat) in E; [|reflexivity|lia|lia]. destruct E as (N & _ & L & A).
    destruct N as [|N]; [discriminate|]. destruct (A 0%nat 0%nat) as [_ A2].
    + unfold successes, attempts. cbn [map seq filter]. change (0 + (3 + 0) * 0)%nat with 0%nat. rewrite B. reflexivity.
    + cbn in A2. rewrite A2. rewrite D. cbn. unfold halves. lra.
Qed.
(** C95: the ratio of multipliers is unique, and at least 1. *)
Theorem multiplier_ratio_unique : forall Wi a b, Wi <> 0%R -> multiplier_ratio Wi a -> multiplier_ratio Wi b -> a = b /\ (1 < a)%R.
Proof. intros Wi a b W A B. split; [eapply ratio_unique; eassumption|eapply ratio_above_one; eassumption]. Qed.
Print Assumptions multiplier_ratio_unique.
Example multiplier_ratio_ex : multiplier_ratio (sqrt 24) 2.
Proof. unfold multiplier_ratio. rewrite sqrt_sqrt by lra. lra. Qed.
(** C95: any other way to choose relative positions is rejected. *)
Theorem initial_dumbbells_rejected : forall u x y z cubic mode len rate tau fuel count n m, 0 < count -> mode <> "relaxed"%string -> mode <> "perfect"%string ->
  fst (initialize_dumbbells u x y z cubic mode len rate tau fresh fuel count n m) = Throws.
Proof.
  intros u x y z cubic mode len rate tau fuel count n m C N1 N2. unfold initialize_dumbbells. destruct (Z.ltb_spec 0 count); [|lia].
  unfold initialise_statics, dumbbell_partner. cbn [positioning displacement fresh]. apply String.eqb_neq in N1, N2. rewrite N1, N2. reflexivity.
Qed.
Print Assumptions initial_dumbbells_rejected.
Example initial_dumbbells_rejected_ex : "random"%string <> "relaxed"%string /\ "random"%string <> "perfect"%string.
Proof. split; discriminate. Qed.
(** C95: if a second fluid of dumbbells is made in the same process, the settings of the first one are used: if that one was "perfect", the second one has its bond length. *)
Theorem initial_dumbbells_second_refuted : forall u x y z cubic len rate tau fuel pairs n m s1 u2 mode2 len2 rate2 tau2 fuel2 pairs2 n2 m2 m' n' s',
  unit_interval u2 -> 0 < x /\ 0 < y /\ 0 < z -> (0 <= len)%R -> 0 < pairs -> 0 < pairs2 -> 3 * (2 * pairs2) <= 2 ^ 32 ->
  (let Wi := (rate * tau)%R in Wi <> 0%R -> multiplier_ratio Wi (cubic (-1) 0 (- Wi * Wi / 6))%R) ->
  snd (initialize_dumbbells u x y z cubic "perfect" len rate tau fresh fuel (2 * pairs) n m) = s1 ->
  initialize_dumbbells u2 x y z cubic mode2 len2 rate2 tau2 s1 fuel2 (2 * pairs2) n2 m2 = (Placed m' n', s') ->
  pairs_good (x, y, z) len m' pairs2.
Proof.
  intros u x y z cubic len rate tau fuel pairs n m s1 u2 mode2 len2 rate2 tau2 fuel2 pairs2 n2 m2 m' n' s' U B L P P2 C W <- E.
  unfold initialize_dumbbells, weissenbergNumber in E. destruct (Z.ltb_spec 0 (2 * pairs)); [|lia]. destruct (Z.ltb_spec 0 (2 * pairs2)); [|lia].
  cbn [snd initialise_statics dumbbell_partner positioning displacement fresh String.eqb Ascii.eqb Bool.eqb negb andb] in E.
  destruct (initialize_pairs u2 x y z _ fuel2 (2 * pairs2) 0 n2 m2) as [[m1 n1]|] eqn:Lp; [|discriminate]. injection E as <- <- _.
  apply placed_of_loop with (shift := fun _ => perfect_displacement cubic len (rate * tau)) (used := 0%nat) in Lp; [|reflexivity|lia|lia].
  apply (placed_good u2 x y z _ 0 n2 m1 n1) with (length_ := len) in Lp; try assumption. intros _. now apply perfect_length.
Qed.
Print Assumptions initial_dumbbells_second_refuted.
Example initial_dumbbells_second_ex : exists m' n' s', let s1 := snd (initialize_dumbbells halves 10 10 10 (fun _ _ _ => 2%R) "perfect" 1 0 1 fresh 2 (2 * 1) 0 (fun _ => 0%R)) in
  initialize_dumbbells halves 10 10 10 (fun _ _ _ => 2%R) "relaxed" 3 0 1 s1 2 (2 * 1) 0 (fun _ => 0%R) = (Placed m' n', s') /\ distance (vector_at m' 1) (vector_at m' 0) = 1%R.
Proof.
  set (d := perfect_displacement (fun _ _ _ => 2%R) 1 (0 * 1)).
  assert (D : d = Vec (sqrt (1 / 3)) (sqrt (1 / 3)) (sqrt (1 / 3))).
  { unfold d, perfect_displacement, lagrangianMultiplierRatio. destruct (Req_EM_T (0 * 1) 0) as [|N]; [|exfalso; apply N; ring]. apply vec_ext; f_equal; field. }
  assert (S : (0 <= sqrt (1 / 3) < 1)%R) by (apply root_below_one; lra).
  destruct (pairs_end halves 10 10 10 (fun p _ => (vadd p d, 0%nat)) (fun _ => d) 0 (fun _ _ => eq_refl) 1 2 1 0 0 (fun _ => 0%R)) as [[m' n'] E]; try lia.
  { unfold successes, attempts. cbn [map seq filter]. rewrite (proj2 (in_box_iff _ _)); [cbn; lia|]. rewrite D. cbn. unfold halves. lra. }
  exists m', n', (Statics (Some "perfect"%string) (Some d)). split.
  - unfold initialize_dumbbells, weissenbergNumber. change (0 <? 2 * 1) with true. cbv iota.
    cbn [snd initialise_statics dumbbell_partner positioning displacement fresh String.eqb Ascii.eqb Bool.eqb negb andb]. fold d. change (2 * 0) with 0 in E. rewrite E. reflexivity.
  - change (2 * 0) with 0 in E. apply placed_of_loop with (shift := fun _ => d) (used := 0%nat) in E; [|reflexivity|lia|lia].
    apply (placed_good halves 10 10 10 _ 0 0 m' n' 1 1%R halves_unit) in E; [exact (proj2 (proj2 (E 0 ltac:(lia))))|lia|].
    intros _. unfold d. apply perfect_length; [lra|]. intros N. exfalso. apply N. ring.
Qed.

(** C95: chains: all particles are in the box, and those after the first one are at distance 1 from the first one. *)
Theorem initial_chains : forall u x y z l fuel chains n m m' n', unit_interval u -> 0 < x /\ 0 < y /\ 0 < z -> 0 < l -> 0 <= chains -> 3 * (l * chains) <= 2 ^ 32 ->
  initialize_chains u x y z l fuel (l * chains) 0 None n m = Some (m', n') ->
  forall c i, 0 <= c < chains -> 0 <= i < l -> in_box (x, y, z) (vector_at m' (l * c + i)) /\ (0 < i -> distance (vector_at m' (l * c + i)) (vector_at m' (l * c)) = 1%R).
Proof.
  intros u x y z l fuel chains n m m' n' U B L P C E c i Hc Hi. replace 0 with (l * 0) in E at 1 by lia.
  assert (G : good x y z l m' (l * c + i)).
  { refine (chains_loop u x y z l U B L fuel chains 0 None n m m' n' ltac:(lia) C Logic.I _ E (l * c + i) _); [intros k K; lia|nia]. }
  destruct G as [G1 G2]. split; [exact G1|]. intros I.
  assert (D : (l * c + i) / l = c) by (rewrite Z.mul_comm, Z.div_add_l by lia; rewrite Z.div_small; lia). rewrite D in G2. apply G2.
  rewrite Z.mul_comm, Z.add_comm, Z.mod_add by lia. rewrite Z.mod_small; lia.
Qed.
Print Assumptions initial_chains.
(** C95: neighbours in a chain need not be at distance 1: here, the second and the third particle are at distance 2. *)
Definition zigzag (n : nat) : R := if Nat.eqb n 4 then 0%R else (1 / 2)%R.
Lemma zigzag_unit : unit_interval zigzag.
Proof. intros n. unfold zigzag. destruct (Nat.eqb n 4); lra. Qed.
Theorem initial_chains_refuted : exists m' n', initialize_chains zigzag 10 10 10 3 6 3 0 None 0 (fun _ => 0%R) = Some (m', n')
  /\ vector_at m' 0 = Vec 5 5 5 /\ vector_at m' 1 = Vec 6 5 5 /\ vector_at m' 2 = Vec 4 5 5 /\ distance (vector_at m' 1) (vector_at m' 2) = 2%R.
Proof.
  assert (T3 : towards zigzag 3 = Vec 1 0 0).
  { unfold towards, direction, zigzag. cbn [Nat.eqb Nat.add]. replace (2 * (1 / 2) - 1)%R with 0%R by lra. replace (2 * PI * 0)%R with 0%R by ring. rewrite cos_0, sin_0. replace (1 - 0 * 0)%R with 1%R by ring. rewrite sqrt_1. f_equal; ring. }
  assert (T5 : towards zigzag 5 = Vec (-1) 0 0).
  { unfold towards, direction, zigzag. cbn [Nat.eqb Nat.add]. replace (2 * (1 / 2) - 1)%R with 0%R by lra. replace (2 * PI * (1 / 2))%R with PI by lra. rewrite cos_PI, sin_PI.
    replace (1 - 0 * 0)%R with 1%R by ring. rewrite sqrt_1. f_equal; ring. }
  assert (P0 : point zigzag (10, 10, 10) 0 = Vec 5 5 5) by (cbn; unfold zigzag; cbn [Nat.eqb Nat.add]; f_equal; lra).
  cbn [initialize_chains]. change (0 <? 3) with true. change (1 <? 3) with true. cbv iota. rewrite outside_iff, random_unit_towards. change (0 + 3)%nat with 3%nat. rewrite T3, store_at, Z.eqb_refl, random_position_point, P0 by lia.
  rewrite (proj2 (in_box_iff _ _)) by (cbn; lra). cbn [negb]. change (u32 (1 + 1)) with 2. change (u32 (0 + 1)) with 1. change (2 <? 3) with true. cbv iota.
  rewrite outside_iff, random_unit_towards. change (3 + 2)%nat with 5%nat. rewrite T5, !store_at by lia. change (0 =? 1) with false. change (0 =? 0) with true. cbv iota.
  rewrite (proj2 (in_box_iff _ _)) by (cbn; lra). cbn [negb]. change (u32 (2 + 1)) with 3. change (3 <? 3) with false. cbv iota. change (u32 (0 + 3)) with 3. change (3 <? 3) with false. cbv iota.
  change (u32 (0 + 2)) with 2.
  eexists. eexists. split; [reflexivity|]. rewrite !store_at by lia.
  repeat match goal with |- context [?a =? ?b] => let e := eval compute in (a =? b) in change (a =? b) with e end. cbv iota.
  unfold vadd. cbn [vx vy vz]. split; [reflexivity|]. split; [f_equal; lra|]. split; [f_equal; lra|].
  unfold distance, dot3, minus3. cbn [vx vy vz]. replace (_ + _ + _)%R with (2 * 2)%R by ring. apply sqrt_square. lra.
Qed.
Print Assumptions initial_chains_refuted.
