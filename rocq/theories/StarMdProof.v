(** Proofs about the dynamics of star polymers. *)
From Coq Require Import List ZArith Bool Reals Lia Lra Permutation FunctionalExtensionality.
From Verif Require Import PyBase VecBase VecModel VecSpec PartSpec PartProof PotModel PotSpec PotProof CuModel CuSpec CuProof MdModel MdSpec MdProof SimModel ConcModel ConcSpec ConcProof StarModel StarSpec StarProof.
Import ListNotations.
Open Scope R_scope.

(** * Tables of potentials *)
Lemma wca_table p t u : strengths_nonneg p -> WCAPotentials (createInteractions p) (getParticleTypeCombinationIndex t u) = Some (mixed_wca p t u).
Proof.
  intros H. pose proof (H TCore) as HC. pose proof (H TArm) as HA. pose proof (H TMagnetic) as HM. unfold mixed_wca.
  destruct t, u; cbv [createInteractions WCAPotentials put getParticleTypeCombinationIndex ptype_code Z.min Z.max Z.compare Z.shiftl Pos.shiftl Pos.iter Z.mul Pos.mul Z.add Pos.add Pos.succ Z.eqb Pos.eqb Z.sub Z.opp Z.pos_sub Pos.pred_double Pos.compare Pos.compare_cont Z.double Z.succ_double Z.pred_double];
  (apply f_equal; f_equal; first [ now rewrite sqrt_square | now f_equal; ring | field | f_equal; field ]).
Qed.
Definition has_fene (t u : ptype) : bool :=
  match t, u with TCore, TArm | TArm, TCore | TArm, TArm | TArm, TMagnetic | TMagnetic, TArm => true | _, _ => false end.
Lemma fene_table p t u : strengths_nonneg p -> FENEPotentials (createInteractions p) (getParticleTypeCombinationIndex t u) =
  if has_fene t u then Some (mixed_fene p t u) else None.
Proof.
  intros H. pose proof (H TCore) as HC. pose proof (H TArm) as HA. pose proof (H TMagnetic) as HM. unfold mixed_fene.
  destruct t, u; cbv [has_fene createInteractions FENEPotentials put getParticleTypeCombinationIndex ptype_code Z.min Z.max Z.compare Z.shiftl Pos.shiftl Pos.iter Z.mul Pos.mul Z.add Pos.add Pos.succ Z.eqb Pos.eqb Z.sub Z.opp Z.pos_sub Pos.pred_double Pos.compare Pos.compare_cont Z.double Z.succ_double Z.pred_double];
  try reflexivity; apply f_equal;
  match goal with |- FENE ?a _ ?c = FENE ?a' _ ?c' => idtac end.
  all: try (replace ((sigma p TCore + sigma p TArm) / 2) with (1 / 2 * (sigma p TCore + sigma p TArm)) by field).
  all: try (replace ((sigma p TArm + sigma p TCore) / 2) with (1 / 2 * (sigma p TCore + sigma p TArm)) by field).
  all: try (replace ((sigma p TArm + sigma p TMagnetic) / 2) with (1 / 2 * (sigma p TArm + sigma p TMagnetic)) by field).
  all: try (replace ((sigma p TMagnetic + sigma p TArm) / 2) with (1 / 2 * (sigma p TArm + sigma p TMagnetic)) by field).
  all: try (replace ((sigma p TArm + sigma p TArm) / 2) with (sigma p TArm) by field).
  all: try rewrite (Rmult_comm (epsilon p TArm) (epsilon p TCore)).
  all: try rewrite (Rmult_comm (epsilon p TMagnetic) (epsilon p TArm)).
  all: try (rewrite (sqrt_square (epsilon p TArm)) by assumption).
  all: f_equal; field.
Qed.
(** * Places of particles *)
Lemma zrange_nth n i : (0 <= i < n)%Z -> nth (Z.to_nat i) (zrange n) 0%Z = i.
Proof.
  intros H. unfold zrange. change 0%Z with (Z.of_nat 0) at 1. rewrite map_nth, seq_nth by lia. lia.
Qed.
Lemma place_at_ok s i : well_formed s -> particle s i -> valid s (place_at s i) /\ number s (place_at s i) = i.
Proof.
  intros H Hi. pose proof (all_numbers s H) as A.
  assert (L : length (places s) = Z.to_nat (getParticleCount s)) by (rewrite <- zrange_length, <- A, map_length; reflexivity).
  unfold particle in Hi. unfold place_at. split.
  - apply places_valid. apply nth_In. lia.
  - rewrite <- (map_nth (number s)). rewrite A. rewrite (nth_indep _ _ 0%Z) by (rewrite zrange_length; lia). now apply zrange_nth.
Qed.
Lemma place_at_number s pl : well_formed s -> valid s pl -> place_at s (number s pl) = pl.
Proof.
  intros H V. destruct (place_at_ok s (number s pl) H (proj1 (place_number s pl H V))) as [V' E]. now apply (number_inj s).
Qed.
Lemma vhat_times v : vhat v = times3 (/ length3 v) v.
Proof. unfold vhat. change (length3 v) with (vmag v). destruct v. unfold vdivs, times3, Rdiv. cbn. f_equal; ring. Qed.
Lemma dipoles_eq p : magneticPotential (createInteractions p) = dipoles p.
Proof. unfold createInteractions, dipoles, orientation_of. cbn [magneticPotential]. now rewrite vhat_times. Qed.
Definition pair_force (s : structure) (p : parameters) (i j : Z) (ri rj : vec) : vec := force (pair_potential s p i j) (minus3 ri rj).
Lemma computeForce_some s p i j ri rj : well_formed s -> strengths_nonneg p -> particle s i -> particle s j -> i <> j ->
  computeForce s (createInteractions p) i j ri rj =
  if (match inner_dec s (place_at s i) (place_at s j) with left _ => true | right _ => false end ||
      match inner_dec s (place_at s j) (place_at s i) with left _ => true | right _ => false end) &&
     negb (has_fene (type_of (place_at s i)) (type_of (place_at s j))) then None
  else Some (pair_force s p i j ri rj).
Proof.
  intros H Hp Hi Hj N. destruct (place_at_ok s i H Hi) as [Vi Ei]. destruct (place_at_ok s j H Hj) as [Vj Ej].
  unfold pair_force, pair_potential. set (a := place_at s i) in *. set (b := place_at s j) in *.
  assert (Nab : a <> b) by congruence.
  unfold computeForce. rewrite <- Ei, <- Ej, !place_type by assumption. cbv zeta. rewrite wca_table by exact Hp. rewrite fene_table by exact Hp.
  rewrite dipoles_eq. destruct (bonded_places s a b H Vi Vj Nab) as (bd & -> & B). unfold linked in B.
  cbn [force]. unfold forceOnR1DueToR2. change (minus3 ri rj) with (vsub ri rj).
  assert (M : type_of a = TMagnetic -> type_of b = TMagnetic -> bd = false).
  { intros Ta Tb. destruct bd; [|reflexivity]. destruct a, b; try discriminate. destruct (proj1 B eq_refl) as [X|X]; cbn in X;
      destruct (particleCountPerArm s =? 0)%Z; discriminate. }
  assert (Z0 : forall v, vadd v (Vec 0 0 0) = v) by (intros []; unfold vadd; cbn; f_equal; ring).
  assert (Z1 : forall v, vadd (Vec 0 0 0) v = v) by (intros []; unfold vadd; cbn; f_equal; ring).
  destruct (inner_dec s a b) as [I1|I1], (inner_dec s b a) as [I2|I2]; cbn [orb andb].
  all: destruct (type_of a) eqn:Ta, (type_of b) eqn:Tb; cbn [ptype_eqb ptype_code Z.eqb Pos.eqb andb has_fene negb force].
  all: try (rewrite (M eq_refl eq_refl) in B; exfalso; assert (X : false = true) by tauto; discriminate X).
  all: try (destruct bd; [|exfalso; assert (X : false = true) by tauto; discriminate X]; rewrite ?Z0; reflexivity).
  all: try (destruct bd; [exfalso; assert (X : true = true) by reflexivity; tauto|]; rewrite ?Z0; reflexivity).
  all: try (rewrite Z1; reflexivity).
Qed.
Lemma inner_not_both s a b : well_formed s -> valid s a -> valid s b -> inner s a = Some b -> inner s b <> Some a.
Proof.
  intros H Va Vb E E'. destruct (inner_valid s a b H Va E) as (_ & L & _). destruct (inner_valid s b a H Vb E') as (_ & L' & _). lia.
Qed.
Lemma mixed_fene_sym p t u : mixed_fene p t u = mixed_fene p u t.
Proof. unfold mixed_fene. rewrite (Rmult_comm (epsilon p t)), (Rplus_comm (sigma p t)), (Rplus_comm (D p t)). reflexivity. Qed.
Lemma mixed_wca_sym p t u : mixed_wca p t u = mixed_wca p u t.
Proof. unfold mixed_wca. rewrite (Rmult_comm (epsilon p t)), (Rplus_comm (sigma p t)), (Rplus_comm (D p t)). reflexivity. Qed.
Lemma pair_potential_sym s p i j : pair_potential s p i j = pair_potential s p j i.
Proof.
  unfold pair_potential. rewrite mixed_wca_sym, mixed_fene_sym. f_equal. f_equal.
  - destruct (inner_dec s (place_at s i) (place_at s j)), (inner_dec s (place_at s j) (place_at s i)); reflexivity.
  - destruct (type_of (place_at s i)), (type_of (place_at s j)); reflexivity.
Qed.
Lemma pair_force_anti s p i j ri rj : pair_force s p i j ri rj = times3 (-1) (pair_force s p j i rj ri).
Proof.
  unfold pair_force. rewrite pair_potential_sym. exact (exchange_holds (pair_potential s p j i) ri rj).
Qed.
(** * Sums over pairs *)
Lemma rsum_perm l l' : Permutation l l' -> rsum l = rsum l'.
Proof. intros P. induction P; cbn in *; lra. Qed.
Lemma rsum_zero {A} (f : A -> R) l : (forall a, In a l -> f a = 0) -> rsum (map f l) = 0.
Proof.
  induction l as [|a l IH]; intros H; [reflexivity|]. cbn. rewrite H by now left. fold (rsum (map f l)). rewrite IH; [ring|]. intros b Hb. apply H. now right.
Qed.
Lemma rsum_ext_in {A} (f g : A -> R) l : (forall a, In a l -> f a = g a) -> rsum (map f l) = rsum (map g l).
Proof. intros H. f_equal. now apply map_ext_in. Qed.
Lemma rsum_delta (f : Z -> R) k l : NoDup l -> rsum (map (fun j => if Z.eqb j k then f j else 0) l) = if in_dec Z.eq_dec k l then f k else 0.
Proof.
  intros Nd. induction l as [|a l IH]; [reflexivity|]. apply NoDup_cons_iff in Nd. destruct Nd as [Na Nd]. cbn [map]. 
  change (rsum (?x :: ?y)) with (x + rsum y). rewrite IH by exact Nd. destruct (Z.eqb_spec a k) as [->|N].
  - destruct (in_dec Z.eq_dec k l) as [Hk|Hk]; [contradiction|]. destruct (in_dec Z.eq_dec k (k :: l)) as [_|Hk']; [ring|]. exfalso. apply Hk'. now left.
  - destruct (in_dec Z.eq_dec k l) as [Hk|Hk]; destruct (in_dec Z.eq_dec k (a :: l)) as [Hk'|Hk']; try ring.
    + exfalso. apply Hk'. now right.
    + exfalso. destruct Hk'; contradiction.
Qed.
Lemma rsum_opp {A} (f : A -> R) l : rsum (map (fun x => - f x) l) = - rsum (map f l).
Proof. rewrite (rsum_ext _ _ (fun x => -1 * f x)) by (intros x; ring). rewrite rsum_scale. ring. Qed.
Lemma rsum_cons x l : rsum (x :: l) = x + rsum l.
Proof. reflexivity. Qed.
Lemma pairs_sum (g : Z -> Z -> R) k l : NoDup l -> (forall i j, g i j = - g j i) ->
  rsum (map (fun ij => (if Z.eqb (fst ij) k then g (fst ij) (snd ij) else 0) - (if Z.eqb (snd ij) k then g (fst ij) (snd ij) else 0)) (pairs l)) =
  if in_dec Z.eq_dec k l then rsum (map (g k) (filter (fun j => negb (Z.eqb j k)) l)) else 0.
Proof.
  intros Nd G. induction l as [|a l IH]; [reflexivity|]. apply NoDup_cons_iff in Nd. destruct Nd as [Na Nd].
  cbn [pairs filter]. rewrite map_app, rsum_app, map_map, IH by exact Nd. cbn [fst snd].
  destruct (Z.eqb_spec a k) as [->|N].
  - destruct (in_dec Z.eq_dec k l) as [Hk|Hk]; [contradiction|]. destruct (in_dec Z.eq_dec k (k :: l)) as [_|Hk']; [|exfalso; apply Hk'; now left].
    cbn [negb]. rewrite Rplus_0_r.
    assert (F : filter (fun j => negb (j =? k)%Z) l = l).
    { clear - Hk. induction l as [|b l IH]; [reflexivity|]. cbn. destruct (Z.eqb_spec b k) as [->|]; [exfalso; apply Hk; now left|]. cbn. f_equal. apply IH. intros X. apply Hk. now right. }
    rewrite F. apply rsum_ext_in. intros j Hj. destruct (Z.eqb_spec j k) as [->|]; [contradiction|ring].
  - cbn [negb]. assert (E : rsum (map (fun j => 0 - (if Z.eqb j k then g a j else 0)) l) = - (if in_dec Z.eq_dec k l then g a k else 0)).
    { rewrite <- (rsum_delta (g a)) by exact Nd. rewrite <- rsum_opp. apply rsum_ext. intros j. ring. }
    rewrite E. cbn [map]. destruct (in_dec Z.eq_dec k l) as [Hk|Hk]; destruct (in_dec Z.eq_dec k (a :: l)) as [Hk'|Hk'].
    + rewrite rsum_cons. rewrite (G a k). ring.
    + exfalso. apply Hk'. now right.
    + exfalso. destruct Hk'; contradiction.
    + ring.
Qed.
Lemma rsum_swap {A B} (f : A -> B -> R) l l' : rsum (map (fun a => rsum (map (f a) l')) l) = rsum (map (fun b => rsum (map (fun a => f a b) l)) l').
Proof.
  induction l as [|a l IH]; cbn [map].
  - symmetry. apply rsum_zero. reflexivity.
  - rewrite rsum_cons, IH, <- rsum_add. apply rsum_ext. intros b. now rewrite rsum_cons.
Qed.
Lemma anti_total (g : Z -> Z -> R) l : (forall i j, g i j = - g j i) -> 
  rsum (map (fun k => rsum (map (g k) (filter (fun j => negb (Z.eqb j k)) l))) l) = 0.
Proof.
  intros G. assert (D0 : forall k, g k k = 0) by (intros k; specialize (G k k); lra).
  rewrite (rsum_ext _ _ (fun k => rsum (map (g k) l))).
  - assert (E : rsum (map (fun k => rsum (map (g k) l)) l) = - rsum (map (fun k => rsum (map (g k) l)) l)); [|lra].
    rewrite rsum_swap at 1. rewrite <- rsum_opp. apply rsum_ext. intros k. rewrite <- rsum_opp. apply rsum_ext. intros j. apply G.
  - intros k. clear G. induction l as [|a l IH]; [reflexivity|]. cbn [filter map]. rewrite rsum_cons. destruct (Z.eqb_spec a k) as [->|N]; cbn [negb map].
    + rewrite IH, D0. ring.
    + rewrite rsum_cons, IH. reflexivity.
Qed.
(** The loops visit each pair once. *)
Lemma zfrom_cons a n : (0 <= n)%Z -> zfrom a (n + 1) = a :: zfrom (a + 1) n.
Proof.
  intros H. rewrite (Z.add_comm n). rewrite <- zfrom_app by lia. f_equal.
  unfold zfrom. change (zrange 1) with [0%Z]. cbn [map]. now rewrite Z.add_0_r.
Qed.
Lemma pairs_loops a : forall n, (0 <= n)%Z -> forall b, b = (a + n)%Z ->
  pairs (zfrom a n) = flat_map (fun i => map (fun u => (i, (i + 1 + u)%Z)) (zrange (b - i - 1))) (zfrom a n).
Proof.
  intros n. revert a. pattern n. apply (zrange_ind _); clear n.
  - intros n H a H0 b _. assert (n = 0%Z) as -> by lia. reflexivity.
  - intros n H IH a _ b ->. rewrite zfrom_cons by exact H. cbn [pairs flat_map]. f_equal.
    + rewrite <- (map_map (fun u => (a + 1 + u)%Z) (pair a)). f_equal. unfold zfrom. f_equal. f_equal. lia.
    + apply IH; lia.
Qed.
Lemma pairs_loops' N : (0 <= N)%Z -> pairs (zrange N) = flat_map (fun i => map (fun u => (i, (i + 1 + u)%Z)) (zrange (N - i - 1))) (zrange (N - 1)).
Proof.
  intros H. rewrite <- zfrom_0, (pairs_loops 0 N H N eq_refl). destruct (Z.eq_dec N 0) as [->|N0]; [reflexivity|].
  rewrite zfrom_0. assert (E : zrange N = zrange (N - 1) ++ [(N - 1)%Z]) by (rewrite <- zrange_succ by lia; f_equal; lia).
  rewrite E, flat_map_app. cbn [flat_map].
  replace (N - (N - 1) - 1)%Z with 0%Z by lia. cbn. now rewrite app_nil_r.
Qed.

(** * The force buffer *)
Definition opt_vec (o : option vec) : vec := match o with Some v => v | None => Vec 0 0 0 end.
(** What a pair adds to an element of the buffer. *)
Definition contribution (F : Z -> Z -> vec) (i j c : Z) : R :=
  (if Z.eqb (i * 3) c then vx (F i j) else 0) + (if Z.eqb (i * 3 + 1) c then vy (F i j) else 0) + (if Z.eqb (i * 3 + 2) c then vz (F i j) else 0)
  + (if Z.eqb (j * 3) c then - vx (F i j) else 0) + (if Z.eqb (j * 3 + 1) c then - vy (F i j) else 0) + (if Z.eqb (j * 3 + 2) c then - vz (F i j) else 0).
Section Forces.
Variables (dbl : bool) (s : structure) (I : interactions) (x : coordinates).
Let N := getParticleCount s.
Let F i j := opt_vec (computeForce s I i j (stored x i) (stored x j)).
Lemma added_atomic d a b v l : added a (atomicAdd d b v :: l) = (if address_eq_dec b a then v else 0) + added a l.
Proof. rewrite added_cons. destruct (atomicAdd_target d b v) as [-> ->]. reflexivity. Qed.
Lemma address_z b c v : (if address_eq_dec (Forces, b) (Forces, c) then v else 0) = if Z.eqb b c then v else 0.
Proof. destruct (address_eq_dec _ _) as [E|E], (Z.eqb_spec b c) as [E'|E']; try reflexivity; congruence. Qed.
Lemma thread_added i u l c : force_thread dbl s I x i u = Some l ->
  added (Forces, c) l = if Z.ltb u (N - i - 1) then contribution F i (i + 1 + u) c else 0.
Proof.
  unfold force_thread. fold N. cbv zeta. destruct (Z.leb_spec N (i + 1 + u)), (Z.ltb_spec u (N - i - 1)); try lia; [intros [= <-]; reflexivity|].
  unfold F. destruct (computeForce _ _ _ _ _ _) as [f|] eqn:E; [|discriminate]. intros [= <-].
  rewrite !added_atomic, !address_z. unfold contribution. rewrite E. cbn [opt_vec]. unfold added. cbn. ring.
Qed.
Lemma kernel_added i units ls c : launched (N - i - 1) units -> map (force_thread dbl s I x i) units = map Some ls ->
  added (Forces, c) (concat ls) = rsum (map (fun u => contribution F i (i + 1 + u) c) (zrange (N - i - 1))).
Proof.
  intros [_ P] E. transitivity (rsum (map (fun u => if Z.ltb u (N - i - 1) then contribution F i (i + 1 + u) c else 0) units)).
  - clear P. revert ls E. induction units as [|u units IH]; intros ls E; destruct ls as [|l ls]; try discriminate; [reflexivity|].
    cbn [map] in E. injection E as E1 E2. cbn [concat map]. rewrite added_app, rsum_cons, (thread_added _ _ _ _ E1), (IH ls E2). reflexivity.
  - rewrite <- (rsum_perm _ _ (Permutation_map _ P)). clear P E. induction units as [|u units IH]; [reflexivity|].
    cbn [map filter]. rewrite rsum_cons, IH. destruct (Z.ltb_spec u (N - i - 1)); cbn [map]; [rewrite rsum_cons; reflexivity|ring].
Qed.
Lemma kernels_sum ids m m' : force_kernels dbl s I x ids m m' -> forall c,
  m' (Forces, c) = m (Forces, c) + rsum (map (fun i => rsum (map (fun u => contribution F i (i + 1 + u) c) (zrange (N - i - 1)))) ids).
Proof.
  intros H c. induction H as [m|i ids units ls n m m1 ts m2 Hl Hm Hs Hf H IH]; [cbn; ring|].
  cbn [map]. rewrite rsum_cons, IH, (conc_sum _ _ _ _ _ Hs Hf), (kernel_added i units ls c Hl Hm). ring.
Qed.
Lemma rsum_flat_map {A B} (f : B -> R) (g : A -> list B) l : rsum (map f (flat_map g l)) = rsum (map (fun a => rsum (map f (g a))) l).
Proof. induction l as [|a l IH]; [reflexivity|]. cbn [flat_map map]. now rewrite map_app, rsum_app, rsum_cons, IH. Qed.
Lemma kernels_pairs m m' : (0 <= N)%Z -> force_kernels dbl s I x (zrange (N - 1)) m m' -> forall c,
  m' (Forces, c) = m (Forces, c) + rsum (map (fun ij => contribution F (fst ij) (snd ij) c) (pairs (zrange N))).
Proof.
  intros HN H c. rewrite (kernels_sum _ _ _ H c). f_equal. rewrite pairs_loops' by exact HN. rewrite rsum_flat_map. apply rsum_ext. intros i.
  now rewrite map_map.
Qed.
Lemma contribution_coordinate i j k : 
  contribution F i j (3 * k) = (if Z.eqb i k then vx (F i j) else 0) - (if Z.eqb j k then vx (F i j) else 0) /\
  contribution F i j (3 * k + 1) = (if Z.eqb i k then vy (F i j) else 0) - (if Z.eqb j k then vy (F i j) else 0) /\
  contribution F i j (3 * k + 2) = (if Z.eqb i k then vz (F i j) else 0) - (if Z.eqb j k then vz (F i j) else 0).
Proof.
  unfold contribution.
  repeat split; repeat match goal with |- context [Z.eqb ?a ?b] => destruct (Z.eqb_spec a b) end; try lia; ring.
Qed.
(** The sum over other particles. *)
Lemma kernels_forces m m' : (0 <= N)%Z -> zeroed s m -> force_kernels dbl s I x (zrange (N - 1)) m m' ->
  forall G : Z -> Z -> vec, (forall i j, G i j = times3 (-1) (G j i)) -> (forall i j, (0 <= i)%Z -> (i < j < N)%Z -> F i j = G i j) ->
  forall k, (0 <= k < N)%Z -> stored (buffer m') k = vsum (map (G k) (others s k)).
Proof.
  intros HN HZ H G A E k Hk.
  assert (P : forall (pr : vec -> R) (c : Z), (0 <= c < 3 * N)%Z -> (forall v, pr (times3 (-1) v) = - pr v) ->
    (forall i j, contribution F i j c = (if Z.eqb i k then pr (F i j) else 0) - (if Z.eqb j k then pr (F i j) else 0)) ->
    m' (Forces, c) = rsum (map (fun j => pr (G k j)) (others s k))).
  { intros pr c Hc Hpr Hcon. rewrite (kernels_pairs m m' HN H c), (HZ c Hc), Rplus_0_l.
    transitivity (rsum (map (fun ij => (if Z.eqb (fst ij) k then pr (G (fst ij) (snd ij)) else 0) - (if Z.eqb (snd ij) k then pr (G (fst ij) (snd ij)) else 0)) (pairs (zrange N)))).
    - apply rsum_ext_in. intros [i j] Hij. cbn [fst snd]. rewrite Hcon. rewrite (pairs_loops' N HN) in Hij. rewrite in_flat_map in Hij.
      destruct Hij as (i' & Hi & Hij). rewrite in_map_iff in Hij. destruct Hij as (u & E1 & Hu). rewrite In_zrange in Hi, Hu. injection E1 as -> <-.
      rewrite E by lia. reflexivity.
    - rewrite (pairs_sum (fun i j => pr (G i j))).
      + destruct (in_dec Z.eq_dec k (zrange N)) as [_|N0]; [reflexivity|]. exfalso. apply N0. now apply In_zrange.
      + apply zrange_nodup.
      + intros i j. rewrite (A i j). apply Hpr. }
  unfold stored, buffer.
  rewrite (P VecBase.vx (3 * k)%Z), (P VecBase.vy (3 * k + 1)%Z), (P VecBase.vz (3 * k + 2)%Z); try lia;
    try (intros []; cbn; ring); try (intros i j; destruct (contribution_coordinate i j k) as (C1 & C2 & C3); assumption).
  clear. induction (others s k) as [|j l IH]; [reflexivity|]. cbn [map]. rewrite !rsum_cons. change (vsum (?a :: ?b)) with (plus3 a (vsum b)).
  rewrite <- IH. reflexivity.
Qed.
End Forces.
Lemma count_nonneg s : well_formed s -> (0 <= getParticleCount s)%Z.
Proof. intros (H1 & H2 & H3). unfold getParticleCount, getParticleCountPerStar. destruct (hasMagneticParticles s); cbn [Z.b2z]; nia. Qed.
Lemma map_some_in {A B} (f : A -> option B) l ls a : map f l = map Some ls -> In a l -> exists b, f a = Some b.
Proof.
  revert ls. induction l as [|a' l IH]; intros ls E H; [contradiction|]. destruct ls as [|b ls]; [discriminate|]. cbn in E. injection E as E1 E2.
  destruct H as [->|H]; [now exists b|]. now apply (IH ls).
Qed.
Lemma kernels_some dbl s I x ids m m' : force_kernels dbl s I x ids m m' -> forall i j, In i ids -> (0 <= i)%Z -> (i < j < getParticleCount s)%Z ->
  computeForce s I i j (stored x i) (stored x j) <> None.
Proof.
  intros H. induction H as [m|i ids units ls n m m1 ts m2 Hl Hm Hs Hf H IH]; intros i0 j Hi H0 Hj; [contradiction|].
  destruct Hi as [->|Hi]; [|now apply IH]. destruct Hl as [_ P].
  assert (U : In (j - i0 - 1)%Z units).
  { assert (U : In (j - i0 - 1)%Z (zrange (getParticleCount s - i0 - 1))) by (apply In_zrange; lia).
    apply (Permutation_in _ (Permutation_sym P)) in U. now apply filter_In in U. }
  destruct (map_some_in _ _ _ _ Hm U) as [l E]. unfold force_thread in E. cbv zeta in E.
  replace (i0 + 1 + (j - i0 - 1))%Z with j in E by lia. destruct (Z.leb_spec (getParticleCount s) j); [lia|].
  intros N. rewrite N in E. discriminate.
Qed.
Lemma star_forces dbl s p x m m' : well_formed s -> strengths_nonneg p -> zeroed s m ->
  force_kernels dbl s (createInteractions p) x (zrange (getParticleCount s - 1)) m m' ->
  forall i, particle s i -> stored (buffer m') i = force_on s p (stored x) i.
Proof.
  intros H Hp HZ HK i Hi.
  rewrite (kernels_forces dbl s (createInteractions p) x m m' (count_nonneg s H) HZ HK (fun i j => pair_force s p i j (stored x i) (stored x j))); [reflexivity|..|exact Hi].
  - intros a b. apply pair_force_anti.
  - intros a b Ha Hb. assert (Ca : In a (zrange (getParticleCount s - 1))) by (apply In_zrange; lia).
    pose proof (kernels_some _ _ _ _ _ _ _ HK a b Ca Ha Hb) as S0. revert S0.
    rewrite (computeForce_some s p a b _ _ H Hp) by (unfold particle; lia).
    match goal with |- context [if ?c then None else _] => destruct c end; [congruence|reflexivity].
Qed.
Lemma vsum_cons v l : vsum (v :: l) = plus3 v (vsum l).
Proof. reflexivity. Qed.
Lemma vec_eq a b : vx a = vx b -> vy a = vy b -> vz a = vz b -> a = b.
Proof. destruct a, b. cbn. congruence. Qed.
Lemma vsum_x {A} (f : A -> vec) l : vx (vsum (map f l)) = rsum (map (fun a => vx (f a)) l).
Proof. induction l as [|a l IH]; [reflexivity|]. cbn [map]. rewrite vsum_cons, rsum_cons, <- IH. reflexivity. Qed.
Lemma vsum_y {A} (f : A -> vec) l : vy (vsum (map f l)) = rsum (map (fun a => vy (f a)) l).
Proof. induction l as [|a l IH]; [reflexivity|]. cbn [map]. rewrite vsum_cons, rsum_cons, <- IH. reflexivity. Qed.
Lemma vsum_z {A} (f : A -> vec) l : vz (vsum (map f l)) = rsum (map (fun a => vz (f a)) l).
Proof. induction l as [|a l IH]; [reflexivity|]. cbn [map]. rewrite vsum_cons, rsum_cons, <- IH. reflexivity. Qed.
Lemma total_force s p x : sum_over s (force_on s p x) = zero3.
Proof.
  assert (A : forall pr : vec -> R, (forall v, pr (times3 (-1) v) = - pr v) -> 
    rsum (map (fun k => rsum (map (fun j => pr (pair_force s p k j (x k) (x j))) (others s k))) (zrange (getParticleCount s))) = 0).
  { intros pr Hpr. apply (anti_total (fun k j => pr (pair_force s p k j (x k) (x j)))). intros i j. rewrite pair_force_anti. apply Hpr. }
  unfold sum_over. apply vec_eq; rewrite ?vsum_x, ?vsum_y, ?vsum_z.
  - change (vx zero3) with 0. rewrite <- (A VecBase.vx) by (intros []; cbn; ring). apply rsum_ext. intros k. apply vsum_x.
  - change (vy zero3) with 0. rewrite <- (A VecBase.vy) by (intros []; cbn; ring). apply rsum_ext. intros k. apply vsum_y.
  - change (vz zero3) with 0. rewrite <- (A VecBase.vz) by (intros []; cbn; ring). apply rsum_ext. intros k. apply vsum_z.
Qed.
(** * Velocity Verlet *)
Definition update (g : Z -> R -> R) (n : Z) (a : coordinates) (c0 : Z) : coordinates :=
  if Z.leb n c0 then a else fun c => if Z.eqb c c0 then g c0 (a c0) else a c.
Lemma update_fold g n units : NoDup (filter (fun u => Z.ltb u n) units) -> forall a c, 
  fold_left (update g n) units a c = if in_dec Z.eq_dec c (filter (fun u => Z.ltb u n) units) then g c (a c) else a c.
Proof.
  induction units as [|u units IH]; intros Nd a c; [reflexivity|]. cbn [fold_left filter] in *. unfold update at 2.
  destruct (Z.ltb_spec u n), (Z.leb_spec n u); try lia; [|now apply IH].
  apply NoDup_cons_iff in Nd. destruct Nd as [Nu Nd]. rewrite (IH Nd). destruct (Z.eqb_spec c u) as [->|Nc].
  - destruct (in_dec Z.eq_dec u (filter _ units)) as [Hu|Hu]; [contradiction|]. destruct (in_dec Z.eq_dec u (u :: _)) as [_|Hu']; [reflexivity|]. exfalso. apply Hu'. now left.
  - destruct (in_dec Z.eq_dec c (filter _ units)) as [Hc|Hc]; destruct (in_dec Z.eq_dec c (u :: _)) as [Hc'|Hc']; try reflexivity.
    + exfalso. apply Hc'. now right.
    + exfalso. destruct Hc' as [E|Hc']; [now symmetry in E|contradiction].
Qed.
Lemma update_launched g n units a c : launched n units -> fold_left (update g n) units a c = if Z.leb 0 c && Z.ltb c n then g c (a c) else a c.
Proof.
  intros [_ P]. rewrite update_fold.
  - destruct (in_dec Z.eq_dec c (filter (fun u => Z.ltb u n) units)) as [H|H].
    + apply (Permutation_in _ P) in H. rewrite In_zrange in H. destruct (Z.leb_spec 0 c), (Z.ltb_spec c n); try lia. reflexivity.
    + destruct (Z.leb_spec 0 c), (Z.ltb_spec c n); try reflexivity. exfalso. apply H. apply (Permutation_in _ (Permutation_sym P)). apply In_zrange. lia.
  - eapply Permutation_NoDup; [apply Permutation_sym, P|]. apply zrange_nodup.
Qed.
Lemma verlet1_launched v f dt N mass units x c : launched (3 * N) units ->
  fold_left (verlet_thread1 v f dt N mass) units x c = if Z.leb 0 c && Z.ltb c (3 * N) then verlet1 (x c) (v c) (f c / mass) dt else x c.
Proof. intros H. exact (update_launched (fun c xc => verlet1 xc (v c) (f c / mass) dt) (3 * N) units x c H). Qed.
Lemma verlet2_launched f1 f2 dt N mass units v c : launched (3 * N) units ->
  fold_left (verlet_thread2 f1 f2 dt N mass) units v c = if Z.leb 0 c && Z.ltb c (3 * N) then verlet2 (v c) (f1 c / mass) (f2 c / mass) dt else v c.
Proof. intros H. exact (update_launched (fun c vc => verlet2 vc (f1 c / mass) (f2 c / mass) dt) (3 * N) units v c H). Qed.
Lemma stored_verlet1 v f dt N mass units x i : launched (3 * N) units -> (0 <= i < N)%Z ->
  stored (fold_left (verlet_thread1 v f dt N mass) units x) i = plus3 (plus3 (stored x i) (times3 dt (stored v i))) (times3 (dt * dt / (2 * mass)) (stored f i)).
Proof.
  intros H Hi. unfold stored. rewrite !verlet1_launched by exact H.
  repeat match goal with |- context [Z.leb 0 ?c] => destruct (Z.leb_spec 0 c); [|lia] end.
  repeat match goal with |- context [Z.ltb ?c ?n] => destruct (Z.ltb_spec c n); [|lia] end. cbn [andb].
  unfold verlet1, plus3, times3. cbn [VecBase.vx VecBase.vy VecBase.vz]. unfold Rdiv. rewrite Rinv_mult. f_equal; ring.
Qed.
Lemma stored_verlet2 f1 f2 dt N mass units v i : launched (3 * N) units -> (0 <= i < N)%Z ->
  stored (fold_left (verlet_thread2 f1 f2 dt N mass) units v) i = plus3 (stored v i) (times3 (dt / (2 * mass)) (plus3 (stored f1 i) (stored f2 i))).
Proof.
  intros H Hi. unfold stored. rewrite !verlet2_launched by exact H.
  repeat match goal with |- context [Z.leb 0 ?c] => destruct (Z.leb_spec 0 c); [|lia] end.
  repeat match goal with |- context [Z.ltb ?c ?n] => destruct (Z.ltb_spec c n); [|lia] end. cbn [andb].
  unfold verlet2, plus3, times3. cbn [VecBase.vx VecBase.vy VecBase.vz]. unfold Rdiv. rewrite Rinv_mult. f_equal; ring.
Qed.
Lemma star_step dbl s p dt mass a b : well_formed s -> strengths_nonneg p -> md_timestep dbl s (createInteractions p) dt mass a b ->
  (forall i, particle s i ->
    stored (positions b) i = plus3 (plus3 (stored (positions a) i) (times3 dt (stored (velocities a) i))) (times3 (dt * dt / (2 * mass)) (force_on s p (stored (positions a)) i)) /\
    stored (velocities b) i = plus3 (stored (velocities a) i) (times3 (dt / (2 * mass)) (plus3 (force_on s p (stored (positions a)) i) (force_on s p (stored (positions b)) i)))) /\
  (forall c, ~ (0 <= c < 3 * getParticleCount s)%Z -> positions b c = positions a c /\ velocities b c = velocities a c).
Proof.
  intros H Hp HS. destruct HS as [x v m1 m1' m2 m2' units1 units2 Z1 Z2 K1 L1 x' K2 L2 v']. cbn [positions velocities]. split.
  - intros i Hi. split.
    + unfold x'. rewrite stored_verlet1 by assumption. now rewrite (star_forces dbl s p x m1 m1' H Hp Z1 K1 i Hi).
    + unfold v'. rewrite stored_verlet2 by assumption. now rewrite (star_forces dbl s p x m1 m1' H Hp Z1 K1 i Hi), (star_forces dbl s p x' m2 m2' H Hp Z2 K2 i Hi).
  - intros c Hc. unfold x', v'. rewrite verlet1_launched, verlet2_launched by assumption.
    destruct (Z.leb_spec 0 c), (Z.ltb_spec c (3 * getParticleCount s)); try lia; split; reflexivity.
Qed.
Lemma vsum_ext_in {A} (f g : A -> vec) l : (forall a, In a l -> f a = g a) -> vsum (map f l) = vsum (map g l).
Proof. intros E. f_equal. now apply map_ext_in. Qed.
Lemma times_zero k : times3 k zero3 = zero3.
Proof. unfold times3, zero3. cbn. f_equal; ring. Qed.
Lemma plus_zero v : plus3 v zero3 = v.
Proof. destruct v. unfold plus3, zero3. cbn. f_equal; ring. Qed.
Lemma star_step_totals dbl s p dt mass a b : well_formed s -> strengths_nonneg p -> md_timestep dbl s (createInteractions p) dt mass a b ->
  sum_over s (stored (velocities b)) = sum_over s (stored (velocities a)) /\
  sum_over s (stored (positions b)) = plus3 (sum_over s (stored (positions a))) (times3 dt (sum_over s (stored (velocities a)))).
Proof.
  intros H Hp HS. destruct (star_step dbl s p dt mass a b H Hp HS) as [E _]. unfold sum_over. split.
  - rewrite (vsum_ext_in _ (fun i => plus3 (stored (velocities a) i) (times3 (dt / (2 * mass)) (plus3 (force_on s p (stored (positions a)) i) (force_on s p (stored (positions b)) i)))))
      by (intros i Hi; rewrite In_zrange in Hi; now apply E).
    rewrite vsum_plus, vsum_times, vsum_plus. change (vsum (map (force_on s p ?x) (zrange (getParticleCount s)))) with (sum_over s (force_on s p x)).
    now rewrite !total_force, plus_zero, times_zero, plus_zero.
  - rewrite (vsum_ext_in _ (fun i => plus3 (plus3 (stored (positions a) i) (times3 dt (stored (velocities a) i))) (times3 (dt * dt / (2 * mass)) (force_on s p (stored (positions a)) i))))
      by (intros i Hi; rewrite In_zrange in Hi; now apply E).
    rewrite vsum_plus, vsum_plus, vsum_times, vsum_times. change (vsum (map (force_on s p ?x) (zrange (getParticleCount s)))) with (sum_over s (force_on s p x)).
    now rewrite !total_force, times_zero, plus_zero.
Qed.
Lemma star_totals dbl s p dt mass n a b : well_formed s -> strengths_nonneg p -> md_timesteps dbl s (createInteractions p) dt mass n a b ->
  sum_over s (stored (velocities b)) = sum_over s (stored (velocities a)) /\
  sum_over s (stored (positions b)) = plus3 (sum_over s (stored (positions a))) (times3 (INR n * dt) (sum_over s (stored (velocities a)))).
Proof.
  intros H Hp HS. induction HS as [a|n a b c S1 SN IH].
  - split; [reflexivity|]. cbn [INR]. rewrite Rmult_0_l. destruct (sum_over s (stored (positions a))), (sum_over s (stored (velocities a))). unfold plus3, times3. cbn. f_equal; ring.
  - destruct (star_step_totals dbl s p dt mass a b H Hp S1) as [E1 E2]. destruct IH as [I1 I2]. rewrite I1, I2, E1, E2. split; [reflexivity|].
    rewrite S_INR. generalize (sum_over s (stored (positions a))) (sum_over s (stored (velocities a))). intros [] []. unfold plus3, times3. cbn. f_equal; ring.
Qed.
(** * Steps exist *)
Lemma launched_exists n : (0 <= n)%Z -> launched n (zrange n).
Proof.
  intros H. split.
  - apply Forall_forall. intros u Hu. rewrite In_zrange in Hu. lia.
  - rewrite filter_all; [apply Permutation_refl|]. intros u Hu. rewrite In_zrange in Hu. apply Z.ltb_lt. lia.
Qed.
Lemma all_some {A B} (f : A -> option B) l : (forall a, In a l -> f a <> None) -> exists ls, map f l = map Some ls.
Proof.
  induction l as [|a l IH]; intros H; [now exists []|]. destruct IH as [ls E]; [intros b Hb; apply H; now right|].
  destruct (f a) as [b|] eqn:Ea; [|exfalso; apply (H a); [now left|exact Ea]]. exists (b :: ls). cbn. now rewrite Ea, E.
Qed.
Lemma fene_there s a b : well_formed s -> valid s a -> valid s b -> bonds_have_potentials s -> inner s a = Some b -> has_fene (type_of a) (type_of b) = true.
Proof.
  intros (_ & _ & H3) Va Vb B E. destruct a as [st|st arm k|st arm]; [discriminate| |].
  - cbn in E. injection E as <-. destruct (k =? 0)%Z; reflexivity.
  - cbn in E. injection E as <-. destruct Va as (_ & _ & M). destruct B as [B|B]; [|congruence]. destruct (Z.eqb_spec (particleCountPerArm s) 0); [lia|reflexivity].
Qed.
Lemma has_fene_sym t u : has_fene t u = has_fene u t.
Proof. destruct t, u; reflexivity. Qed.
Lemma computeForce_defined s p i j ri rj : well_formed s -> strengths_nonneg p -> bonds_have_potentials s -> particle s i -> particle s j -> i <> j ->
  computeForce s (createInteractions p) i j ri rj = Some (pair_force s p i j ri rj).
Proof.
  intros H Hp B Hi Hj N. rewrite computeForce_some by assumption.
  destruct (place_at_ok s i H Hi) as [Vi _]. destruct (place_at_ok s j H Hj) as [Vj _].
  destruct (inner_dec s (place_at s i) (place_at s j)) as [E|E]; cbn [orb].
  - rewrite (fene_there s _ _ H Vi Vj B E). reflexivity.
  - destruct (inner_dec s (place_at s j) (place_at s i)) as [E'|E']; [|reflexivity]. rewrite has_fene_sym, (fene_there s _ _ H Vj Vi B E'). reflexivity.
Qed.
Lemma kernels_exist dbl s p x : well_formed s -> strengths_nonneg p -> bonds_have_potentials s -> forall ids, (forall i, In i ids -> (0 <= i < getParticleCount s - 1)%Z) ->
  forall m, exists m', force_kernels dbl s (createInteractions p) x ids m m'.
Proof.
  intros H Hp B ids. induction ids as [|i ids IH]; intros Hids m; [exists m; constructor|].
  assert (Hi : (0 <= i < getParticleCount s - 1)%Z) by (apply Hids; now left).
  destruct (all_some (force_thread dbl s (createInteractions p) x i) (zrange (getParticleCount s - i - 1))) as [ls E].
  { intros u Hu. rewrite In_zrange in Hu. unfold force_thread. cbv zeta. destruct (Z.leb_spec (getParticleCount s) (i + 1 + u)); [discriminate|].
    rewrite computeForce_defined by (try assumption; unfold particle; lia). discriminate. }
  destruct (conc_completes 0 m ls (m, map start ls)) as (k & [m1 ts] & Hk & Hf); [constructor|].
  destruct (IH (fun j Hj => Hids j (or_intror Hj)) m1) as [m2 H2]. exists m2.
  eapply kernels_next; [apply launched_exists; lia|exact E|exact Hk|exact Hf|exact H2].
Qed.
Lemma step_exists dbl s p dt mass a : well_formed s -> strengths_nonneg p -> bonds_have_potentials s -> exists b, md_timestep dbl s (createInteractions p) dt mass a b.
Proof.
  intros H Hp B. pose proof (count_nonneg s H). destruct a as [x v].
  assert (I : forall i, In i (zrange (getParticleCount s - 1)) -> (0 <= i < getParticleCount s - 1)%Z) by (intros i; now rewrite In_zrange).
  destruct (kernels_exist dbl s p x H Hp B _ I (fun _ => 0)) as [m1 K1].
  destruct (kernels_exist dbl s p (fold_left (verlet_thread1 v (buffer m1) dt (getParticleCount s) mass) (zrange (3 * getParticleCount s)) x) H Hp B _ I (fun _ => 0)) as [m2 K2].
  eexists. eapply md_timestep_intro; [| |exact K1| |exact K2|]; try (apply launched_exists; lia); intros c Hc; reflexivity.
Qed.
Lemma steps_exist dbl s p dt mass n : well_formed s -> strengths_nonneg p -> bonds_have_potentials s -> forall a, exists b, md_timesteps dbl s (createInteractions p) dt mass n a b.
Proof.
  intros H Hp B. induction n as [|n IH]; intros a; [exists a; constructor|].
  destruct (step_exists dbl s p dt mass a H Hp B) as [b Hb]. destruct (IH b) as [c Hc]. exists c. econstructor; eassumption.
Qed.
(** Magnetic particles that are bound to the core. *)
Lemma no_step dbl s p dt mass a b : well_formed s -> (0 < starCount s)%Z -> (0 < armCountPerStar s)%Z -> ~ bonds_have_potentials s ->
  strengths_nonneg p -> ~ md_timestep dbl s (createInteractions p) dt mass a b.
Proof.
  intros H H0 H1 B Hp HS. destruct HS as [x v m1 m1' m2 m2' units1 units2 Z1 Z2 K1 L1 x' K2 L2 v'].
  destruct H as (W1 & W2 & W3). assert (H : well_formed s) by (repeat split; assumption).
  destruct (Z.eq_dec (particleCountPerArm s) 0) as [A|A]; [|exfalso; apply B; left; lia].
  destruct (hasMagneticParticles s) eqn:M; [|exfalso; apply B; now right].
  assert (Vc : valid s (Core 0)) by (cbn; lia). assert (Vt : valid s (Tip 0 0)) by (cbn; repeat split; try lia; exact M).
  destruct (place_number s _ H Vc) as [Nc _]. destruct (place_number s _ H Vt) as [Nt _].
  assert (Ec : number s (Core 0) = 0%Z) by reflexivity.
  assert (Et : number s (Tip 0 0) = 1%Z) by (cbn; unfold getMagneticParticleID; rewrite A; lia).
  pose proof (place_at_number s _ H Vc) as Pc. pose proof (place_at_number s _ H Vt) as Pt. rewrite Ec in *. rewrite Et in *. unfold particle in *.
  apply (kernels_some _ _ _ _ _ _ _ K1 0%Z 1%Z); [apply In_zrange; lia|lia|lia|].
  rewrite computeForce_some by (try assumption; unfold particle; lia). rewrite Pc, Pt. cbn [type_of has_fene negb].
  destruct (inner_dec s (Tip 0 0) (Core 0)) as [_|N]; [rewrite orb_true_r; reflexivity|].
  exfalso. apply N. cbn. now rewrite A.
Qed.
(** * Forces are gradients *)
Lemma dp_rsum {A} (f : A -> R -> R) (d : A -> R) x l : (forall a, In a l -> derivable_pt_lim (f a) x (d a)) ->
  derivable_pt_lim (fun t => rsum (map (fun a => f a t) l)) x (rsum (map d l)).
Proof.
  induction l as [|a l IH]; intros H; [exact (dp_const 0 x)|]. cbn [map]. rewrite rsum_cons.
  apply (dp_plus (f a) (fun t => rsum (map (fun a => f a t) l))); [apply H; now left|]. apply IH. intros b Hb. apply H. now right.
Qed.
Lemma no_jump s p i j r : ~ at_jump (pair_potential s p i j) r.
Proof.
  unfold pair_potential. cbn [at_jump mixed_wca]. intros [[]|[H|H]].
  - destruct (inner_dec s (place_at s i) (place_at s j)), (inner_dec s (place_at s j) (place_at s i)); exact H.
  - destruct (type_of (place_at s i)), (type_of (place_at s j)); exact H.
Qed.
Lemma in_pairs l i j : In (i, j) (pairs (zrange l)) -> (0 <= i < j)%Z /\ (j < l)%Z.
Proof.
  intros H. destruct (Z.le_gt_cases 0 l) as [L|L]; [|rewrite zrange_nil in H by lia; contradiction].
  rewrite pairs_loops' in H by exact L. rewrite in_flat_map in H. destruct H as (a & Ha & H). rewrite in_map_iff in H. destruct H as (u & E & Hu).
  rewrite In_zrange in Ha, Hu. injection E as <- <-. lia.
Qed.
Lemma dot_sum_others (f : Z -> vec) v l : rsum (map (fun j => dot3 (f j) v) l) = dot3 (vsum (map f l)) v.
Proof.
  induction l as [|a l IH]; cbn [map]; [unfold dot3; cbn; ring|]. rewrite rsum_cons, vsum_cons, IH. unfold dot3, plus3. cbn. ring.
Qed.
Lemma force_gradient s p x i : all_defined s p x -> particle s i ->
  minus_gradient (fun d => potential_energy s p (moved_by x i d)) zero3 (force_on s p x i).
Proof.
  intros D Hi v. unfold potential_energy.
  set (g := fun a b => dot3 (pair_force s p a b (x a) (x b)) v).
  assert (G : forall a b, g a b = - g b a).
  { intros a b. unfold g. rewrite pair_force_anti. unfold dot3, times3. cbn. ring. }
  apply (dp_val _ _ (rsum (map (fun ij => - ((if Z.eqb (fst ij) i then g (fst ij) (snd ij) else 0) - (if Z.eqb (snd ij) i then g (fst ij) (snd ij) else 0))) (pairs (zrange (getParticleCount s)))))).
  - apply (dp_rsum (fun ij t => energy (pair_potential s p (fst ij) (snd ij)) (minus3 (moved_by x i (plus3 zero3 (times3 t v)) (fst ij)) (moved_by x i (plus3 zero3 (times3 t v)) (snd ij))))).
    intros [a b] Hab. apply in_pairs in Hab. cbn [fst snd]. unfold moved_by.
    assert (Dab : defined (pair_potential s p a b) (minus3 (x a) (x b))) by (apply D; unfold particle; lia).
    destruct (Z.eqb_spec a i) as [->|Na], (Z.eqb_spec b i) as [->|Nb]; try lia.
    + assert (D1 := gradient_holds _ _ Dab (no_jump s p i b _) v).
      eapply dp_val; [|apply (f_equal Ropp); symmetry; apply Rminus_0_r]. unfold g, pair_force.
      match type of D1 with derivable_pt_lim ?f _ _ => match goal with |- derivable_pt_lim ?h _ _ => replace h with f; [exact D1|] end end.
      apply functional_extensionality. intros t. f_equal. destruct (x i), (x b), v. unfold minus3, plus3, times3, zero3. cbn. f_equal; ring.
    + assert (Dba : defined (pair_potential s p i a) (minus3 (x i) (x a))) by (apply D; unfold particle; lia).
      assert (D1 := gradient_holds _ _ Dba (no_jump s p i a _) v).
      eapply dp_val; [|rewrite (G a i); unfold Rminus; rewrite Ropp_involutive, Rplus_0_l; reflexivity]. unfold g, pair_force.
      match type of D1 with derivable_pt_lim ?f _ _ => match goal with |- derivable_pt_lim ?h _ _ => replace h with f; [exact D1|] end end.
      apply functional_extensionality. intros t. rewrite <- energy_neg. rewrite pair_potential_sym. f_equal.
      destruct (x i), (x a), v. unfold minus3, plus3, times3, zero3, vneg. cbn. f_equal; ring.
    + eapply dp_val; [apply dp_const|]. ring.
  - rewrite rsum_opp. f_equal. rewrite pairs_sum by (exact G || apply zrange_nodup).
    destruct (in_dec Z.eq_dec i (zrange (getParticleCount s))) as [_|N]; [|exfalso; apply N; now apply In_zrange].
    apply dot_sum_others.
Qed.
(** * Schedules and time reversal *)
Lemma coords_ext N a b : (0 <= N)%Z -> (forall i, (0 <= i < N)%Z -> stored a i = stored b i) -> (forall c, ~ (0 <= c < 3 * N)%Z -> a c = b c) -> a = b.
Proof.
  intros H E1 E2. apply functional_extensionality. intros c. destruct (Z.le_gt_cases 0 c) as [L|L]; [|apply E2; lia]. destruct (Z.lt_ge_cases c (3 * N)) as [L'|L']; [|apply E2; lia].
  pose proof (Z.div_mod c 3 ltac:(lia)) as D. pose proof (Z.mod_pos_bound c 3 ltac:(lia)) as B.
  assert (I : (0 <= c / 3 < N)%Z) by lia. specialize (E1 _ I). unfold stored in E1. injection E1 as X Y Z0.
  assert (c = 3 * (c / 3) \/ c = 3 * (c / 3) + 1 \/ c = 3 * (c / 3) + 2)%Z as [->|[->| ->]] by lia; assumption.
Qed.
Lemma star_schedule dbl s p dt mass a b c : well_formed s -> strengths_nonneg p ->
  md_timestep dbl s (createInteractions p) dt mass a b -> md_timestep dbl s (createInteractions p) dt mass a c -> b = c.
Proof.
  intros H Hp S1 S2. destruct (star_step dbl s p dt mass a b H Hp S1) as [I1 O1]. destruct (star_step dbl s p dt mass a c H Hp S2) as [I2 O2].
  assert (X : positions b = positions c).
  { apply (coords_ext (getParticleCount s)); [now apply count_nonneg| |].
    - intros i Hi. destruct (I1 i Hi) as [-> _]. destruct (I2 i Hi) as [-> _]. reflexivity.
    - intros k Hk. destruct (O1 k Hk) as [-> _]. destruct (O2 k Hk) as [-> _]. reflexivity. }
  assert (V : velocities b = velocities c).
  { apply (coords_ext (getParticleCount s)); [now apply count_nonneg| |].
    - intros i Hi. destruct (I1 i Hi) as [_ ->]. destruct (I2 i Hi) as [_ ->]. now rewrite X.
    - intros k Hk. destruct (O1 k Hk) as [_ ->]. destruct (O2 k Hk) as [_ ->]. reflexivity. }
  destruct b, c. cbn in *. congruence.
Qed.
Lemma stored_neg a i : stored (fun c => - a c) i = times3 (-1) (stored a i).
Proof. unfold stored, times3. cbn. f_equal; ring. Qed.
Lemma star_back dbl s p dt mass a b c : well_formed s -> strengths_nonneg p ->
  md_timestep dbl s (createInteractions p) dt mass a b -> md_timestep dbl s (createInteractions p) dt mass (turned b) c -> c = turned a.
Proof.
  intros H Hp S1 S2. destruct (star_step dbl s p dt mass a b H Hp S1) as [I1 O1]. destruct (star_step dbl s p dt mass (turned b) c H Hp S2) as [I2 O2]. cbn [turned positions velocities] in *.
  assert (X : positions c = positions a).
  { apply (coords_ext (getParticleCount s)); [now apply count_nonneg| |].
    - intros i Hi. destruct (I2 i Hi) as [-> _]. rewrite stored_neg. destruct (I1 i Hi) as [Ex Ev]. rewrite Ev. rewrite Ex.
      generalize (force_on s p (stored (positions a)) i) (force_on s p (stored (positions b)) i) (stored (positions a) i) (stored (velocities a) i).
      intros [] [] [] []. unfold plus3, times3. cbn. unfold Rdiv. f_equal; ring.
    - intros k Hk. destruct (O2 k Hk) as [-> _]. now destruct (O1 k Hk). }
  assert (V : velocities c = (fun k => - velocities a k)).
  { apply (coords_ext (getParticleCount s)); [now apply count_nonneg| |].
    - intros i Hi. destruct (I2 i Hi) as [_ ->]. rewrite !stored_neg, X. destruct (I1 i Hi) as [_ Ev]. rewrite Ev.
      generalize (force_on s p (stored (positions a)) i) (force_on s p (stored (positions b)) i) (stored (velocities a) i).
      intros [] [] []. unfold plus3, times3. cbn. unfold Rdiv. f_equal; ring.
    - intros k Hk. destruct (O2 k Hk) as [_ ->]. destruct (O1 k Hk) as [_ ->]. reflexivity. }
  destruct c. cbn in *. unfold turned. congruence.
Qed.
Lemma md_snoc dbl s J dt mass n : forall a b, md_timesteps dbl s J dt mass (S n) a b -> exists c, md_timesteps dbl s J dt mass n a c /\ md_timestep dbl s J dt mass c b.
Proof.
  induction n as [|n IH]; intros a b HS; inversion HS as [|? ? b' ? S1 S2]; subst.
  - inversion S2; subst. exists a. split; [constructor|assumption].
  - destruct (IH b' b S2) as (c & C1 & C2). exists c. split; [econstructor; eassumption|exact C2].
Qed.
Lemma star_retrace dbl s p dt mass n : well_formed s -> strengths_nonneg p -> forall a b c,
  md_timesteps dbl s (createInteractions p) dt mass n a b -> md_timesteps dbl s (createInteractions p) dt mass n (turned b) c -> c = turned a.
Proof.
  intros H Hp. induction n as [|n IH]; intros a b c S1 S2.
  - inversion S1; subst. inversion S2; subst. reflexivity.
  - destruct (md_snoc _ _ _ _ _ _ _ _ S1) as (d & D1 & D2). inversion S2 as [|? ? e ? E1 E2]; subst.
    rewrite (star_back dbl s p dt mass d b e H Hp D2 E1) in E2. now apply (IH a d c).
Qed.
Lemma star_schedules dbl s p dt mass n : well_formed s -> strengths_nonneg p -> forall a b c,
  md_timesteps dbl s (createInteractions p) dt mass n a b -> md_timesteps dbl s (createInteractions p) dt mass n a c -> b = c.
Proof.
  intros H Hp. induction n as [|n IH]; intros a b c S1 S2.
  - inversion S1; subst. inversion S2; subst. reflexivity.
  - inversion S1 as [|? ? d ? D1 D2]; subst. inversion S2 as [|? ? e ? E1 E2]; subst.
    rewrite (star_schedule dbl s p dt mass a d e H Hp D1 E1) in D2. now apply (IH e b c).
Qed.
(** * An example *)
Lemma example_force : force_on pair_of_beads plain apart 0 = Vec 30 0 0.
Proof.
  unfold force_on. change (others pair_of_beads 0) with [1%Z]. cbn [map]. rewrite vsum_cons. change (vsum []) with zero3. rewrite plus_zero.
  unfold pair_potential. change (place_at pair_of_beads 0) with (Core 0). change (place_at pair_of_beads 1) with (Bead 0 0 0). cbn [type_of].
  destruct (inner_dec pair_of_beads (Core 0) (Bead 0 0 0)) as [E|_]; [discriminate E|].
  destruct (inner_dec pair_of_beads (Bead 0 0 0) (Core 0)) as [_|N]; [|exfalso; apply N; reflexivity].
  unfold apart. cbn [Z.eqb]. unfold mixed_wca, mixed_fene, plain. cbn [epsilon sigma D].
  replace (1 * 1) with 1 by ring. rewrite sqrt_1. replace ((1 + 1) / 2) with 1 by field. replace ((0 + 0) / 2) with 0 by field.
  replace (30 * 1 / (1 * 1)) with 30 by field. replace (3 / 2 * 1) with (3 / 2) by field.
  replace (minus3 (Vec 0 0 0) (Vec 1 0 0)) with (Vec (-1) 0 0) by (unfold minus3; cbn; f_equal; ring).
  cbn [force].
  assert (M2 : vmag2 (Vec (-1) 0 0) = 1) by (unfold vmag2, vdot; cbn; ring).
  assert (M1 : vmag (Vec (-1) 0 0) = 1) by (unfold vmag; rewrite M2; apply sqrt_1).
  assert (C : 1 < cpow 2 (1 / 6)).
  { destruct root_exists as [P E]. apply Rnot_le_lt. intros L. pose proof (pow_incr (cpow 2 (1 / 6)) 1 6 ltac:(lra)) as Q. rewrite E, pow1 in Q. lra. }
  unfold wcad_force, fene_force, vhat. rewrite M1, M2, sqrt_1. unfold rleb. destruct (Rle_dec _ _) as [L|_]; [lra|].
  unfold vscale, vneg, vdivs, vadd. cbn. f_equal; field.
Qed.
