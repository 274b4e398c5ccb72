(** Proofs about boundary conditions, collision cells and the collision step. *)
From Coq Require Import List ZArith Bool Reals Lra Lia Psatz.
From Verif Require Import PyBase VecBase VecModel VecSpec VecProof PartSpec SimModel SimSpec.
Import ListNotations.
Open Scope R_scope.

(** * Rounding down *)

Lemma Int_part_bounds x : IZR (Int_part x) <= x < IZR (Int_part x) + 1.
Proof. destruct (base_Int_part x). lra. Qed.
Lemma Int_part_unique x n : IZR n <= x < IZR n + 1 -> Int_part x = n.
Proof.
  intros H. assert (B := Int_part_bounds x).
  assert (IZR (Int_part x) < IZR n + 1) by lra. assert (IZR n < IZR (Int_part x) + 1) by lra.
  rewrite <- plus_IZR in *. apply lt_IZR in H0, H1. lia.
Qed.
Lemma floor_rem y b : 0 < b -> 0 <= y - IZR (Int_part (y / b)) * b < b.
Proof.
  intros B. assert (H := Int_part_bounds (y / b)).
  assert (E : y = y / b * b) by (field; lra). set (t := y / b) in *. clearbody t. subst y.
  generalize dependent (IZR (Int_part t)). intros n H. split; nra.
Qed.
Lemma floor_unique y b q n : 0 < b -> 0 <= q < b -> y = q + IZR n * b -> Int_part (y / b) = n.
Proof.
  intros B Q ->. apply Int_part_unique.
  assert (E : (q + IZR n * b) / b = q / b + IZR n) by (field; lra). rewrite E.
  assert (0 <= q / b) by (apply Rle_mult_inv_pos; lra).
  assert (q / b < 1) by (apply (Rmult_lt_reg_r b); [exact B|]; replace (q / b * b) with q by (field; lra); lra).
  lra.
Qed.

(** * Lees-Edwards images *)

Lemma le_spec shear time bx by_ bz p q corr : (0 < bx)%Z -> (0 < by_)%Z -> (0 < bz)%Z ->
  le_image shear time bx by_ bz p = (q, corr) ->
  in_box bx by_ bz q /\
  exists i j k, p = plus3 q (lattice shear time bx by_ bz i j k) /\ corr = - IZR j * (shear * IZR by_).
Proof.
  intros X Y Z E. apply IZR_lt in X, Y, Z. unfold le_image in E. cbv zeta in E. injection E as <- <-.
  unfold rfloor. split.
  - unfold in_box; cbn [vx vy vz]. repeat split; apply floor_rem; assumption.
  - eexists (Int_part ((vx p - IZR (Int_part (vy p / IZR by_)) * (shear * IZR by_ * time)) / IZR bx)),
      (Int_part (vy p / IZR by_)), (Int_part (vz p / IZR bz)).
    split; [|reflexivity]. destruct p. unfold lattice, plus3; cbn. apply vec_ext; ring.
Qed.
Lemma le_unique shear time bx by_ bz p q i j k : (0 < bx)%Z -> (0 < by_)%Z -> (0 < bz)%Z ->
  in_box bx by_ bz q -> p = plus3 q (lattice shear time bx by_ bz i j k) ->
  le_image shear time bx by_ bz p = (q, - IZR j * (shear * IZR by_)).
Proof.
  intros X Y Z (Qx & Qy & Qz) ->. apply IZR_lt in X, Y, Z.
  destruct q as [q1 q2 q3]. cbn [vx vy vz] in *. unfold le_image, lattice, plus3, rfloor. cbn [vx vy vz].
  rewrite (floor_unique (q2 + IZR j * IZR by_) (IZR by_) q2 j) by (assumption || reflexivity).
  rewrite (floor_unique (q3 + IZR k * IZR bz) (IZR bz) q3 k) by (assumption || reflexivity).
  rewrite (floor_unique _ (IZR bx) q1 i) by (try assumption; ring).
  f_equal. apply vec_ext; ring.
Qed.
Lemma lattice_add shear time bx by_ bz i j k i' j' k' :
  plus3 (lattice shear time bx by_ bz i j k) (lattice shear time bx by_ bz i' j' k') =
  lattice shear time bx by_ bz (i + i') (j + j') (k + k').
Proof. unfold lattice, plus3; cbn. rewrite !plus_IZR. apply vec_ext; ring. Qed.
Lemma plus_assoc a b c : plus3 (plus3 a b) c = plus3 a (plus3 b c).
Proof. destruct a, b, c. vring. Qed.
Lemma le_full shear time bx by_ bz : (0 < bx)%Z -> (0 < by_)%Z -> (0 < bz)%Z ->
  (forall p, in_box bx by_ bz (fst (le_image shear time bx by_ bz p))) /\
  (forall p, exists i j k, p = plus3 (fst (le_image shear time bx by_ bz p)) (lattice shear time bx by_ bz i j k) /\
     snd (le_image shear time bx by_ bz p) = - IZR j * (shear * IZR by_)) /\
  (forall q, in_box bx by_ bz q -> le_image shear time bx by_ bz q = (q, 0)) /\
  (forall p p', fst (le_image shear time bx by_ bz p) = fst (le_image shear time bx by_ bz p') <->
     exists i j k, p' = plus3 p (lattice shear time bx by_ bz i j k)) /\
  (forall p i j k, le_image shear time bx by_ bz (plus3 p (lattice shear time bx by_ bz i j k)) =
     (fst (le_image shear time bx by_ bz p), snd (le_image shear time bx by_ bz p) - IZR j * (shear * IZR by_))) /\
  (forall p, le_image_device (le_symbol shear by_) time bx by_ bz p = le_image shear time bx by_ bz p).
Proof.
  intros X Y Z.
  assert (A : forall p, exists i j k, p = plus3 (fst (le_image shear time bx by_ bz p)) (lattice shear time bx by_ bz i j k) /\
     snd (le_image shear time bx by_ bz p) = - IZR j * (shear * IZR by_)).
  { intros p. destruct (le_image shear time bx by_ bz p) as (q, corr) eqn:E. cbn [fst snd].
    destruct (le_spec _ _ _ _ _ _ _ _ X Y Z E) as (_ & H). exact H. }
  assert (B : forall p, in_box bx by_ bz (fst (le_image shear time bx by_ bz p))).
  { intros p. destruct (le_image shear time bx by_ bz p) as (q, corr) eqn:E. cbn [fst].
    destruct (le_spec _ _ _ _ _ _ _ _ X Y Z E) as (H & _). exact H. }
  assert (D : forall p i j k, le_image shear time bx by_ bz (plus3 p (lattice shear time bx by_ bz i j k)) =
     (fst (le_image shear time bx by_ bz p), snd (le_image shear time bx by_ bz p) - IZR j * (shear * IZR by_))).
  { intros p i j k. destruct (A p) as (i' & j' & k' & E & F).
    rewrite (le_unique shear time bx by_ bz _ (fst (le_image shear time bx by_ bz p)) (i' + i) (j' + j) (k' + k) X Y Z (B p)) by
      (rewrite <- lattice_add, <- plus_assoc, <- E; reflexivity).
    rewrite F, plus_IZR. f_equal. ring. }
  split; [exact B|]. split; [exact A|]. split; [|split; [|split; [exact D|reflexivity]]].
  - intros q Q. rewrite (le_unique shear time bx by_ bz q q 0 0 0) by
      (try assumption; destruct q; unfold plus3, lattice; cbn; apply vec_ext; ring).
    f_equal. ring.
  - intros p p'. split.
    + intros E. destruct (A p) as (i & j & k & E1 & _), (A p') as (i' & j' & k' & E2 & _).
      exists (i' - i)%Z, (j' - j)%Z, (k' - k)%Z. rewrite E2, E1, plus_assoc, lattice_add, <- E.
      do 2 f_equal; lia.
    + intros (i & j & k & ->). rewrite D. reflexivity.
Qed.

(** * Cell indices *)

Lemma w32_add a b : w32 (w32 a + b) = w32 (a + b).
Proof. unfold w32. apply Zplus_mod_idemp_l. Qed.
Lemma w32_mul a b : w32 (w32 a * b) = w32 (a * b).
Proof. unfold w32. apply Zmult_mod_idemp_l. Qed.
Lemma cell_index_eq p bx by_ :
  cell_index p bx by_ = w32 (Int_part (vz p) * bx * by_ + Int_part (vy p) * bx + Int_part (vx p)).
Proof.
  unfold cell_index, wadd, wmul. rewrite w32_mul, w32_add, <- Z.add_assoc, w32_add.
  rewrite Z.add_assoc, (Z.add_comm (_ * _ * _)), <- Z.add_assoc, w32_add. f_equal. ring.
Qed.
Lemma cell_index_spec p bx by_ bz i j k : (0 < bx)%Z -> (0 < by_)%Z -> (0 < bz)%Z -> (bx * by_ * bz <= 2 ^ 32)%Z ->
  in_box bx by_ bz p -> unit_cell p i j k ->
  (0 <= i < bx)%Z /\ (0 <= j < by_)%Z /\ (0 <= k < bz)%Z /\ cell_index p bx by_ = (i + bx * (j + by_ * k))%Z.
Proof.
  intros X Y Z L (Bx & By & Bz) (Ux & Uy & Uz).
  rewrite cell_index_eq, (Int_part_unique (vx p) i), (Int_part_unique (vy p) j), (Int_part_unique (vz p) k) by assumption.
  assert (G : forall x n b, 0 <= x < IZR b -> IZR n <= x < IZR n + 1 -> (0 <= n < b)%Z).
  { intros x n b P Q. assert (IZR n < IZR b) by lra. assert (0 < IZR n + 1) by lra.
    rewrite <- plus_IZR in H0. apply lt_IZR in H, H0. lia. }
  assert (Gi := G _ _ _ Bx Ux). assert (Gj := G _ _ _ By Uy). assert (Gk := G _ _ _ Bz Uz).
  repeat (split; [assumption|]). unfold w32.
  assert (J : (0 <= j + by_ * k <= by_ * bz - 1)%Z) by nia.
  assert (I : (0 <= i + bx * (j + by_ * k) <= bx * (by_ * bz) - 1)%Z) by nia.
  rewrite Z.mod_small by lia. ring.
Qed.
Lemma unit_cell_exists p : unit_cell p (Int_part (vx p)) (Int_part (vy p)) (Int_part (vz p)).
Proof. unfold unit_cell. auto using Int_part_bounds. Qed.
Lemma cell_index_full bx by_ bz : (0 < bx)%Z -> (0 < by_)%Z -> (0 < bz)%Z -> (bx * by_ * bz < 2 ^ 32)%Z ->
  cell_count bx by_ bz = (bx * by_ * bz)%Z /\
  (forall p, in_box bx by_ bz p -> (0 <= cell_index p bx by_ < cell_count bx by_ bz)%Z) /\
  (forall p q, in_box bx by_ bz p -> in_box bx by_ bz q ->
     (cell_index p bx by_ = cell_index q bx by_ <-> exists i j k, unit_cell p i j k /\ unit_cell q i j k)) /\
  (forall c, (0 <= c < cell_count bx by_ bz)%Z -> exists p, in_box bx by_ bz p /\ cell_index p bx by_ = c).
Proof.
  intros X Y Z L.
  assert (C : cell_count bx by_ bz = (bx * by_ * bz)%Z).
  { unfold cell_count, wmul. rewrite w32_mul. unfold w32. apply Z.mod_small. nia. }
  rewrite C. split; [reflexivity|]. split; [|split].
  - intros p B. destruct (cell_index_spec p bx by_ bz _ _ _ X Y Z ltac:(lia) B (unit_cell_exists p)) as (Hi & Hj & Hk & ->).
    set (i := Int_part (vx p)) in *. set (j := Int_part (vy p)) in *. set (k := Int_part (vz p)) in *. clearbody i j k.
    assert (0 <= j + by_ * k < by_ * bz)%Z by nia. nia.
  - intros p q Bp Bq.
    destruct (cell_index_spec p bx by_ bz _ _ _ X Y Z ltac:(lia) Bp (unit_cell_exists p)) as (Hi & Hj & Hk & ->).
    destruct (cell_index_spec q bx by_ bz _ _ _ X Y Z ltac:(lia) Bq (unit_cell_exists q)) as (Hi' & Hj' & Hk' & ->).
    split.
    + intros E.
      assert (E1 : Int_part (vx p) = Int_part (vx q) /\ (Int_part (vy p) + by_ * Int_part (vz p) = Int_part (vy q) + by_ * Int_part (vz q))%Z).
      { revert E. generalize (Int_part (vy p) + by_ * Int_part (vz p))%Z, (Int_part (vy q) + by_ * Int_part (vz q))%Z. intros a b E.
        destruct (Z.div_mod_unique bx a b (Int_part (vx p)) (Int_part (vx q))); try lia. }
      destruct E1 as (E1 & E2).
      assert (E3 : Int_part (vy p) = Int_part (vy q) /\ Int_part (vz p) = Int_part (vz q)).
      { destruct (Z.div_mod_unique by_ (Int_part (vz p)) (Int_part (vz q)) (Int_part (vy p)) (Int_part (vy q))); lia. }
      destruct E3 as (E3 & E4).
      exists (Int_part (vx p)), (Int_part (vy p)), (Int_part (vz p)). split; [apply unit_cell_exists|].
      rewrite E1, E3, E4. apply unit_cell_exists.
    + intros (i & j & k & (A1 & A2 & A3) & (B1 & B2 & B3)).
      rewrite (Int_part_unique _ _ A1), (Int_part_unique _ _ A2), (Int_part_unique _ _ A3),
        (Int_part_unique _ _ B1), (Int_part_unique _ _ B2), (Int_part_unique _ _ B3). reflexivity.
  - intros c Hc. set (i := (c mod bx)%Z). set (j := (c / bx mod by_)%Z). set (k := (c / bx / by_)%Z).
    assert (Hi := Z.mod_pos_bound c bx X). assert (Hj := Z.mod_pos_bound (c / bx) by_ Y). fold i in Hi. fold j in Hj.
    assert (Ec := Z.div_mod c bx ltac:(lia)). assert (Ec2 := Z.div_mod (c / bx) by_ ltac:(lia)). fold i in Ec. fold j k in Ec2.
    assert (Hk : (0 <= k < bz)%Z).
    { unfold k. rewrite Z.div_div by lia. split; [apply Z.div_pos; nia|apply Z.div_lt_upper_bound; nia]. }
    exists (Vec (IZR i) (IZR j) (IZR k)).
    assert (B : in_box bx by_ bz (Vec (IZR i) (IZR j) (IZR k))).
    { unfold in_box; cbn. repeat split; try (apply IZR_le; lia); apply IZR_lt; lia. }
    split; [exact B|].
    destruct (cell_index_spec (Vec (IZR i) (IZR j) (IZR k)) bx by_ bz i j k X Y Z ltac:(lia) B) as (_ & _ & _ & ->).
    + unfold unit_cell; cbn. lra.
    + transitivity (bx * (c / bx) + i)%Z; [rewrite Ec2; ring|symmetry; exact Ec].
Qed.

(** * Sums over particles *)

Lemma momentum_app l l' : total_momentum (l ++ l') = plus3 (total_momentum l) (total_momentum l').
Proof.
  unfold total_momentum. induction l as [|x l IH]; cbn.
  - destruct (vsum (map (fun x => times3 (fst x) (snd x)) l')). vring.
  - rewrite IH. destruct (vsum (map (fun x => times3 (fst x) (snd x)) l)), (vsum (map (fun x => times3 (fst x) (snd x)) l')).
    generalize (times3 (fst x) (snd x)). intros [? ? ?]. vring.
Qed.
Lemma rsum_app l l' : rsum (l ++ l') = rsum l + rsum l'.
Proof. induction l as [|x l IH]; cbn; [ring|]. rewrite IH. ring. Qed.
Lemma mass_app l l' : total_mass (l ++ l') = total_mass l + total_mass l'.
Proof. unfold total_mass. rewrite map_app. apply rsum_app. Qed.
Lemma linear_momentum f l : linear3 f ->
  total_momentum (map (fun x => (fst x, f (snd x))) l) = f (total_momentum l).
Proof.
  intros L. assert (L' := L). destruct L' as (A & M). unfold total_momentum. rewrite map_map. cbn [fst snd].
  induction l as [|x l IH]; cbn; [symmetry; apply (linear_zero f L)|]. rewrite IH, A, M. reflexivity.
Qed.
Lemma mass_map (f : R * vec -> vec) l : total_mass (map (fun x => (fst x, f x)) l) = total_mass l.
Proof. unfold total_mass. rewrite map_map. reflexivity. Qed.
Definition centre_velocity (l : list (R * vec)) : vec := times3 (/ total_mass l) (total_momentum l).
Lemma momentum_shift l V : total_momentum (map (fun x => (fst x, plus3 (snd x) V)) l) =
  plus3 (total_momentum l) (times3 (total_mass l) V).
Proof.
  unfold total_momentum, total_mass. rewrite map_map. cbn [fst snd]. induction l as [|x l IH]; cbn.
  - destruct V. vring.
  - rewrite IH. destruct V, (snd x), (vsum (map (fun x => times3 (fst x) (snd x)) l)). vring.
Qed.
Lemma momentum_relative l : total_mass l <> 0 ->
  total_momentum (map (fun x => (fst x, minus3 (snd x) (centre_velocity l))) l) = zero3.
Proof.
  intros M. 
  transitivity (total_momentum (map (fun x => (fst x, plus3 (snd x) (times3 (-1) (centre_velocity l)))) l)).
  - f_equal. apply map_ext. intros x. f_equal. destruct (snd x), (centre_velocity l). vring.
  - rewrite momentum_shift. unfold centre_velocity. destruct (total_momentum l). vunfold. apply vec_ext; field; exact M.
Qed.
Definition collided (f : vec -> vec) (l : list (R * vec)) : list (R * vec) :=
  map (fun x => (fst x, plus3 (f (minus3 (snd x) (centre_velocity l))) (centre_velocity l))) l.
Lemma collided_momentum f l : linear3 f -> total_mass l <> 0 -> total_momentum (collided f l) = total_momentum l.
Proof.
  intros L M. unfold collided.
  transitivity (total_momentum (map (fun x => (fst x, plus3 (snd x) (centre_velocity l)))
    (map (fun x => (fst x, f (snd x))) (map (fun x => (fst x, minus3 (snd x) (centre_velocity l))) l)))).
  - rewrite !map_map. reflexivity.
  - rewrite momentum_shift, linear_momentum, momentum_relative, (linear_zero f L) by assumption.
    rewrite (mass_map (fun x => f (snd x))), (mass_map (fun x => minus3 (snd x) (centre_velocity l))).
    unfold centre_velocity. destruct (total_momentum l). vunfold. apply vec_ext; field; exact M.
Qed.
Lemma collided_mass f l : total_mass (collided f l) = total_mass l.
Proof. unfold collided. apply (mass_map (fun x => plus3 (f (minus3 (snd x) (centre_velocity l))) (centre_velocity l))). Qed.
Lemma collided_internal f s l : linear3 f -> (forall v, dot3 (f v) (f v) = s * dot3 v v) -> total_mass l <> 0 ->
  internal (collided f l) = s * internal l.
Proof.
  intros L D M. unfold internal at 1. cbv zeta. rewrite collided_mass, collided_momentum by assumption.
  change (times3 (/ total_mass l) (total_momentum l)) with (centre_velocity l).
  unfold collided. rewrite map_map. cbn [fst snd]. unfold internal. cbv zeta.
  change (times3 (/ total_mass l) (total_momentum l)) with (centre_velocity l).
  generalize (centre_velocity l). intros V. clear M. induction l as [|x l IH]; cbn; [ring|]. rewrite IH.
  replace (minus3 (plus3 (f (minus3 (snd x) V)) V) V) with (f (minus3 (snd x) V)).
  - rewrite D. field.
  - destruct (f (minus3 (snd x) V)), V. vring.
Qed.
Lemma koenig l : total_mass l <> 0 ->
  kinetic l = internal l + total_mass l * dot3 (centre_velocity l) (centre_velocity l) / 2.
Proof.
  intros M. assert (E : forall V, kinetic l =
    rsum (map (fun x => fst x * dot3 (minus3 (snd x) V) (minus3 (snd x) V) / 2) l)
    + dot3 V (total_momentum l) - total_mass l * dot3 V V / 2).
  { intros V. unfold kinetic, total_momentum, total_mass. clear M. induction l as [|x l IH]; cbn.
    - destruct V. vunfold. field.
    - rewrite IH. destruct V, (snd x), (vsum (map (fun x => times3 (fst x) (snd x)) l)). vunfold. field. }
  rewrite (E (centre_velocity l)). unfold internal. cbv zeta.
  change (times3 (/ total_mass l) (total_momentum l)) with (centre_velocity l).
  assert (F : dot3 (centre_velocity l) (total_momentum l) = total_mass l * dot3 (centre_velocity l) (centre_velocity l)).
  { unfold centre_velocity. destruct (total_momentum l). vunfold. field. exact M. }
  rewrite F. field.
Qed.
Lemma collided_kinetic f l : linear3 f -> (forall v, dot3 (f v) (f v) = dot3 v v) -> total_mass l <> 0 ->
  kinetic (collided f l) = kinetic l.
Proof.
  intros L D M. rewrite (koenig l M), koenig by (rewrite collided_mass; exact M).
  rewrite (collided_internal f 1) by (try assumption; intros; rewrite D; ring).
  unfold centre_velocity. rewrite collided_mass, collided_momentum by assumption. ring.
Qed.

(** * The collision step *)

(** All particles with their masses; those with a given cell index. *)
Definition flat (l : list species) : list (R * part) := flat_map (fun s => map (pair (fst s)) (snd s)) l.
Definition in_cell (c : Z) (l : list (R * part)) : list (R * part) :=
  filter (fun x => Z.eqb (p_idx (snd x)) c) l.
Definition vels (l : list (R * part)) : list (R * vec) := map (fun x => (fst x, p_vel (snd x))) l.
Lemma in_cell_app c l l' : in_cell c (l ++ l') = in_cell c l ++ in_cell c l'.
Proof. unfold in_cell. induction l as [|x l IH]; cbn; [reflexivity|]. destruct (Z.eqb (p_idx (snd x)) c); cbn; rewrite IH; reflexivity. Qed.
Lemma vels_app l l' : vels (l ++ l') = vels l ++ vels l'.
Proof. apply map_app. Qed.
Lemma flat_each f l : flat (each f l) = map (fun x => (fst x, f (snd x))) (flat l).
Proof.
  unfold flat, each. induction l as [|s l IH]; cbn; [reflexivity|]. rewrite IH, map_app, !map_map. reflexivity.
Qed.
Lemma in_cell_map c f l : (forall p, p_idx (f p) = p_idx p) ->
  in_cell c (map (fun x => (fst x, f (snd x))) l) = map (fun x => (fst x, f (snd x))) (in_cell c l).
Proof.
  intros H. unfold in_cell. induction l as [|x l IH]; cbn; [reflexivity|]. rewrite H.
  destruct (Z.eqb (p_idx (snd x)) c); cbn; rewrite IH; reflexivity.
Qed.
Lemma each_each f g l : each f (each g l) = each (fun p => f (g p)) l.
Proof. unfold each. rewrite map_map. apply map_ext. intros s. cbn. rewrite map_map. reflexivity. Qed.

Lemma contribute_list m ps : forall PM c,
  fst (fold_left (contribute m) ps PM) c = plus3 (fst PM c) (total_momentum (vels (in_cell c (map (pair m) ps)))) /\
  snd (fold_left (contribute m) ps PM) c = snd PM c + total_mass (vels (in_cell c (map (pair m) ps))).
Proof.
  induction ps as [|p ps IH]; intros PM c.
  - cbn. split; [destruct (fst PM c); vring|ring].
  - cbn [fold_left map]. destruct (IH (contribute m PM p) c) as (A & B). rewrite A, B. clear A B IH.
    unfold contribute. cbn [fst snd]. unfold upd. cbn [in_cell filter snd]. fold (in_cell c (map (pair m) ps)).
    destruct (Z.eqb c (p_idx p)) eqn:E.
    + apply Z.eqb_eq in E. subst c. rewrite Z.eqb_refl. cbn [vels map fst snd]. fold (vels (in_cell (p_idx p) (map (pair m) ps))).
      unfold total_momentum, total_mass. cbn [map vsum rsum fst snd]. split; [|ring].
      destruct (fst PM (p_idx p)), (p_vel p), (vsum (map (fun x => times3 (fst x) (snd x)) (vels (in_cell (p_idx p) (map (pair m) ps))))).
      vring.
    + rewrite Z.eqb_sym, E. split; reflexivity.
Qed.
Lemma contributions_spec l : forall PM c,
  fst (fold_left contributions l PM) c = plus3 (fst PM c) (total_momentum (vels (in_cell c (flat l)))) /\
  snd (fold_left contributions l PM) c = snd PM c + total_mass (vels (in_cell c (flat l))).
Proof.
  induction l as [|s l IH]; intros PM c.
  - cbn. split; [destruct (fst PM c); vring|ring].
  - cbn [fold_left]. destruct (IH (contributions PM s) c) as (A & B). rewrite A, B. clear A B IH.
    unfold contributions at 1 2. destruct (contribute_list (fst s) (snd s) PM c) as (A & B). rewrite A, B.
    cbn [flat flat_map]. fold (flat l). rewrite in_cell_app, vels_app, momentum_app, mass_app.
    split; [|ring].
    destruct (fst PM c), (total_momentum (vels (in_cell c (map (pair (fst s)) (snd s))))), (total_momentum (vels (in_cell c (flat l)))).
    vring.
Qed.
(** Velocities relative to the cells, before and after the rotation. *)
Definition rel_energy (PM : cells) (c : Z) (l : list (R * part)) : R :=
  rsum (map (fun x => fst x * vmag2 (vsub (p_vel (snd x)) (com_velocity PM c)) / 2) (in_cell c l)).
Definition rotated (cf : config) (PM : cells) (p : part) : part :=
  with_vel p (vrotate (axes cf (p_idx p)) (angle cf) (vsub (p_vel p) (com_velocity PM (p_idx p)))).
Lemma step1_list_spec cf PM m ps : forall EN,
  fst (step1_list cf PM m ps EN) = map (rotated cf PM) ps /\
  forall c, fst (snd (step1_list cf PM m ps EN)) c = fst EN c + rel_energy PM c (map (pair m) ps) /\
            snd (snd (step1_list cf PM m ps EN)) c = (snd EN c + length (in_cell c (map (pair m) ps)))%nat.
Proof.
  induction ps as [|p ps IH]; intros EN.
  - cbn. split; [reflexivity|]. intros c. unfold rel_energy. cbn. split; [ring|lia].
  - cbn [step1_list map]. unfold step1_particle. cbv zeta.
    set (EN1 := (upd (fst EN) _ _, upd (snd EN) _ _)). specialize (IH EN1).
    destruct (step1_list cf PM m ps EN1) as (ps', EN2). cbn [fst snd] in *. destruct IH as (-> & IH).
    split; [reflexivity|]. intros c. destruct (IH c) as (-> & ->). subst EN1. cbn [fst snd]. unfold upd, rel_energy.
    cbn [in_cell filter snd]. fold (in_cell c (map (pair m) ps)).
    destruct (Z.eqb c (p_idx p)) eqn:E.
    + apply Z.eqb_eq in E. subst c. rewrite Z.eqb_refl. cbn [map rsum fst snd length]. split; [ring|lia].
    + rewrite Z.eqb_sym, E. split; reflexivity.
Qed.
Lemma step1_spec cf PM l : forall EN,
  fst (step1 cf PM l EN) = each (rotated cf PM) l /\
  forall c, fst (snd (step1 cf PM l EN)) c = fst EN c + rel_energy PM c (flat l) /\
            snd (snd (step1 cf PM l EN)) c = (snd EN c + length (in_cell c (flat l)))%nat.
Proof.
  induction l as [|s l IH]; intros EN.
  - cbn. split; [reflexivity|]. intros c. unfold rel_energy. cbn. split; [ring|lia].
  - cbn [step1]. destruct (step1_list_spec cf PM (fst s) (snd s) EN) as (A & B).
    destruct (step1_list cf PM (fst s) (snd s) EN) as (ps, EN1). cbn [fst snd] in A, B. subst ps.
    destruct (IH EN1) as (C & D). destruct (step1 cf PM l EN1) as (l', EN2). cbn [fst snd] in *. subst l'.
    split; [reflexivity|]. intros c. destruct (D c) as (-> & ->). destruct (B c) as (-> & ->).
    cbn [flat flat_map]. fold (flat l). unfold rel_energy. rewrite in_cell_app, map_app, rsum_app, app_length. split; [ring|lia].
Qed.

Lemma sort_seen cf p : p_vel (sort_particle cf p) = seen cf p /\ p_idx (sort_particle cf p) = cell cf p /\
  p_pos (sort_particle cf p) = p_pos p /\ p_corr (sort_particle cf p) = snd (image_of cf p).
Proof.
  unfold sort_particle, seen, cell, image_of. change vadd with plus3.
  destruct (le_image _ _ _ _ _ _) as (q, corr). cbn [p_vel p_idx p_pos p_corr fst snd].
  split; [|auto]. destruct (p_vel p). unfold plus3; cbn. apply vec_ext; ring.
Qed.
Lemma seen_undo cf p v : seen cf (Part (p_pos p) v (p_corr p) (p_idx p)) = plus3 v (Vec (snd (image_of cf p)) 0 0).
Proof. reflexivity. Qed.
Lemma content_flat cf c l : in_cell c (flat (each (sort_particle cf) l)) = map (fun x => (fst x, sort_particle cf (snd x))) (content cf c l).
Proof.
  rewrite flat_each. unfold content. fold (flat l). generalize (flat l). intros L. unfold in_cell.
  induction L as [|x L IH]; [reflexivity|]. cbn [map filter snd].
  destruct (sort_seen cf (snd x)) as (_ & -> & _). destruct (Z.eqb (cell cf (snd x)) c); cbn [map]; rewrite IH; reflexivity.
Qed.
Lemma content_vels cf c l : vels (in_cell c (flat (each (sort_particle cf) l))) = comoving cf (content cf c l).
Proof.
  rewrite content_flat. unfold vels, comoving. rewrite map_map. apply map_ext. intros x. cbn [fst snd].
  destruct (sort_seen cf (snd x)) as (-> & _). reflexivity.
Qed.
Lemma vdivs_times v k : vdivs v k = times3 (/ k) v.
Proof. destruct v. unfold vdivs, times3, Rdiv; cbn. apply vec_ext; ring. Qed.

(** What the whole step does to a particle. *)
Definition outcome (cf : config) (PM : cells) (s : Z -> R) (p : part) : part :=
  undo_particle (step2_particle PM s (rotated cf PM (sort_particle cf p))).
Lemma collide_all_eq cf l : exists PM EN,
  collide_all cf l = each (outcome cf PM (scalings cf EN)) l /\
  (forall c, com_velocity PM c = centre_velocity (comoving cf (content cf c l))) /\
  (forall c, fst EN c = internal (comoving cf (content cf c l))) /\
  (forall c, snd EN c = length (content cf c l)).
Proof.
  set (l1 := each (sort_particle cf) l).
  set (PM := fold_left contributions l1 ((fun _ => Vec 0 0 0), (fun _ => 0))).
  destruct (step1_spec cf PM l1 ((fun _ => 0), (fun _ => O))) as (A & B).
  unfold collide_all. fold l1. fold PM. destruct (step1 cf PM l1 ((fun _ => 0), (fun _ => O))) as (l2, EN).
  cbn [fst snd] in A, B. exists PM, EN.
  assert (C : forall c, com_velocity PM c = centre_velocity (comoving cf (content cf c l))).
  { intros c. destruct (contributions_spec l1 ((fun _ => Vec 0 0 0), (fun _ => 0)) c) as (P & M). fold PM in P, M. cbn [fst snd] in P, M.
    unfold l1 in P, M. rewrite content_vels in P, M. unfold com_velocity, centre_velocity. rewrite P, M, vdivs_times.
    rewrite Rplus_0_l. f_equal. destruct (total_momentum (comoving cf (content cf c l))). vring. }
  split; [|split; [exact C|split]].
  - subst l2. unfold l1. rewrite !each_each. reflexivity.
  - intros c. destruct (B c) as (-> & _). rewrite Rplus_0_l. unfold rel_energy, l1. rewrite content_flat, map_map, C.
    unfold internal. cbv zeta. fold (centre_velocity (comoving cf (content cf c l))).
    generalize (centre_velocity (comoving cf (content cf c l))). intros V.
    unfold comoving. rewrite map_map. f_equal. apply map_ext. intros x. cbn [fst snd].
    destruct (sort_seen cf (snd x)) as (-> & _). reflexivity.
  - intros c. destruct (B c) as (_ & ->). unfold l1. rewrite content_flat, map_length. reflexivity.
Qed.
Lemma outcome_facts cf PM s p :
  p_pos (outcome cf PM s p) = p_pos p /\
  seen cf (outcome cf PM s p) =
    plus3 (times3 (s (cell cf p)) (vrotate (axes cf (cell cf p)) (angle cf) (minus3 (seen cf p) (com_velocity PM (cell cf p)))))
          (com_velocity PM (cell cf p)) /\
  p_vel (outcome cf PM s p) = minus3 (seen cf (outcome cf PM s p)) (Vec (snd (image_of cf p)) 0 0).
Proof.
  destruct (sort_seen cf p) as (V & I & P & C).
  assert (Pos : p_pos (outcome cf PM s p) = p_pos p) by (cbn; exact P).
  assert (Im : image_of cf (outcome cf PM s p) = image_of cf p) by (unfold image_of; rewrite Pos; reflexivity).
  split; [exact Pos|].
  assert (S0 : seen cf (outcome cf PM s p) = plus3 (times3 (s (cell cf p)) (vrotate (axes cf (cell cf p)) (angle cf) (minus3 (seen cf p) (com_velocity PM (cell cf p)))))
          (com_velocity PM (cell cf p))).
  { unfold seen at 1. rewrite Im. unfold outcome, undo_particle, step2_particle, rotated. cbn [with_vel p_vel p_idx p_corr p_pos].
    rewrite V, I, C. change vsub with minus3.
    destruct (vrotate (axes cf (cell cf p)) (angle cf) (minus3 (seen cf p) (com_velocity PM (cell cf p)))), (com_velocity PM (cell cf p)).
    vring. }
  split; [exact S0|]. unfold seen. rewrite Im. destruct (p_vel (outcome cf PM s p)). vring.
Qed.
Lemma content_each cf c F l : (forall p, p_pos (F p) = p_pos p) ->
  content cf c (each F l) = map (fun x => (fst x, F (snd x))) (content cf c l).
Proof.
  intros H. unfold content. fold (flat (each F l)). rewrite flat_each. fold (flat l). generalize (flat l). intros L.
  induction L as [|x L IH]; [reflexivity|]. cbn [map filter snd].
  assert (E : cell cf (F (snd x)) = cell cf (snd x)) by (unfold cell, image_of; rewrite H; reflexivity).
  rewrite E. destruct (Z.eqb (cell cf (snd x)) c); cbn [map]; rewrite IH; reflexivity.
Qed.
Lemma content_cell cf c l x : In x (content cf c l) -> cell cf (snd x) = c.
Proof. unfold content. intros H. apply filter_In in H. destruct H as (_ & H). apply Z.eqb_eq, H. Qed.
Definition turn (cf : config) (s : Z -> R) (c : Z) (v : vec) : vec := times3 (s c) (vrotate (axes cf c) (angle cf) v).
Lemma outcome_comoving cf PM s c l :
  com_velocity PM c = centre_velocity (comoving cf (content cf c l)) ->
  comoving cf (content cf c (each (outcome cf PM s) l)) = collided (turn cf s c) (comoving cf (content cf c l)).
Proof.
  intros V. rewrite content_each by (intros p; apply outcome_facts). unfold collided. rewrite <- V.
  unfold comoving. rewrite !map_map. apply map_ext_in. intros x H. cbn [fst snd].
  destruct (outcome_facts cf PM s (snd x)) as (_ & -> & _). rewrite (content_cell _ _ _ _ H). reflexivity.
Qed.
Lemma lab_momentum cf l : total_momentum (lab l) =
  minus3 (total_momentum (comoving cf l)) (Vec (rsum (map (fun x => fst x * snd (image_of cf (snd x))) l)) 0 0).
Proof.
  unfold lab, comoving, total_momentum. rewrite !map_map. cbn [fst snd]. induction l as [|x l IH]; cbn [map vsum rsum].
  - vring.
  - rewrite IH. destruct (vsum (map (fun x => times3 (fst x) (seen cf (snd x))) l)).
    generalize (rsum (map (fun x => fst x * snd (image_of cf (snd x))) l)). intros r.
    unfold seen. generalize (snd (image_of cf (snd x))). intros d. destruct (p_vel (snd x)). vring.
Qed.
Lemma turn_linear cf s c : linear3 (turn cf s c).
Proof.
  destruct (rotate_linear (axes cf c) (cos (angle cf)) (sin (angle cf))) as (A & M). split.
  - intros a b. unfold turn, vrotate. rewrite A. destruct (vrotate_cs (axes cf c) a (cos (angle cf)) (sin (angle cf))), (vrotate_cs (axes cf c) b (cos (angle cf)) (sin (angle cf))). vring.
  - intros k a. unfold turn, vrotate. rewrite M. destruct (vrotate_cs (axes cf c) a (cos (angle cf)) (sin (angle cf))). vring.
Qed.
Lemma turn_length cf s c v : unit3 (axes cf c) -> dot3 (turn cf s c v) (turn cf s c v) = s c * s c * dot3 v v.
Proof.
  intros U. destruct (vrotate_rigid (axes cf c) (angle cf) U) as (_ & D & _). rewrite <- (D v v). unfold turn.
  destruct (vrotate (axes cf c) (angle cf) v). vunfold. ring.
Qed.
Lemma mass_positive (l : list (R * part)) cf : (forall x, In x l -> 0 < fst x) -> l <> [] -> 0 < total_mass (comoving cf l).
Proof.
  intros H N. unfold total_mass, comoving. rewrite map_map. cbn [fst].
  assert (G : forall l : list (R * part), (forall x, In x l -> 0 < fst x) -> 0 <= rsum (map (fun x => fst x) l)).
  { clear. induction l as [|x l IH]; cbn; intros H; [lra|]. assert (0 < fst x) by auto.
    assert (0 <= rsum (map (fun x => fst x) l)) by auto. lra. }
  destruct l as [|x l]; [congruence|]. cbn. assert (0 < fst x) by (apply H; left; reflexivity).
  assert (0 <= rsum (map (fun x => fst x) l)) by (apply G; intros; apply H; right; assumption). lra.
Qed.
Definition positive (l : list species) := forall s, In s l -> 0 < fst s.
Lemma content_positive cf c l x : positive l -> In x (content cf c l) -> 0 < fst x.
Proof.
  intros H I. unfold content in I. apply filter_In in I. destruct I as (I & _). apply in_flat_map in I.
  destruct I as (s & I & J). apply in_map_iff in J. destruct J as (p & <- & _). apply H, I.
Qed.
Lemma collided_id l : collided (fun v => v) l = l.
Proof.
  unfold collided. generalize (centre_velocity l). intros V. induction l as [|x l IH]; [reflexivity|]. cbn [map]. rewrite IH.
  f_equal. destruct x as (m, v). cbn. f_equal. destruct v, V. vring.
Qed.
(** What happens to the cells, if anything happens. *)
Lemma collide_all_cells cf l :
  exists F, collide_all cf l = each F l /\ (forall p, p_pos (F p) = p_pos p) /\
    forall c, exists s, comoving cf (content cf c (each F l)) = collided (turn cf (fun _ => s) c) (comoving cf (content cf c l)) /\
      (targetkT cf = 0 \/ (length (content cf c l) < 2)%nat \/ internal (comoving cf (content cf c l)) = 0 -> s = 1) /\
      (targetkT cf <> 0 -> (2 <= length (content cf c l))%nat -> internal (comoving cf (content cf c l)) <> 0 ->
       s = sqrt (drawn cf c / internal (comoving cf (content cf c l)))).
Proof.
  destruct (collide_all_eq cf l) as (PM & EN & E & V & K & N).
  exists (outcome cf PM (scalings cf EN)). split; [exact E|]. split; [intros p; apply outcome_facts|].
  intros c. exists (scalings cf EN c). split.
  - rewrite outcome_comoving by apply V. reflexivity.
  - unfold scalings. rewrite K, N. destruct (Req_EM_T (targetkT cf) 0) as [T|T].
    + split; [reflexivity|]. intros X; contradiction.
    + destruct (Nat.ltb_spec (length (content cf c l)) 2).
      * split; [reflexivity|]. intros _ X. lia.
      * destruct (Req_EM_T (internal (comoving cf (content cf c l))) 0) as [I|I].
        -- split; [reflexivity|]. intros _ _ X. contradiction.
        -- split; [|reflexivity]. intros [X|[X|X]]; [contradiction|lia|contradiction].
Qed.
(** The step changes velocities only, by a linear map of the relative velocities of each cell. *)
Lemma collide_cells cf l :
  exists F, collide cf l = each F l /\ (forall p, p_pos (F p) = p_pos p) /\
    forall c, exists f s, linear3 f /\ (unit3 (axes cf c) -> forall v, dot3 (f v) (f v) = s * s * dot3 v v) /\
      comoving cf (content cf c (each F l)) = collided f (comoving cf (content cf c l)) /\
      (targetkT cf = 0 \/ (length (content cf c l) < 2)%nat \/ internal (comoving cf (content cf c l)) = 0 -> s = 1) /\
      (targetkT cf <> 0 -> (2 <= length (content cf c l))%nat -> internal (comoving cf (content cf c l)) <> 0 ->
       s = sqrt (drawn cf c / internal (comoving cf (content cf c l)))).
Proof.
  assert (G : (collide cf l = collide_all cf l \/ (collide cf l = l /\ (targetkT cf = 0 \/ l = [])))).
  { unfold collide. destruct l as [|x l]; [right; auto|].
    destruct (Req_EM_T (angle cf) 0); [|auto]. destruct (Req_EM_T (targetkT cf) 0); auto. }
  destruct G as [G|(G & T)].
  - rewrite G. destruct (collide_all_cells cf l) as (F & E & P & A). exists F. split; [exact E|]. split; [exact P|].
    intros c. destruct (A c) as (s & B). exists (turn cf (fun _ => s) c), s.
    split; [apply turn_linear|]. split; [intros U v; apply turn_length, U|exact B].
  - rewrite G. exists (fun p => p). assert (EI : each (fun p => p) l = l).
    { unfold each. clear. induction l as [|s l IH]; [reflexivity|]. cbn [map]. rewrite IH, map_id. destruct s; reflexivity. }
    split; [symmetry; exact EI|]. split; [reflexivity|]. intros c. exists (fun v => v), 1.
    split; [split; reflexivity|]. split; [intros _ v; ring|]. rewrite EI, collided_id. split; [reflexivity|]. split; [reflexivity|].
    intros X Y. destruct T as [T| ->]; [contradiction|]. cbn in Y. lia.
Qed.
Lemma collided_nil f : collided f [] = [].
Proof. reflexivity. Qed.
Lemma collide_momentum cf l c : (forall s, In s l -> 0 < fst s) ->
  total_momentum (lab (content cf c (collide cf l))) = total_momentum (lab (content cf c l)).
Proof.
  intros H. destruct (collide_cells cf l) as (F & -> & P & A). destruct (A c) as (f & s & L & _ & E & _).
  rewrite !(lab_momentum cf), E.
  assert (EM : total_momentum (collided f (comoving cf (content cf c l))) = total_momentum (comoving cf (content cf c l))).
  { destruct (content cf c l) as [|x r] eqn:EC; [reflexivity|]. apply collided_momentum; [exact L|].
    apply Rgt_not_eq. apply mass_positive; [|congruence]. rewrite <- EC. intros y Hy. exact (content_positive cf c l y H Hy). }
  rewrite EM. f_equal. do 2 f_equal. rewrite content_each by exact P. rewrite map_map. apply map_ext. intros x. cbn [fst snd].
  unfold image_of. rewrite P. reflexivity.
Qed.
Lemma collide_positions cf l :
  map (fun s => (fst s, map p_pos (snd s))) (collide cf l) = map (fun s => (fst s, map p_pos (snd s))) l.
Proof.
  destruct (collide_cells cf l) as (F & -> & P & _). unfold each. rewrite map_map. apply map_ext. intros s. cbn [fst snd].
  rewrite map_map. f_equal. apply map_ext, P.
Qed.
Lemma collide_energy cf l c : (forall s, In s l -> 0 < fst s) -> unit3 (axes cf c) -> targetkT cf = 0 ->
  kinetic (comoving cf (content cf c (collide cf l))) = kinetic (comoving cf (content cf c l)).
Proof.
  intros H U T. destruct (collide_cells cf l) as (F & -> & P & A). destruct (A c) as (f & s & L & D & E & S1 & _).
  rewrite E. destruct (content cf c l) as [|x r] eqn:EC; [reflexivity|].
  apply collided_kinetic; [exact L| |].
  - intros v. rewrite (D U), S1 by auto. ring.
  - apply Rgt_not_eq. apply mass_positive; [|congruence]. rewrite <- EC. intros y Hy. exact (content_positive cf c l y H Hy).
Qed.
Lemma collide_internal cf l c : (forall s, In s l -> 0 < fst s) -> unit3 (axes cf c) ->
  (targetkT cf = 0 \/ (length (content cf c l) < 2)%nat \/ internal (comoving cf (content cf c l)) = 0 ->
   internal (comoving cf (content cf c (collide cf l))) = internal (comoving cf (content cf c l))) /\
  (targetkT cf <> 0 -> (2 <= length (content cf c l))%nat -> internal (comoving cf (content cf c l)) <> 0 -> 0 <= drawn cf c ->
   internal (comoving cf (content cf c (collide cf l))) = drawn cf c).
Proof.
  intros H U. destruct (collide_cells cf l) as (F & -> & P & A). destruct (A c) as (f & s & L & D & E & S1 & S2).
  rewrite E. destruct (content cf c l) as [|x r] eqn:EC.
  { split; [reflexivity|]. cbn. intros _ X. lia. }
  rewrite <- EC in *.
  assert (M : 0 < total_mass (comoving cf (content cf c l))).
  { apply mass_positive; [|congruence]. intros y Hy. exact (content_positive cf c l y H Hy). }
  rewrite (collided_internal f (s * s)) by (auto; apply Rgt_not_eq, M). split.
  - intros X. rewrite S1 by exact X. ring.
  - intros T N I G. rewrite (S2 T N I). rewrite sqrt_sqrt; [field; exact I|].
    assert (0 <= internal (comoving cf (content cf c l))).
    { unfold internal. cbv zeta. clear - H. 
      generalize (times3 (/ total_mass (comoving cf (content cf c l))) (total_momentum (comoving cf (content cf c l)))). intros V.
      assert (Q : forall y, In y (comoving cf (content cf c l)) -> 0 < fst y).
      { intros y I. unfold comoving in I. apply in_map_iff in I. destruct I as (z & <- & I). cbn. apply (content_positive _ _ _ _ H I). }
      induction (comoving cf (content cf c l)) as [|y r IH]; cbn [map rsum]; [lra|].
      assert (0 < fst y) by (apply Q; left; reflexivity).
      assert (0 <= dot3 (minus3 (snd y) V) (minus3 (snd y) V)) by apply dot_self_nonneg.
      assert (0 <= rsum (map (fun x => fst x * dot3 (minus3 (snd x) V) (minus3 (snd x) V) / 2) r)) by (apply IH; intros; apply Q; right; assumption).
      nra. }
    apply Rmult_le_pos; [exact G|]. left. apply Rinv_0_lt_compat. lra.
Qed.
Lemma collide_alone cf l c m p : (forall s, In s l -> 0 < fst s) -> content cf c l = [(m, p)] ->
  exists p', content cf c (collide cf l) = [(m, p')] /\ p_pos p' = p_pos p /\ p_vel p' = p_vel p.
Proof.
  intros H EC. assert (Mm := collide_momentum cf l c H).
  destruct (collide_cells cf l) as (F & E & P & _). rewrite E in *. rewrite content_each, EC in * by exact P.
  cbn [map fst snd] in *. exists (F p). split; [reflexivity|]. split; [apply P|].
  assert (Hm : 0 < m). { apply (content_positive cf c l (m, p) H). rewrite EC. left. reflexivity. }
  unfold lab, total_momentum in Mm. cbn in Mm. destruct (p_vel (F p)) as [a b d], (p_vel p) as [a' b' d']. cbn in Mm.
  unfold times3, plus3, zero3 in Mm. cbn in Mm. apply vec_inj in Mm. destruct Mm as (X & Y & Z).
  apply vec_ext; apply (Rmult_eq_reg_l m); lra.
Qed.
Lemma collide_turns : forall cf l, angle cf <> 0 ->
  exists F, collide cf l = each F l /\ (forall p, p_pos (F p) = p_pos p) /\
    forall c, exists s, (targetkT cf = 0 -> s = 1) /\
      let V := times3 (/ total_mass (comoving cf (content cf c l))) (total_momentum (comoving cf (content cf c l))) in
      comoving cf (content cf c (collide cf l)) =
      map (fun x => (fst x, plus3 (times3 s (vrotate (axes cf c) (angle cf) (minus3 (snd x) V))) V)) (comoving cf (content cf c l)).
Proof.
  intros cf l A. destruct l as [|x l].
  - exists (fun p => p). split; [reflexivity|]. split; [reflexivity|]. intros c. exists 1. split; reflexivity.
  - replace (collide cf (x :: l)) with (collide_all cf (x :: l)).
    + destruct (collide_all_cells cf (x :: l)) as (F & E & P & B). exists F. split; [exact E|]. split; [exact P|].
      intros c. destruct (B c) as (s & D & S1 & _). exists s. split; [auto|]. rewrite E, D. reflexivity.
    + unfold collide. destruct (Req_EM_T (angle cf) 0); [contradiction|reflexivity].
Qed.
