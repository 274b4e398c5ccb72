(** Theorems about boundary conditions, collision cells and the collision step. *)
From Coq Require Import List ZArith Bool Reals Lra Lia.
From Verif Require Import PyBase VecBase VecModel VecSpec VecProof PartSpec SimModel SimSpec SimProof.
Import ListNotations.
Open Scope R_scope.

(** C45: images lie in the primary volume, differ from the position by a vector of the
    sheared lattice, and are the same exactly for positions that differ by such a
    vector; positions in the primary volume are their own images; the velocity correction
    counts the layers crossed; and the device code computes the same. *)
Theorem lees_edwards_images : forall shear time bx by_ bz, (0 < bx)%Z -> (0 < by_)%Z -> (0 < bz)%Z ->
  (forall p, in_box bx by_ bz (fst (le_image shear time bx by_ bz p))) /\
  (forall p, exists i j k, p = plus3 (fst (le_image shear time bx by_ bz p)) (lattice shear time bx by_ bz i j k) /\
     snd (le_image shear time bx by_ bz p) = - IZR j * (shear * IZR by_)) /\
  (forall q, in_box bx by_ bz q -> le_image shear time bx by_ bz q = (q, 0)) /\
  (forall p p', fst (le_image shear time bx by_ bz p) = fst (le_image shear time bx by_ bz p') <->
     exists i j k, p' = plus3 p (lattice shear time bx by_ bz i j k)) /\
  (forall p i j k, le_image shear time bx by_ bz (plus3 p (lattice shear time bx by_ bz i j k)) =
     (fst (le_image shear time bx by_ bz p), snd (le_image shear time bx by_ bz p) - IZR j * (shear * IZR by_))) /\
  (forall p, le_image_device (le_symbol shear by_) time bx by_ bz p = le_image shear time bx by_ bz p).
Proof. exact le_full. Qed.
Print Assumptions lees_edwards_images.
Example lees_edwards_example :
  le_image (1/10) 3 10 20 30 (Vec 5 (-1) 31) = (Vec 1 19 1, 2).
Proof.
  rewrite (le_unique (1/10) 3 10 20 30 (Vec 5 (-1) 31) (Vec 1 19 1) 1 (-1) 1); try reflexivity.
  - f_equal. field.
  - unfold in_box; cbn; lra.
  - unfold plus3, lattice; cbn. apply vec_ext; field.
Qed.

(** C46: for fewer than 2^32 cells, the index of a position in the primary volume is
    smaller than the number of cells, is shared exactly by the positions in the same unit
    cell, and all indices occur. *)
Theorem cell_indices : forall bx by_ bz, (0 < bx)%Z -> (0 < by_)%Z -> (0 < bz)%Z -> (bx * by_ * bz < 2 ^ 32)%Z ->
  cell_count bx by_ bz = (bx * by_ * bz)%Z /\
  (forall p, in_box bx by_ bz p -> (0 <= cell_index p bx by_ < cell_count bx by_ bz)%Z) /\
  (forall p q, in_box bx by_ bz p -> in_box bx by_ bz q ->
     (cell_index p bx by_ = cell_index q bx by_ <-> exists i j k, unit_cell p i j k /\ unit_cell q i j k)) /\
  (forall c, (0 <= c < cell_count bx by_ bz)%Z -> exists p, in_box bx by_ bz p /\ cell_index p bx by_ = c).
Proof. exact cell_index_full. Qed.
Print Assumptions cell_indices.

(** C46: the index in the documented form. *)
Theorem cell_index_documented : forall p bx by_ bz i j k, (0 < bx)%Z -> (0 < by_)%Z -> (0 < bz)%Z ->
  (bx * by_ * bz <= 2 ^ 32)%Z -> in_box bx by_ bz p -> unit_cell p i j k ->
  (0 <= i < bx)%Z /\ (0 <= j < by_)%Z /\ (0 <= k < bz)%Z /\ cell_index p bx by_ = (i + bx * (j + by_ * k))%Z.
Proof. exact cell_index_spec. Qed.
Print Assumptions cell_index_documented.
Example cell_index_example : in_box 4 5 6 (Vec (7/2) (1/2) (9/4)) /\ cell_index (Vec (7/2) (1/2) (9/4)) 4 5 = 43%Z.
Proof.
  assert (B : in_box 4 5 6 (Vec (7/2) (1/2) (9/4))) by (unfold in_box; cbn; lra). split; [exact B|].
  destruct (cell_index_spec (Vec (7/2) (1/2) (9/4)) 4 5 6 3 0 2) as (_ & _ & _ & ->); try reflexivity; try lia; [exact B|].
  unfold unit_cell; cbn; lra.
Qed.

(** C46: with more cells, 32-bit arithmetic gives two cells the same index. *)
Theorem cell_indices_refuted : ~ (forall bx by_ bz, (0 < bx < 2 ^ 32)%Z -> (0 < by_ < 2 ^ 32)%Z -> (0 < bz < 2 ^ 32)%Z ->
  forall p q, in_box bx by_ bz p -> in_box bx by_ bz q -> cell_index p bx by_ = cell_index q bx by_ ->
  exists i j k, unit_cell p i j k /\ unit_cell q i j k).
Proof.
  intros H. destruct (H 65536%Z 65536%Z 2%Z ltac:(lia) ltac:(lia) ltac:(lia) (Vec 0 0 0) (Vec 0 0 1)) as (i & j & k & (_ & _ & A) & (_ & _ & B)).
  - unfold in_box; cbn; lra.
  - unfold in_box; cbn; lra.
  - rewrite !cell_index_eq. cbn [vx vy vz].
    rewrite (Int_part_unique 0 0), (Int_part_unique 1 1) by (cbn; lra). reflexivity.
  - cbn in A, B. assert (X : IZR k < 1) by lra. assert (Y : 0 < IZR k) by lra. apply lt_IZR in X, Y. lia.
Qed.
Print Assumptions cell_indices_refuted.

(** C47: a collision step keeps all masses and positions, and the momentum of every
    cell. *)
Theorem collision_momentum : forall cf l, (forall s, In s l -> 0 < fst s) ->
  map (fun s => (fst s, map p_pos (snd s))) (collide cf l) = map (fun s => (fst s, map p_pos (snd s))) l /\
  forall c, total_momentum (lab (content cf c (collide cf l))) = total_momentum (lab (content cf c l)).
Proof. intros cf l H. split; [apply collide_positions|intros c; apply collide_momentum, H]. Qed.
Print Assumptions collision_momentum.

(** C47: without thermostat it keeps the kinetic energy of every cell, as seen in the
    frames of the images. *)
Theorem collision_energy : forall cf l c, (forall s, In s l -> 0 < fst s) -> unit3 (axes cf c) -> targetkT cf = 0 ->
  kinetic (comoving cf (content cf c (collide cf l))) = kinetic (comoving cf (content cf c l)).
Proof. exact collide_energy. Qed.
Print Assumptions collision_energy.

(** C47: with thermostat the kinetic energy about the centre of mass of a cell becomes the
    drawn energy, unless the cell has fewer than two particles or no such energy. *)
Theorem collision_thermostat : forall cf l c, (forall s, In s l -> 0 < fst s) -> unit3 (axes cf c) ->
  (targetkT cf = 0 \/ (length (content cf c l) < 2)%nat \/ internal (comoving cf (content cf c l)) = 0 ->
   internal (comoving cf (content cf c (collide cf l))) = internal (comoving cf (content cf c l))) /\
  (targetkT cf <> 0 -> (2 <= length (content cf c l))%nat -> internal (comoving cf (content cf c l)) <> 0 -> 0 <= drawn cf c ->
   internal (comoving cf (content cf c (collide cf l))) = drawn cf c).
Proof. exact collide_internal. Qed.
Print Assumptions collision_thermostat.

(** C47: a particle that is alone in its cell keeps its velocity. *)
Theorem collision_alone : forall cf l c m p, (forall s, In s l -> 0 < fst s) -> content cf c l = [(m, p)] ->
  exists p', content cf c (collide cf l) = [(m, p')] /\ p_pos p' = p_pos p /\ p_vel p' = p_vel p.
Proof. exact collide_alone. Qed.
Print Assumptions collision_alone.

(** C47: the relative velocities in a cell are turned by the collision angle about the
    axis of the cell, and scaled by a common factor. *)
Theorem collision_turns : forall cf l, angle cf <> 0 ->
  exists F, collide cf l = each F l /\ (forall p, p_pos (F p) = p_pos p) /\
    forall c, exists s, (targetkT cf = 0 -> s = 1) /\
      let V := times3 (/ total_mass (comoving cf (content cf c l))) (total_momentum (comoving cf (content cf c l))) in
      comoving cf (content cf c (collide cf l)) =
      map (fun x => (fst x, plus3 (times3 s (vrotate (axes cf c) (angle cf) (minus3 (snd x) V))) V)) (comoving cf (content cf c l)).
Proof. exact collide_turns. Qed.
Print Assumptions collision_turns.
Example collision_example :
  let cf := Config 0 0 2 2 2 PI 0 (Vec 0 0 0) (fun _ => Vec 0 0 1) (fun _ => 1) in
  let l := [(1, [Part (Vec (1/2) (1/2) (1/2)) (Vec 1 2 0) 0 0]); (1, [Part (Vec (1/4) (1/2) (1/2)) (Vec 0 0 0) 0 0])] in
  unit3 (axes cf 0%Z) /\ length (content cf 0 l) = 2%nat /\
  comoving cf (content cf 0 l) = [(1, Vec 1 2 0); (1, Vec 0 0 0)] /\
  comoving cf (content cf 0 (collide cf l)) = [(1, Vec 0 0 0); (1, Vec 1 2 0)].
Proof.
  intros cf l.
  assert (I : forall x v, 0 <= x < 1 -> image_of cf (Part (Vec x (1/2) (1/2)) v 0 0) = (Vec x (1/2) (1/2), 0)).
  { intros x v H. unfold image_of. cbn [cf p_pos gridShift shearRate mpcTime boxX boxY boxZ].
    replace (plus3 _ _) with (Vec x (1/2) (1/2)) by (unfold plus3; cbn; apply vec_ext; ring).
    apply (le_full 0 0 2 2 2); try reflexivity. unfold in_box; cbn; lra. }
  assert (K : forall x v, 0 <= x < 1 -> cell cf (Part (Vec x (1/2) (1/2)) v 0 0) = 0%Z).
  { intros x v H. unfold cell. rewrite (I x v H). cbn [fst boxX boxY cf].
    destruct (cell_index_spec (Vec x (1/2) (1/2)) 2 2 2 0 0 0) as (_ & _ & _ & ->); try reflexivity; try lia;
    unfold in_box, unit_cell; cbn; lra. }
  assert (C : content cf 0 l = [(1, Part (Vec (1/2) (1/2) (1/2)) (Vec 1 2 0) 0 0); (1, Part (Vec (1/4) (1/2) (1/2)) (Vec 0 0 0) 0 0)]).
  { unfold content, l. cbn [flat_map map fst snd app filter]. rewrite !K by lra. reflexivity. }
  assert (D : comoving cf (content cf 0 l) = [(1, Vec 1 2 0); (1, Vec 0 0 0)]).
  { rewrite C. unfold comoving, seen. cbn [map fst snd]. rewrite !I by lra. cbn [snd p_vel]. unfold plus3; cbn.
    repeat f_equal; ring. }
  split; [unfold unit3, dot3; cbn; ring|]. split; [rewrite C; reflexivity|]. split; [exact D|].
  destruct (collide_turns cf l) as (F & _ & _ & B).
  - cbn. pose proof PI_RGT_0. lra.
  - destruct (B 0%Z) as (s & S1 & E). rewrite (S1 eq_refl) in E. cbv zeta in E. rewrite E, D.
    unfold total_mass, total_momentum. cbn [map fst snd rsum vsum cf axes angle fold_right].
    unfold vrotate, vadd, vsub, vscale, vdot, vcross, minus3, times3, plus3, dot3. cbn. rewrite cos_PI, sin_PI.
    unfold vdot. cbn. apply f_equal2; [|apply f_equal2; [|reflexivity]]; (apply f_equal2; [reflexivity|]); f_equal; field.
Qed.
