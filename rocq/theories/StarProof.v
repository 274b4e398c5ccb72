(** Proofs about star polymers. *)
From Coq Require Import List ZArith Bool Reals Lia Lra Relations Permutation.
From Verif Require Import PyBase VecBase VecModel VecSpec PartSpec PotModel PotSpec CuModel CuSpec CuProof MdModel ConcModel StarModel StarSpec.
Import ListNotations.
Open Scope Z_scope.

(** * Numbering *)
Lemma zrange_mul b : 0 <= b -> forall a, 0 <= a -> zrange (a * b) = flat_map (fun i => map (Z.add (i * b)) (zrange b)) (zrange a).
Proof.
  intros Hb. apply (zrange_ind (fun a => 0 <= a -> zrange (a * b) = flat_map (fun i => map (Z.add (i * b)) (zrange b)) (zrange a))).
  - intros a Ha Ha'. replace a with 0 by lia. reflexivity.
  - intros a Ha IH _. replace ((a + 1) * b) with (a * b + b) by ring. rewrite zrange_app by nia. rewrite zrange_succ, flat_map_app, IH by lia.
    cbn [flat_map]. now rewrite app_nil_r.
Qed.
Definition ext (s : structure) : Z := particleCountPerArm s + Z.b2z (hasMagneticParticles s).
Lemma ext_nonneg s : well_formed s -> 0 <= ext s.
Proof. intros (A & B & C). unfold ext. destruct (hasMagneticParticles s); cbn; lia. Qed.
Lemma perStar_eq s : getParticleCountPerStar s = 1 + armCountPerStar s * ext s.
Proof. reflexivity. Qed.
Lemma perStar_pos s : well_formed s -> 0 < getParticleCountPerStar s.
Proof. intros H. pose proof (ext_nonneg s H). destruct H as (A & B & C). rewrite perStar_eq. nia. Qed.
Lemma indices_core s st : well_formed s -> 
  getParticleStructureIndices s (st * getParticleCountPerStar s) = Indices st true None false None.
Proof.
  intros H. pose proof (perStar_pos s H). unfold getParticleStructureIndices. rewrite Z.div_mul, Z.mod_mul by lia. reflexivity.
Qed.
Lemma indices_arm s st a k : well_formed s -> 0 <= a < armCountPerStar s -> 0 <= k < ext s ->
  getParticleStructureIndices s (st * getParticleCountPerStar s + 1 + a * ext s + k) =
  Indices st false (Some a) (k =? particleCountPerArm s) (Some k).
Proof.
  intros H Ha Hk. pose proof (perStar_pos s H) as P. unfold getParticleStructureIndices.
  assert (B : 0 <= 1 + a * ext s + k < getParticleCountPerStar s). { rewrite perStar_eq. nia. }
  replace (st * getParticleCountPerStar s + 1 + a * ext s + k) with (1 + a * ext s + k + st * getParticleCountPerStar s) by ring.
  rewrite Z.div_add, Z.mod_add by lia. rewrite (Z.div_small _ _ B), (Z.mod_small _ _ B).
  rewrite (proj2 (Z.eqb_neq (1 + a * ext s + k) 0)) by nia. fold (ext s).
  replace (1 + a * ext s + k - 1) with (k + a * ext s) by ring. rewrite Z.div_add, Z.mod_add by lia.
  rewrite Z.div_small, Z.mod_small by lia. reflexivity.
Qed.
(** Every particle is at a place. *)
Lemma place_exists s i : well_formed s -> particle s i -> exists pl, valid s pl /\ number s pl = i.
Proof.
  intros H Hi. pose proof (perStar_pos s H) as P. pose proof (ext_nonneg s H) as E. unfold particle, getParticleCount in Hi. cbv zeta in Hi.
  set (st := i / getParticleCountPerStar s). set (w := i mod getParticleCountPerStar s).
  assert (Di : i = st * getParticleCountPerStar s + w). { unfold st, w. pose proof (Z_div_mod_eq_full i (getParticleCountPerStar s)). lia. }
  assert (Hw : 0 <= w < getParticleCountPerStar s) by (apply Z.mod_pos_bound; lia).
  assert (Hst : 0 <= st < starCount s). { split; [apply Z.div_pos; lia|apply Z.div_lt_upper_bound; nia]. }
  destruct (Z.eq_dec w 0) as [Z0|N0].
  - exists (Core st). split; [exact Hst|]. cbn. unfold getCoreParticleID. lia.
  - rewrite perStar_eq in Hw. assert (E0 : 0 < ext s) by (destruct H; nia).
    set (a := (w - 1) / ext s). set (k := (w - 1) mod ext s).
    assert (Dw : w - 1 = a * ext s + k). { unfold a, k. pose proof (Z_div_mod_eq_full (w - 1) (ext s)). lia. }
    assert (Hk : 0 <= k < ext s) by (apply Z.mod_pos_bound; lia).
    assert (Ha : 0 <= a < armCountPerStar s). { split; [apply Z.div_pos; lia|apply Z.div_lt_upper_bound; nia]. }
    destruct (Z_lt_ge_dec k (particleCountPerArm s)) as [L|G].
    + exists (Bead st a k). split; [cbn; lia|]. cbn. unfold getArmParticleID. fold (ext s). lia.
    + assert (M : hasMagneticParticles s = true /\ k = particleCountPerArm s).
      { unfold ext in Hk. destruct (hasMagneticParticles s); cbn in Hk; split; try reflexivity; lia. }
      destruct M as [M1 M2]. exists (Tip st a). split; [cbn [valid]; repeat split; try assumption; lia|]. cbn. unfold getMagneticParticleID. fold (ext s). lia.
Qed.
Lemma in_star s st w : 0 <= st < starCount s -> 0 <= w < getParticleCountPerStar s ->
  0 <= st * getParticleCountPerStar s + w < starCount s * getParticleCountPerStar s.
Proof. intros. nia. Qed.
Lemma place_number s pl : well_formed s -> valid s pl ->
  particle s (number s pl) /\ 
  getParticleStructureIndices s (number s pl) = 
  match pl with
  | Core st => Indices st true None false None
  | Bead st a k => Indices st false (Some a) false (Some k)
  | Tip st a => Indices st false (Some a) true (Some (particleCountPerArm s))
  end.
Proof.
  intros H V. pose proof (perStar_pos s H) as P. pose proof (ext_nonneg s H) as E. unfold particle, getParticleCount. cbv zeta.
  destruct pl as [st|st a k|st a]; cbn [number valid] in *.
  - unfold getCoreParticleID. split; [apply (in_star s st 0) in V; lia|now apply indices_core].
  - destruct V as (V1 & V2 & V3). assert (K : 0 <= k < ext s) by (unfold ext; destruct (hasMagneticParticles s); cbn; lia).
    unfold getArmParticleID. fold (ext s). rewrite indices_arm by (assumption || lia). rewrite (proj2 (Z.eqb_neq k _)) by lia. split; [|reflexivity].
    apply (in_star s st (1 + a * ext s + k)) in V1; [lia|]. rewrite perStar_eq. nia.
  - destruct V as (V1 & V2 & V3). assert (K : 0 <= particleCountPerArm s < ext s) by (destruct H; unfold ext; rewrite V3; cbn; lia).
    unfold getMagneticParticleID. fold (ext s). rewrite indices_arm by (assumption || lia). rewrite Z.eqb_refl. split; [|reflexivity].
    apply (in_star s st (1 + a * ext s + particleCountPerArm s)) in V1; [lia|]. rewrite perStar_eq. nia.
Qed.
Lemma place_reported s pl : well_formed s -> valid s pl -> reported (getParticleStructureIndices s (number s pl)) = Some pl.
Proof. intros H V. rewrite (proj2 (place_number s pl H V)). now destruct pl. Qed.
Lemma number_inj s p q : well_formed s -> valid s p -> valid s q -> number s p = number s q -> p = q.
Proof. intros H Vp Vq E. pose proof (place_reported s p H Vp) as A. pose proof (place_reported s q H Vq) as B. congruence. Qed.
Lemma place_type s pl : well_formed s -> valid s pl -> getParticleType s (number s pl) = type_of pl.
Proof. intros H V. unfold getParticleType. rewrite (proj2 (place_number s pl H V)). now destruct pl. Qed.
Lemma numbering s : well_formed s ->
  (forall i, particle s i -> exists pl, reported (getParticleStructureIndices s i) = Some pl /\ valid s pl /\ number s pl = i /\
    getParticleType s i = type_of pl) /\
  (forall pl, valid s pl -> particle s (number s pl) /\ reported (getParticleStructureIndices s (number s pl)) = Some pl).
Proof.
  intros H. split.
  - intros i Hi. destruct (place_exists s i H Hi) as (pl & V & <-). exists pl. rewrite place_reported, place_type by assumption. tauto.
  - intros pl V. split; [now apply place_number|now apply place_reported].
Qed.
(** The order. *)
Lemma arm_numbers s st a : well_formed s ->
  map (number s) (arm_places s st a) = map (Z.add (st * getParticleCountPerStar s + 1 + a * ext s)) (zrange (ext s)).
Proof.
  intros H. unfold arm_places, ext. destruct H as (_ & _ & H). rewrite map_app, map_map.
  destruct (hasMagneticParticles s) eqn:M; cbn [Z.b2z].
  - rewrite zrange_succ by lia. rewrite map_app. cbn [map number]. unfold getMagneticParticleID. rewrite M. cbn [Z.b2z]. f_equal.
    apply map_ext. intros k. cbn [number]. unfold getArmParticleID. rewrite M. cbn [Z.b2z]. reflexivity.
  - cbn [map]. rewrite app_nil_r, !Z.add_0_r. apply map_ext. intros k. cbn [number]. unfold getArmParticleID. rewrite M. cbn [Z.b2z]. ring.
Qed.
Lemma map_flat_map {A B C} (f : B -> C) (g : A -> list B) l : map f (flat_map g l) = flat_map (fun a => map f (g a)) l.
Proof. induction l as [|a l IH]; [reflexivity|]. cbn. now rewrite map_app, IH. Qed.
Lemma flat_map_ext' {A B} (f g : A -> list B) l : (forall a, In a l -> f a = g a) -> flat_map f l = flat_map g l.
Proof.
  induction l as [|a l IH]; intros H; [reflexivity|]. cbn. rewrite H by now left. f_equal. apply IH. intros b Hb. apply H. now right.
Qed.
Lemma star_numbers s st : well_formed s -> map (number s) (star_places s st) = members_of_star s st.
Proof.
  intros H. unfold star_places, members_of_star. cbn [map number]. rewrite map_flat_map, perStar_eq.
  pose proof (ext_nonneg s H) as E. destruct (H) as (_ & A & _).
  unfold getCoreParticleID. rewrite (zrange_app 1) by nia. change (zrange 1) with [0]. cbn [map app]. rewrite perStar_eq.
  f_equal; [ring|]. unfold zfrom. rewrite zrange_mul by lia. rewrite !map_flat_map. apply flat_map_ext'. intros a _.
  rewrite arm_numbers by exact H. rewrite !map_map. apply map_ext. intros k. rewrite perStar_eq. ring.
Qed.
Lemma all_numbers s : well_formed s -> map (number s) (places s) = zrange (getParticleCount s).
Proof.
  intros H. pose proof (perStar_pos s H). unfold places, getParticleCount. cbv zeta. rewrite map_flat_map. rewrite zrange_mul by (destruct H; lia).
  apply flat_map_ext'. intros st _. now apply star_numbers.
Qed.
Lemma places_valid s pl : In pl (places s) <-> valid s pl.
Proof.
  unfold places. rewrite in_flat_map. split.
  - intros (st & Hs & Hp). rewrite In_zrange in Hs. destruct Hp as [<-|Hp]; [exact Hs|]. rewrite in_flat_map in Hp. destruct Hp as (a & Ha & Hp).
    rewrite In_zrange in Ha. unfold arm_places in Hp. rewrite in_app_iff in Hp. destruct Hp as [Hp|Hp].
    + rewrite in_map_iff in Hp. destruct Hp as (k & <- & Hk). rewrite In_zrange in Hk. cbn. lia.
    + destruct (hasMagneticParticles s) eqn:M; [|easy]. destruct Hp as [<-|[]]. cbn. tauto.
  - intros V. destruct pl as [st|st a k|st a]; cbn [valid] in V.
    + exists st. rewrite In_zrange. split; [exact V|now left].
    + exists st. rewrite In_zrange. split; [tauto|]. right. rewrite in_flat_map. exists a. rewrite In_zrange. split; [tauto|].
      unfold arm_places. rewrite in_app_iff. left. rewrite in_map_iff. exists k. rewrite In_zrange. tauto.
    + exists st. rewrite In_zrange. split; [tauto|]. right. rewrite in_flat_map. exists a. rewrite In_zrange. split; [tauto|].
      unfold arm_places. rewrite in_app_iff. right. destruct V as (_ & _ & ->). now left.
Qed.
Lemma numbering_order s : well_formed s -> map (fun i => reported (getParticleStructureIndices s i)) (zrange (getParticleCount s)) = map Some (places s).
Proof.
  intros H. rewrite <- all_numbers by exact H. rewrite map_map. apply map_ext_in. intros pl Hp. apply places_valid in Hp. now apply place_reported.
Qed.
(** * Bonds *)
Lemma bonded_places s p q : well_formed s -> valid s p -> valid s q -> p <> q ->
  exists b, particlesAreBonded s (number s p) (number s q) = Some b /\ (b = true <-> linked s p q).
Proof.
  intros H Vp Vq N. destruct (H) as (H1 & H2 & H3). unfold particlesAreBonded. rewrite (proj2 (place_number s p H Vp)), (proj2 (place_number s q H Vq)).
  unfold linked.
  destruct p as [st1|st1 a1 k1|st1 a1], q as [st2|st2 a2 k2|st2 a2]; cbn [starID isCoreParticle armID isMagneticParticle particleIDInArm compare2 inner valid] in *;
  repeat match goal with |- context [?a =? ?b] => destruct (Z.eqb_spec a b) end; cbn [negb]; subst; try lia; try (exfalso; now apply N);
  eexists; (split; [reflexivity|]); (split; [intros E|intros [E|E]]); try congruence; try discriminate;
  try (left; repeat f_equal; lia); try (right; repeat f_equal; lia);
  repeat match goal with E : Some _ = Some _ |- _ => injection E; clear E; intros end; subst; try lia; try congruence; try discriminate.
Qed.
Lemma same_truth (b b' : bool) P : (b = true <-> P) -> (b' = true <-> P) -> b = b'.
Proof. intros B B'. destruct b, b'; try reflexivity; [symmetry|]; tauto. Qed.
Lemma bonded_linked s p q : well_formed s -> valid s p -> valid s q -> p <> q -> (bonded s (number s p) (number s q) = true <-> linked s p q).
Proof. intros H Vp Vq N. destruct (bonded_places s p q H Vp Vq N) as (b & E & B). unfold bonded. rewrite E. exact B. Qed.
Lemma linked_sym s p q : linked s p q <-> linked s q p.
Proof. unfold linked. tauto. Qed.
Lemma bonds_symmetric s i j : well_formed s -> particle s i -> particle s j -> i <> j -> particlesAreBonded s i j = particlesAreBonded s j i.
Proof.
  intros H Hi Hj N. destruct (place_exists s i H Hi) as (p & Vp & <-). destruct (place_exists s j H Hj) as (q & Vq & <-).
  assert (Npq : p <> q) by congruence. destruct (bonded_places s p q H Vp Vq Npq) as (b & -> & B).
  destruct (bonded_places s q p H Vq Vp (not_eq_sym Npq)) as (b' & -> & B'). f_equal. rewrite linked_sym in B.
  exact (same_truth _ _ _ B B').
Qed.
Lemma inner_valid s p q : well_formed s -> valid s p -> inner s p = Some q -> valid s q /\ number s q < number s p /\ star_of q = star_of p.
Proof.
  intros H V E. pose proof (ext_nonneg s H) as Ex. destruct H as (H1 & H2 & H3).
  destruct p as [st|st a k|st a]; cbn [inner] in E; [discriminate| |]; injection E; clear E; intros <-; cbn [valid] in V.
  - destruct (Z.eqb_spec k 0); cbn [valid number star_of]; unfold getCoreParticleID, getArmParticleID; fold (ext s); (split; [lia|split; [nia|reflexivity]]).
  - destruct (Z.eqb_spec (particleCountPerArm s) 0); cbn [valid number star_of]; unfold getCoreParticleID, getArmParticleID, getMagneticParticleID; fold (ext s); (split; [lia|split; [nia|reflexivity]]).
Qed.
Lemma linked_star s p q : well_formed s -> valid s p -> valid s q -> linked s p q -> star_of p = star_of q.
Proof. intros H Vp Vq [E|E]; [destruct (inner_valid s p q H Vp E) as (_ & _ & ->)|destruct (inner_valid s q p H Vq E) as (_ & _ & ->)]; reflexivity. Qed.
(** The members of a star. *)
Lemma member_place s st i : well_formed s -> 0 <= st < starCount s -> 0 <= i < getParticleCountPerStar s ->
  exists pl, valid s pl /\ star_of pl = st /\ number s pl = st * getParticleCountPerStar s + i.
Proof.
  intros H Hs Hi. assert (P : particle s (st * getParticleCountPerStar s + i)) by (apply in_star; assumption).
  destruct (place_exists s _ H P) as (pl & V & E). exists pl. split; [exact V|]. split; [|exact E].
  pose proof (proj2 (place_number s pl H V)) as G. rewrite E in G. unfold getParticleStructureIndices in G.
  rewrite Z.add_comm, Z.div_add, (Z.div_small i) in G by lia. rewrite Z.add_0_l in G.
  destruct (_ =? _) in G; destruct pl; injection G; intros; subst; reflexivity.
Qed.
(** Pairs. *)
Lemma pairs_snoc {A} (f : A * A -> bool) l j : length (filter f (pairs (l ++ [j]))) = (length (filter f (pairs l)) + length (filter (fun i => f (i, j)) l))%nat.
Proof.
  induction l as [|a l IH]; [reflexivity|]. cbn [app pairs]. rewrite map_app, !filter_app, !app_length, IH. cbn [map filter].
  destruct (f (a, j)); cbn [length]; lia.
Qed.
Lemma filter_single (f : Z -> bool) l p : NoDup l -> In p l -> (forall i, In i l -> (f i = true <-> i = p)) -> filter f l = [p].
Proof.
  intros Nd Hp H. induction l as [|a l IH]; [easy|]. apply NoDup_cons_iff in Nd. destruct Nd as [Na Nd]. cbn [filter].
  destruct (Z.eq_dec a p) as [->|N].
  - rewrite (proj2 (H p (or_introl eq_refl)) eq_refl). f_equal. clear IH Hp.
    assert (E : forall i, In i l -> f i = false).
    { intros i Hi. destruct (f i) eqn:F; [|reflexivity]. apply (proj1 (H i (or_intror Hi))) in F. congruence. }
    clear H Na Nd. induction l as [|b l IH]; [reflexivity|]. cbn. rewrite (E b) by now left. apply IH. intros i Hi. apply E. now right.
  - destruct (f a) eqn:F; [exfalso; apply N, (proj1 (H a (or_introl eq_refl))), F|]. apply IH; [exact Nd|now destruct Hp|].
    intros i Hi. apply H. now right.
Qed.
Lemma zrange_nodup n : NoDup (zrange n).
Proof. unfold zrange. apply FinFun.Injective_map_NoDup; [exact Nat2Z.inj|apply seq_NoDup]. Qed.
Lemma map_add_nodup a n : NoDup (map (Z.add a) (zrange n)).
Proof. apply FinFun.Injective_map_NoDup; [intros x y; lia|apply zrange_nodup]. Qed.
Lemma core_place s st pl : well_formed s -> valid s pl -> star_of pl = st -> inner s pl = None -> number s pl = st * getParticleCountPerStar s.
Proof. intros H V <- E. destruct pl; [reflexivity|discriminate|discriminate]. Qed.
Lemma star_bond_count s st : well_formed s -> 0 <= st < starCount s -> forall n, n <= getParticleCountPerStar s ->
  length (filter (fun ij => bonded s (fst ij) (snd ij)) (pairs (map (Z.add (st * getParticleCountPerStar s)) (zrange n)))) = Z.to_nat (n - 1).
Proof.
  intros H Hs. apply (zrange_ind (fun n => n <= getParticleCountPerStar s ->
    length (filter (fun ij => bonded s (fst ij) (snd ij)) (pairs (map (Z.add (st * getParticleCountPerStar s)) (zrange n)))) = Z.to_nat (n - 1))).
  - intros n Hn _. rewrite zrange_nil by lia. cbn. lia.
  - intros n Hn IH Hle. rewrite zrange_succ, map_app by lia. cbn [map]. rewrite pairs_snoc, IH by lia.
    destruct (Z.eq_dec n 0) as [->|N0]; [reflexivity|].
    destruct (member_place s st n H Hs ltac:(lia)) as (q & Vq & Sq & Eq).
    destruct (inner s q) as [p|] eqn:Ep.
    2:{ pose proof (core_place s st q H Vq Sq Ep). lia. }
    destruct (inner_valid s q p H Vq Ep) as (Vp & Lp & Sp).
    assert (Ip : exists k, 0 <= k < n /\ number s p = st * getParticleCountPerStar s + k).
    { exists (number s p - st * getParticleCountPerStar s). split; [|lia]. split; [|lia].
      pose proof (ext_nonneg s H). destruct p as [st'|st' a k|st' a]; cbn [star_of number valid] in *; subst; 
        unfold getCoreParticleID, getArmParticleID, getMagneticParticleID; fold (ext s); destruct H; nia. }
    destruct Ip as (k & Hk & Ek).
    rewrite (filter_single _ _ (number s p)).
    + cbn [length]. lia.
    + apply map_add_nodup.
    + rewrite Ek. apply in_map. now apply In_zrange.
    + intros i Hi. rewrite in_map_iff in Hi. destruct Hi as (w & <- & Hw). rewrite In_zrange in Hw. cbn [fst snd].
      destruct (member_place s st w H Hs ltac:(lia)) as (p' & Vp' & Sp' & Ep'). rewrite <- Ep', <- Eq.
      assert (N : p' <> q) by (intros ->; lia).
      rewrite (bonded_linked s p' q H Vp' Vq N). split.
      * intros [E|E]; [destruct (inner_valid s p' q H Vp' E) as (_ & L & _); lia|congruence].
      * intros E. apply (number_inj s) in E; [|assumption..]. subst p'. now right.
Qed.
Lemma connected_core s st : well_formed s -> 0 <= st < starCount s -> forall n i, 0 <= i < n -> n <= getParticleCountPerStar s ->
  clos_refl_sym_trans Z (fun i j => In i (members_of_star s st) /\ In j (members_of_star s st) /\ i <> j /\ bonded s i j = true)
    (st * getParticleCountPerStar s + i) (st * getParticleCountPerStar s).
Proof.
  intros H Hs. apply (zrange_ind (fun n => forall i, 0 <= i < n -> n <= getParticleCountPerStar s ->
    clos_refl_sym_trans Z (fun i j => In i (members_of_star s st) /\ In j (members_of_star s st) /\ i <> j /\ bonded s i j = true)
    (st * getParticleCountPerStar s + i) (st * getParticleCountPerStar s))); [lia|].
  intros n Hn IH i Hi Hle. destruct (Z.eq_dec i n) as [->|N]; [|apply IH; lia].
  destruct (Z.eq_dec n 0) as [->|N0]; [rewrite Z.add_0_r; apply rst_refl|].
  destruct (member_place s st n H Hs ltac:(lia)) as (q & Vq & Sq & Eq).
  destruct (inner s q) as [p|] eqn:Ep.
  2:{ pose proof (core_place s st q H Vq Sq Ep). lia. }
  destruct (inner_valid s q p H Vq Ep) as (Vp & Lp & Sp).
  assert (Ip : exists k, 0 <= k < n /\ number s p = st * getParticleCountPerStar s + k).
  { exists (number s p - st * getParticleCountPerStar s). split; [|lia]. split; [|lia].
    pose proof (ext_nonneg s H). destruct p as [st'|st' a k|st' a]; cbn [star_of number valid] in *; subst; 
      unfold getCoreParticleID, getArmParticleID, getMagneticParticleID; fold (ext s); destruct H; nia. }
  destruct Ip as (k & Hk & Ek). apply rst_trans with (number s p).
  - apply rst_step. rewrite <- Eq. split; [|split; [|split]].
    + rewrite Eq. apply in_map. apply In_zrange. lia.
    + rewrite Ek. apply in_map. apply In_zrange. lia.
    + lia.
    + apply (bonded_linked s q p H Vq Vp); [intros ->; lia|]. now left.
  - rewrite Ek. apply IH; lia.
Qed.
Lemma star_tree s : well_formed s ->
  (forall st, 0 <= st < starCount s ->
    connected (bonded s) (members_of_star s st) /\
    length (filter (fun ij => bonded s (fst ij) (snd ij)) (pairs (members_of_star s st))) = Z.to_nat (getParticleCountPerStar s - 1)) /\
  (forall p q, valid s p -> valid s q -> star_of p <> star_of q -> particlesAreBonded s (number s p) (number s q) = Some false).
Proof.
  intros H. split.
  - intros st Hs. split; [|apply star_bond_count; [exact H|exact Hs|lia]].
    intros i j Hi Hj. unfold members_of_star in Hi, Hj. rewrite in_map_iff in Hi, Hj. destruct Hi as (a & <- & Ha). destruct Hj as (b & <- & Hb).
    rewrite In_zrange in Ha, Hb. apply rst_trans with (st * getParticleCountPerStar s).
    + apply (connected_core s st H Hs (getParticleCountPerStar s)); lia.
    + apply rst_sym. apply (connected_core s st H Hs (getParticleCountPerStar s)); lia.
  - intros p q Vp Vq N. assert (Npq : p <> q) by congruence. destruct (bonded_places s p q H Vp Vq Npq) as (b & -> & B).
    destruct b; [|reflexivity]. exfalso. apply N. apply (linked_star s p q H Vp Vq). now apply B.
Qed.
(** * The analysis *)
Lemma py_countPerArm_eq s : py_countPerArm s = ext s.
Proof. unfold py_countPerArm, ext. destruct (hasMagneticParticles s); cbn; lia. Qed.
Lemma py_countPerStar_eq s : py_countPerStar s = getParticleCountPerStar s.
Proof. unfold py_countPerStar. rewrite py_countPerArm_eq. reflexivity. Qed.
Lemma py_count_eq s : py_count s = getParticleCount s.
Proof. unfold py_count. now rewrite py_countPerStar_eq. Qed.
Lemma py_in_range s i : particle s i -> (i <? 0) || (py_count s <=? i) = false.
Proof. unfold particle. rewrite py_count_eq. intros H. destruct (Z.ltb_spec i 0), (Z.leb_spec (getParticleCount s) i); try reflexivity; lia. Qed.
Lemma py_out_of_range s i : ~ particle s i -> (i <? 0) || (py_count s <=? i) = true.
Proof. unfold particle. rewrite py_count_eq. intros H. destruct (Z.ltb_spec i 0), (Z.leb_spec (getParticleCount s) i); try reflexivity; lia. Qed.
Lemma py_type_eq s i : particle s i -> py_getParticleType s i = Ok (getParticleType s i).
Proof.
  intros H. unfold py_getParticleType. rewrite py_in_range by exact H. rewrite py_countPerStar_eq, py_countPerArm_eq.
  unfold getParticleType, getParticleStructureIndices. fold (ext s). destruct (_ =? 0); [reflexivity|]. cbn [isCoreParticle isMagneticParticle].
  now destruct (_ =? particleCountPerArm s).
Qed.
Lemma py_indices_eq s i : well_formed s -> particle s i -> exists ix, py_getParticleStructureIndices s i = Ok ix /\
  reported (getParticleStructureIndices s i) = Some (py_reported ix).
Proof.
  intros W H. unfold py_getParticleStructureIndices. rewrite py_in_range by exact H. rewrite py_countPerStar_eq, py_countPerArm_eq.
  unfold getParticleStructureIndices. fold (ext s). destruct (Z.eqb_spec (i mod getParticleCountPerStar s) 0) as [E|N]; [eexists; split; reflexivity|].
  unfold reported. cbn [isCoreParticle armID isMagneticParticle particleIDInArm starID].
  destruct (hasMagneticParticles s) eqn:M; cbn [andb].
  - destruct (_ =? particleCountPerArm s); eexists; split; reflexivity.
  - assert (L : (i mod getParticleCountPerStar s - 1) mod ext s < particleCountPerArm s).
    { pose proof (ext_nonneg s W) as E. pose proof (Z.mod_pos_bound i _ (perStar_pos s W)) as B.
      assert (B2 : i mod getParticleCountPerStar s < 1 + armCountPerStar s * ext s) by (rewrite <- perStar_eq; apply B).
      assert (0 < ext s). { destruct (Z.eq_dec (ext s) 0) as [Z0|]; [rewrite Z0 in B2|]; lia. } pose proof (Z.mod_pos_bound (i mod getParticleCountPerStar s - 1) (ext s) ltac:(lia)).
      unfold ext in *. rewrite M in *. cbn [Z.b2z] in *. lia. }
    rewrite (proj2 (Z.eqb_neq _ (particleCountPerArm s))) by lia. eexists. split; reflexivity.
Qed.
Lemma py_indices_place s pl : well_formed s -> valid s pl -> exists ix, py_getParticleStructureIndices s (number s pl) = Ok ix /\ py_reported ix = pl.
Proof.
  intros W V. destruct (py_indices_eq s _ W (proj1 (place_number s pl W V))) as (ix & E & R). exists ix. split; [exact E|].
  rewrite place_reported in R by assumption. congruence.
Qed.
Lemma py_bonded_eq s i j : well_formed s -> particle s i -> particle s j ->
  (i <> j -> exists b, py_particlesAreBonded s i j = Ok b /\ particlesAreBonded s i j = Some b) /\
  (i = j -> py_particlesAreBonded s i j = Ok false).
Proof.
  intros H Hi Hj. unfold py_particlesAreBonded. rewrite !py_in_range by assumption. split; [intros N|intros ->; now rewrite Z.eqb_refl].
  rewrite (proj2 (Z.eqb_neq i j)) by exact N.
  destruct (place_exists s i H Hi) as (p & Vp & <-). destruct (place_exists s j H Hj) as (q & Vq & <-).
  assert (Npq : p <> q) by congruence.
  destruct (py_indices_place s p H Vp) as (ix & -> & Ex). destruct (py_indices_place s q H Vq) as (iy & -> & Ey). cbn [bind].
  destruct ix as [[st1 ar1] in1], iy as [[st2 ar2] in2].
  destruct (bonded_places s p q H Vp Vq Npq) as (b & -> & B).
  match goal with |- exists _, ?X = _ /\ _ => assert (E : exists b', X = Ok b' /\ (b' = true <-> linked s p q)) end.
  { clear b B. subst p q. destruct H as (H1 & H2 & H3).
    destruct ar1 as [a1|], ar2 as [a2|]; cbn [py_eq py_reported] in *; destruct in1 as [k1|], in2 as [k2|]; cbn [py_eq py_reported orb valid andb] in *; unfold linked; cbn [inner];
    try (destruct Vp as (? & ? & Mp)); try (destruct Vq as (? & ? & Mq)); try rewrite Mp; try rewrite Mq;
    repeat match goal with |- context [?a =? ?b] => destruct (Z.eqb_spec a b) end; cbn [negb andb orb]; subst; try lia; try (exfalso; now apply Npq);
    try (destruct (hasMagneticParticles s));
    eexists; (split; [reflexivity|]); (split; [intros E|intros [E|E]]); try congruence; try discriminate;
    try (left; repeat f_equal; lia); try (right; repeat f_equal; lia);
    repeat match goal with E : Some _ = Some _ |- _ => injection E; clear E; intros end; subst; try lia; try congruence; try discriminate.
    all: assert (K : k1 = k2 + 1 \/ k2 = k1 + 1) by lia; destruct K; [left|right]; repeat f_equal; lia. }
  destruct E as (b' & -> & B'). exists b'. split; [reflexivity|]. f_equal. 
  exact (same_truth _ _ _ B B').
Qed.
