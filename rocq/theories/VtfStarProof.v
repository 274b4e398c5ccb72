(** Star polymers in snapshot files. *)
From Coq Require Import Lia.
From Verif Require Import CuModel CuProof StarModel StarSpec StarProof.
From Verif Require Import VtfSpec VtfTextProof VtfRangeProof VtfLineProof VtfProof VtfStarModel.
Open Scope string_scope.
Open Scope Z_scope.
Open Scope list_scope.

Lemma loop_app {A B} (f : B -> A -> result B) l m b : loop f (l ++ m) b = do b' <- loop f l b; loop f m b'.
Proof. revert b. induction l as [|a l IH]; intros b; [reflexivity|]. cbn [app loop]. destruct (f b a); [apply IH|reflexivity]. Qed.
Lemma loop_zrange {B} (f : B -> Z -> result B) (P : Z -> B -> Prop) n b : 0 <= n -> P 0 b ->
  (forall k w, 0 <= k < n -> P k w -> exists w', f w k = Ok w' /\ P (k + 1) w') ->
  exists w', loop f (zrange n) b = Ok w' /\ P n w'.
Proof.
  intros Hn H0. revert n Hn.
  apply (zrange_ind (fun n => 0 <= n -> (forall k w, 0 <= k < n -> P k w -> exists w', f w k = Ok w' /\ P (k + 1) w') ->
    exists w', loop f (zrange n) b = Ok w' /\ P n w')).
  - intros n Hn Hn' _. replace n with 0 by lia. exists b. split; [reflexivity|exact H0].
  - intros n Hn IH _ HS. destruct (IH Hn) as [w [E Q]]; [intros k w Hk; apply HS; lia|].
    destruct (HS n w) as [w' [E' Q']]; [lia|exact Q|]. exists w'. split; [|exact Q'].
    rewrite zrange_succ by exact Hn. rewrite loop_app, E. cbn [bind loop]. rewrite E'. reflexivity.
Qed.

Section Star.
Variable F : Type.
Variable show : F -> string.
Variable cast : string -> option F.
Variable negative minus_one : F -> bool.
Variable default_radius : F.
Hypothesis Hprints : prints show cast.
Hypothesis Hradius : minus_one default_radius = true.
Variable s : StarModel.structure.
Hypothesis Hs : well_formed s.
Variable vol : option (F * F * F).

Definition atom_of (pl : place) : properties F := Props None None (Some (type_string (type_of pl))).
Definition bond_of (pl : place) : list (Z * Z) :=
  match inner s pl with Some q => [(number s q, number s pl)] | None => [] end.
Notation state w atoms bonds := (inv F show negative w (Contents atoms bonds vol [])).
Definition below (m : Z) (l : list (Z * Z)) : Prop := forall c, In c l -> fst c < m /\ snd c < m.

Lemma below_mono m n l : m <= n -> below m l -> below n l.
Proof. intros H B c Hc. specialize (B c Hc). lia. Qed.
Lemma below_app m l k : below m l -> below m k -> below m (l ++ k).
Proof. intros H1 H2 c Hc. apply in_app_or in Hc. destruct Hc; auto. Qed.
Lemma below_bonded m l a b : below m l -> m <= b -> bonded l a b = false.
Proof.
  intros B H. unfold bonded. apply not_true_iff_false. rewrite existsb_exists. intros [c [Hc E]].
  specialize (B c Hc). rewrite orb_true_iff, !andb_true_iff, !Z.eqb_eq in E. lia.
Qed.
Lemma declare_bond w atoms bonds a b : state w atoms bonds -> 0 <= a < b -> b < Z.of_nat (length atoms) ->
  bonded bonds a b = false -> exists w', declareBond w a b = Ok w' /\ state w' atoms (bonds ++ [(a, b)]).
Proof.
  intros H Ha Hb HN.
  pose proof (perform_inv F show negative minus_one w _ (CallBond a b) H ltac:(cbn; lia) Logic.I) as P.
  pose proof (count_atoms F show negative w _ H) as N. pose proof (steps_open F show negative w _ H) as O.
  cbn [c_steps c_atoms] in N, O.
  cbn [perform declare c_steps c_atoms c_bonds c_volume] in P.
  assert (X : (a <? Z.of_nat (length atoms)) = true) by (apply Z.ltb_lt; lia).
  assert (Y : (b <? Z.of_nat (length atoms)) = true) by (apply Z.ltb_lt; lia).
  assert (E : (a =? b) = false) by (apply Z.eqb_neq; lia).
  rewrite X, Y, E, HN in P. cbn [andb negb] in P.
  destruct (declareBond w a b) as [w'|e] eqn:D; [exists w'; split; [reflexivity|exact P]|].
  exfalso. unfold declareBond, isValidAtomID in D. rewrite O, N, X, Y, E in D. cbn [negb orb] in D.
  destruct (has_pair (ordered a b) (VtfModel.bonds (w_structure w))) eqn:HP; [|discriminate].
  apply has_pair_in in HP. destruct H as [_ [_ [B _]]]. apply B in HP. cbn [c_bonds] in HP. congruence.
Qed.
Lemma declare_atoms w atoms bonds count t : state w atoms bonds -> 0 <= count ->
  exists w' ids, declare_type negative minus_one default_radius w count t = Ok (w', ids) /\
    state w' (atoms ++ repeat (Props None None (Some (type_string t))) (Z.to_nat count)) bonds /\
    (0 < count -> fst ids = Z.of_nat (length atoms)).
Proof.
  intros H Hc. unfold declare_type.
  assert (PT : plain (type_string t) = true) by (destruct t; reflexivity).
  pose proof (perform_inv F show negative minus_one w _ (CallAtomsOf count default_radius "" (type_string t)) H
                ltac:(cbn; lia) (conj eq_refl PT)) as P.
  pose proof (count_atoms F show negative w _ H) as N. pose proof (steps_open F show negative w _ H) as O.
  cbn [c_steps c_atoms] in N, O.
  cbn [perform declare c_steps c_atoms c_bonds c_volume] in P. rewrite Hradius in P. cbn [andb orb] in P.
  assert (LT : (String.length (type_string t) <=? 16)%nat = true) by (destruct t; reflexivity).
  rewrite LT in P. cbn [String.length Nat.leb andb] in P.
  assert (NE : String.eqb (type_string t) "" = false) by (destruct t; reflexivity).
  rewrite NE in P. cbn [given String.eqb] in P.
  destruct (declareAtomsOf negative minus_one w count default_radius "" (type_string t)) as [[w' ids]|e] eqn:D.
  - exists w', ids. split; [reflexivity|]. split; [exact P|]. intros Hp. unfold declareAtomsOf in D.
    rewrite O in D. destruct (Z.eqb_spec count 0); [lia|]. rewrite Hradius, andb_false_r in D.
    destruct (Nat.ltb 16 (String.length "")); [discriminate|].
    destruct (Nat.ltb 16 (String.length (type_string t))); [discriminate|].
    unfold add_range in D. injection D as <- <-. cbn [fst]. exact N.
  - exfalso. unfold declareAtomsOf in D. rewrite O in D. destruct (count =? 0); [discriminate|].
    rewrite Hradius, andb_false_r in D. destruct (Nat.ltb_spec 16 (String.length "")); [cbn in *; lia|].
    destruct (Nat.ltb_spec 16 (String.length (type_string t))); [apply Nat.leb_le in LT; lia|]. discriminate.
Qed.

Notation ext := (ext s).
Lemma number_core star : number s (Core star) = star * getParticleCountPerStar s.
Proof. reflexivity. Qed.
Lemma number_bead star arm k : number s (Bead star arm k) = star * getParticleCountPerStar s + 1 + arm * ext + k.
Proof. reflexivity. Qed.
Lemma number_tip star arm : number s (Tip star arm) = star * getParticleCountPerStar s + 1 + arm * ext + particleCountPerArm s.
Proof. reflexivity. Qed.

Lemma repeat_map {A} (a : A) n : repeat a (Z.to_nat n) = map (fun _ => a) (zrange n).
Proof. unfold zrange. rewrite map_map. induction (Z.to_nat n) as [|k IH]; [reflexivity|]. cbn [repeat seq map]. rewrite IH, <- seq_shift, !map_map. reflexivity. Qed.
Lemma bonds_succ star arm k : 0 <= k ->
  flat_map bond_of (map (Bead star arm) (zrange (k + 1))) =
  flat_map bond_of (map (Bead star arm) (zrange k)) ++ bond_of (Bead star arm k).
Proof. intros H. rewrite zrange_succ, map_app, flat_map_app by exact H. cbn [map flat_map]. rewrite app_nil_r. reflexivity. Qed.

(** Bonds of one arm. *)
Lemma write_beads w atoms bonds star arm : 0 <= star -> 0 <= arm < armCountPerStar s ->
  let base := star * getParticleCountPerStar s in
  let first := base + 1 + arm * ext in
  state w atoms bonds -> below first bonds -> Z.of_nat (length atoms) = first + particleCountPerArm s ->
  exists w', loop (write_bead base first) (zrange (particleCountPerArm s)) w = Ok w' /\
    state w' atoms (bonds ++ flat_map bond_of (map (Bead star arm) (zrange (particleCountPerArm s)))) /\
    below (first + particleCountPerArm s) (bonds ++ flat_map bond_of (map (Bead star arm) (zrange (particleCountPerArm s)))).
Proof.
  intros HS HA base first H B L.
  pose proof (ext_nonneg s Hs) as E. pose proof (perStar_pos s Hs) as PP. destruct (Hs) as (H1 & H2 & H3).
  assert (F0 : base < first) by (subst first; nia).
  assert (B0 : 0 <= base) by (subst base; nia).
  apply (loop_zrange (write_bead base first) (fun k w => state w atoms (bonds ++ flat_map bond_of (map (Bead star arm) (zrange k))) /\
            below (first + k) (bonds ++ flat_map bond_of (map (Bead star arm) (zrange k))))).
  - exact H3.
  - change (zrange 0) with (@nil Z). cbn [map flat_map]. rewrite app_nil_r, Z.add_0_r. split; assumption.
  - intros k w1 Hk [S1 B1]. rewrite bonds_succ by lia. rewrite app_assoc. unfold write_bead.
    unfold bond_of at 2 4. cbn [inner]. destruct (Z.eqb_spec k 0) as [->|Nk].
    + rewrite number_core, number_bead. fold base first. rewrite Z.add_0_r in *.
      destruct (declare_bond w1 _ _ base first S1) as [w2 [E2 S2]]; [lia|lia|apply (below_bonded first); [exact B1|lia]|].
      exists w2. split; [exact E2|]. split; [exact S2|]. apply below_app; [apply (below_mono first); [lia|exact B1]|].
      intros c [<-|[]]. cbn [fst snd]. lia.
    + rewrite !number_bead. fold base first.
      replace (first + (k - 1)) with (first + k - 1) by lia.
      destruct (declare_bond w1 _ _ (first + k - 1) (first + k) S1) as [w2 [E2 S2]];
        [lia|lia|apply (below_bonded (first + k)); [exact B1|lia]|].
      exists w2. split; [exact E2|]. split; [exact S2|]. apply below_app; [apply (below_mono (first + k)); [lia|exact B1]|].
      intros c [<-|[]]. cbn [fst snd]. lia.
Qed.
Lemma write_arm_ok w atoms bonds star arm : 0 <= star -> 0 <= arm < armCountPerStar s ->
  let base := star * getParticleCountPerStar s in
  let first := base + 1 + arm * ext in
  state w atoms bonds -> below first bonds -> Z.of_nat (length atoms) = first ->
  exists w', write_arm negative minus_one default_radius s base w arm = Ok w' /\
    state w' (atoms ++ map atom_of (arm_places s star arm)) (bonds ++ flat_map bond_of (arm_places s star arm)) /\
    below (first + ext) (bonds ++ flat_map bond_of (arm_places s star arm)) /\
    Z.of_nat (length (atoms ++ map atom_of (arm_places s star arm))) = first + ext.
Proof.
  intros HS HA base first H B L.
  pose proof (ext_nonneg s Hs) as E. pose proof (perStar_pos s Hs) as PP. destruct (Hs) as (H1 & H2 & H3).
  assert (F0 : base < first) by (subst first; nia).
  assert (B0 : 0 <= base) by (subst base; nia).
  assert (LZ : forall n, 0 <= n -> Z.of_nat (length (zrange n)) = n) by (intros n Hn; rewrite zrange_length; lia).
  unfold write_arm.
  destruct (declare_atoms w atoms bonds (particleCountPerArm s) TArm H H3) as [w1 [ids [E1 [S1 I1]]]].
  rewrite E1. cbn [bind]. rewrite repeat_map in S1.
  assert (A1 : atoms ++ map (fun _ : Z => Props None None (Some (type_string TArm))) (zrange (particleCountPerArm s)) =
               atoms ++ map atom_of (map (Bead star arm) (zrange (particleCountPerArm s)))) by (rewrite map_map; reflexivity).
  rewrite A1 in S1. clear A1.
  assert (L1 : Z.of_nat (length (atoms ++ map atom_of (map (Bead star arm) (zrange (particleCountPerArm s))))) = first + particleCountPerArm s).
  { rewrite app_length, !map_length, Nat2Z.inj_add, LZ by exact H3. lia. }
  destruct (write_beads w1 _ _ star arm HS HA S1 B L1) as [w2 [E2 [S2 B2]]]. fold base first in E2, B2.
  assert (X : loop (write_bead base (fst ids)) (zrange (particleCountPerArm s)) w1 = Ok w2).
  { destruct (Z.eq_dec (particleCountPerArm s) 0) as [Z0|NZ].
    - rewrite Z0 in *. exact E2.
    - rewrite I1 by lia. rewrite L. exact E2. }
  rewrite X. cbn [bind]. unfold arm_places. unfold StarProof.ext in *.
  destruct (hasMagneticParticles s) eqn:M; cbn [Z.b2z] in *.
  - destruct (declare_atoms w2 _ _ 1 TMagnetic S2 ltac:(lia)) as [w3 [ids' [E3 [S3 I3]]]].
    rewrite E3. cbn [bind]. change (Z.to_nat 1) with 1%nat in S3. cbn [repeat] in S3.
    specialize (I3 ltac:(lia)). rewrite L1 in I3. rewrite I3.
    assert (AE : (atoms ++ map atom_of (map (Bead star arm) (zrange (particleCountPerArm s)))) ++
                   [Props None None (Some (type_string TMagnetic))] =
                 atoms ++ map atom_of (map (Bead star arm) (zrange (particleCountPerArm s)) ++ [Tip star arm]))
      by (rewrite map_app, app_assoc; reflexivity).
    rewrite AE in S3. clear AE.
    assert (L3 : Z.of_nat (length (atoms ++ map atom_of (map (Bead star arm) (zrange (particleCountPerArm s)) ++ [Tip star arm])))
             = first + particleCountPerArm s + 1).
    { rewrite map_app, app_assoc, app_length, Nat2Z.inj_add, L1. reflexivity. }
    rewrite flat_map_app, app_assoc. cbn [flat_map]. rewrite app_nil_r.
    unfold bond_of at 2 4. cbn [inner]. destruct (Z.eqb_spec (particleCountPerArm s) 0) as [Z0|NZ].
    + rewrite number_core, number_tip. unfold StarProof.ext. rewrite M. cbn [Z.b2z]. fold base first.
      destruct (declare_bond w3 _ _ base (first + particleCountPerArm s) S3) as [w4 [E4 S4]];
        [lia|lia|apply (below_bonded (first + particleCountPerArm s)); [exact B2|lia]|].
      exists w4. split; [exact E4|]. split; [exact S4|]. split; [|rewrite L3; lia].
      apply below_app; [apply (below_mono (first + particleCountPerArm s)); [lia|exact B2]|].
      intros c [<-|[]]. cbn [fst snd]. lia.
    + rewrite number_bead, number_tip. unfold StarProof.ext. rewrite M. cbn [Z.b2z]. fold base first.
      replace (first + (particleCountPerArm s - 1)) with (first + particleCountPerArm s - 1) by lia.
      destruct (declare_bond w3 _ _ (first + particleCountPerArm s - 1) (first + particleCountPerArm s) S3) as [w4 [E4 S4]];
        [lia|lia|apply (below_bonded (first + particleCountPerArm s)); [exact B2|lia]|].
      exists w4. split; [exact E4|]. split; [exact S4|]. split; [|rewrite L3; lia].
      apply below_app; [apply (below_mono (first + particleCountPerArm s)); [lia|exact B2]|].
      intros c [<-|[]]. cbn [fst snd]. lia.
  - rewrite app_nil_r. exists w2. split; [reflexivity|]. split; [exact S2|]. rewrite Z.add_0_r. split; [exact B2|exact L1].
Qed.
Lemma flat_map_zrange {A} (f : Z -> list A) k : 0 <= k -> flat_map f (zrange (k + 1)) = flat_map f (zrange k) ++ f k.
Proof. intros H. rewrite zrange_succ, flat_map_app by exact H. cbn [flat_map]. rewrite app_nil_r. reflexivity. Qed.
Lemma write_star_ok w atoms bonds star : 0 <= star ->
  let base := star * getParticleCountPerStar s in
  state w atoms bonds -> below base bonds -> Z.of_nat (length atoms) = base ->
  exists w', write_star negative minus_one default_radius s w star = Ok w' /\
    state w' (atoms ++ map atom_of (star_places s star)) (bonds ++ flat_map bond_of (star_places s star)) /\
    below (base + getParticleCountPerStar s) (bonds ++ flat_map bond_of (star_places s star)) /\
    Z.of_nat (length (atoms ++ map atom_of (star_places s star))) = base + getParticleCountPerStar s.
Proof.
  intros HS base H B L. destruct (Hs) as (H1 & H2 & H3). unfold write_star.
  destruct (declare_atoms w atoms bonds 1 TCore H ltac:(lia)) as [w1 [ids [E1 [S1 I1]]]]. rewrite E1. cbn [bind].
  rewrite (I1 ltac:(lia)), L. change (Z.to_nat 1) with 1%nat in S1. cbn [repeat] in S1.
  change [Props None None (Some (type_string TCore))] with (map atom_of [Core star]) in S1.
  rewrite perStar_eq.
  pose (Pk := fun k w => 
     state w (atoms ++ map atom_of ([Core star] ++ flat_map (arm_places s star) (zrange k)))
             (bonds ++ flat_map bond_of (flat_map (arm_places s star) (zrange k))) /\
     below (base + 1 + k * ext) (bonds ++ flat_map bond_of (flat_map (arm_places s star) (zrange k))) /\
     Z.of_nat (length (atoms ++ map atom_of ([Core star] ++ flat_map (arm_places s star) (zrange k)))) = base + 1 + k * ext).
  destruct (loop_zrange (write_arm negative minus_one default_radius s base) Pk (armCountPerStar s) w1 H2) as [w2 [E2 [S2 [B2 L2]]]].
  - unfold Pk. change (zrange 0) with (@nil Z). cbn [flat_map]. rewrite !app_nil_r. split; [exact S1|].
    split; [apply (below_mono base); [lia|exact B]|]. rewrite app_length, Nat2Z.inj_add, L. cbn [map length]. lia.
  - intros k w2 Hk [S2 [B2 L2]].
    destruct (write_arm_ok w2 _ _ star k HS Hk S2 B2 L2) as [w3 [E3 [S3 [B3 L3]]]]. exists w3. split; [exact E3|].
    unfold Pk. rewrite flat_map_zrange by lia. set (fm := flat_map (arm_places s star) (zrange k)) in *.
    replace (base + 1 + (k + 1) * ext) with (base + 1 + k * ext + ext) by ring.
    assert (EA : atoms ++ map atom_of ([Core star] ++ fm ++ arm_places s star k) =
                 (atoms ++ map atom_of ([Core star] ++ fm)) ++ map atom_of (arm_places s star k))
      by (rewrite (app_assoc [Core star]), map_app, app_assoc; reflexivity).
    assert (EB : bonds ++ flat_map bond_of (fm ++ arm_places s star k) =
                 (bonds ++ flat_map bond_of fm) ++ flat_map bond_of (arm_places s star k))
      by (rewrite flat_map_app, app_assoc; reflexivity).
    rewrite EA, EB. split; [exact S3|]. split; [exact B3|exact L3].
  - exists w2. split; [exact E2|]. unfold star_places. cbn [flat_map map] in *.
    change (bond_of (Core star)) with (@nil (Z * Z)). cbn [app] in *. split; [exact S2|]. split.
    + replace (base + (1 + armCountPerStar s * ext)) with (base + 1 + armCountPerStar s * ext) by lia. exact B2.
    + etransitivity; [exact L2|lia].
Qed.
Lemma write_structure_ok w : state w [] [] ->
  exists w', writeStructureToSnapshot negative minus_one default_radius s w = Ok w' /\
    state w' (map atom_of (places s)) (flat_map bond_of (places s)).
Proof.
  intros H. destruct (Hs) as (H1 & H2 & H3). unfold writeStructureToSnapshot.
  rewrite (steps_open F show negative w _ H). cbn [c_steps].
  pose (Pk := fun k w => 
     state w (map atom_of (flat_map (star_places s) (zrange k))) (flat_map bond_of (flat_map (star_places s) (zrange k))) /\
     below (k * getParticleCountPerStar s) (flat_map bond_of (flat_map (star_places s) (zrange k))) /\
     Z.of_nat (length (map atom_of (flat_map (star_places s) (zrange k)))) = k * getParticleCountPerStar s).
  destruct (loop_zrange (write_star negative minus_one default_radius s) Pk (starCount s) w H1) as [w2 [E2 [S2 _]]].
  - unfold Pk. change (zrange 0) with (@nil Z). cbn [flat_map map]. split; [exact H|].
    split; [intros c []|reflexivity].
  - intros k w2 Hk [S2 [B2 L2]].
    destruct (write_star_ok w2 _ _ k ltac:(lia) S2 B2 L2) as [w3 [E3 [S3 [B3 L3]]]]. exists w3. split; [exact E3|].
    unfold Pk. rewrite flat_map_zrange by lia. rewrite map_app, (flat_map_app bond_of).
    replace ((k + 1) * getParticleCountPerStar s) with (k * getParticleCountPerStar s + getParticleCountPerStar s) by ring.
    split; [exact S3|]. split; [exact B3|exact L3].
  - exists w2. split; [exact E2|exact S2].
Qed.

(** Reading back. *)
Lemma places_length : Z.of_nat (length (places s)) = getParticleCount s.
Proof.
  rewrite <- (map_length (number s)), all_numbers by exact Hs. rewrite zrange_length. apply Z2Nat.id.
  destruct (Hs) as (H1 & H2 & H3). pose proof (perStar_pos s Hs). unfold getParticleCount. cbv zeta. nia.
Qed.
Lemma place_at p : 0 <= p < getParticleCount s ->
  exists pl, valid s pl /\ number s pl = p /\ nth_error (places s) (Z.to_nat p) = Some pl.
Proof.
  intros Hp. assert (E : nth_error (map (number s) (places s)) (Z.to_nat p) = Some p).
  { rewrite all_numbers by exact Hs. unfold zrange.
    rewrite (map_nth_error Z.of_nat (Z.to_nat p) (seq 0 (Z.to_nat (getParticleCount s))) (d := Z.to_nat p)).
    - f_equal. lia.
    - rewrite (nth_error_nth' _ 0%nat) by (rewrite seq_length; lia). rewrite seq_nth by lia. reflexivity. }
  rewrite nth_error_map in E. destruct (nth_error (places s) (Z.to_nat p)) as [pl|] eqn:N; [|discriminate].
  cbn [option_map] in E. injection E as E. exists pl. split; [|split; [exact E|reflexivity]].
  apply places_valid. apply nth_error_In in N. exact N.
Qed.
Lemma types_ok r l : (forall p, In p l -> 0 <= p < getParticleCount s) ->
  (forall i p, nth_error (map atom_of (places s)) i = Some p -> getAtomProperties r (Z.of_nat i) = Ok p) ->
  types_agree s r l = Ok true.
Proof.
  intros HL HP. induction l as [|p l IH]; [reflexivity|]. cbn [types_agree].
  destruct (place_at p (HL p (or_introl eq_refl))) as [pl [V [N E]]].
  pose proof (map_nth_error atom_of _ _ E) as E'. apply HP in E'. rewrite Z2Nat.id in E' by (pose proof (HL p (or_introl eq_refl)); lia).
  rewrite E'. cbn [bind atom_of p_type]. rewrite <- N, place_type by assumption. rewrite String.eqb_refl.
  apply IH. intros q Hq. apply HL. right; exact Hq.
Qed.
Lemma bonded_flat p q : valid s p -> valid s q -> p <> q ->
  (bonded (flat_map bond_of (places s)) (number s p) (number s q) = true <-> linked s p q).
Proof.
  intros Vp Vq N. unfold bonded. rewrite existsb_exists. split.
  - intros [c [Hc E]]. apply in_flat_map in Hc. destruct Hc as [pl [Hp Hc]]. apply places_valid in Hp.
    unfold bond_of in Hc. destruct (inner s pl) as [q0|] eqn:I; [|destruct Hc]. destruct Hc as [<-|[]].
    destruct (inner_valid s pl q0 Hs Hp I) as [V0 _]. cbn [fst snd] in E.
    rewrite orb_true_iff, !andb_true_iff, !Z.eqb_eq in E. destruct E as [[E1 E2]|[E1 E2]].
    + apply number_inj in E1; [|assumption..]. apply number_inj in E2; [|assumption..]. subst. right. exact I.
    + apply number_inj in E1; [|assumption..]. apply number_inj in E2; [|assumption..]. subst. left. exact I.
  - intros [I|I].
    + exists (number s q, number s p). split.
      * apply in_flat_map. exists p. split; [apply places_valid, Vp|]. unfold bond_of. rewrite I. left; reflexivity.
      * cbn [fst snd]. rewrite !Z.eqb_refl, orb_true_r. reflexivity.
    + exists (number s p, number s q). split.
      * apply in_flat_map. exists q. split; [apply places_valid, Vq|]. unfold bond_of. rewrite I. left; reflexivity.
      * cbn [fst snd]. rewrite !Z.eqb_refl. reflexivity.
Qed.
Lemma bonds_ok r l : (forall p q, In (p, q) l -> 0 <= p < getParticleCount s /\ 0 <= q < getParticleCount s /\ p <> q) ->
  (forall a b, 0 <= a < getParticleCount s -> 0 <= b < getParticleCount s -> a <> b ->
     hasBond (F := F) r a b = Ok (bonded (flat_map bond_of (places s)) a b)) ->
  bonds_agree s r l = Ok true.
Proof.
  intros HL HB. induction l as [|[p q] l IH]; [reflexivity|]. cbn [bonds_agree].
  destruct (HL p q (or_introl eq_refl)) as [Hp [Hq N]].
  destruct (place_at p Hp) as [pl [Vp [Np _]]]. destruct (place_at q Hq) as [ql [Vq [Nq _]]].
  assert (Npq : pl <> ql) by congruence.
  destruct (bonded_places s pl ql Hs Vp Vq Npq) as [b [E1 E2]]. rewrite Np, Nq in E1. rewrite E1.
  rewrite HB by assumption. cbn [bind]. pose proof (bonded_flat pl ql Vp Vq Npq) as E3. rewrite Np, Nq in E3.
  rewrite (same_truth _ _ _ E2 E3), eqb_reflx. apply IH. intros p' q' H. apply HL. right; exact H.
Qed.
Lemma compatible r c : describes r c -> c_atoms c = map atom_of (places s) -> c_bonds c = flat_map bond_of (places s) ->
  snapshotStructureIsCompatible s r = Ok true.
Proof.
  intros [N [P [B _]]] EA EB. unfold snapshotStructureIsCompatible.
  assert (L : Z.of_nat (length (c_atoms c)) = getParticleCount s) by (rewrite EA, map_length; apply places_length).
  rewrite N, L, Z.eqb_refl. cbn [negb]. rewrite types_ok.
  - cbn [bind]. apply bonds_ok.
    + intros p q H. unfold ordered_pairs in H. apply in_flat_map in H. destruct H as [p1 [H1 H2]].
      apply in_map_iff in H2. destruct H2 as [k [E Hk]]. injection E as <- <-.
      rewrite In_zrange in H1, Hk. lia.
    + intros a b Ha Hb Hn. rewrite <- EB. apply B; rewrite ?L; assumption.
  - intros p Hp. rewrite In_zrange in Hp. exact Hp.
  - intros i p E. apply P. rewrite EA. exact E.
Qed.
End Star.

Lemma star_restart F (show : F -> string) (cast : string -> option F) (negative minus_one : F -> bool) (default_radius : F)
  (s : StarModel.structure) (dbg : bool) (calls : list (call F)) (positions velocities : Z -> F) :
  prints show cast -> minus_one default_radius = true -> well_formed s -> getParticleCount s < 2 ^ 64 ->
  Forall unsigned calls -> Forall plain_names calls ->
  c_atoms (declared negative minus_one calls) = [] -> c_steps (declared negative minus_one calls) = [] ->
  let w := fold_left (perform show negative minus_one) calls new_writer in
  exists w1 w2 r ls rest,
    writeStructureToSnapshot negative minus_one default_radius s w = Ok w1 /\
    writeStateToSnapshot s show w1 positions velocities = Ok w2 /\
    open_file cast negative dbg (file_contents show w2) = Ok (r, ls) /\
    snapshotStructureIsCompatible s r = Ok true /\
    readStateFromSnapshot s cast r ls =
      Ok (Some (step_rows (Z.to_nat (getParticleCount s)) (positions, Some velocities)), rest).
Proof.
  intros HP HR Hs HC U P EA ES w.
  pose proof (written_inv F show negative minus_one calls U P) as I. fold w in I.
  assert (EB : c_bonds (declared negative minus_one calls) = []).
  { assert (G : forall l c, c_atoms c = [] -> c_bonds c = [] -> c_atoms (fold_left (declare negative minus_one) l c) = [] ->
             Forall unsigned l -> c_bonds (fold_left (declare negative minus_one) l c) = []).
    { induction l as [|k l IHl]; intros c A B Cc HU; [exact B|]. cbn [fold_left] in *.
      inversion HU as [|? ? HU1 HU2]; subst.
      assert (M : forall l c, c_atoms (fold_left (declare negative minus_one) l c) = [] -> c_atoms c = []).
      { induction l0 as [|k0 l0 IHk]; intros c0 H0; [exact H0|]. cbn [fold_left] in H0. apply IHk in H0.
        destruct k0; cbn [declare] in H0;
          repeat match goal with H : context [if ?x then _ else _] |- _ => destruct x end;
          cbn [c_atoms] in H0; try exact H0; apply app_eq_nil in H0; apply H0. }
      apply IHl; [apply (M l), Cc| |exact Cc|exact HU2].
      destruct k; cbn [declare]; try (repeat match goal with |- context [if ?x then _ else _] => destruct x end; exact B).
      rewrite A. cbn [length Z.of_nat unsigned] in *.
      destruct (Z.ltb_spec a 0); [lia|]. rewrite andb_false_r. exact B. }
    apply (G calls (Contents [] [] None [])); [reflexivity|reflexivity|exact EA|exact U]. }
  assert (I0 : inv F show negative w (Contents [] [] (c_volume (declared negative minus_one calls)) [])).
  { destruct (declared negative minus_one calls) as [ca cb cv cs]. cbn [c_atoms c_bonds c_steps c_volume] in *. subst. exact I. }
  destruct (write_structure_ok F show negative minus_one default_radius HR s Hs _ w I0) as [w1 [E1 S1]].
  pose proof (count_atoms F show negative w1 _ S1) as N1. cbn [c_atoms] in N1. rewrite map_length, (places_length s Hs) in N1.
  set (w2 := writeTimestepBlock show w1 positions (Some velocities)).
  pose proof (perform_inv F show negative minus_one w1 _ (CallTimestep positions (Some velocities)) S1 Logic.I Logic.I) as S2.
  cbn [perform declare c_atoms c_bonds c_volume c_steps app] in S2. fold w2 in S2.
  pose proof (count_atoms F show negative w2 _ S2) as N2. cbn [c_atoms] in N2. rewrite map_length, (places_length s Hs) in N2.
  destruct (open_ok F show cast negative HP dbg (w_structure w2) [(positions, Some velocities)]) as [ls [O1 O2]];
    [apply S2|rewrite N2; exact HC|].
  cbn [map reads_steps] in O2. destruct O2 as [rest [O2 _]].
  exists w1, w2, (w_structure w2), ls, rest.
  split; [exact E1|]. split.
  { unfold writeStateToSnapshot. rewrite N1, Z.eqb_refl. reflexivity. }
  split.
  { rewrite (file_lines F show negative w2 _ S2). exact O1. }
  assert (CO : snapshotStructureIsCompatible s (w_structure w2) = Ok true).
  { apply (compatible F s Hs _ _ (describes_ok F show negative w2 _ S2)); reflexivity. }
  split; [exact CO|]. unfold readStateFromSnapshot. rewrite CO. cbn [bind]. rewrite O2. do 3 f_equal.
  rewrite <- rows_spec, N2. do 2 f_equal. rewrite Z2Nat.id; [reflexivity|].
  rewrite <- (places_length s Hs). lia.
Qed.

(** A structure is accepted exactly if it is the one of the star polymers. *)
Lemma types_agree_iff F s (r : VtfModel.structure F) l : types_agree s r l = Ok true <->
  (forall i, In i l -> exists props, getAtomProperties r i = Ok props /\ p_type props = Some (type_string (getParticleType s i))).
Proof.
  induction l as [|p l IH]; cbn [types_agree]; [split; [intros _ i []|reflexivity]|].
  split.
  - intros H. destruct (getAtomProperties r p) as [props|e] eqn:E; [cbn [bind] in H|discriminate H].
    destruct (p_type props) as [t|] eqn:T; [|discriminate H].
    destruct (String.eqb_spec t (type_string (getParticleType s p))) as [->|N]; [|discriminate H].
    intros i [<-|Hi]; [exists props; auto|]. apply IH; assumption.
  - intros H. destruct (H p (or_introl eq_refl)) as (props & E & T). rewrite E. cbn [bind]. rewrite T, String.eqb_refl.
    apply IH. intros i Hi. apply H. right; exact Hi.
Qed.
Lemma bonds_agree_iff F s (r : VtfModel.structure F) l : bonds_agree s r l = Ok true <->
  (forall i j, In (i, j) l -> exists b, particlesAreBonded s i j = Some b /\ hasBond r i j = Ok b).
Proof.
  induction l as [|(p, q) l IH]; cbn [bonds_agree]; [split; [intros _ i j []|reflexivity]|].
  split.
  - intros H. destruct (particlesAreBonded s p q) as [b|] eqn:B; [|discriminate H].
    destruct (hasBond r p q) as [b'|e] eqn:E; [cbn [bind] in H|discriminate H].
    destruct (Bool.eqb b b') eqn:Q; [|discriminate H]. apply Bool.eqb_prop in Q. subst b'.
    intros i j [X|Hi]; [injection X as <- <-; exists b; auto|]. apply IH; assumption.
  - intros H. destruct (H p q (or_introl eq_refl)) as (b & E & T). rewrite E, T. cbn [bind]. rewrite Bool.eqb_reflx.
    apply IH. intros i j Hi. apply H. right; exact Hi.
Qed.
Lemma In_ordered_pairs n i j : In (i, j) (ordered_pairs n) <-> 0 <= i < j /\ j < n.
Proof.
  unfold ordered_pairs. rewrite in_flat_map. split.
  - intros (p & Hp & H). apply in_map_iff in H. destruct H as (k & E & Hk). injection E as <- <-.
    rewrite In_zrange in Hp, Hk. lia.
  - intros H. exists i. rewrite In_zrange. split; [lia|]. apply in_map_iff. exists (j - i - 1). rewrite In_zrange.
    split; [f_equal; lia|lia].
Qed.
Lemma compatible_iff F s (r : VtfModel.structure F) : snapshotStructureIsCompatible s r = Ok true <->
  getNumberOfAtoms r = getParticleCount s /\
  (forall i, 0 <= i < getParticleCount s ->
     exists props, getAtomProperties r i = Ok props /\ p_type props = Some (type_string (getParticleType s i))) /\
  (forall i j, 0 <= i < j -> j < getParticleCount s ->
     exists b, particlesAreBonded s i j = Some b /\ hasBond r i j = Ok b).
Proof.
  unfold snapshotStructureIsCompatible. destruct (Z.eqb_spec (getNumberOfAtoms r) (getParticleCount s)) as [N|N]; cbn [negb].
  2: { split; [discriminate|intros [H _]; contradiction]. }
  pose proof (types_agree_iff F s r (zrange (getParticleCount s))) as TA.
  pose proof (bonds_agree_iff F s r (ordered_pairs (getParticleCount s))) as BA.
  split.
  - intros H. destruct (types_agree s r _) as [[]|e]; [cbn [bind] in H|discriminate H|discriminate H].
    split; [exact N|]. split.
    + intros i Hi. apply TA; [reflexivity|]. apply In_zrange. lia.
    + intros i j Hi Hj. apply BA; [exact H|]. apply In_ordered_pairs. lia.
  - intros (_ & T & B).
    assert (T' : types_agree s r (zrange (getParticleCount s)) = Ok true) by (apply TA; intros i Hi; apply T; rewrite In_zrange in Hi; lia).
    rewrite T'. cbn [bind]. apply BA. intros i j Hij. apply In_ordered_pairs in Hij. apply B; lia.
Qed.
