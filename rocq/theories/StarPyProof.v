(** Proofs about the analysis of star polymers, and about initial positions. *)
From Coq Require Import List ZArith Bool Reals Lia Lra Relations Permutation FunctionalExtensionality.
From Verif Require Import PyBase VecBase VecModel VecSpec PartSpec PartProof PotModel PotSpec PotProof CuModel CuSpec CuProof MdModel StarModel StarSpec StarProof StarMdProof.
Import ListNotations.
Open Scope R_scope.

(** * Potentials *)
Lemma types_ok s i j : well_formed s -> particle s i -> particle s j -> py_check_types s (type_of (place_at s i)) (type_of (place_at s j)) = Ok tt.
Proof.
  intros H Hi Hj. destruct (place_at_ok s i H Hi) as [Vi _]. destruct (place_at_ok s j H Hj) as [Vj _]. unfold py_check_types.
  destruct (hasMagneticParticles s) eqn:M; [reflexivity|].
  destruct (place_at s i), (place_at s j); cbn in *; try reflexivity; exfalso; first [ (destruct Vi as (_ & _ & X); discriminate X || congruence) | (destruct Vj as (_ & _ & X); congruence) ].
Qed.
Lemma analysable_strengths p : analysable p -> strengths_nonneg p.
Proof. intros (A & _) t. apply A. Qed.
Lemma py_wca s p t u : analysable p -> py_check_types s t u = Ok tt -> py_getWCAPotential s p t u = Ok (mixed_wca p t u) /\ accepted (mixed_wca p t u).
Proof.
  intros (A & _) C. destruct (A t) as (E1 & S1 & D1). destruct (A u) as (E2 & S2 & D2).
  assert (E : 0 <= epsilon p t * epsilon p u) by now apply Rmult_le_pos.
  pose proof (sqrt_pos (epsilon p t * epsilon p u)) as Sq.
  split; [|cbn; lra]. unfold py_getWCAPotential, py_epsilon, py_sigma, py_D. rewrite C. cbn [bind].
  unfold rltb at 1. destruct (Rlt_dec _ _); [lra|]. cbn [bind]. unfold py_wcad_init, rltb.
  destruct (Rlt_dec _ _); [lra|]. destruct (Rlt_dec _ _); [lra|]. destruct (Rlt_dec _ _); [lra|]. reflexivity.
Qed.
Lemma py_fene s p t u : analysable p -> py_check_types s t u = Ok tt -> py_getFENEPotential s p t u = Ok (mixed_fene p t u) /\ accepted (mixed_fene p t u).
Proof.
  intros (A & _) C. destruct (A t) as (E1 & S1 & D1). destruct (A u) as (E2 & S2 & D2).
  assert (E : 0 <= epsilon p t * epsilon p u) by now apply Rmult_le_pos.
  pose proof (sqrt_pos (epsilon p t * epsilon p u)) as Sq.
  split; [|cbn; lra]. unfold py_getFENEPotential, py_epsilon, py_sigma, py_D. rewrite C. cbn [bind].
  unfold rltb at 1. destruct (Rlt_dec _ _); [lra|]. cbn [bind].
  destruct (Req_EM_T _ _) as [Z|_]; [exfalso; apply Rmult_integral in Z; lra|].
  unfold py_fene_init, rleb. destruct (Rle_dec _ _); [lra|]. reflexivity.
Qed.
Lemma unit_length o : unit3 o -> times3 (/ length3 o) o = o.
Proof. intros U. unfold length3. rewrite U, sqrt_1, Rinv_1. destruct o. unfold times3. cbn. f_equal; ring. Qed.
Lemma py_magnetic s p : analysable p -> hasMagneticParticles s = true -> py_getMagneticPotential s p = Ok (dipoles p) /\ accepted (dipoles p).
Proof.
  intros (_ & M & o & O & U) H. unfold py_getMagneticPotential, dipoles. rewrite H, O. cbn [negb]. rewrite (unit_length o U). split.
  - unfold py_mag_init, rltb. destruct (Rlt_dec _ _); [lra|]. destruct (Req_EM_T _ _) as [|N]; [reflexivity|]. exfalso. apply N. exact U.
  - cbn. split; assumption.
Qed.
Lemma potentials_agree s p i j : well_formed s -> analysable p -> particle s i -> particle s j -> i <> j ->
  exists t u, py_getParticleType s i = Ok t /\ py_getParticleType s j = Ok u /\ t = getParticleType s i /\ u = getParticleType s j /\
  (exists w, py_getWCAPotential s p t u = Ok w /\ WCAPotentials (createInteractions p) (getParticleTypeCombinationIndex t u) = Some w) /\
  (bonds_have_potentials s -> bonded s i j = true ->
    exists f, py_getFENEPotential s p t u = Ok f /\ FENEPotentials (createInteractions p) (getParticleTypeCombinationIndex t u) = Some f) /\
  (t = TMagnetic -> u = TMagnetic -> py_getMagneticPotential s p = Ok (magneticPotential (createInteractions p))).
Proof.
  intros H A Hi Hj N. exists (getParticleType s i), (getParticleType s j).
  rewrite !py_type_eq by assumption. repeat (split; [reflexivity|]).
  destruct (place_at_ok s i H Hi) as [Vi Ei]. destruct (place_at_ok s j H Hj) as [Vj Ej].
  assert (Ti : getParticleType s i = type_of (place_at s i)) by (rewrite <- Ei at 1; now apply place_type).
  assert (Tj : getParticleType s j = type_of (place_at s j)) by (rewrite <- Ej at 1; now apply place_type).
  rewrite Ti, Tj. pose proof (types_ok s i j H Hi Hj) as C. repeat split.
  - eexists. split; [apply (py_wca s p _ _ A C)|]. apply wca_table. now apply analysable_strengths.
  - intros B Hb. eexists. split; [apply (py_fene s p _ _ A C)|]. rewrite fene_table by now apply analysable_strengths.
    rewrite <- Ei, <- Ej in Hb. apply bonded_linked in Hb; try assumption; [|congruence]. destruct Hb as [Hb|Hb].
    + now rewrite (fene_there s _ _ H Vi Vj B Hb).
    + now rewrite has_fene_sym, (fene_there s _ _ H Vj Vi B Hb).
  - intros M _. rewrite dipoles_eq. apply py_magnetic; [exact A|]. destruct (place_at s i); try discriminate. apply Vi.
Qed.
(** * Potential energy *)
Lemma py_sum_ok {A} (f : A -> R -> result R) (e : A -> R) l : (forall a ret, In a l -> f a ret = Ok (ret + e a)) -> forall ret, py_sum f l ret = Ok (ret + rsum (map e l)).
Proof.
  induction l as [|a l IH]; intros H ret; cbn [py_sum map]; [cbn; f_equal; ring|]. rewrite H by now left. cbn [bind]. rewrite IH by (intros b r Hb; apply H; now right).
  rewrite rsum_cons. f_equal. ring.
Qed.
Definition fails {A} (f : A -> R -> result R) (a : A) := forall ret, f a ret = Err ValueError.
Lemma py_sum_err {A} (f : A -> R -> result R) l : (forall a, In a l -> fails f a \/ exists e, forall ret, f a ret = Ok (ret + e)) -> (exists a, In a l /\ fails f a) -> fails (py_sum f) l.
Proof.
  induction l as [|a l IH]; intros H (b & Hb & F) ret; [contradiction|]. cbn [py_sum].
  destruct (H a (or_introl eq_refl)) as [Fa|(e & Ea)]; [now rewrite Fa|]. rewrite Ea. cbn [bind]. destruct Hb as [->|Hb].
  - specialize (F ret). rewrite Ea in F. discriminate.
  - apply IH; [intros c Hc; apply H; now right|]. now exists b.
Qed.
Lemma py_range_eq a b : py_range a b = map (fun u => (a + u)%Z) (zrange (b - a)).
Proof. reflexivity. Qed.
Lemma py_sum_map {A B} (f : A -> R -> result R) (g : B -> A) l : forall ret, py_sum f (map g l) ret = py_sum (fun b => f (g b)) l ret.
Proof. induction l as [|b l IH]; intros ret; [reflexivity|]. cbn [map py_sum]. destruct (f (g b) ret); cbn [bind]; [apply IH|reflexivity]. Qed.
Definition pair_fits s p (x : vecs) i j :=
  let a := place_at s i in
  let b := place_at s j in
  (D p (type_of a) + D p (type_of b)) / 2 < length3 (minus3 (x i) (x j)) /\
  (linked s a b -> Rabs (length3 (minus3 (x i) (x j)) - (D p (type_of a) + D p (type_of b)) / 2) < 3 / 2 * ((sigma p (type_of a) + sigma p (type_of b)) / 2)).
Section Pair.
Variables (s : structure) (p : parameters) (x : vecs) (i j : Z).
Hypothesis H : well_formed s.
Hypothesis A : analysable p.
Hypothesis M : hasMagneticParticles s = true.
Hypothesis Hi : particle s i.
Hypothesis Hj : particle s j.
Hypothesis N : i <> j.
Let a := place_at s i.
Let b := place_at s j.
Let r := minus3 (x i) (x j).
Lemma pair_types : py_getParticleType s i = Ok (type_of a) /\ py_getParticleType s j = Ok (type_of b).
Proof.
  destruct (place_at_ok s i H Hi) as [Vi Ei]. destruct (place_at_ok s j H Hj) as [Vj Ej].
  rewrite !py_type_eq by assumption. unfold a, b. split; f_equal; [rewrite <- Ei at 1|rewrite <- Ej at 1]; now apply place_type.
Qed.
Lemma pair_bonded : exists bd, py_particlesAreBonded s i j = Ok bd /\ (bd = true <-> linked s a b).
Proof.
  destruct (place_at_ok s i H Hi) as [Vi Ei]. destruct (place_at_ok s j H Hj) as [Vj Ej].
  destruct (py_bonded_eq s i j H Hi Hj) as [B _]. destruct (B N) as (bd & B1 & B2). exists bd. split; [exact B1|].
  assert (E : bd = bonded s i j) by (unfold bonded; now rewrite B2). rewrite E. rewrite <- Ei, <- Ej. unfold a, b. apply bonded_linked; try assumption. rewrite <- Ei, <- Ej in N. congruence.
Qed.
Lemma pair_link : (if inner_dec s a b then mixed_fene p (type_of a) (type_of b) else if inner_dec s b a then mixed_fene p (type_of a) (type_of b) else Null) = mixed_fene p (type_of a) (type_of b) /\ linked s a b \/
  (if inner_dec s a b then mixed_fene p (type_of a) (type_of b) else if inner_dec s b a then mixed_fene p (type_of a) (type_of b) else Null) = Null /\ ~ linked s a b.
Proof.
  unfold linked. destruct (inner_dec s a b) as [E|E]; [left; tauto|]. destruct (inner_dec s b a) as [E'|E']; [left; tauto|right]. split; [reflexivity|tauto].
Qed.
Lemma pair_ok ret : pair_fits s p x i j -> py_pair_energy s p (dipoles p) x i j ret = Ok (ret + energy (pair_potential s p i j) r).
Proof.
  intros [F1 F2]. destruct pair_types as [T1 T2]. destruct pair_bonded as (bd & B & L). pose proof (types_ok s i j H Hi Hj) as C. fold a b in F1, F2, C.
  unfold py_pair_energy. rewrite T1, T2. cbn [bind]. change (vsub (x i) (x j)) with r.
  destruct (py_wca s p (type_of a) (type_of b) A C) as [W W']. destruct (py_fene s p (type_of a) (type_of b) A C) as [Fe Fe']. destruct (py_magnetic s p A M) as [_ Mg].
  rewrite W. cbn [bind]. rewrite (analysis_agrees _ r (Vector r) W') by (try (now left); exact F1). cbn [bind]. rewrite B. cbn [bind].
  unfold pair_potential. fold a b. cbn [energy].
  assert (R0 : r <> zero3).
  { intros R0. fold r in F1. rewrite R0 in F1. unfold length3, zero3, dot3 in F1. cbn in F1.
    replace (0 * 0 + 0 * 0 + 0 * 0) with 0 in F1 by ring. rewrite sqrt_0 in F1. destruct A as (A0 & _). pose proof (A0 (type_of a)). pose proof (A0 (type_of b)). lra. }
  destruct pair_link as [[-> Lk]|[-> Lk]].
  - rewrite (proj2 L Lk), Fe. cbn [bind]. rewrite (analysis_agrees _ r (Vector r) Fe') by (try (now left); exact (F2 Lk)). cbn [bind].
    destruct (type_of a), (type_of b); cbn [ptype_eqb ptype_code Z.eqb Pos.eqb andb energy]; try (f_equal; ring).
    rewrite (analysis_agrees _ r (Vector r) Mg) by (try (now left); exact R0). cbn [bind]. f_equal. ring.
  - destruct bd; [exfalso; apply Lk; now apply L|]. cbn [bind energy].
    destruct (type_of a), (type_of b); cbn [ptype_eqb ptype_code Z.eqb Pos.eqb andb energy]; try (f_equal; ring).
    rewrite (analysis_agrees _ r (Vector r) Mg) by (try (now left); exact R0). cbn [bind]. f_equal. ring.
Qed.
Lemma pair_bad ret : ~ pair_fits s p x i j -> py_pair_energy s p (dipoles p) x i j ret = Err ValueError.
Proof.
  intros F. destruct pair_types as [T1 T2]. destruct pair_bonded as (bd & B & L). pose proof (types_ok s i j H Hi Hj) as C. unfold pair_fits in F. fold a b r in F, C.
  unfold py_pair_energy. rewrite T1, T2. cbn [bind]. change (vsub (x i) (x j)) with r.
  destruct (py_wca s p (type_of a) (type_of b) A C) as [W W']. destruct (py_fene s p (type_of a) (type_of b) A C) as [Fe Fe'].
  rewrite W. cbn [bind]. destruct (Rlt_dec ((D p (type_of a) + D p (type_of b)) / 2) (length3 r)) as [F1|F1].
  - rewrite (analysis_agrees _ r (Vector r) W') by (try (now left); exact F1). cbn [bind]. rewrite B. cbn [bind].
    destruct bd.
    + rewrite Fe. cbn [bind]. rewrite (analysis_outside _ r (Vector r)); [reflexivity|exact I|now left|].
      intros [_ F2]. apply F. split; [exact F1|]. intros _. exact F2.
    + exfalso. apply F. split; [exact F1|]. intros Lk. apply L in Lk. discriminate.
  - rewrite (analysis_outside _ r (Vector r)); [reflexivity|exact I|now left|]. intros [_ F2]. apply F1. exact F2.
Qed.
Lemma fits_dec : pair_fits s p x i j \/ ~ pair_fits s p x i j.
Proof.
  unfold pair_fits. fold a b r.
  destruct (Rlt_dec ((D p (type_of a) + D p (type_of b)) / 2) (length3 r)) as [F1|F1]; [|right; tauto].
  destruct (Rlt_dec (Rabs (length3 r - (D p (type_of a) + D p (type_of b)) / 2)) (3 / 2 * ((sigma p (type_of a) + sigma p (type_of b)) / 2))) as [F2|F2]; [left; tauto|].
  destruct pair_link as [[_ L]|[_ L]]; [right; tauto|left; tauto].
Qed.
End Pair.
Section Energy.
Variables (s : structure) (p : parameters) (x : vecs).
Hypothesis H : well_formed s.
Hypothesis H1 : starCount s = 1%Z.
Hypothesis A : analysable p.
Hypothesis M : hasMagneticParticles s = true.
Let NN := getParticleCount s.
Lemma energy_loops : py_getPotentialEnergy s p (Some x) =
  py_sum (fun i => py_sum (fun u => py_pair_energy s p (dipoles p) x i (i + 1 + u)) (zrange (NN - i - 1))) (zrange NN) 0.
Proof.
  unfold py_getPotentialEnergy. rewrite H1. cbn [Z.eqb Pos.eqb negb]. destruct (py_magnetic s p A M) as [-> _]. cbn [bind].
  rewrite py_range_eq, py_count_eq. fold NN. rewrite Z.sub_0_r. replace (map (fun u => (0 + u)%Z) (zrange NN)) with (zrange NN) by (symmetry; apply map_id).
  f_equal. apply functional_extensionality. intros i. apply functional_extensionality. intros ret. rewrite py_range_eq, py_sum_map. now replace (NN - (i + 1))%Z with (NN - i - 1)%Z by lia.
Qed.
Lemma energy_ok : in_range s p x -> py_getPotentialEnergy s p (Some x) = Ok (potential_energy s p x).
Proof.
  intros F. rewrite energy_loops.
  rewrite (py_sum_ok _ (fun i => rsum (map (fun u => energy (pair_potential s p i (i + 1 + u)) (minus3 (x i) (x (i + 1 + u)%Z))) (zrange (NN - i - 1))))).
  - rewrite Rplus_0_l. unfold potential_energy. fold NN. f_equal. rewrite <- (zfrom_0 NN) at 2. rewrite (pairs_loops 0 NN (count_nonneg s H) NN) by reflexivity.
    rewrite zfrom_0, rsum_flat_map. apply rsum_ext. intros i. rewrite map_map. reflexivity.
  - intros i ret Hi. rewrite In_zrange in Hi. apply (py_sum_ok _ (fun u => energy (pair_potential s p i (i + 1 + u)) (minus3 (x i) (x (i + 1 + u)%Z)))).
    intros u ret' Hu. rewrite In_zrange in Hu. apply pair_ok; try assumption; try (unfold particle; fold NN; lia).
    apply F; unfold particle; fold NN; lia.
Qed.
Lemma energy_bad : ~ in_range s p x -> py_getPotentialEnergy s p (Some x) = Err ValueError.
Proof.
  intros F. rewrite energy_loops.
  assert (Inner : forall i, In i (zrange NN) -> (exists e, forall ret, py_sum (fun u => py_pair_energy s p (dipoles p) x i (i + 1 + u)) (zrange (NN - i - 1)) ret = Ok (ret + e)) /\
      (forall u, In u (zrange (NN - i - 1)) -> pair_fits s p x i (i + 1 + u)) \/
    fails (py_sum (fun u => py_pair_energy s p (dipoles p) x i (i + 1 + u))) (zrange (NN - i - 1))).
  { intros i Hi. rewrite In_zrange in Hi.
    assert (E : (forall u, In u (zrange (NN - i - 1)) -> pair_fits s p x i (i + 1 + u)) \/ exists u, In u (zrange (NN - i - 1)) /\ ~ pair_fits s p x i (i + 1 + u)).
    { assert (G : forall l, (forall u, In u l -> pair_fits s p x i (i + 1 + u)) \/ exists u, In u l /\ ~ pair_fits s p x i (i + 1 + u)).
      { induction l as [|u l IH]; [left; contradiction|]. destruct (fits_dec s p x i (i + 1 + u)) as [Fu|Fu]; [|right; exists u; split; [now left|exact Fu]].
        destruct IH as [IH|(v & Hv & IH)]; [left; intros v [<-|Hv]; auto|right; exists v; split; [now right|exact IH]]. }
      apply G. }
    destruct E as [E|(u & Hu & E)].
    - left. split; [|exact E]. eexists. intros ret. apply py_sum_ok. intros u ret' Hu. pose proof Hu as Hu'. rewrite In_zrange in Hu. apply pair_ok; try assumption; try (unfold particle; fold NN; lia). now apply E.
    - right. apply py_sum_err.
      + intros v Hv. rewrite In_zrange in Hv. destruct (fits_dec s p x i (i + 1 + v)) as [Fv|Fv].
        * right. eexists. intros ret. apply pair_ok; try assumption; unfold particle; fold NN; lia.
        * left. intros ret. apply pair_bad; try assumption; unfold particle; fold NN; lia.
      + exists u. split; [exact Hu|]. rewrite In_zrange in Hu. intros ret. apply pair_bad; try assumption; unfold particle; fold NN; lia. }
  apply (py_sum_err (fun i => py_sum (fun u => py_pair_energy s p (dipoles p) x i (i + 1 + u)) (zrange (NN - i - 1)))).
  - intros i Hi. destruct (Inner i Hi) as [[E _]|E]; [now right|left; exact E].
  - assert (G : forall l, incl l (zrange NN) -> (forall i, In i l -> forall u, In u (zrange (NN - i - 1)) -> pair_fits s p x i (i + 1 + u)) \/
      exists i, In i l /\ fails (fun i => py_sum (fun u => py_pair_energy s p (dipoles p) x i (i + 1 + u)) (zrange (NN - i - 1))) i).
    { induction l as [|i l IH]; intros Inc; [left; contradiction|]. destruct (Inner i (Inc i (or_introl eq_refl))) as [[_ E]|E].
      - destruct IH as [IH|(k & Hk & IH)]; [intros k Hk; apply Inc; now right|left; intros k [<-|Hk]; auto|right; exists k; split; [now right|exact IH]].
      - right. exists i. split; [now left|exact E]. }
    destruct (G (zrange NN) (incl_refl _)) as [E|E]; [|exact E]. exfalso. apply F. intros i j Hi Hj L. unfold particle in *. fold NN in Hi, Hj.
    replace j with (i + 1 + (j - i - 1))%Z by lia. apply E; apply In_zrange; lia.
Qed.
End Energy.
Lemma energy_none s p x : starCount s = 1%Z -> hasMagneticParticles s = false -> py_getPotentialEnergy s p (Some x) = Err RuntimeError.
Proof. intros H M. unfold py_getPotentialEnergy, py_getMagneticPotential. rewrite H, M. reflexivity. Qed.
Lemma energy_default s p x : starCount s = 1%Z -> hasMagneticParticles s = true -> dipoleOrientation p = None -> py_getPotentialEnergy s p (Some x) = Err KeyError.
Proof. intros H M O. unfold py_getPotentialEnergy, py_getMagneticPotential. rewrite H, M, O. reflexivity. Qed.
