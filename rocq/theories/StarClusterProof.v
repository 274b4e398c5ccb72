(** Proofs about clusters of magnetic particles, and about initial positions. *)
From Coq Require Import List ZArith Bool Reals Lia Lra Relations Permutation FunctionalExtensionality.
From Verif Require Import PyBase VecBase VecModel VecSpec PartSpec PartProof PotModel PotSpec PotProof CuModel CuSpec CuProof MdModel StarModel StarSpec StarProof StarMdProof.
Import ListNotations.
Open Scope R_scope.

(** * Clusters *)
Lemma positions_eq a : forall b, py_positions_eq a b = true <-> a = b.
Proof.
  induction a as [|x a IH]; intros [|y b]; cbn [py_positions_eq]; try (split; congruence).
  destruct (vec_eq_dec x y) as [->|N]; cbn [andb]; [rewrite IH; split; congruence|split; congruence].
Qed.
Lemma length_sym a b : length3 (minus3 a b) = length3 (minus3 b a).
Proof. unfold length3. f_equal. destruct a, b. unfold dot3, minus3. cbn. ring. Qed.
Lemma close_iff cutoff c d : py_close cutoff c d = true <-> exists x y, In x c /\ In y d /\ length3 (minus3 x y) <= cutoff.
Proof.
  unfold py_close. rewrite existsb_exists. split.
  - intros (x & Hx & E). apply existsb_exists in E. destruct E as (y & Hy & E). exists x, y. split; [exact Hx|]. split; [exact Hy|].
    unfold rleb in E. destruct (Rle_dec _ _) as [L|]; [|discriminate]. exact L.
  - intros (x & y & Hx & Hy & L). exists x. split; [exact Hx|]. apply existsb_exists. exists y. split; [exact Hy|].
    unfold rleb. destruct (Rle_dec _ _) as [|N]; [reflexivity|]. exfalso. apply N. exact L.
Qed.
Lemma find_iff cutoff cs c d : py_find cutoff cs = Some (c, d) -> In c cs /\ In d cs /\ c <> d /\ py_close cutoff c d = true.
Proof.
  unfold py_find. intros E. apply find_some in E. destruct E as [I E]. rewrite in_flat_map in I. destruct I as (c' & Hc & I). rewrite in_map_iff in I. destruct I as (d' & E' & Hd).
  injection E' as -> ->. cbn [fst snd] in E. apply andb_true_iff in E. destruct E as [E1 E2]. repeat split; try assumption.
  intros ->. apply negb_true_iff in E1. rewrite (proj2 (positions_eq d d)) in E1; [discriminate|reflexivity].
Qed.
Lemma find_none_iff cutoff cs : py_find cutoff cs = None -> forall c d, In c cs -> In d cs -> c <> d -> py_close cutoff c d = false.
Proof.
  unfold py_find. intros E c d Hc Hd N. pose proof (find_none _ _ E (c, d)) as F. cbn [fst snd] in F.
  assert (I : In (c, d) (flat_map (fun cluster => map (fun otherCluster => (cluster, otherCluster)) cs) cs)).
  { rewrite in_flat_map. exists c. split; [exact Hc|]. rewrite in_map_iff. now exists d. }
  specialize (F I). apply andb_false_iff in F. destruct F as [F|F]; [|exact F]. exfalso. apply negb_false_iff in F. apply positions_eq in F. now apply N.
Qed.
Lemma nodup_app_r {A} (a b : list A) : NoDup (a ++ b) -> NoDup b.
Proof. induction a as [|x a IH]; [trivial|]. cbn. rewrite NoDup_cons_iff. tauto. Qed.
Definition nonempty (cs : list (list vec)) := forall c, In c cs -> c <> [].
Lemma clusters_nodup cs : NoDup (concat cs) -> nonempty cs -> NoDup cs.
Proof.
  induction cs as [|c cs IH]; intros Nd Ne; [constructor|]. cbn [concat] in Nd. constructor.
  - intros I. destruct c as [|x c]; [exfalso; apply (Ne []); [now left|reflexivity]|]. cbn in Nd. apply NoDup_cons_iff in Nd. destruct Nd as [Nx _]. apply Nx. apply in_or_app. right.
    apply in_concat. exists (x :: c). split; [exact I|now left].
  - apply IH; [|intros d Hd; apply Ne; now right]. now apply nodup_app_r in Nd.
Qed.
Definition list_vec_dec : forall a b : list vec, {a = b} + {a <> b} := list_eq_dec vec_eq_dec.
Definition without (c d : list vec) (cs : list (list vec)) : list (list vec) := filter (fun e => negb (py_positions_eq e c) && negb (py_positions_eq e d)) cs.
Lemma filter_split {A} (f : A -> bool) l : Permutation l (filter (fun a => negb (f a)) l ++ filter f l).
Proof.
  induction l as [|a l IH]; [constructor|]. cbn [filter]. destruct (f a); cbn [negb].
  - apply Permutation_cons_app. exact IH.
  - cbn [app]. now constructor.
Qed.
Lemma merged_perm c d cs : NoDup cs -> In c cs -> In d cs -> c <> d -> Permutation cs (without c d cs ++ [c; d]).
Proof.
  intros Nd Hc Hd N. set (f := fun e => py_positions_eq e c || py_positions_eq e d).
  assert (W : without c d cs = filter (fun e => negb (f e)) cs) by (apply filter_ext; intros e; unfold f; now rewrite negb_orb).
  rewrite W. apply (perm_trans (filter_split f cs)). apply Permutation_app_head.
  apply NoDup_Permutation.
  - now apply NoDup_filter.
  - constructor; [intros [E|[]]; now apply N|]. constructor; [intros []|constructor].
  - intros e. rewrite filter_In. unfold f. rewrite orb_true_iff, !positions_eq. cbn [In]. split; [intros (_ & [->| ->]); tauto|].
    intros [<-|[<-|[]]]; tauto.
Qed.
Lemma concat_perm (a b : list (list vec)) : Permutation a b -> Permutation (concat a) (concat b).
Proof.
  intros P. induction P; cbn [concat]; try constructor.
  - now apply Permutation_app_head.
  - rewrite !app_assoc. apply Permutation_app_tail. apply Permutation_app_comm.
  - eapply perm_trans; eassumption.
Qed.
Lemma merged_concat c d cs : NoDup cs -> In c cs -> In d cs -> c <> d -> Permutation (concat (without c d cs ++ [c ++ d])) (concat cs).
Proof.
  intros Nd Hc Hd N. apply Permutation_sym. apply (perm_trans (concat_perm _ _ (merged_perm c d cs Nd Hc Hd N))).
  rewrite !concat_app. cbn [concat]. rewrite !app_nil_r. apply Permutation_refl.
Qed.
Lemma merged_length c d cs : NoDup cs -> In c cs -> In d cs -> c <> d -> S (length (without c d cs ++ [c ++ d])) = length cs.
Proof.
  intros Nd Hc Hd N. rewrite (Permutation_length (merged_perm c d cs Nd Hc Hd N)), !app_length. cbn. lia.
Qed.
Lemma near_sym cutoff l a b : near cutoff l a b -> near cutoff l b a.
Proof. intros (Ha & Hb & L). rewrite length_sym in L. now repeat split. Qed.
Lemma chained_sym cutoff l a b : chained cutoff l a b -> chained cutoff l b a.
Proof. intros H. induction H as [a b H|a|a b c _ I1 _ I2]; [apply rt_step; now apply near_sym|apply rt_refl|eapply rt_trans; eassumption]. Qed.
Section Merge.
Variables (cutoff : R) (l : list vec).
Hypothesis Nl : NoDup l.
Definition consistent (cs : list (list vec)) :=
  Permutation (concat cs) l /\ nonempty cs /\ (forall c a b, In c cs -> In a c -> In b c -> chained cutoff l a b).
Lemma consistent_nodup cs : consistent cs -> NoDup cs.
Proof. intros (P & Ne & _). apply clusters_nodup; [|exact Ne]. eapply Permutation_NoDup; [apply Permutation_sym, P|exact Nl]. Qed.
Lemma merge_consistent cs c d : consistent cs -> py_find cutoff cs = Some (c, d) -> consistent (without c d cs ++ [c ++ d]).
Proof.
  intros C F. pose proof (consistent_nodup cs C) as Nd. destruct C as (P & Ne & Ch). destruct (find_iff _ _ _ _ F) as (Hc & Hd & N & Cl). split; [|split].
  - eapply perm_trans; [now apply merged_concat|exact P].
  - intros e He. apply in_app_or in He. destruct He as [He|[<-|[]]].
    + unfold without in He. apply filter_In in He. now apply Ne.
    + intros E. apply app_eq_nil in E. destruct E as [E _]. now apply (Ne c Hc).
  - apply close_iff in Cl. destruct Cl as (x & y & Hx & Hy & L).
    assert (In_l : forall e z, In e cs -> In z e -> In z l).
    { intros e z He Hz. apply (Permutation_in _ P). apply in_concat. now exists e. }
    assert (XY : chained cutoff l x y) by (apply rt_step; repeat split; [now apply (In_l c)|now apply (In_l d)|exact L]).
    intros e a b He Ha Hb. apply in_app_or in He. destruct He as [He|[<-|[]]].
    + unfold without in He. apply filter_In in He. now apply (Ch e).
    + assert (T : forall z, In z (c ++ d) -> chained cutoff l x z).
      { intros z Hz. apply in_app_or in Hz. destruct Hz as [Hz|Hz]; [now apply (Ch c)|]. eapply rt_trans; [exact XY|now apply (Ch d)]. }
      eapply rt_trans; [apply chained_sym, T, Ha|apply T, Hb].
Qed.
Lemma same_cluster cs c d a : consistent cs -> In c cs -> In d cs -> In a c -> In a d -> c = d.
Proof.
  intros (P & _) Hc Hd Ha Ha'. assert (Nd : NoDup (concat cs)) by (eapply Permutation_NoDup; [apply Permutation_sym, P|exact Nl]). clear P.
  induction cs as [|e cs IH]; [contradiction|]. cbn [concat] in Nd.
  assert (D : forall z, In z e -> In z (concat cs) -> False).
  { clear - Nd. induction e as [|y e IHe]; intros z Hz Hz'; [contradiction|]. cbn in Nd. apply NoDup_cons_iff in Nd. destruct Nd as [Ny Nd]. destruct Hz as [->|Hz].
    - apply Ny. apply in_or_app. now right.
    - now apply (IHe Nd z). }
  destruct Hc as [->|Hc], Hd as [->|Hd]; [reflexivity|..].
  - exfalso. apply (D a Ha). apply in_concat. now exists d.
  - exfalso. apply (D a Ha'). apply in_concat. now exists c.
  - apply IH; try assumption. now apply nodup_app_r in Nd.
Qed.
Lemma final cs : consistent cs -> py_find cutoff cs = None -> components cutoff l cs.
Proof.
  intros C F. destruct C as (P & Ne & Ch). split; [exact P|]. split; [exact Ne|]. intros a b Ha Hb. split; [intros (c & Hc & Ia & Ib); now apply (Ch c)|].
  intros X. assert (W : forall z, In z l -> exists c, In c cs /\ In z c).
  { intros z Hz. apply (Permutation_in _ (Permutation_sym P)) in Hz. apply in_concat in Hz. destruct Hz as (c & Hc & Hz). now exists c. }
  induction X as [a b (_ & _ & L)|a|a b c X1 I1 X2 I2].
  - destruct (W a Ha) as (c & Hc & Ia). destruct (W b Hb) as (d & Hd & Ib). destruct (list_vec_dec c d) as [->|N]; [now exists d|].
    exfalso. pose proof (find_none_iff cutoff cs F c d Hc Hd N) as G. assert (T : py_close cutoff c d = true) by (apply close_iff; now exists a, b). congruence.
  - destruct (W a Ha) as (c & Hc & Ia). now exists c.
  - assert (Hm : In b l).
    { apply clos_rt_rt1n in X2. destruct X2 as [|? ? (Hm & _)]; assumption. }
    destruct (I1 Ha Hm) as (d & Hd & Ia & Ib). destruct (I2 Hm Hb) as (e & He & Ib' & Ic).
    assert (d = e) as -> by (apply (same_cluster cs d e b); try assumption; repeat split; assumption). now exists e.
Qed.
Lemma merge_ok fuel : forall cs, consistent cs -> (length cs <= fuel + 1)%nat -> exists cs', py_mergeClusters fuel cutoff cs = Ok cs' /\ components cutoff l cs'.
Proof.
  induction fuel as [|fuel IH]; intros cs C L.
  - cbn [py_mergeClusters]. destruct (py_find cutoff cs) as [[c d]|] eqn:F.
    + exfalso. destruct (find_iff _ _ _ _ F) as (Hc & Hd & N & _). destruct cs as [|e [|e' cs]]; [contradiction| |cbn in L; lia].
      destruct Hc as [<-|[]], Hd as [<-|[]]. now apply N.
    + exists cs. split; [reflexivity|now apply final].
  - cbn [py_mergeClusters]. destruct (py_find cutoff cs) as [[c d]|] eqn:F; [|exists cs; split; [reflexivity|now apply final]].
    apply IH; [now apply merge_consistent|]. destruct (find_iff _ _ _ _ F) as (Hc & Hd & N & _).
    pose proof (merged_length c d cs (consistent_nodup cs C) Hc Hd N) as Q. unfold without in Q. lia.
Qed.
Lemma merge_result fuel : forall cs cs', consistent cs -> py_mergeClusters fuel cutoff cs = Ok cs' -> components cutoff l cs' /\ (length cs <= fuel + length cs')%nat.
Proof.
  induction fuel as [|fuel IH]; intros cs cs' C E; cbn [py_mergeClusters] in E; destruct (py_find cutoff cs) as [[c d]|] eqn:F.
  - discriminate.
  - injection E as <-. split; [now apply final|lia].
  - destruct (IH _ cs' (merge_consistent cs c d C F) E) as [K L]. split; [exact K|].
    destruct (find_iff _ _ _ _ F) as (Hc & Hd & N & _). pose proof (merged_length c d cs (consistent_nodup cs C) Hc Hd N) as Q. lia.
  - injection E as <-. split; [now apply final|lia].
Qed.
Lemma merge_error fuel : forall cs e, py_mergeClusters fuel cutoff cs = Err e -> e = RecursionError.
Proof.
  induction fuel as [|fuel IH]; intros cs e E; cbn [py_mergeClusters] in E; destruct (py_find cutoff cs) as [[c d]|]; try congruence. now apply (IH _ _ E).
Qed.
Lemma singles_consistent : consistent (map (fun a => [a]) l).
Proof.
  split; [|split].
  - clear. induction l as [|a r IH]; [constructor|]. cbn. now constructor.
  - intros c Hc. rewrite in_map_iff in Hc. destruct Hc as (a & <- & _). discriminate.
  - intros c a b Hc Ha Hb. rewrite in_map_iff in Hc. destruct Hc as (z & <- & _). destruct Ha as [<-|[]], Hb as [<-|[]]. apply rt_refl.
Qed.
End Merge.
Lemma magnets_eq s x : well_formed s -> forall ids, (forall i, In i ids -> particle s i) -> py_magnets s x ids = Ok (map x (filter (is_magnetic s) ids)).
Proof.
  intros H ids. induction ids as [|i ids IH]; intros Hids; [reflexivity|]. cbn [py_magnets filter].
  assert (Hi : particle s i) by (apply Hids; now left). rewrite py_type_eq by exact Hi. cbn [bind]. rewrite IH by (intros j Hj; apply Hids; now right). cbn [bind].
  destruct (place_at_ok s i H Hi) as [Vi Ei]. assert (T : getParticleType s i = type_of (place_at s i)) by (rewrite <- Ei at 1; now apply place_type).
  rewrite T. assert (E : is_magnetic s i = ptype_eqb (type_of (place_at s i)) TMagnetic) by (unfold is_magnetic; destruct (type_of (place_at s i)); reflexivity).
  rewrite E. destruct (ptype_eqb (type_of (place_at s i)) TMagnetic); reflexivity.
Qed.
Lemma clusters_eq fuel s x cutoff : well_formed s -> hasMagneticParticles s = true -> 0 <= cutoff ->
  py_getMagneticClusters fuel s (Some x) cutoff = py_mergeClusters fuel cutoff (map (fun a => [a]) (magnets s x)).
Proof.
  intros H M C. unfold py_getMagneticClusters, rltb. destruct (Rlt_dec _ _); [lra|]. rewrite M. cbn [negb].
  assert (E : py_range 0 (py_count s) = zrange (getParticleCount s)).
  { unfold py_range. rewrite py_count_eq, Z.sub_0_r. apply map_id. }
  rewrite E, magnets_eq; [reflexivity|exact H|]. intros i Hi. now rewrite In_zrange in Hi.
Qed.
Lemma clusters_ok fuel s x cutoff : well_formed s -> hasMagneticParticles s = true -> 0 <= cutoff -> NoDup (magnets s x) -> (length (magnets s x) <= fuel + 1)%nat ->
  exists cs, py_getMagneticClusters fuel s (Some x) cutoff = Ok cs /\ components cutoff (magnets s x) cs.
Proof.
  intros H M C Nd L. rewrite clusters_eq by assumption. apply merge_ok; [exact Nd|now apply singles_consistent|now rewrite map_length].
Qed.
Lemma clusters_deep fuel s x cutoff : well_formed s -> hasMagneticParticles s = true -> 0 <= cutoff -> NoDup (magnets s x) ->
  (forall cs, py_getMagneticClusters fuel s (Some x) cutoff = Ok cs -> components cutoff (magnets s x) cs /\ (length (magnets s x) <= fuel + length cs)%nat) /\
  (forall e, py_getMagneticClusters fuel s (Some x) cutoff = Err e -> e = RecursionError).
Proof.
  intros H M C Nd. rewrite clusters_eq by assumption. split.
  - intros cs E. destruct (merge_result cutoff (magnets s x) Nd fuel _ cs (singles_consistent cutoff (magnets s x)) E) as [K L]. split; [exact K|]. now rewrite map_length in L.
  - apply merge_error.
Qed.

(** * Initial positions *)
Definition updates (l : list (Z * vec)) (h : Z -> option vec) : Z -> option vec := fold_left (fun h e => bead h (fst e) (snd e)) l h.
Lemma updates_app l l' h : updates (l ++ l') h = updates l' (updates l h).
Proof. unfold updates. apply fold_left_app. Qed.
Lemma updates_at (g : Z -> vec) ids : forall h i, updates (map (fun j => (j, g j)) ids) h i = if in_dec Z.eq_dec i ids then Some (g i) else h i.
Proof.
  induction ids as [|j ids IH]; intros h i; [reflexivity|]. cbn [map]. change (updates ((j, g j) :: ?l) h) with (updates l (bead h j (g j))). rewrite IH. unfold bead.
  destruct (in_dec Z.eq_dec i ids) as [Hi|Hi], (in_dec Z.eq_dec i (j :: ids)) as [Hi'|Hi']; try reflexivity.
  - exfalso. apply Hi'. now right.
  - destruct (Z.eqb_spec i j) as [->|N]; [reflexivity|]. exfalso. destruct Hi' as [E|Hi']; [now symmetry in E|contradiction].
  - destruct (Z.eqb_spec i j) as [->|N]; [|reflexivity]. exfalso. apply Hi'. now left.
Qed.
Lemma fold_updates {A} (f : (Z -> option vec) -> A -> (Z -> option vec)) (g : A -> list (Z * vec)) l : (forall h a, f h a = updates (g a) h) -> forall h, fold_left f l h = updates (flat_map g l) h.
Proof. intros E. induction l as [|a l IH]; intros h; [reflexivity|]. cbn [fold_left flat_map]. rewrite E, IH. symmetry. apply updates_app. Qed.
Definition set_places (s : structure) (v : place -> vec) (l : list place) : list (Z * vec) := map (fun pl => (number s pl, v pl)) l.
Lemma updates_places s v l : well_formed s -> (forall pl, In pl l -> valid s pl) -> forall h pl, valid s pl ->
  updates (set_places s v l) h (number s pl) = if in_dec place_eq_dec pl l then Some (v pl) else h (number s pl).
Proof.
  intros H. induction l as [|q l IH]; intros V h pl Vp; [reflexivity|]. unfold set_places in *. cbn [map]. change (updates ((?i, ?w) :: ?l) h) with (updates l (bead h i w)).
  rewrite IH by (try exact Vp; intros r Hr; apply V; now right). unfold bead.
  assert (Vq : valid s q) by (apply V; now left).
  destruct (in_dec place_eq_dec pl l) as [Hi|Hi], (in_dec place_eq_dec pl (q :: l)) as [Hi'|Hi']; try reflexivity.
  - exfalso. apply Hi'. now right.
  - destruct (Z.eqb_spec (number s pl) (number s q)) as [E|N].
    + apply number_inj in E; try assumption. now subst.
    + exfalso. destruct Hi' as [E|Hi']; [now subst|contradiction].
  - destruct (Z.eqb_spec (number s pl) (number s q)) as [E|N]; [|reflexivity]. apply number_inj in E; try assumption. subst. exfalso. apply Hi'. now left.
Qed.
Lemma bead_position_eq s arm d : bead_position (bead_angle s arm) (d * beadToBeadDistance) =
  times3 d (Vec (cos (2 * PI * (IZR arm / IZR (armCountPerStar s)))) (sin (2 * PI * (IZR arm / IZR (armCountPerStar s)))) 0).
Proof.
  unfold bead_position, bead_angle, beadToBeadDistance, times3. cbn. unfold Rdiv. rewrite Rmult_assoc. f_equal; ring.
Qed.
Lemma positions_updates s h : initializePositions s h =
  updates (flat_map (fun arm => set_places s (initial s) (Core 0 :: arm_places s 0 arm)) (zrange (armCountPerStar s))) h.
Proof.
  unfold initializePositions. apply fold_updates. clear h. intros h arm. cbv zeta. unfold set_places. cbn [map].
  change (updates ((?i, ?w) :: ?l) h) with (updates l (bead h i w)). cbn [number initial].
  change (Vec 0 0 0) with zero3. set (h1 := bead h (getCoreParticleID s 0) zero3). unfold arm_places. rewrite map_app, updates_app, map_map. cbn [number initial].
  assert (E : fold_left (fun h pIA => bead h (getArmParticleID s 0 arm pIA) (bead_position (bead_angle s arm) (IZR (pIA + 1) * beadToBeadDistance))) (zrange (particleCountPerArm s)) h1 =
    updates (map (fun k => (getArmParticleID s 0 arm k, times3 (IZR k + 1) (Vec (cos (2 * PI * (IZR arm / IZR (armCountPerStar s)))) (sin (2 * PI * (IZR arm / IZR (armCountPerStar s)))) 0))) (zrange (particleCountPerArm s))) h1).
  { generalize h1. induction (zrange (particleCountPerArm s)) as [|k l IH]; intros h0; [reflexivity|]. cbn [fold_left map]. rewrite IH. rewrite bead_position_eq, plus_IZR. reflexivity. }
  rewrite E. destruct (hasMagneticParticles s); [|reflexivity]. cbn [map number initial]. unfold updates at 2. cbn [fold_left fst snd].
  now rewrite bead_position_eq, plus_IZR.
Qed.
Lemma set_places_flat {A} s v (g : A -> list place) l : flat_map (fun a => set_places s v (g a)) l = set_places s v (flat_map g l).
Proof. unfold set_places. symmetry. apply map_flat_map. Qed.
Lemma in_star_zero s pl : starCount s = 1%Z -> valid s pl -> star_of pl = 0%Z.
Proof. destruct pl; cbn; lia. Qed.
Lemma initial_positions s h : well_formed s -> starCount s = 1%Z -> (0 < armCountPerStar s)%Z -> forall pl, valid s pl -> initializePositions s h (number s pl) = Some (initial s pl).
Proof.
  intros H H1 H2 pl V. rewrite positions_updates, set_places_flat.
  assert (Vs : forall q, In q (flat_map (fun arm => Core 0 :: arm_places s 0 arm) (zrange (armCountPerStar s))) -> valid s q).
  { intros q Hq. rewrite in_flat_map in Hq. destruct Hq as (arm & Ha & [<-|Hq]).
    - cbn. lia.
    - apply places_valid. unfold places. rewrite in_flat_map. exists 0%Z. split; [apply In_zrange; lia|]. right. rewrite in_flat_map. now exists arm. }
  rewrite updates_places by assumption. destruct (in_dec _ _ _) as [_|N]; [reflexivity|]. exfalso. apply N. rewrite in_flat_map.
  destruct pl as [st|st arm k|st arm].
  - exists 0%Z. split; [apply In_zrange; lia|]. left. f_equal. cbn in V. lia.
  - cbn in V. exists arm. split; [apply In_zrange; lia|]. right. unfold arm_places. apply in_or_app. left. rewrite in_map_iff. exists k. split; [f_equal; lia|]. apply In_zrange. lia.
  - cbn in V. destruct V as (V1 & V2 & V3). exists arm. split; [apply In_zrange; lia|]. right. unfold arm_places. apply in_or_app. right. rewrite V3. left. f_equal. lia.
Qed.
Lemma no_arms s h : armCountPerStar s = 0%Z -> initializePositions s h = h.
Proof. intros E. unfold initializePositions. rewrite E. reflexivity. Qed.
Lemma other_stars s h pl : well_formed s -> valid s pl -> star_of pl <> 0%Z -> initializePositions s h (number s pl) = h (number s pl).
Proof.
  intros H V N. rewrite positions_updates, set_places_flat.
  assert (S0 : (0 < starCount s)%Z) by (destruct pl; cbn in V; lia).
  rewrite updates_places; [|exact H| |exact V].
  - destruct (in_dec _ _ _) as [I|_]; [|reflexivity]. exfalso. apply N. rewrite in_flat_map in I. destruct I as (arm & _ & [<-|I]); [reflexivity|].
    unfold arm_places in I. apply in_app_or in I. destruct I as [I|I]; [rewrite in_map_iff in I; destruct I as (k & <- & _); reflexivity|].
    destruct (hasMagneticParticles s); [destruct I as [<-|[]]; reflexivity|contradiction].
  - intros q Hq. rewrite in_flat_map in Hq. destruct Hq as (arm & Ha & [<-|Hq]); [cbn; lia|].
    apply places_valid. unfold places. rewrite in_flat_map. exists 0%Z. split; [apply In_zrange; lia|]. right. rewrite in_flat_map. now exists arm.
Qed.
Lemma velocities_updates s h : initializeVelocities s h = updates (set_places s (fun _ => zero3) (places s)) h.
Proof.
  unfold places. rewrite <- set_places_flat. unfold initializeVelocities. apply fold_updates. clear h. intros h st. unfold set_places at 1, star_places. cbn [map].
  change (updates ((?i, ?w) :: ?l) h) with (updates l (bead h i w)). cbn [number]. change (Vec 0 0 0) with zero3. set (h1 := bead h (getCoreParticleID s st) zero3).
  change (map (fun pl => (number s pl, zero3)) (flat_map (arm_places s st) (zrange (armCountPerStar s)))) with (set_places s (fun _ => zero3) (flat_map (arm_places s st) (zrange (armCountPerStar s)))).
  rewrite <- set_places_flat. apply fold_updates. clear. intros h arm. unfold set_places, arm_places. rewrite map_app, updates_app, map_map.
  assert (E : fold_left (fun h pIA => bead h (getArmParticleID s st arm pIA) zero3) (zrange (particleCountPerArm s)) h =
    updates (map (fun k => (number s (Bead st arm k), zero3)) (zrange (particleCountPerArm s))) h).
  { generalize h. induction (zrange (particleCountPerArm s)) as [|k l IH]; intros h0; [reflexivity|]. cbn [fold_left map]. now rewrite IH. }
  rewrite E. destruct (hasMagneticParticles s); reflexivity.
Qed.
Lemma initial_velocities s h pl : well_formed s -> valid s pl -> initializeVelocities s h (number s pl) = Some zero3.
Proof.
  intros H V. rewrite velocities_updates, updates_places; [|exact H|intros q; apply places_valid|exact V].
  destruct (in_dec _ _ _) as [_|N]; [reflexivity|]. exfalso. apply N. now apply places_valid.
Qed.
Lemma cs2 t : cos t * cos t + sin t * sin t = 1.
Proof. pose proof (sin2_cos2 t) as E. unfold Rsqr in E. lra. Qed.
Lemma arm_distance t d e : length3 (minus3 (times3 d (Vec (cos t) (sin t) 0)) (times3 e (Vec (cos t) (sin t) 0))) = Rabs (d - e).
Proof.
  unfold length3. rewrite <- sqrt_Rsqr_abs. f_equal. unfold dot3, minus3, times3, Rsqr. cbn. rewrite <- (Rmult_1_r ((d - e) * (d - e))), <- (cs2 t). ring.
Qed.
Lemma initial_bonds s p q : well_formed s -> starCount s = 1%Z -> valid s p -> valid s q -> linked s p q -> length3 (minus3 (initial s p) (initial s q)) = 1.
Proof.
  intros H H1 Vp Vq L.
  assert (Z3 : forall t, zero3 = times3 0 (Vec (cos t) (sin t) 0)) by (intros t; unfold zero3, times3; cbn; f_equal; ring).
  assert (G : forall a b, inner s a = Some b -> length3 (minus3 (initial s a) (initial s b)) = 1).
  { intros a b E. destruct a as [st|st arm k|st arm]; [discriminate| |]; cbn [inner] in E; injection E as <-.
    - destruct (Z.eqb_spec k 0) as [->|N]; cbn [initial].
      + rewrite (Z3 (2 * PI * (IZR arm / IZR (armCountPerStar s)))), arm_distance. replace (0 + 1 - 0) with 1 by ring. apply Rabs_R1.
      + rewrite arm_distance, minus_IZR. replace (IZR k + 1 - (IZR k - 1 + 1)) with 1 by ring. apply Rabs_R1.
    - destruct (Z.eqb_spec (particleCountPerArm s) 0) as [E|N]; cbn [initial].
      + rewrite (Z3 (2 * PI * (IZR arm / IZR (armCountPerStar s)))), arm_distance, E. replace (0 + 1 - 0) with 1 by ring. apply Rabs_R1.
      + rewrite arm_distance, minus_IZR. replace (IZR (particleCountPerArm s) + 1 - (IZR (particleCountPerArm s) - 1 + 1)) with 1 by ring. apply Rabs_R1. }
  destruct L as [L|L]; [now apply G|rewrite length_sym; now apply G].
Qed.
Lemma angle_inj (n i j : Z) : (0 <= i < n)%Z -> (0 <= j < n)%Z -> 
  cos (2 * PI * (IZR i / IZR n)) = cos (2 * PI * (IZR j / IZR n)) -> sin (2 * PI * (IZR i / IZR n)) = sin (2 * PI * (IZR j / IZR n)) -> i = j.
Proof.
  intros Hi Hj C S0. set (a := 2 * PI * (IZR i / IZR n)) in *. set (b := 2 * PI * (IZR j / IZR n)) in *.
  assert (C1 : cos (a - b) = 1) by (rewrite cos_minus, C, S0; apply cs2).
  assert (S1 : sin (a - b) = 0) by (rewrite sin_minus, C, S0; ring).
  destruct (sin_eq_0_0 _ S1) as [k K]. pose proof PI_RGT_0 as Pi.
  assert (Hn : 0 < IZR n) by (apply IZR_lt; lia).
  assert (E : IZR (2 * (i - j)) = IZR (k * n)).
  { rewrite !mult_IZR, minus_IZR. unfold a, b in K. apply (Rmult_eq_reg_l PI); [|lra]. apply (Rmult_eq_reg_r (/ IZR n)); [|apply Rinv_neq_0_compat; lra].
    transitivity (2 * PI * (IZR i / IZR n) - 2 * PI * (IZR j / IZR n)); [unfold Rdiv; ring|]. rewrite K. field. lra. }
  apply eq_IZR in E. assert (k = 0 \/ k = 1 \/ k = -1)%Z as [->|[->| ->]] by nia; [lia| |].
  - rewrite K, Rmult_1_l, cos_PI in C1. lra.
  - rewrite K in C1. replace (-1 * PI) with (- PI) in C1 by ring. rewrite cos_neg, cos_PI in C1. lra.
Qed.
Lemma arm_inj (n i j : Z) d e : (0 <= i < n)%Z -> (0 <= j < n)%Z -> 0 < d -> 0 < e ->
  times3 d (Vec (cos (2 * PI * (IZR i / IZR n))) (sin (2 * PI * (IZR i / IZR n))) 0) = times3 e (Vec (cos (2 * PI * (IZR j / IZR n))) (sin (2 * PI * (IZR j / IZR n))) 0) -> i = j /\ d = e.
Proof.
  intros Hi Hj Hd He E. unfold times3 in E. cbn in E. injection E as E1 E2 _.
  set (a := 2 * PI * (IZR i / IZR n)) in *. set (b := 2 * PI * (IZR j / IZR n)) in *.
  assert (Q : d * d = e * e).
  { rewrite <- (Rmult_1_r (d * d)), <- (cs2 a), <- (Rmult_1_r (e * e)), <- (cs2 b).
    transitivity (d * cos a * (d * cos a) + d * sin a * (d * sin a)); [ring|]. rewrite E1, E2. ring. }
  assert (d = e) as -> by nra. split; [|reflexivity].
  apply Rmult_eq_reg_l in E1; [|lra]. apply Rmult_eq_reg_l in E2; [|lra]. now apply (angle_inj n).
Qed.
Lemma arm_nonzero t d : 0 < d -> times3 d (Vec (cos t) (sin t) 0) <> zero3.
Proof.
  intros Hd E. unfold times3, zero3 in E. cbn in E. injection E as E1 E2. pose proof (cs2 t) as C.
  apply Rmult_integral in E1. apply Rmult_integral in E2. destruct E1 as [|E1], E2 as [|E2]; try lra. rewrite E1, E2 in C. lra.
Qed.
Lemma initial_distinct s p q : well_formed s -> starCount s = 1%Z -> valid s p -> valid s q -> initial s p = initial s q -> p = q.
Proof.
  intros (W1 & W2 & W3) H1 Vp Vq E.
  assert (P : forall k, (0 <= k)%Z -> 0 < IZR k + 1) by (intros k Hk; apply IZR_le in Hk; lra).
  destruct p as [st|st a k|st a], q as [st'|st' a' k'|st' a']; cbn [valid initial] in *.
  - f_equal. lia.
  - exfalso. symmetry in E. apply arm_nonzero in E; [exact E|]. apply P. lia.
  - exfalso. symmetry in E. apply arm_nonzero in E; [exact E|]. now apply P.
  - exfalso. apply arm_nonzero in E; [exact E|]. apply P. lia.
  - apply arm_inj in E; try lia; try (apply P; lia). destruct E as [-> E]. assert (K : IZR k = IZR k') by lra. apply eq_IZR in K. f_equal; lia.
  - apply arm_inj in E; try lia; try (apply P; lia). destruct E as [-> E]. assert (K : IZR k = IZR (particleCountPerArm s)) by lra. apply eq_IZR in K. lia.
  - exfalso. apply arm_nonzero in E; [exact E|]. now apply P.
  - apply arm_inj in E; try lia; try (apply P; lia). destruct E as [-> E]. assert (K : IZR k' = IZR (particleCountPerArm s)) by lra. apply eq_IZR in K. lia.
  - apply arm_inj in E; try lia; try (apply P; lia). destruct E as [-> E]. f_equal. lia.
Qed.
(** Coincident magnetic particles. *)
Lemma trio_magnets x : magnets trio x = [x 1%Z; x 2%Z; x 3%Z].
Proof. reflexivity. Qed.
Lemma vec_ne : Vec 0 0 0 <> Vec 1 0 0.
Proof. intros E. injection E. lra. Qed.
Lemma close_zero_one : length3 (minus3 (Vec 0 0 0) (Vec 1 0 0)) = 1.
Proof. unfold length3, minus3, dot3. cbn. replace ((0 - 1) * (0 - 1) + (0 - 0) * (0 - 0) + (0 - 0) * (0 - 0)) with 1 by ring. apply sqrt_1. Qed.
Lemma twins_apart fuel v cutoff : 0 <= cutoff -> py_getMagneticClusters fuel (Structure 1 2 0 true) (Some (fun _ => v)) cutoff = Ok [[v]; [v]].
Proof.
  intros C. rewrite clusters_eq; [|repeat split; cbn; lia|reflexivity|exact C]. change (magnets (Structure 1 2 0 true) (fun _ => v)) with [v; v]. cbn [map].
  assert (F : py_find cutoff [[v]; [v]] = None).
  { unfold py_find. cbn [flat_map map app find fst snd]. rewrite (proj2 (positions_eq [v] [v]) eq_refl). reflexivity. }
  destruct fuel; cbn [py_mergeClusters]; rewrite F; reflexivity.
Qed.
Lemma twin_lost fuel : py_getMagneticClusters (S fuel) trio (Some (fun i => if Z.eqb i 3 then Vec 1 0 0 else Vec 0 0 0)) 1 = Ok [[Vec 0 0 0; Vec 1 0 0]].
Proof.
  rewrite clusters_eq; [|repeat split; cbn; lia|reflexivity|lra]. rewrite trio_magnets. cbn [Z.eqb Pos.eqb map].
  set (a := Vec 0 0 0). set (b := Vec 1 0 0).
  assert (Eaa : py_positions_eq [a] [a] = true) by now apply positions_eq.
  assert (Eab : py_positions_eq [a] [b] = false) by (apply not_true_is_false; rewrite positions_eq; intros E; injection E; apply vec_ne || (intros; lra)).
  assert (Eba : py_positions_eq [b] [a] = false) by (apply not_true_is_false; rewrite positions_eq; intros E; injection E; intros; lra).
  assert (Cl : py_close 1 [a] [b] = true).
  { apply close_iff. exists a, b. split; [now left|]. split; [now left|]. unfold a, b. rewrite close_zero_one. lra. }
  assert (F : py_find 1 [[a]; [a]; [b]] = Some ([a], [b])).
  { unfold py_find. cbn [flat_map map app find fst snd]. rewrite Eaa, Eba, Cl. reflexivity. }
  cbn [py_mergeClusters]. rewrite F. cbn [filter]. rewrite Eaa, Eba. rewrite (proj2 (positions_eq [b] [b]) eq_refl). cbn [negb andb app].
  assert (F' : py_find 1 [[a; b]] = None).
  { unfold py_find. cbn [flat_map map app find fst snd]. rewrite (proj2 (positions_eq [a; b] [a; b]) eq_refl). reflexivity. }
  destruct fuel; cbn [py_mergeClusters]; rewrite F'; reflexivity.
Qed.
