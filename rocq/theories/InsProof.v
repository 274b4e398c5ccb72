(** Proofs about the instruments of a simulation. *)
From Coq Require Import Qround Bool.
From Verif Require Import QcBase QcLra StrBase PyBase CuModel CfgModel CfgSimModel OtfsModel FlowModel FlowSpec FlowProof MeasModel MeasSpec MeasProof InsModel InsSpec.
Open Scope list_scope.
Open Scope Qc_scope.

(** ** Rounding down *)
Lemma qfloor_bounds x : qfloor x <= x /\ x < qfloor x + 1.
Proof.
  unfold qfloor. pose proof (Qfloor_le (this x)) as A. pose proof (Qlt_floor (this x)) as B. split.
  - unfold Qcle, qz. cbn [this Q2Qc]. rewrite Qred_correct. exact A.
  - replace (qz (Qfloor (this x)) + 1) with (qz (Qfloor (this x) + 1)) by (rewrite qz_add; f_equal).
    unfold Qclt, qz. cbn [this Q2Qc]. rewrite Qred_correct. exact B.
Qed.
Lemma qz_between a b : qz a < qz b + 1 -> qz b < qz a + 1 -> a = b.
Proof.
  intros A B.
  assert (E : qz 1 = 1) by reflexivity. rewrite <- E, <- !qz_add in A, B.
  destruct (Z.lt_trichotomy a b) as [L|[L|L]]; [|exact L|].
  - exfalso. assert (X : qz (a + 1) <= qz b) by (apply qz_le; lia). apply (Qclt_not_le _ _ B). exact X.
  - exfalso. assert (X : qz (b + 1) <= qz a) by (apply qz_le; lia). apply (Qclt_not_le _ _ A). exact X.
Qed.
(** Division with remainder. *)
Lemma floor_rest x b : 0 < b -> 0 <= x - qfloor (x / b) * b /\ x - qfloor (x / b) * b < b.
Proof.
  intros B. destruct (qfloor_bounds (x / b)) as [L U]. set (k := qfloor (x / b)) in *. clearbody k.
  assert (E : x = x / b * b) by (field; intros ->; discriminate B).
  set (r := x / b) in *. clearbody r. subst x. split; qnra.
Qed.
Lemma rest_unique (b : Qc) i i' (q q' : Qc) : 0 < b -> 0 <= q /\ q < b -> 0 <= q' /\ q' < b -> q + qz i * b = q' + qz i' * b -> i = i' /\ q = q'.
Proof.
  intros B [A1 A2] [C1 C2] E. assert (X : i = i').
  { apply qz_between; qnra. }
  subst i'. split; [reflexivity|]. qlra.
Qed.

Lemma tri {A B C} (a a' : A) (b b' : B) (c c' : C) : (a, b, c) = (a', b', c') -> a = a' /\ b = b' /\ c = c'.
Proof. intros [= -> -> ->]. auto. Qed.
Lemma eq_sym_iff {A} (x y : A) : x = y <-> y = x.
Proof. split; intros E; symmetry; exact E. Qed.

(** ** Images *)
Lemma image_seen shear time box p : positive box -> exists j, seen_at shear time box p j (fst (image_under p time shear box)) /\
  snd (image_under p time shear box) = - (qz j * (shear * qn (snd (fst box)))).
Proof.
  destruct box as [[bx by_] bz], p as [[x y] z]. intros (X & Y & Z). apply qn_pos in X, Y, Z.
  cbn [image_under fst snd]. exists (Qfloor (this (y / qn by_))). split; [split|].
  - cbn [in_box].
    pose proof (floor_rest (x - qfloor (y / qn by_) * (shear * qn by_ * time)) _ X). pose proof (floor_rest y _ Y). pose proof (floor_rest z _ Z). auto.
  - exists (Qfloor (this ((x - qfloor (y / qn by_) * (shear * qn by_ * time)) / qn bx))), (Qfloor (this (z / qn bz))). cbn [plus3 lattice].
    fold (qfloor ((x - qfloor (y / qn by_) * (shear * qn by_ * time)) / qn bx)). fold (qfloor (y / qn by_)). fold (qfloor (z / qn bz)).
    f_equal; [f_equal|]; ring.
  - fold (qfloor (y / qn by_)). ring.
Qed.
Lemma seen_unique shear time box p j j' q q' : positive box -> seen_at shear time box p j q -> seen_at shear time box p j' q' -> j = j' /\ q = q'.
Proof.
  destruct box as [[bx by_] bz], p as [[x y] z], q as [[qx qy] qz_], q' as [[qx' qy'] qz']. intros (X & Y & Z). apply qn_pos in X, Y, Z.
  intros [(A1 & A2 & A3) (i & k & E)] [(B1 & B2 & B3) (i' & k' & E')]. cbn [plus3 lattice] in E, E'.
  apply tri in E, E'. destruct E as (-> & -> & ->), E' as (Ex & Ey & Ez).
  destruct (rest_unique _ _ _ _ _ Y A2 B2 Ey) as [-> ->]. destruct (rest_unique _ _ _ _ _ Z A3 B3 Ez) as [_ ->].
  assert (Ex2 : qx + qz i * qn bx = qx' + qz i' * qn bx) by qlra.
  destruct (rest_unique _ _ _ _ _ X A1 B1 Ex2) as [_ ->]. auto.
Qed.

(** ** Subdivisions *)
Lemma scale_le (s u x : Qc) : 0 < s -> (u * s <= x * s <-> u <= x).
Proof.
  intros P. split; intros H; [|qnra]. destruct (Qclt_le_dec x u) as [L|L]; [|exact L]. exfalso. qnra.
Qed.
Lemma scale_lt (s u x : Qc) : 0 < s -> (u * s < x * s <-> u < x).
Proof.
  intros P. split; intros H; [|qnra]. destruct (Qclt_le_dec u x) as [L|L]; [exact L|]. exfalso. qnra.
Qed.
Lemma sub_iff s x c : s <> 0%nat -> 0 <= x -> (qn c / qn s <= x /\ x < (qn c + 1) / qn s <-> c = trunc (x * qn s)).
Proof.
  intros N P. assert (S0 : 0 < qn s) by (apply qn_pos; lia). assert (N0 : qn s <> 0) by (apply qn_neq0; exact N).
  assert (P2 : 0 <= x * qn s) by qnra.
  rewrite eq_sym_iff, (trunc_bin c P2), qn_S.
  assert (E1 : qn c = qn c / qn s * qn s) by (field; exact N0).
  assert (E2 : qn c + 1 = (qn c + 1) / qn s * qn s) by (field; exact N0).
  set (u := qn c / qn s) in *. set (w := (qn c + 1) / qn s) in *. clearbody u w. rewrite E2, E1. clear E1 E2. rewrite !scale_le, !scale_lt by exact S0. reflexivity.
Qed.
Lemma subcell_iff box subs q c : positive subs -> in_box box q -> (in_subcell subs q c <-> c = cell_of q subs).
Proof.
  destruct box as [[bx by_] bz], subs as [[sx sy] sz], q as [[x y] z], c as [[cx cy] cz]. intros (X & Y & Z) ((A1 & _) & (A2 & _) & (A3 & _)).
  cbn [in_subcell cell_of]. rewrite (sub_iff sx x cx), (sub_iff sy y cy), (sub_iff sz z cz) by (assumption || lia).
  split; [intros (-> & -> & ->); reflexivity|]. intros E. apply tri in E. destruct E as (-> & -> & ->). auto.
Qed.
Lemma trunc_below s b x : (0 < s)%nat -> 0 <= x /\ x < qn b -> (trunc (x * qn s) < b * s)%nat.
Proof.
  intros P [A B]. assert (S0 : 0 < qn s) by (apply qn_pos; lia).
  assert (P2 : 0 <= x * qn s) by qnra.
  destruct (proj1 (trunc_bin (trunc (x * qn s)) P2) eq_refl) as [L _].
  set (k := trunc (x * qn s)) in *. clearbody k. destruct (Nat.lt_ge_cases k (b * s)) as [H|H]; [exact H|]. exfalso.
  assert (X : qn (b * s) <= qn k) by (rewrite !qn_qz; apply qz_le; lia). rewrite qn_mul in X. apply (scale_lt _ _ _ S0) in B. qlra.
Qed.
Lemma cell_in_shape box subs q : positive subs -> in_box box q ->
  let '(cx, cy, cz) := cell_of q subs in let '(bx, by_, bz) := box in let '(sx, sy, sz) := subs in (cx < bx * sx /\ cy < by_ * sy /\ cz < bz * sz)%nat.
Proof.
  destruct box as [[bx by_] bz], subs as [[sx sy] sz], q as [[x y] z]. intros (X & Y & Z) (A1 & A2 & A3). cbn [cell_of].
  repeat split; apply trunc_below; assumption.
Qed.
Definition place (shear : Qc) (box subs : cell) (time : Qc) (p : vec) : cell := cell_of (fst (image_under p time shear box)) subs.
Definition corrected (shear : Qc) (box : cell) (time : Qc) (p v : vec) : vec :=
  let '(vx, vy, vz) := v in (vx + snd (image_under p time shear box), vy, vz).
Lemma place_locates shear box subs : positive box -> positive subs -> locates shear box subs (place shear box subs).
Proof.
  intros B P time p c. unfold located, place. destruct (image_seen shear time box p B) as (j & S & _). split.
  - intros (j' & q & S' & I). destruct (seen_unique _ _ _ _ _ _ _ _ B S S') as [_ <-]. destruct S' as [IB _].
    apply (subcell_iff box subs _ c P IB). exact I.
  - intros ->. exists j, (fst (image_under p time shear box)). split; [exact S|]. apply (subcell_iff box); [exact P|apply S|reflexivity].
Qed.
Lemma corrected_sees shear box : positive box -> sees shear box (corrected shear box).
Proof.
  intros B time p v w. unfold seen_velocity, corrected. destruct (image_seen shear time box p B) as (j & S & C). rewrite C. clear C.
  destruct v as [[x y] z], w as [[x' y'] z']. split.
  - intros (j' & q & S' & E). destruct (seen_unique _ _ _ _ _ _ _ _ B S S') as [<- _]. cbn [plus3] in E. apply tri in E. destruct E as (-> & -> & ->).
    f_equal; [f_equal|]; ring.
  - intros E. apply tri in E. destruct E as (-> & -> & ->). exists j, (fst (image_under p time shear box)). split; [exact S|]. cbn [plus3]. f_equal; [f_equal|]; ring.
Qed.

(** ** The loop *)
Lemma dens_run_app l1 l2 : forall s, dens_run s (l1 ++ l2) = (do s' <- dens_run s l1; dens_run s' l2).
Proof.
  induction l1 as [|o l1 IH]; intros s; [reflexivity|]. cbn [app dens_run]. destruct (dens_op s o) as [s'|e]; [|reflexivity]. cbn [bind]. apply IH.
Qed.
Lemma hist_app l1 l2 : forall h, hist_fill_all h (l1 ++ l2) = (do h' <- hist_fill_all h l1; hist_fill_all h' l2).
Proof.
  induction l1 as [|o l1 IH]; intros s; [reflexivity|]. cbn [app hist_fill_all]. destruct (hist_fill s o) as [s'|e]; [|reflexivity]. cbn [bind]. apply IH.
Qed.
Lemma dens_op_subs s o s' : dens_op s o = Ok s' -> d_subs s' = d_subs s.
Proof.
  intros E. destruct (@dens_run_inv [o] s s') as (_ & H & _); [|exact H]. cbn [dens_run]. rewrite E. reflexivity.
Qed.
Lemma dens_run_subs s os s' : dens_run s os = Ok s' -> d_subs s' = d_subs s.
Proof. intros E. apply (dens_run_inv _ _ E). Qed.
Lemma fexec_subs s o s' : fexec s o = Ok s' -> c_subs s' = c_subs s.
Proof.
  destruct o as [|c v]; cbn [fexec].
  - intros [= <-]. unfold newSweep. destruct (c_blocks s); [reflexivity|]. destruct (Nat.eqb (c_per s) 0); [reflexivity|].
    destruct (negb _); reflexivity.
  - unfold cfp_add. destruct (c_blocks s); [discriminate|]. destruct (negb _); [discriminate|]. intros [= <-]. reflexivity.
Qed.
Lemma frun_subs os : forall s s', frun s os = Ok s' -> c_subs s' = c_subs s.
Proof.
  induction os as [|o os IH]; intros s s' E; [injection E as <-; reflexivity|].
  unfold frun in E. cbn [fold_res] in E. destruct (fexec s o) as [s1|] eqn:E1; [|discriminate]. cbn [bind] in E.
  rewrite (IH _ _ E). apply (fexec_subs _ _ _ E1).
Qed.
Lemma on_ok {A} (o : option A) f o' : on o f = Ok o' <-> match o with None => o' = None | Some a => exists a', f a = Ok a' /\ o' = Some a' end.
Proof.
  destruct o as [a|]; cbn [on].
  - destruct (f a) as [a'|e]; cbn [bind]; split; [intros [= <-]; eauto|intros (x & [= <-] & ->); reflexivity|discriminate|intros (x & [=] & _)].
  - split; [intros [= <-]; reflexivity|intros ->; reflexivity].
Qed.
Lemma on_app {A} (o : option A) f g o' : on o (fun a => do a' <- f a; g a') = Ok o' <-> exists o1, on o f = Ok o1 /\ on o1 g = Ok o'.
Proof.
  destruct o as [a|]; cbn [on].
  - destruct (f a) as [a1|e]; cbn [bind].
    + split; [intros H; exists (Some a1); split; [reflexivity|exact H]|intros (o1 & [= <-] & H); exact H].
    + split; [discriminate|intros (o1 & [=] & _)].
  - split; [intros H; exists None; split; [reflexivity|exact H]|intros (o1 & [= <-] & H); exact H].
Qed.
Lemma on_ext {A} (o : option A) f g : (forall a, o = Some a -> f a = g a) -> on o f = on o g.
Proof. intros H. destruct o as [a|]; cbn [on]; [rewrite (H a eq_refl)|]; reflexivity. Qed.

Section Run.
Variables (magnitude : vec -> Qc) (shear mass : Qc) (box : cell).
Definition dmass (time : Qc) (subs : cell) (p : vec * vec) : dop := DMass (place shear box subs time (fst p)) mass.
Definition fadd (time : Qc) (subs : cell) (p : vec * vec) : fop := FAdd (place shear box subs time (fst p)) (corrected shear box time (fst p) (snd p)).
Definition dops (subs : cell) (s : snapshot) : list dop := map (dmass (fst (fst s)) subs) (snd (fst s)) ++ [DFill].
Definition fops (subs : cell) (s : snapshot) : list fop := FSweep :: map (fadd (fst (fst s)) subs) (snd (fst s)).
Definition vops (s : snapshot) : list Qc := map (fun p => magnitude (snd p)) (snd (fst s)).

Lemma loop_ok s ps : box_ s = box -> forall m h d f,
  on (velocityMagnitudeHistogram m) (fun a => hist_fill_all a (map (fun p => magnitude (snd p)) ps)) = Ok h ->
  on (densityProfile m) (fun a => dens_run a (map (dmass (mpcTime_ s) (d_subs a)) ps)) = Ok d ->
  on (flowProfile m) (fun a => frun a (map (fadd (mpcTime_ s) (c_subs a)) ps)) = Ok f ->
  fold_res (measure_particle magnitude s shear mass) ps m = Ok (Instruments h d f (fluidMeasurements m) (soluteMeasurements m) (measurementCount m)).
Proof.
  intros B. induction ps as [|p ps IH]; intros m h d f H D F.
  - cbn [map fold_res]. destruct m as [h0 d0 f0 a b c]. cbn in *.
    destruct h0; injection H as <-; destruct d0; injection D as <-; destruct f0; injection F as <-; reflexivity.
  - cbn [map hist_fill_all] in H. apply on_app in H. destruct H as (h1 & H1 & H).
    cbn [map dens_run] in D.
    assert (D' : exists d1, on (densityProfile m) (fun a => dens_op a (dmass (mpcTime_ s) (d_subs a) p)) = Ok d1 /\
      on d1 (fun a => dens_run a (map (dmass (mpcTime_ s) (d_subs a)) ps)) = Ok d).
    { destruct (densityProfile m) as [a|]; cbn [on] in *.
      - destruct (dens_op a (dmass (mpcTime_ s) (d_subs a) p)) as [a1|] eqn:E; [|discriminate D]. cbn [bind] in *. exists (Some a1). split; [reflexivity|].
        cbn [on]. rewrite (dens_op_subs _ _ _ E). exact D.
      - injection D as <-. exists None. auto. }
    clear D. destruct D' as (d1 & D1 & D).
    assert (F' : exists f1, on (flowProfile m) (fun a => fexec a (fadd (mpcTime_ s) (c_subs a) p)) = Ok f1 /\
      on f1 (fun a => frun a (map (fadd (mpcTime_ s) (c_subs a)) ps)) = Ok f).
    { destruct (flowProfile m) as [a|]; cbn [on] in *.
      - unfold frun in F. cbn [map fold_res] in F. destruct (fexec a (fadd (mpcTime_ s) (c_subs a) p)) as [a1|] eqn:E; [|discriminate F]. cbn [bind] in *.
        exists (Some a1). split; [reflexivity|]. cbn [on]. rewrite (fexec_subs _ _ _ E). exact F.
      - injection F as <-. exists None. auto. }
    clear F. destruct F' as (f1 & F1 & F).
    cbn [fold_res].
    assert (M : measure_particle magnitude s shear mass m p = Ok (Instruments h1 d1 f1 (fluidMeasurements m) (soluteMeasurements m) (measurementCount m))).
    { unfold measure_particle. destruct p as [p [[vx vy] vz]]. cbn [snd fst] in *. rewrite H1. cbn [bind].
      unfold dmass, place in D1. cbn [fst] in D1. unfold fadd, place, corrected in F1. cbn [fst snd fexec] in F1.
      rewrite B. destruct (image_under p (mpcTime_ s) shear box) as [q c]. cbn [fst snd] in *. rewrite D1. cbn [bind]. rewrite F1. reflexivity. }
    rewrite M. cbn [bind]. rewrite (IH _ h d f); [reflexivity|exact H|exact D|exact F].
Qed.
Definition solutes (l : list snapshot) : nat := length (filter (fun s => snd s) l).
Lemma measure_ok s m h d f :
  on (velocityMagnitudeHistogram m) (fun a => hist_fill_all a (vops s)) = Ok h ->
  on (densityProfile m) (fun a => dens_run a (dops (d_subs a) s)) = Ok d ->
  on (flowProfile m) (fun a => frun a (fops (c_subs a) s)) = Ok f ->
  measure magnitude m (state shear box mass s) =
    Ok (Instruments h d f (Datatypes.S (fluidMeasurements m)) ((if snd s then 1 else 0) + soluteMeasurements m) (Datatypes.S (measurementCount m))).
Proof.
  intros H D F. unfold measure, measureMPCFluid. cbn [mpcFluid shearRate_ state particleMass particles].
  assert (D' : exists d1, on (densityProfile m) (fun a => dens_run a (map (dmass (fst (fst s)) (d_subs a)) (snd (fst s)))) = Ok d1 /\ on d1 (fun a => dens_op a DFill) = Ok d).
  { destruct (densityProfile m) as [a|]; cbn [on] in *.
    - unfold dops in D. rewrite dens_run_app in D. destruct (dens_run a _) as [a1|]; [|discriminate D]. exists (Some a1). split; [reflexivity|exact D].
    - injection D as <-. exists None. auto. }
  destruct D' as (d1 & D1 & D2).
  set (m1 := Instruments (velocityMagnitudeHistogram m) (densityProfile m) (option_map newSweep (flowProfile m)) (fluidMeasurements m) (soluteMeasurements m) (measurementCount m)).
  rewrite (loop_ok (state shear box mass s) (snd (fst s)) eq_refl m1 h d1 f); [|exact H|exact D1|].
  - cbn [bind densityProfile]. rewrite D2. cbn [bind]. unfold measureMPCSolute. cbn [measuredSolute state].
    destruct (snd s); reflexivity.
  - unfold m1. cbn [flowProfile mpcTime_ state]. destruct (flowProfile m) as [a|]; cbn [option_map on] in *; [|exact F].
    unfold fops, frun in F. cbn [fold_res fexec bind] in F. unfold frun.
    replace (c_subs (newSweep a)) with (c_subs a) by (symmetry; apply (fexec_subs a FSweep); reflexivity). exact F.
Qed.
Lemma measure_all_ok l : forall m h d f,
  on (velocityMagnitudeHistogram m) (fun a => hist_fill_all a (flat_map vops l)) = Ok h ->
  on (densityProfile m) (fun a => dens_run a (flat_map (dops (d_subs a)) l)) = Ok d ->
  on (flowProfile m) (fun a => frun a (flat_map (fops (c_subs a)) l)) = Ok f ->
  measure_all magnitude m (map (state shear box mass) l) =
    Ok (Instruments h d f (length l + fluidMeasurements m) (solutes l + soluteMeasurements m) (length l + measurementCount m)).
Proof.
  induction l as [|s l IH]; intros m h d f H D F.
  - destruct m as [h0 d0 f0 a b c]. cbn in *.
    destruct h0; injection H as <-; destruct d0; injection D as <-; destruct f0; injection F as <-; reflexivity.
  - cbn [flat_map] in H. rewrite (on_ext _ _ (fun a => do a' <- hist_fill_all a (vops s); hist_fill_all a' (flat_map vops l))) in H
      by (intros; apply hist_app). apply on_app in H. destruct H as (h1 & H1 & H).
    assert (D' : exists d1, on (densityProfile m) (fun a => dens_run a (dops (d_subs a) s)) = Ok d1 /\ on d1 (fun a => dens_run a (flat_map (dops (d_subs a)) l)) = Ok d).
    { destruct (densityProfile m) as [a|]; cbn [on] in *.
      - cbn [flat_map] in D. rewrite dens_run_app in D. destruct (dens_run a (dops _ s)) as [a1|] eqn:E; [|discriminate D]. exists (Some a1). split; [reflexivity|].
        cbn [on]. rewrite (dens_run_subs _ _ _ E). exact D.
      - injection D as <-. exists None. auto. }
    destruct D' as (d1 & D1 & D2).
    assert (F' : exists f1, on (flowProfile m) (fun a => frun a (fops (c_subs a) s)) = Ok f1 /\ on f1 (fun a => frun a (flat_map (fops (c_subs a)) l)) = Ok f).
    { destruct (flowProfile m) as [a|]; cbn [on] in *.
      - cbn [flat_map] in F. unfold frun at 1 in F. rewrite fold_res_app in F. fold (frun a (fops (c_subs a) s)) in F.
        destruct (frun a (fops _ s)) as [a1|] eqn:E; [|discriminate F]. exists (Some a1). split; [reflexivity|].
        cbn [on bind] in *. rewrite (frun_subs _ _ _ E). exact F.
      - injection F as <-. exists None. auto. }
    destruct F' as (f1 & F1 & F2).
    cbn [map]. unfold measure_all. cbn [fold_res]. rewrite (measure_ok s m h1 d1 f1 H1 D1 F1). cbn [bind].
    set (m1 := Instruments h1 d1 f1 (Datatypes.S (fluidMeasurements m)) ((if snd s then 1 else 0) + soluteMeasurements m) (Datatypes.S (measurementCount m))).
    fold (measure_all magnitude m1 (map (state shear box mass) l)). rewrite (IH m1 h d f H D2 F2). unfold m1. cbn [fluidMeasurements soluteMeasurements measurementCount length]. unfold solutes. cbn [filter].
    f_equal. destruct (snd s); f_equal; cbn [length]; lia.
Qed.
End Run.

(** ** The instruments never refuse *)
Lemma dens_run_total os : forall s, (forall x y z m, In (DMass (x, y, z) m) os ->
    let '(nx, ny, nz) := d_shape s in (x < nx /\ y < ny /\ z < nz)%nat) -> exists s', dens_run s os = Ok s'.
Proof.
  induction os as [|o os IH]; intros s H; [eexists; reflexivity|]. cbn [dens_run].
  assert (X : exists s1, dens_op s o = Ok s1 /\ d_shape s1 = d_shape s).
  { destruct o as [|[[x y] z] m]; cbn [dens_op]; [eexists; split; reflexivity|].
    specialize (H x y z m (or_introl eq_refl)). destruct (d_shape s) as [[nx ny] nz] eqn:E. destruct H as (A & B & C).
    apply Nat.ltb_lt in A, B, C. rewrite A, B, C. eexists. split; reflexivity. }
  destruct X as (s1 & -> & E). cbn [bind]. apply IH. intros x y z m I. rewrite E. apply (H x y z m). right. exact I.
Qed.
Lemma sweep_blocks s : c_blocks (newSweep s) <> [] /\ c_shape (newSweep s) = c_shape s.
Proof.
  unfold newSweep. destruct (c_blocks s) eqn:E; [split; [discriminate|reflexivity]|]. destruct (Nat.eqb (c_per s) 0); [split; [discriminate|reflexivity]|].
  destruct (negb _); (split; [discriminate|reflexivity]).
Qed.
Lemma frun_total os : forall s, c_blocks s <> [] -> (forall c v, In (FAdd c v) os -> in_shape (c_shape s) c = true) -> exists s', frun s os = Ok s'.
Proof.
  induction os as [|o os IH]; intros s N H; [eexists; reflexivity|]. unfold frun. cbn [fold_res].
  assert (X : exists s1, fexec s o = Ok s1 /\ c_blocks s1 <> [] /\ c_shape s1 = c_shape s).
  { destruct o as [|c v]; cbn [fexec]; [eexists; split; [reflexivity|apply sweep_blocks]|].
    unfold cfp_add. rewrite (H c v (or_introl eq_refl)). destruct (c_blocks s); [congruence|]. eexists. split; [reflexivity|]. split; [discriminate|reflexivity]. }
  destruct X as (s1 & -> & N1 & E). cbn [bind]. apply IH; [exact N1|]. intros c v I. rewrite E. apply (H c v). right. exact I.
Qed.
Lemma dens_new_ok box subs d : dens_new box subs = Ok d -> positive subs /\ d_subs d = subs /\
  d_shape d = (let '(bx, by_, bz) := box in let '(sx, sy, sz) := subs in (bx * sx, by_ * sy, bz * sz)%nat).
Proof.
  destruct box as [[bx by_] bz], subs as [[sx sy] sz]. unfold dens_new, positive.
  destruct sx, sy, sz; cbn [Nat.eqb orb]; try discriminate. intros [= <-]. cbn [d_subs d_shape]. repeat split; lia.
Qed.
Lemma cfp_new_ok box subs per d : cfp_new box subs per = Ok d -> positive subs /\ c_subs d = subs /\
  c_shape d = (let '(bx, by_, bz) := box in let '(sx, sy, sz) := subs in (bx * sx, by_ * sy, bz * sz)%nat).
Proof.
  destruct box as [[bx by_] bz], subs as [[sx sy] sz]. unfold cfp_new, positive.
  destruct sx, sy, sz; cbn [Nat.eqb]; try discriminate. intros [= <-]. cbn [c_subs c_shape]. repeat split; lia.
Qed.
Section Fresh.
Variables (magnitude : vec -> Qc) (shear mass : Qc) (box : cell).
Hypothesis B : positive box.
Lemma place_shape subs time p : positive subs ->
  let '(cx, cy, cz) := place shear box subs time p in let '(bx, by_, bz) := box in let '(sx, sy, sz) := subs in (cx < bx * sx /\ cy < by_ * sy /\ cz < bz * sz)%nat.
Proof.
  intros P. apply cell_in_shape; [exact P|]. destruct (image_seen shear time box p B) as (j & S & _). apply S.
Qed.
Lemma density_total subs d l : dens_new box subs = Ok d -> exists d', dens_run d (flat_map (dops shear mass box (d_subs d)) l) = Ok d'.
Proof.
  intros E. destruct (dens_new_ok _ _ _ E) as (P & -> & SH). apply dens_run_total. intros x y z m I.
  apply in_flat_map in I. destruct I as (s & _ & I). unfold dops in I. apply in_app_or in I. destruct I as [I|[I|[]]]; [|discriminate].
  apply in_map_iff in I. destruct I as (p & E2 & _). unfold dmass in E2. injection E2 as E2 _. pose proof (place_shape subs (fst (fst s)) (fst p) P) as H.
  rewrite E2 in H. rewrite SH. destruct box as [[bx by_] bz], subs as [[sx sy] sz]. exact H.
Qed.
Lemma flow_total subs per f l : cfp_new box subs per = Ok f -> exists f', frun f (flat_map (fops shear box (c_subs f)) l) = Ok f'.
Proof.
  intros E. destruct (cfp_new_ok _ _ _ _ E) as (P & -> & SH). destruct l as [|s l]; [eexists; reflexivity|].
  cbn [flat_map]. unfold fops at 1. cbn [app]. unfold frun. cbn [fold_res fexec bind]. destruct (sweep_blocks f) as [N S].
  apply frun_total; [exact N|]. rewrite S, SH. clear N S. intros c v I.
  assert (X : exists (s : snapshot) p, In (FAdd c v) [fadd shear box (fst (fst s)) subs p]).
  { apply in_app_or in I. destruct I as [I|I].
    - apply in_map_iff in I. destruct I as (p & <- & _). exists s, p. left. reflexivity.
    - apply in_flat_map in I. destruct I as (s' & _ & [I|I]); [discriminate|]. apply in_map_iff in I. destruct I as (p & <- & _). exists s', p. left. reflexivity. }
  destruct X as (s' & p & [X|[]]). unfold fadd in X. injection X as <- _. pose proof (place_shape subs (fst (fst s')) (fst p) P) as H.
  destruct (place shear box subs (fst (fst s')) (fst p)) as [[cx cy] cz], box as [[bx by_] bz], subs as [[sx sy] sz]. unfold in_shape.
  destruct H as (H1 & H2 & H3). apply Nat.ltb_lt in H1, H2, H3. rewrite H1, H2, H3. reflexivity.
Qed.
Lemma fresh_total m l : fresh box m -> exists h d f,
  on (velocityMagnitudeHistogram m) (fun a => hist_fill_all a (flat_map (vops magnitude) l)) = Ok h /\
  on (densityProfile m) (fun a => dens_run a (flat_map (dops shear mass box (d_subs a)) l)) = Ok d /\
  on (flowProfile m) (fun a => frun a (flat_map (fops shear box (c_subs a)) l)) = Ok f.
Proof.
  intros (H & D & F & _).
  assert (X : exists h, on (velocityMagnitudeHistogram m) (fun a => hist_fill_all a (flat_map (vops magnitude) l)) = Ok h).
  { destruct (velocityMagnitudeHistogram m) as [h|]; [|eexists; reflexivity]. destruct (H h eq_refl) as (low & high & n & N & L & ->).
    destruct (@hist_counts low high n (flat_map (vops magnitude) l) N L) as (h' & E & _). exists (Some h'). cbn [on]. rewrite E. reflexivity. }
  assert (Y : exists d, on (densityProfile m) (fun a => dens_run a (flat_map (dops shear mass box (d_subs a)) l)) = Ok d).
  { destruct (densityProfile m) as [d|]; [|eexists; reflexivity]. destruct (D d eq_refl) as (subs & E). destruct (density_total _ _ l E) as (d' & E').
    exists (Some d'). cbn [on]. rewrite E'. reflexivity. }
  assert (Z : exists f, on (flowProfile m) (fun a => frun a (flat_map (fops shear box (c_subs a)) l)) = Ok f).
  { destruct (flowProfile m) as [f|]; [|eexists; reflexivity]. destruct (F f eq_refl) as (subs & per & E). destruct (flow_total _ _ _ l E) as (f' & E').
    exists (Some f'). cbn [on]. rewrite E'. reflexivity. }
  destruct X as (h & X), Y as (d & Y), Z as (f & Z). exists h, d, f. auto.
Qed.
End Fresh.

(** ** What is recorded *)
Lemma fills_app a b : fills (a ++ b) = (fills a + fills b)%nat.
Proof. induction a as [|[|c m] a IH]; cbn [app fills]; [reflexivity|rewrite IH; reflexivity|exact IH]. Qed.
Lemma fills_dops shear mass box subs l : fills (flat_map (dops shear mass box subs) l) = length l.
Proof.
  induction l as [|s l IH]; [reflexivity|]. cbn [flat_map length]. rewrite fills_app, IH. unfold dops. rewrite fills_app. cbn [fills].
  replace (fills (map (dmass shear mass box (fst (fst s)) subs) (snd (fst s)))) with 0%nat by (induction (snd (fst s)); [reflexivity|assumption]). lia.
Qed.
Lemma masses_app a b c : masses (a ++ b) c = masses a c ++ masses b c.
Proof. apply flat_map_app. Qed.
Lemma masses_dops shear mass box subs l c :
  masses (flat_map (dops shear mass box subs) l) c = repeat mass (found (place shear box subs) l c).
Proof.
  induction l as [|s l IH]; [reflexivity|]. unfold found in *. cbn [flat_map]. rewrite masses_app, IH, app_length, repeat_app. f_equal.
  unfold dops. rewrite masses_app. cbn [masses flat_map app]. rewrite app_nil_r.
  induction (snd (fst s)) as [|p ps IHp]; [reflexivity|]. cbn [map masses flat_map dmass filter].
  destruct (MeasModel.cell_eqb (place shear box subs (fst (fst s)) (fst p)) c); cbn [app length repeat]; [f_equal|]; exact IHp.
Qed.
Lemma recorded_app n a b blk sel : recorded n (a ++ b) blk sel = recorded n a blk sel ++ recorded (n + sweeps a) b blk sel.
Proof.
  revert n. induction a as [|[|c v] a IH]; intros n; cbn [app recorded sweeps].
  - rewrite Nat.add_0_r. reflexivity.
  - rewrite IH. f_equal. f_equal. lia.
  - rewrite IH, app_assoc. reflexivity.
Qed.
Lemma sweeps_app a b : sweeps (a ++ b) = (sweeps a + sweeps b)%nat.
Proof. induction a as [|[|c v] a IH]; cbn [app sweeps]; [reflexivity|rewrite IH; reflexivity|exact IH]. Qed.
Lemma sweeps_fops shear box subs s : sweeps (fops shear box subs s) = 1%nat.
Proof. unfold fops. cbn [sweeps]. f_equal. induction (snd (fst s)); [reflexivity|assumption]. Qed.
Lemma sweeps_all shear box subs l : sweeps (flat_map (fops shear box subs) l) = length l.
Proof. induction l as [|s l IH]; [reflexivity|]. cbn [flat_map length]. rewrite sweeps_app, sweeps_fops, IH. reflexivity. Qed.
Lemma recorded_fops shear box subs blk c l : forall n,
  recorded n (flat_map (fops shear box subs) l) blk (FlowModel.cell_eqb c) =
  flat_map (fun ns => if blk (fst ns)
    then map (fun p => corrected shear box (fst (fst (snd ns))) (fst p) (snd p))
           (filter (fun p => FlowModel.cell_eqb c (place shear box subs (fst (fst (snd ns))) (fst p))) (snd (fst (snd ns)))) else [])
    (combine (seq n (length l)) l).
Proof.
  induction l as [|s l IH]; intros n; [reflexivity|]. cbn [length seq combine]. cbn [flat_map]. rewrite recorded_app, sweeps_fops.
  replace (n + 1)%nat with (Datatypes.S n) by lia. rewrite IH. f_equal. unfold fops. cbn [recorded fst snd].
  generalize (snd (fst s)). intros ps. induction ps as [|p ps IHp]; cbn [map recorded filter]; [destruct (blk n); reflexivity|].
  cbn [fadd recorded]. rewrite IHp. replace (Datatypes.S n - 1)%nat with n by lia.
  destruct (FlowModel.cell_eqb c (place shear box subs (fst (fst s)) (fst p))), (blk n); reflexivity.
Qed.

(** ** Sums over the subdivisions *)
Lemma map_flat_map' {A B C} (g : B -> C) (f : A -> list B) l : map g (flat_map f l) = flat_map (fun x => map g (f x)) l.
Proof. induction l as [|a l IH]; [reflexivity|]. cbn [flat_map]. rewrite map_app, IH. reflexivity. Qed.
Lemma rows_cells {A} (g : cell -> A) nx ny nz :
  flat_map (fun x => flat_map (fun y => map (fun z => g (x, y, z)) (seq 0 nz)) (seq 0 ny)) (seq 0 nx) = map g (cells (nx, ny, nz)).
Proof.
  unfold cells. rewrite map_flat_map'. apply flat_map_ext. intros x. rewrite map_flat_map'. apply flat_map_ext. intros y. rewrite map_map. reflexivity.
Qed.
Lemma meas_eqb a b : MeasModel.cell_eqb a b = FlowModel.cell_eqb a b.
Proof. destruct a as [[x y] z], b as [[x' y'] z']. reflexivity. Qed.
Lemma indicator w cs : NoDup cs -> In w cs -> qsum (map (fun c => qn (if MeasModel.cell_eqb w c then 1 else 0)) cs) = 1.
Proof.
  induction cs as [|c cs IH]; intros N I; [destruct I|]. inversion N as [|? ? N1 N2]; subst. cbn [map qsum]. rewrite meas_eqb.
  destruct (FlowModel.cell_eqb w c) eqn:E.
  - apply cell_eqb_spec in E. subst c. clear IH I N. rewrite qn_1.
    replace (qsum _) with (0 : Qc); [ring|]. induction cs as [|c cs IH]; [reflexivity|]. cbn [map qsum]. rewrite meas_eqb.
    destruct (FlowModel.cell_eqb w c) eqn:E; [apply cell_eqb_spec in E; subst; exfalso; apply N1; left; reflexivity|].
    inversion N2; subst. rewrite <- IH; [rewrite qn_0; ring|intros X; apply N1; right; exact X|assumption].
  - rewrite IH; [rewrite qn_0; ring|exact N2|]. destruct I as [->|I]; [|exact I]. rewrite cell_eqb_refl in E. discriminate.
Qed.
Lemma found_sum where_ cs l : NoDup cs -> (forall s p, In s l -> In p (snd (fst s)) -> In (where_ (fst (fst s)) (fst p)) cs) ->
  qsum (map (fun c => qn (found where_ l c)) cs) = qn (length (flat_map (fun s : snapshot => snd (fst s)) l)).
Proof.
  intros N. induction l as [|s l IH]; intros H.
  - cbn [flat_map length]. rewrite qn_0. unfold found. cbn [flat_map length]. rewrite qn_0. clear. induction cs as [|c cs IH]; [reflexivity|]. cbn [map qsum]. rewrite IH. ring.
  - cbn [flat_map]. rewrite app_length, qn_add, <- IH by (intros s' p I J; apply H; [right; exact I|exact J]).
    assert (H' := fun p => H s p (or_introl eq_refl)). clear IH H.
    replace (qn (length (snd (fst s)))) with (qsum (map (fun c => qn (length (filter (fun p => MeasModel.cell_eqb (where_ (fst (fst s)) (fst p)) c) (snd (fst s))))) cs)).
    + rewrite <- qsum_map_plus. f_equal. apply map_ext. intros c. unfold found. cbn [flat_map]. rewrite app_length, qn_add. reflexivity.
    + induction (snd (fst s)) as [|p ps IH].
      * cbn [filter length]. rewrite qn_0. clear. induction cs as [|c cs IH]; [reflexivity|]. cbn [map qsum]. rewrite IH. ring.
      * cbn [length]. rewrite qn_S, <- IH by (intros p' I; apply H'; right; exact I).
        rewrite <- (indicator (where_ (fst (fst s)) (fst p)) cs N (H' p (or_introl eq_refl))). rewrite <- qsum_map_plus. f_equal. apply map_ext. intros c.
        rewrite <- qn_add. f_equal. cbn [filter]. destruct (MeasModel.cell_eqb (where_ (fst (fst s)) (fst p)) c); cbn [length]; lia.
Qed.
Lemma qsum_repeat_ m n : qsum (repeat m n) = m * qn n.
Proof. induction n as [|n IH]; cbn [repeat qsum]; [rewrite qn_0; ring|]. rewrite IH, qn_S. ring. Qed.

(** ** Displaced particles *)
Lemma image_displaced shear time box p i j k : positive box ->
  fst (image_under (plus3 p (lattice shear time box i j k)) time shear box) = fst (image_under p time shear box) /\
  snd (image_under (plus3 p (lattice shear time box i j k)) time shear box) = snd (image_under p time shear box) - qz j * (shear * qn (snd (fst box))).
Proof.
  intros B. destruct (image_seen shear time box p B) as (j1 & S1 & C1). destruct (image_seen shear time box (plus3 p (lattice shear time box i j k)) B) as (j2 & S2 & C2).
  assert (S3 : seen_at shear time box (plus3 p (lattice shear time box i j k)) (j1 + j) (fst (image_under p time shear box))).
  { destruct S1 as [I1 (a & b & E)]. split; [exact I1|]. exists (a + i)%Z, (b + k)%Z.
    destruct (fst (image_under p time shear box)) as [[x y] z]. rewrite E. destruct box as [[bx by_] bz]. cbn [plus3 lattice]. rewrite !qz_add. f_equal; [f_equal|]; ring. }
  destruct (seen_unique _ _ _ _ _ _ _ _ B S2 S3) as [-> ->]. split; [reflexivity|]. rewrite C1, C2, qz_add. ring.
Qed.
Lemma particle_displaced magnitude s shear mass m p p' : positive (box_ s) -> velocityMagnitudeHistogram m = None ->
  equivalent shear (mpcTime_ s) (box_ s) p p' -> measure_particle magnitude s shear mass m p' = measure_particle magnitude s shear mass m p.
Proof.
  intros B H [p0 v i j k]. unfold measure_particle. rewrite H. cbn [on bind].
  destruct (image_displaced shear (mpcTime_ s) (box_ s) p0 i j k B) as [E1 E2].
  destruct (image_under p0 _ _ _) as [q c]. destruct (image_under (plus3 p0 _) _ _ _) as [q' c']. cbn [fst snd] in *. subst q' c'.
  destruct v as [[x y] z]. cbn [plus3].
  replace (x + qz j * (shear * qn (snd (fst (box_ s)))) + (c - qz j * (shear * qn (snd (fst (box_ s)))))) with (x + c) by ring.
  replace (y + 0) with y by ring. replace (z + 0) with z by ring. reflexivity.
Qed.
Lemma measure_particle_none magnitude s shear mass m p m' : velocityMagnitudeHistogram m = None -> measure_particle magnitude s shear mass m p = Ok m' ->
  velocityMagnitudeHistogram m' = None.
Proof.
  intros H. unfold measure_particle. destruct p as [p [[x y] z]]. rewrite H. cbn [on bind]. destruct (image_under _ _ _ _) as [q c].
  destruct (on (densityProfile m) _); [|discriminate]. cbn [bind]. destruct (on (flowProfile m) _); [|discriminate]. cbn [bind]. intros [= <-]. reflexivity.
Qed.
Lemma loop_displaced magnitude s shear mass ps ps' : positive (box_ s) -> Forall2 (equivalent shear (mpcTime_ s) (box_ s)) ps ps' ->
  forall m, velocityMagnitudeHistogram m = None ->
  fold_res (measure_particle magnitude s shear mass) ps' m = fold_res (measure_particle magnitude s shear mass) ps m /\
  forall m', fold_res (measure_particle magnitude s shear mass) ps m = Ok m' -> velocityMagnitudeHistogram m' = None.
Proof.
  intros B F. induction F as [|p p' ps ps' E F IH]; intros m H.
  - split; [reflexivity|]. intros m' [= <-]. exact H.
  - cbn [fold_res]. rewrite (particle_displaced magnitude s shear mass m p p' B H E).
    destruct (measure_particle magnitude s shear mass m p) as [m1|] eqn:E1; cbn [bind]; [|split; [reflexivity|discriminate]].
    apply IH. apply (measure_particle_none _ _ _ _ _ _ _ H E1).
Qed.
Lemma measure_displaced magnitude shear box mass s s' m : positive box -> velocityMagnitudeHistogram m = None -> displaced_snapshot shear box s s' ->
  measure magnitude m (state shear box mass s') = measure magnitude m (state shear box mass s) /\
  forall m', measure magnitude m (state shear box mass s) = Ok m' -> velocityMagnitudeHistogram m' = None.
Proof.
  intros B H [time ps ps' b F]. unfold measure, measureMPCFluid. cbn [mpcFluid shearRate_ state particleMass particles fst snd].
  set (m1 := Instruments _ _ _ _ _ _).
  set (s1 := state shear box mass (time, ps, b)). set (s2 := state shear box mass (time, ps', b)).
  assert (X : forall l m, fold_res (measure_particle magnitude s2 shear mass) l m = fold_res (measure_particle magnitude s1 shear mass) l m).
  { intros l. induction l as [|p l IH]; intros m0; [reflexivity|]. cbn [fold_res]. change (measure_particle magnitude s2 shear mass m0 p) with (measure_particle magnitude s1 shear mass m0 p).
    destruct (measure_particle magnitude s1 shear mass m0 p); [|reflexivity]. cbn [bind]. apply IH. }
  rewrite X. destruct (loop_displaced magnitude s1 shear mass ps ps' B F m1 H) as [E N]. rewrite E. split; [reflexivity|].
  intros m' E2. destruct (fold_res (measure_particle magnitude s1 shear mass) ps m1) as [m2|]; [|cbn [bind] in E2; discriminate E2]. cbn [bind] in E2. specialize (N m2 eq_refl).
  destruct (on (densityProfile m2) _); [|discriminate]. cbn [bind] in E2. injection E2 as <-. cbn [velocityMagnitudeHistogram]. unfold measureMPCSolute.
  destruct (measuredSolute s1); cbn [velocityMagnitudeHistogram]; exact N.
Qed.
Lemma all_displaced magnitude shear box mass l l' : positive box -> Forall2 (displaced_snapshot shear box) l l' -> forall m, velocityMagnitudeHistogram m = None ->
  measure_all magnitude m (map (state shear box mass) l') = measure_all magnitude m (map (state shear box mass) l).
Proof.
  intros B F. induction F as [|s s' l l' E F IH]; intros m H; [reflexivity|]. unfold measure_all in *. cbn [map fold_res].
  destruct (measure_displaced magnitude shear box mass s s' m B H E) as [-> N]. destruct (measure magnitude m (state shear box mass s)) as [m1|] eqn:E1; [|reflexivity].
  cbn [bind]. apply IH. apply (N _ eq_refl).
Qed.
