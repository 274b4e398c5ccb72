(** Proofs about time series of star polymers. *)
From Verif Require Import StrBase FsBase PyBase DictBase VtfPyModel VtfPySpec VecBase VecModel VecSpec VecProof PartModel PartSpec PartProof PartShapeProof EckModel EckSpec StarModel RunsModel RunsSpec RunsCacheProof SpaModel SpaSpec.
From Coq Require Import Reals List Arith Bool Lia Lra.
Import ListNotations.
Open Scope R_scope.

Lemma points_vec l : map vec_of l = points l.
Proof. apply map_ext. intros [[x y] z]. reflexivity. Qed.
Lemma set_mass_snap mass c : 0 <= mass -> set_mass (collection_of c) mass = Ok (snap mass c).
Proof.
  intros H. unfold set_mass. destruct (Rlt_dec mass 0) as [L|_]; [lra|]. unfold collection_of, snap. cbn [ph PartModel.positions vh PartModel.velocities gyrationTensor].
  rewrite !points_vec. reflexivity.
Qed.
Lemma snap_pos mass c : pos_values (snap mass c) = points (fst c).
Proof.
  unfold pos_values, snap. cbn [ph PartModel.positions].
  assert (L : length (fst c) = length (points (fst c))) by (unfold points; rewrite map_length; reflexivity). rewrite L. exact (fresh_values (points (fst c))).
Qed.
Lemma snap_vel mass c : vel_values (snap mass c) = points (snd c).
Proof.
  unfold vel_values, snap. cbn [vh PartModel.velocities].
  assert (L : length (snd c) = length (points (snd c))) by (unfold points; rewrite map_length; reflexivity). rewrite L. exact (fresh_values (points (snd c))).
Qed.

Lemma last_indep {A} (l : list A) a b c : last (a :: l) b = last (a :: l) c.
Proof. revert a. induction l as [|x l IH]; intros a; [reflexivity|]. exact (IH x). Qed.
(** * The dictionary *)
Lemma at_time_new {V} (ret : list (R * V)) t v : (forall p, In p ret -> fst p <> t) -> at_time ret t v = ret ++ [(t, v)].
Proof.
  induction ret as [|[u w] r IH]; intros H; [reflexivity|]. cbn [at_time app].
  destruct (Req_EM_T u t) as [E|N]; [exfalso; exact (H (u, w) (or_introl eq_refl) E)|]. f_equal. apply IH. intros p I. apply H. right. exact I.
Qed.
Definition t_at (dt : R) (w : Z) (i : nat) : R := (IZR w + INR i) * dt.
Lemma t_at_inj dt w i j : dt <> 0 -> t_at dt w i = t_at dt w j -> i = j.
Proof. unfold t_at. intros N H. apply INR_eq. apply Rmult_eq_reg_r in H; [lra|exact N]. Qed.
Lemma t_at_next dt w i : t_at dt w i + dt = t_at dt w (S i).
Proof. unfold t_at. rewrite S_INR. ring. Qed.

Section Every.
Variables (float : string -> option R) (V S_ : Type) (measure : S_ -> coll -> result (S_ * V)) (mass dt : R) (w : Z).
Hypothesis Hm : 0 <= mass.
Hypothesis Hdt : dt <> 0.

Lemma every_ok : forall cs fuel i ls s ret,
  py_reads float ls cs -> Forall (fun c => fst c <> []) cs -> (length cs < fuel)%nat ->
  (forall p, In p ret -> exists j, (j <= i)%nat /\ fst p = t_at dt w j) ->
  every_snapshot float measure mass dt fuel (t_at dt w i) ls s ret =
  match measured measure mass s cs with Err e => Err e | Ok vs => Ok (Some (ret ++ combine (map (t_at dt w) (seq (S i) (length cs))) vs)) end.
Proof.
  induction cs as [|c cs IH]; intros fuel i ls s ret Hr Hn Hf Hret; (destruct fuel as [|fuel]; [cbn [length] in Hf; lia|]).
  - cbn [every_snapshot]. destruct Hr as (Hr & _). rewrite Hr. cbn [bind]. rewrite set_mass_snap by exact Hm. cbn. rewrite app_nil_r. reflexivity.
  - cbn [every_snapshot]. destruct Hr as (rest & Hr & Hrest). rewrite Hr. cbn [bind]. rewrite set_mass_snap by exact Hm. cbn [bind].
    inversion Hn as [|c' cs' Hc Hcs]; subst.
    assert (P : PartModel.positions (snap mass c) = seq 0 (length (fst c))) by reflexivity.
    rewrite P. destruct (fst c) as [|p0 ps] eqn:Ec; [congruence|]. cbn [length seq]. cbn [measured].
    destruct (measure s (snap mass c)) as [[s' v]|e] eqn:Em; [|reflexivity]. cbn [bind].
    rewrite t_at_next. rewrite at_time_new.
    + rewrite IH; [|exact Hrest|exact Hcs|cbn [length] in Hf; lia|].
      * destruct (measured measure mass s' cs) as [vs|e]; [|reflexivity]. rewrite <- app_assoc. reflexivity.
      * intros p I. apply in_app_or in I. destruct I as [I|[<-|[]]]; [|exists (S i); split; [lia|reflexivity]].
        destruct (Hret p I) as (j & J & E). exists j. split; [lia|exact E].
    + intros p I E. destruct (Hret p I) as (j & J & E'). rewrite E' in E. apply t_at_inj in E; [lia|exact Hdt].
Qed.
Lemma compute_every_ok cs fuel contents s :
  py_reads float (snd (py_open contents)) cs -> Forall (fun c => fst c <> []) cs -> (length cs < fuel)%nat ->
  compute_every float measure s mass dt w fuel contents =
  match measured measure mass s cs with Err e => Err e | Ok vs => Ok (Some (combine (sample_times dt w (length cs)) vs)) end.
Proof.
  intros Hr Hn Hf. unfold compute_every.
  replace (dt * IZR w) with (t_at dt w 0) by (unfold t_at; cbn [INR]; ring).
  exact (every_ok cs fuel 0%nat _ s [] Hr Hn Hf (fun p I => match I with end)).
Qed.
End Every.

(** Without a time step, all snapshots are at the same time, and the last is kept. *)
Lemma every_still (float : string -> option R) (V S_ : Type) (measure : S_ -> coll -> result (S_ * V)) (mass : R) : 0 <= mass -> forall cs fuel ls s old,
  py_reads float ls cs -> Forall (fun c => fst c <> []) cs -> (length cs < fuel)%nat ->
  every_snapshot float measure mass 0 fuel 0 ls s [(0, old)] =
  match measured measure mass s cs with Err e => Err e | Ok vs => Ok (Some [(0, last vs old)]) end.
Proof.
  intros Hm. induction cs as [|c cs IH]; intros fuel ls s old Hr Hn Hf; (destruct fuel as [|fuel]; [cbn [length] in Hf; lia|]).
  - cbn [every_snapshot]. destruct Hr as (Hr & _). rewrite Hr. cbn [bind]. rewrite set_mass_snap by exact Hm. reflexivity.
  - cbn [every_snapshot]. destruct Hr as (rest & Hr & Hrest). rewrite Hr. cbn [bind]. rewrite set_mass_snap by exact Hm. cbn [bind].
    inversion Hn as [|c' cs' Hc Hcs]; subst.
    assert (P : PartModel.positions (snap mass c) = seq 0 (length (fst c))) by reflexivity.
    rewrite P. destruct (fst c) as [|p0 ps] eqn:Ec; [congruence|]. cbn [length seq]. cbn [measured].
    destruct (measure s (snap mass c)) as [[s' v]|e] eqn:Em; [|reflexivity]. cbn [bind].
    replace (0 + 0) with 0 by ring. cbn [at_time]. destruct (Req_EM_T 0 0) as [_|N]; [|congruence].
    rewrite IH; [|exact Hrest|exact Hcs|cbn [length] in Hf; lia].
    destruct (measured measure mass s' cs) as [vs|e]; [|reflexivity]. destruct vs as [|y vs]; [reflexivity|]. rewrite (last_indep vs y v old). reflexivity.
Qed.
Lemma compute_still (float : string -> option R) (V S_ : Type) (measure : S_ -> coll -> result (S_ * V)) (mass : R) w c cs fuel contents s : 0 <= mass ->
  py_reads float (snd (py_open contents)) (c :: cs) -> Forall (fun c => fst c <> []) (c :: cs) -> (length (c :: cs) < fuel)%nat ->
  compute_every float measure s mass 0 w fuel contents =
  match measured measure mass s (c :: cs) with Err e => Err e | Ok vs => Ok (Some (map (fun v => (0, v)) (rev (firstn 1 (rev vs))))) end.
Proof.
  intros Hm Hr Hn Hf. unfold compute_every. replace (0 * IZR w) with 0 by ring. destruct fuel as [|fuel]; [cbn [length] in Hf; lia|].
  cbn [every_snapshot]. destruct Hr as (rest & Hr & Hrest). rewrite Hr. cbn [bind]. rewrite set_mass_snap by exact Hm. cbn [bind].
  inversion Hn as [|c' cs' Hc Hcs]; subst.
  assert (P : PartModel.positions (snap mass c) = seq 0 (length (fst c))) by reflexivity.
  rewrite P. destruct (fst c) as [|p0 ps] eqn:Ec; [congruence|]. cbn [length seq]. cbn [measured].
  destruct (measure s (snap mass c)) as [[s' v]|e] eqn:Em; [|reflexivity]. cbn [bind].
  replace (0 + 0) with 0 by ring. cbn [at_time].
  rewrite (every_still float V S_ measure mass Hm cs); [|exact Hrest|exact Hcs|cbn [length] in Hf; lia].
  destruct (measured measure mass s' cs) as [vs|e]; [|reflexivity]. do 2 f_equal. destruct vs as [|x vs] using rev_ind; [reflexivity|].
  rewrite last_last. rewrite app_comm_cons, rev_app_distr. reflexivity.
Qed.

Lemma measured_stateless {V} (measure : unit -> coll -> result (unit * V)) mass : forall cs vs,
  Forall2 (fun c v => measure tt (snap mass c) = Ok (tt, v)) cs vs -> measured measure mass tt cs = Ok vs.
Proof.
  induction cs as [|c cs IH]; intros vs H; inversion H as [|c' v cs' vs' Hv Hvs]; subst; [reflexivity|]. cbn [measured]. rewrite Hv, (IH vs' Hvs). reflexivity.
Qed.
Lemma framed_ok {V} st (value : coll -> result V) mass c c' v : 0 < mass -> full_snapshot (py_count st) c ->
  PartModel.shift (snap mass c) = Ok c' -> length (PartModel.positions c') = length (fst c) -> value c' = Ok v ->
  framed st value tt (snap mass c) = Ok (tt, v).
Proof.
  intros Hm (_ & _ & Hn) E L Ev. unfold framed. rewrite E. cbn [bind]. unfold setParticles. rewrite L, Hn, Z.eqb_refl. cbn [negb bind]. rewrite Ev. reflexivity.
Qed.
Lemma snap_shift mass c n : 0 < mass -> full_snapshot n c ->
  exists c', PartModel.shift (snap mass c) = Ok c' /\ uniformMass c' = Some mass /\ gyrationTensor c' = None /\
    pos_values c' = centered (points (fst c)) /\ vel_values c' = centered (points (snd c)) /\ length (PartModel.positions c') = length (fst c).
Proof.
  intros Hm (Hne & Hl & _). destruct (shift_spec (snap mass c) mass) as (c' & E & M & G & P & Q & _ & _).
  - reflexivity.
  - exact Hm.
  - cbn. destruct (fst c); [congruence|discriminate].
  - cbn. destruct (fst c) eqn:Ec; [congruence|]. destruct (snd c); [discriminate|discriminate].
  - exists c'. rewrite snap_pos in P. rewrite snap_vel in Q. repeat split; auto.
    assert (L : length (pos_values c') = length (PartModel.positions c')) by (unfold pos_values; apply map_length). rewrite <- L, P, map_length. unfold points. apply map_length.
Qed.
Lemma centered_map l : centered l = map (plus3 (times3 (-1) (mean l))) l.
Proof. apply map_ext. intros r. destruct r, (mean l). unfold minus3, plus3, times3; cbn. apply vec_ext; ring. Qed.
Lemma gyr_centered l m n : gyr (centered l) m n = gyr l m n.
Proof. rewrite centered_map. apply gyr_translate. Qed.
Lemma gyr_row_centered l m : gyr_row (centered l) m = gyr_row l m.
Proof. unfold gyr_row. rewrite !gyr_centered. reflexivity. Qed.
Lemma spread_centered l : l <> [] -> spread (centered l) = spread l.
Proof.
  intros N. destruct (gyr_facts l) as (_ & _ & _ & _ & A). destruct (gyr_facts (centered l)) as (_ & _ & _ & _ & B).
  rewrite <- A by exact N. rewrite <- B; [|unfold centered; destruct l; [congruence|discriminate]]. rewrite !gyr_centered. reflexivity.
Qed.

Lemma shape_snap eig mass c n : finds_eigenvalues eig -> 0 < mass -> full_snapshot n c ->
  exists c' x y z, PartModel.shift (snap mass c) = Ok c' /\ length (PartModel.positions c') = length (fst c) /\
    moments_of (points (fst c)) (x, y, z) /\ x + y + z = spread (points (fst c)) /\
    asphericity eig c' = Ok (z - (x + y) / 2) /\ acylindricity eig c' = Ok (y - x) /\ radius eig c' = Ok (sqrt (spread (points (fst c)))) /\
    exists k, anisotropy eig c' = Ok k /\
      (spread (points (fst c)) <> 0 -> k = ((z - (x + y) / 2) * (z - (x + y) / 2) + 3 / 4 * ((y - x) * (y - x))) / (spread (points (fst c)) * spread (points (fst c)))).
Proof.
  intros He Hm Hc. destruct (snap_shift mass c n Hm Hc) as (c' & E & M & G & P & Q & L). set (l := points (fst c)) in *.
  assert (Nl : l <> []) by (unfold l, points; destruct Hc as (Hne & _); destruct (fst c); [congruence|discriminate]).
  assert (Nc : PartModel.positions c' <> []).
  { intros Z. rewrite Z in L. destruct Hc as (Hne & _). destruct (fst c); [congruence|discriminate]. }
  assert (Co : coherent c') by (intros T HT; rewrite G in HT; discriminate).
  destruct (eig (full (gyr (pos_values c')))) as [[x y] z] eqn:Ee.
  assert (Ev : eigenvalues (gyr_row l 0) (gyr_row l 1) (gyr_row l 2) x y z).
  { refine (He l (full (gyr (pos_values c'))) x y z Nl _ Ee). intros m k Lm Lk. rewrite mget_full by assumption. rewrite P. apply gyr_centered. }
  assert (EvM : let M := full (gyr (pos_values c')) in eigenvalues (mrow0 M) (mrow1 M) (mrow2 M) x y z).
  { cbv zeta. rewrite P. unfold mrow0, mrow1, mrow2, full; cbn [m00 m01 m02 m10 m11 m12 m20 m21 m22]. rewrite !gyr_centered. exact Ev. }
  destruct (shape_ok eig c' x y z Co Nc Ee EvM) as (x' & y' & z' & Ev' & O1 & O2 & _ & R2 & Sp & As & As0 & Ac & k & An & Hk).
  rewrite P, spread_centered in R2, Sp, Hk by exact Nl.
  exists c', x', y', z'. split; [exact E|]. split; [exact L|]. split.
  { split; [|split; [exact O1|exact O2]]. rewrite P in Ev'. unfold mrow0, mrow1, mrow2, full in Ev'; cbn [m00 m01 m02 m10 m11 m12 m20 m21 m22] in Ev'. rewrite !gyr_centered in Ev'. exact Ev'. }
  split; [symmetry; exact Sp|]. split; [exact As|]. split; [exact Ac|]. split; [unfold radius; rewrite R2; reflexivity|].
  exists k. split; [exact An|]. intros Ns. destruct (Hk Ns) as (_ & Hq). rewrite <- Hq. field. exact Ns.
Qed.

Lemma shape_series float st eig mass dt w cs fuel contents :
  finds_eigenvalues eig -> 0 < mass -> dt <> 0 -> Forall (full_snapshot (py_count st)) cs ->
  py_reads float (snd (py_open contents)) cs -> (length cs < fuel)%nat ->
  exists ms ks,
    Forall2 (fun c m => moments_of (points (fst c)) m) cs ms /\
    Forall2 (fun c k => let g := spread (points (fst c)) in forall x y z, moments_of (points (fst c)) (x, y, z) -> g <> 0 ->
      k = ((z - (x + y) / 2) * (z - (x + y) / 2) + 3 / 4 * ((y - x) * (y - x))) / (g * g)) cs ks /\
    compute_every float (framed st (asphericity eig)) tt mass dt w fuel contents =
      Ok (Some (combine (sample_times dt w (length cs)) (map (fun m => let '(x, y, z) := m in z - (x + y) / 2) ms))) /\
    compute_every float (framed st (acylindricity eig)) tt mass dt w fuel contents =
      Ok (Some (combine (sample_times dt w (length cs)) (map (fun m => let '(x, y, z) := m in y - x) ms))) /\
    compute_every float (framed st (radius eig)) tt mass dt w fuel contents =
      Ok (Some (combine (sample_times dt w (length cs)) (map (fun c => sqrt (spread (points (fst c)))) cs))) /\
    compute_every float (framed st (anisotropy eig)) tt mass dt w fuel contents =
      Ok (Some (combine (sample_times dt w (length cs)) ks)).
Proof.
  intros He Hm Hdt Hc Hr Hf.
  assert (Hn : Forall (fun c : list (R * R * R) * list (R * R * R) => fst c <> []) cs).
  { apply Forall_impl with (2 := Hc). intros c (N & _). exact N. }
  assert (X : exists ms ks, Forall2 (fun c m => moments_of (points (fst c)) m) cs ms /\
    Forall2 (fun c k => let g := spread (points (fst c)) in forall x y z, moments_of (points (fst c)) (x, y, z) -> g <> 0 ->
      k = ((z - (x + y) / 2) * (z - (x + y) / 2) + 3 / 4 * ((y - x) * (y - x))) / (g * g)) cs ks /\
    Forall2 (fun c m => framed st (asphericity eig) tt (snap mass c) = Ok (tt, let '(x, y, z) := m in z - (x + y) / 2)) cs ms /\
    Forall2 (fun c m => framed st (acylindricity eig) tt (snap mass c) = Ok (tt, let '(x, y, z) := m in y - x)) cs ms /\
    Forall2 (fun c m => framed st (radius eig) tt (snap mass c) = Ok (tt, sqrt (spread (points (fst c))))) cs ms /\
    Forall2 (fun c k => framed st (anisotropy eig) tt (snap mass c) = Ok (tt, k)) cs ks).
  { clear Hn Hr Hf contents fuel. induction Hc as [|c cs Hc Hcs IH].
    - exists [], []. repeat split; constructor.
    - destruct IH as (ms & ks & A & B & C & D & E & F).
      destruct (shape_snap eig mass c _ He Hm Hc) as (c' & x & y & z & Es & L & Mo & Sp & As & Ac & Ra & k & An & Hk).
      assert (U : forall x2 y2 z2, moments_of (points (fst c)) (x2, y2, z2) -> x2 = x /\ y2 = y /\ z2 = z).
      { intros x2 y2 z2 (E2 & O2 & P2). destruct Mo as (E1 & O1 & P1).
        assert (Q : forall t, (x2 - t) * (y2 - t) * (z2 - t) = (x - t) * (y - t) * (z - t)) by (intros t; rewrite <- E1, <- E2; reflexivity).
        clear - Q O2 P2 O1 P1.
        assert (Qx : (x2 - x) * (y2 - x) * (z2 - x) = 0) by (rewrite Q; ring).
        assert (Qx2 : (x - x2) * (y - x2) * (z - x2) = 0) by (rewrite <- Q; ring).
        assert (Ex : x2 = x).
        { destruct (Rtotal_order x2 x) as [Lt|[Eq|Gt]]; [|exact Eq|].
          - assert (0 < (x - x2) * (y - x2) * (z - x2)) by (repeat apply Rmult_lt_0_compat; lra). lra.
          - assert (0 < (x2 - x) * (y2 - x) * (z2 - x)) by (repeat apply Rmult_lt_0_compat; lra). lra. }
        subst x2.
        assert (Qz : (x - z) * (y2 - z) * (z2 - z) = 0) by (rewrite Q; ring).
        assert (Qz2 : (x - z2) * (y - z2) * (z - z2) = 0) by (rewrite <- Q; ring).
        assert (T : x + y2 + z2 = x + y + z).
        { assert (Q0 := Q 0). assert (Q1 := Q 1). assert (Q2 := Q (-1)). lra. }
        assert (Ez : z2 = z).
        { destruct (Rtotal_order z2 z) as [Lt|[Eq|Gt]]; [|exact Eq|].
          - assert (N1 : x - z <> 0) by lra. assert (N2 : y2 - z <> 0) by lra. assert (N3 : z2 - z <> 0) by lra.
            exfalso. exact (Rmult_integral_contrapositive _ _ (conj (Rmult_integral_contrapositive _ _ (conj N1 N2)) N3) Qz).
          - assert (N1 : x - z2 <> 0) by lra. assert (N2 : y - z2 <> 0) by lra. assert (N3 : z - z2 <> 0) by lra.
            exfalso. exact (Rmult_integral_contrapositive _ _ (conj (Rmult_integral_contrapositive _ _ (conj N1 N2)) N3) Qz2). }
        subst z2. split; [reflexivity|]. split; [lra|reflexivity]. }
      exists ((x, y, z) :: ms), (k :: ks). split; [constructor; assumption|]. split.
      { constructor; [|exact B]. cbv zeta. intros x2 y2 z2 M2 Ng. destruct (U x2 y2 z2 M2) as (-> & -> & ->). exact (Hk Ng). }
      repeat split; (constructor; [|assumption]).
      + exact (framed_ok st _ mass c c' _ Hm Hc Es L As).
      + exact (framed_ok st _ mass c c' _ Hm Hc Es L Ac).
      + exact (framed_ok st _ mass c c' _ Hm Hc Es L Ra).
      + exact (framed_ok st _ mass c c' _ Hm Hc Es L An). }
  destruct X as (ms & ks & A & B & C & D & E & F). exists ms, ks. split; [exact A|]. split; [exact B|].
  assert (Fm : forall V (g : R * R * R -> V) (measure : unit -> coll -> result (unit * V)),
    Forall2 (fun c m => measure tt (snap mass c) = Ok (tt, g m)) cs ms -> Forall2 (fun c v => measure tt (snap mass c) = Ok (tt, v)) cs (map g ms)).
  { intros V g measure H. clear - H. induction H; constructor; auto. }
  assert (Hm0 : 0 <= mass) by lra.
  split; [|split; [|split]].
  - rewrite (compute_every_ok float R unit _ mass dt w Hm0 Hdt cs fuel contents tt Hr Hn Hf).
    rewrite (measured_stateless _ mass cs _ (Fm R (fun m => let '(x, y, z) := m in z - (x + y) / 2) _ C)). reflexivity.
  - rewrite (compute_every_ok float R unit _ mass dt w Hm0 Hdt cs fuel contents tt Hr Hn Hf).
    rewrite (measured_stateless _ mass cs _ (Fm R (fun m => let '(x, y, z) := m in y - x) _ D)). reflexivity.
  - rewrite (compute_every_ok float R unit _ mass dt w Hm0 Hdt cs fuel contents tt Hr Hn Hf).
    rewrite (measured_stateless _ mass cs (map (fun c => sqrt (spread (points (fst c)))) cs)); [reflexivity|].
    clear - E. induction E; constructor; auto.
  - rewrite (compute_every_ok float R unit _ mass dt w Hm0 Hdt cs fuel contents tt Hr Hn Hf).
    rewrite (measured_stateless _ mass cs _ F). reflexivity.
Qed.

(** * Rotation *)
Lemma moving_centered u wv l : l <> [] -> centered (map (fun r => plus3 u (cross3 wv (minus3 r (mean l)))) l) = map (cross3 wv) (centered l).
Proof.
  intros N. set (f := fun r => plus3 u (cross3 wv (minus3 r (mean l)))).
  assert (P := inr_length_pos _ l N).
  assert (S0 : forall l0 m0, vsum (map (fun r => plus3 u (cross3 wv (minus3 r m0))) l0) =
     plus3 (times3 (INR (length l0)) u) (cross3 wv (minus3 (vsum l0) (times3 (INR (length l0)) m0)))).
  { intros l0 m0. induction l0 as [|a l0 IH]; [cbn; destruct u, wv, m0; unfold cross3; vring|].
    cbn [map vsum]. rewrite IH. cbn [length]. rewrite S_INR. destruct u, wv, m0, a, (vsum l0). unfold cross3. vring. }
  assert (M : mean (map f l) = u).
  { unfold mean at 1. rewrite map_length. unfold f. rewrite S0. unfold mean. destruct u, wv, (vsum l). unfold cross3, minus3, times3, plus3; cbn. apply vec_ext; field; lra. }
  unfold centered. rewrite M. rewrite !map_map. apply map_ext. intros r. unfold f. destruct u, wv, (mean l), r. unfold cross3. vring.
Qed.
Lemma rotation_series float st inv mass dt w cs ws fuel contents :
  0 < mass -> dt <> 0 -> Forall (full_snapshot (py_count st)) cs ->
  (forall M, (exists J, forall u, mapply J (mapply M u) = u) -> exists J, inv M = Ok J /\ forall u, mapply J (mapply M u) = u) ->
  Forall2 (fun c w => exists u, moving u w (points (fst c)) (points (snd c))) cs ws ->
  Forall (fun c => exists J, forall u, mapply J (inertia_map mass (points (fst c)) u) = u) cs ->
  py_reads float (snd (py_open contents)) cs -> (length cs < fuel)%nat ->
  compute_every float (framed st (rotation_frequency inv)) tt mass dt w fuel contents = Ok (Some (combine (sample_times dt w (length cs)) ws)).
Proof.
  intros Hm Hdt Hc Hinv Hw Hi Hr Hf.
  assert (Hn : Forall (fun c : list (R * R * R) * list (R * R * R) => fst c <> []) cs).
  { apply Forall_impl with (2 := Hc). intros c (N & _). exact N. }
  assert (Hm0 : 0 <= mass) by lra.
  rewrite (compute_every_ok float vec unit _ mass dt w Hm0 Hdt cs fuel contents tt Hr Hn Hf).
  rewrite (measured_stateless _ mass cs ws); [reflexivity|].
  clear Hr Hf Hn. induction Hw as [|c wv cs ws (u & Hu) Hws IH]; [constructor|].
  inversion Hc as [|c1 cs1 Hc1 Hcs1]; subst. inversion Hi as [|c2 cs2 Hi1 His]; subst. constructor; [|exact (IH Hcs1 His)].
  destruct (snap_shift mass c _ Hm Hc1) as (c' & E & M & G & P & Q & L).
  refine (framed_ok st _ mass c c' wv Hm Hc1 E L _).
  assert (Nl : points (fst c) <> []) by (unfold points; destruct Hc1 as (Hne & _); destruct (fst c); [congruence|discriminate]).
  assert (Nc : PartModel.positions c' <> []).
  { intros Z. rewrite Z in L. destruct Hc1 as (Hne & _). destruct (fst c); [congruence|discriminate]. }
  assert (Com : center_of_mass c' = Ok zero3).
  { rewrite (com_spec c' mass M Hm Nc). f_equal. rewrite P. unfold centered. rewrite mean_shift by exact Nl. destruct (mean (points (fst c))). vring. }
  destruct (rotation_frequency_ok inv c' mass wv zero3 M Com) as (I0 & EI & HI & _ & HJ).
  - unfold dot3, zero3; cbn. assert (0 < / 10 ^ 20) by (apply Rinv_0_lt_compat; apply pow_lt; lra). lra.
  - unfold turning. rewrite P, Q. unfold moving in Hu. rewrite Hu. exact (moving_centered u wv _ Nl).
  - assert (A : forall v, mapply I0 v = inertia_map mass (points (fst c)) v) by (intros v; rewrite HI, P; reflexivity).
    destruct (Hinv I0) as (J & EJ & HJ2).
    + destruct Hi1 as (J & HJ1). exists J. intros v. rewrite A. apply HJ1.
    + exact (HJ J EJ HJ2).
Qed.

Lemma eckart_series float velocity mass dt w c0 ref cs ws fuel contents :
  0 <= mass -> dt <> 0 -> Forall (fun c => fst c <> []) (c0 :: cs) -> eckart_new (snap mass c0) = Ok ref ->
  Forall2 (fun c v => velocity ref (snap mass c) = Ok v) (c0 :: cs) ws ->
  py_reads float (snd (py_open contents)) (c0 :: cs) -> (length (c0 :: cs) < fuel)%nat ->
  compute_every float (measure_eckart velocity) None mass dt w fuel contents = Ok (Some (combine (sample_times dt w (length (c0 :: cs))) ws)).
Proof.
  intros Hm Hdt Hn He Hv Hr Hf.
  rewrite (compute_every_ok float vec (option coll) _ mass dt w Hm Hdt (c0 :: cs) fuel contents None Hr Hn Hf).
  assert (T : forall cs vs, Forall2 (fun c v => velocity ref (snap mass c) = Ok v) cs vs -> measured (measure_eckart velocity) mass (Some ref) cs = Ok vs).
  { intros l. induction l as [|c l IH]; intros vs H; inversion H as [|c1 v l1 vs1 H1 H2]; subst; [reflexivity|].
    cbn [measured]. unfold measure_eckart at 1. cbn [bind]. rewrite H1. cbn [bind]. rewrite (IH vs1 H2). reflexivity. }
  inversion Hv as [|c1 v l1 vs1 H1 H2]; subst. cbn [measured]. unfold measure_eckart at 1. rewrite He. cbn [bind]. rewrite H1. cbn [bind]. rewrite (T cs vs1 H2). reflexivity.
Qed.

(** * Analyses of some snapshots *)
Section Some_.
Variables (float : string -> option R) (V : Type) (measure : coll -> result V) (dt : R) (w : Z) (every : nat).
Hypothesis Hdt : 0 < dt.
Hypothesis Hev : (0 < every)%nat.
Hypothesis Hlow : INR (every - 1) * dt < 100.
Hypothesis Hhigh : 100 <= INR every * dt.

Definition countdown (i : nat) (last : R) (k : nat) : Prop :=
  forall j, ((j < k)%nat -> t_at dt w (S i + j) - last < 100) /\ ((k <= j)%nat -> 100 <= t_at dt w (S i + j) - last).
Lemma t_at_diff i j : t_at dt w (i + j) - t_at dt w i = INR j * dt.
Proof. unfold t_at. rewrite plus_INR. ring. Qed.
Lemma restart i : countdown (S i) (t_at dt w (S i)) (every - 1).
Proof.
  intros j. replace (S (S i) + j)%nat with (S i + S j)%nat by lia. rewrite t_at_diff. split; intros L.
  - assert (INR (S j) <= INR (every - 1)) by (apply le_INR; lia). assert (INR (S j) * dt <= INR (every - 1) * dt) by (apply Rmult_le_compat_r; lra). lra.
  - assert (INR every <= INR (S j)) by (apply le_INR; lia). assert (INR every * dt <= INR (S j) * dt) by (apply Rmult_le_compat_r; lra). lra.
Qed.
Lemma count_skip i last k : countdown i last (S k) -> t_at dt w (S i) - last < 100 /\ countdown (S i) last k.
Proof.
  intros H. split; [destruct (H 0%nat) as (A & _); rewrite Nat.add_0_r in A; apply A; lia|].
  intros j. destruct (H (S j)) as (A & B). replace (S i + S j)%nat with (S (S i) + j)%nat in * by lia. split; intros L; [apply A|apply B]; lia.
Qed.
Lemma count_zero i last : countdown i last 0 -> ~ t_at dt w (S i) - last < 100.
Proof. intros H. destruct (H 0%nat) as (_ & B). rewrite Nat.add_0_r in B. assert (L := B (Nat.le_refl 0)). lra. Qed.
Lemma some_end : forall k fuel i last ret, countdown i last k -> (k < fuel)%nat -> py_readTimestep float [] = Ok (([], []), []) ->
  some_snapshots float measure dt fuel (t_at dt w i) last [] ret = Ok (Some ret).
Proof.
  induction k as [|k IH]; intros fuel i last ret H Hf Hr; (destruct fuel as [|fuel]; [lia|]); cbn [some_snapshots]; rewrite Hr; cbn [bind]; rewrite t_at_next; unfold analysisTimestep.
  - destruct (Rlt_dec _ _) as [L|_]; [exfalso; exact (count_zero i last H L)|reflexivity].
  - destruct (count_skip i last k H) as (L & H'). destruct (Rlt_dec _ _) as [_|N]; [|exfalso; exact (N L)]. apply IH; [exact H'|lia|exact Hr].
Qed.
Lemma some_ok : forall cs (v : nat -> V) fuel i last k ls ret,
  py_reads float ls cs -> Forall (fun c => fst c <> []) cs -> (length cs + every < fuel)%nat -> (k < every)%nat -> countdown i last k ->
  (forall j c, nth_error cs j = Some c -> ((j + (every - k)) mod every = 0)%nat -> measure (collection_of c) = Ok (v j)) ->
  (forall p, In p ret -> exists j, (j <= i)%nat /\ fst p = t_at dt w j) ->
  some_snapshots float measure dt fuel (t_at dt w i) last ls ret =
  Ok (Some (ret ++ map (fun j => (t_at dt w (S i + j), v j)) (filter (fun j => Nat.eqb ((j + (every - k)) mod every) 0) (seq 0 (length cs))))).
Proof.
  induction cs as [|c cs IH]; intros v fuel i last k ls ret Hr Hn Hf Hk Hc Hv Hret.
  - destruct Hr as (Hr & ->). cbn [length seq filter map]. rewrite app_nil_r. apply (some_end k); [exact Hc|cbn [length] in Hf; lia|exact Hr].
  - destruct fuel as [|fuel]; [lia|]. destruct Hr as (rest & Hr & Hrest). cbn [some_snapshots]. rewrite Hr. cbn [bind]. rewrite t_at_next. unfold analysisTimestep.
    inversion Hn as [|c1 cs1 Hc1 Hcs1]; subst. cbn [length] in Hf |- *. cbn [seq]. rewrite <- seq_shift.
    assert (Fl : forall (p : nat -> bool) l, filter p (map S l) = map S (filter (fun j => p (S j)) l)).
    { intros p l. induction l as [|a l IHl]; [reflexivity|]. cbn [map filter]. destruct (p (S a)); cbn [map]; rewrite IHl; reflexivity. }
    cbn [filter]. rewrite Fl.
    destruct k as [|k].
    + destruct (Rlt_dec _ _) as [L|_]; [exfalso; exact (count_zero i last Hc L)|].
      assert (P : PartModel.positions (collection_of c) = seq 0 (length (fst c))) by reflexivity. rewrite P.
      destruct (fst c) as [|p0 ps] eqn:Ec; [congruence|]. cbn [length seq].
      rewrite (Hv 0%nat c eq_refl); [|rewrite Nat.sub_0_r; cbn [Nat.add]; apply Nat.mod_same; lia]. cbn [bind].
      rewrite at_time_new; [|intros p I E; destruct (Hret p I) as (j & J & E'); rewrite E' in E; apply t_at_inj in E; [lia|lra]].
      rewrite (IH (fun j => v (S j)) fuel (S i) (t_at dt w (S i)) (every - 1)%nat rest); [|exact Hrest|exact Hcs1|lia|lia|apply restart| |].
      * rewrite Nat.sub_0_r. cbn [Nat.add]. rewrite Nat.mod_same by lia. cbn [Nat.eqb map]. rewrite Nat.add_0_r, <- app_assoc. cbn [app]. rewrite map_map.
        do 4 f_equal. rewrite (filter_ext (fun j => Nat.eqb ((j + (every - (every - 1))) mod every) 0) (fun j => Nat.eqb (S (j + every) mod every) 0)).
        -- apply map_ext. intros j. do 2 f_equal. lia.
        -- intros j. f_equal. replace (j + (every - (every - 1)))%nat with (S j) by lia. replace (S (j + every))%nat with (S j + 1 * every)%nat by lia. symmetry. apply Nat.mod_add. lia.
      * intros j c2 J Hj. apply (Hv (S j) c2 J). rewrite Nat.sub_0_r. replace (S j + every)%nat with (S j + 1 * every)%nat by lia. rewrite Nat.mod_add by lia.
        replace (S j) with (j + (every - (every - 1)))%nat by lia. exact Hj.
      * intros p I. apply in_app_or in I. destruct I as [I|[<-|[]]]; [|exists (S i); split; [lia|reflexivity]]. destruct (Hret p I) as (j & J & E). exists j. split; [lia|exact E].
    + destruct (count_skip i last k Hc) as (L & H'). destruct (Rlt_dec _ _) as [_|N]; [|exfalso; exact (N L)].
      rewrite (IH (fun j => v (S j)) fuel (S i) last k rest); [|exact Hrest|exact Hcs1|lia|lia|exact H'| |].
      * cbn [Nat.add]. rewrite (Nat.mod_small (every - S k)) by lia. destruct (Nat.eqb_spec (every - S k) 0); [lia|].
        rewrite map_map. do 3 f_equal. rewrite (filter_ext (fun j => Nat.eqb ((j + (every - k)) mod every) 0) (fun j => Nat.eqb (S (j + (every - S k)) mod every) 0)).
        -- apply map_ext. intros j. do 2 f_equal. lia.
        -- intros j. do 2 f_equal. lia.
      * intros j c2 J Hj. apply (Hv (S j) c2 J). rewrite <- Hj. f_equal. lia.
      * intros p I. destruct (Hret p I) as (j & J & E). exists j. split; [lia|exact E].
Qed.
Lemma compute_some_ok cs (v : nat -> V) fuel contents : (0 <= w)%Z ->
  py_reads float (snd (py_open contents)) cs -> Forall (fun c => fst c <> []) cs -> (length cs + every < fuel)%nat ->
  (forall j c, nth_error cs j = Some c -> (j mod every = 0)%nat -> measure (collection_of c) = Ok (v j)) ->
  compute_some float measure dt w fuel contents = Ok (Some (map (fun j => ((IZR w + INR (S j)) * dt, v j)) (multiples every (length cs)))).
Proof.
  intros Hw Hr Hn Hf Hv. unfold compute_some.
  replace (dt * IZR w) with (t_at dt w 0) by (unfold t_at; cbn [INR]; ring).
  rewrite (some_ok cs v fuel 0%nat never 0%nat _ [] Hr Hn Hf Hev).
  - cbn [app]. do 2 f_equal. unfold multiples. rewrite (filter_ext (fun j => Nat.eqb ((j + (every - 0)) mod every) 0) (fun j => Nat.eqb (j mod every) 0)).
    + apply map_ext. intros j. unfold t_at. reflexivity.
    + intros j. f_equal. rewrite Nat.sub_0_r. replace (j + every)%nat with (j + 1 * every)%nat by lia. apply Nat.mod_add. lia.
  - intros j. split; [lia|]. intros _. unfold never. assert (0 <= t_at dt w (1 + j)).
    { unfold t_at. apply Rmult_le_pos; [|lra]. assert (A := pos_INR (1 + j)). apply IZR_le in Hw. lra. }
    assert (1 <= 10 ^ 9) by (apply pow_R1_Rle; lra). lra.
  - intros j c J Hj. apply (Hv j c J). rewrite <- Hj. symmetry. rewrite Nat.sub_0_r. replace (j + every)%nat with (j + 1 * every)%nat by lia. apply Nat.mod_add. lia.
  - intros p [].
Qed.
End Some_.

(** * Times *)
Lemma run_clock_ok dt n : forall t, run_clock dt n t = t + INR n * dt.
Proof. induction n as [|n IH]; intros t; cbn [run_clock]; [cbn; ring|]. rewrite IH, S_INR. ring. Qed.
Lemma sweep_times_ok dt k n : forall t, sweep_times dt k n t = map (fun i => t + INR (i * k) * dt) (seq 1 n).
Proof.
  induction n as [|n IH]; intros t; [reflexivity|]. cbn [sweep_times seq map]. cbv zeta. rewrite run_clock_ok, IH. f_equal; [rewrite Nat.mul_1_l; reflexivity|].
  rewrite <- (seq_shift n 1), map_map. apply map_ext. intros i. cbn [Nat.mul]. rewrite plus_INR. ring.
Qed.
Lemma snapshot_times_ok dt w k n : snapshot_times dt w k n = map (fun i => INR (w + i * k) * dt) (seq 1 n).
Proof. unfold snapshot_times. rewrite run_clock_ok, sweep_times_ok. apply map_ext. intros i. rewrite plus_INR. ring. Qed.

(** * The cache *)
Section CacheP.
Variable cwd : path.
Variables (M : Type) (dump : M -> string) (load : string -> option M) (meta_eqb : M -> M -> bool).
Variables (K V : Type) (key_eqb : K -> K -> bool).
Variables (str_k : K -> string) (str_v : V -> string).
Variables (keyI : string -> result K) (valueI : string -> result V).
Hypothesis key_eqb_spec : forall a b, key_eqb a b = true <-> a = b.
Notation value := (getValueAsFunctionOfTime cwd M dump load meta_eqb K V key_eqb str_k str_v keyI valueI).
Notation has := (hasDataInCache cwd M load meta_eqb K V).
Notation update := (updateCache cwd M dump load meta_eqb K V str_k str_v).

Lemma stored_value c F (a : analysis M K V) d F' : ca_write c = None -> name_ok (cacheFilename M K V a) ->
  load (dump (cacheMetadata M K V a)) = Some (cacheMetadata M K V a) -> meta_eqb (cacheMetadata M K V a) (cacheMetadata M K V a) = true ->
  NoDup (map fst d) -> (forall kv, In kv d -> entry_ok K V str_k str_v keyI valueI kv) ->
  storeDataInCache cwd M dump K V str_k str_v c F a d = Ok F' ->
  forall b : analysis M K V, cacheFilename M K V b = cacheFilename M K V a -> cacheMetadata M K V b = cacheMetadata M K V a ->
  has c F' b = Ok true /\ value c F' b = Ok (d, F') /\ update false c F' b = Ok F'.
Proof.
  intros W N L E ND EO S b Fb Mb.
  destruct (store_get cwd M dump load meta_eqb K V key_eqb str_k str_v keyI valueI key_eqb_spec c F _ d _ F' W N L E ND EO S) as (H & G).
  assert (H' : has c F' b = Ok true) by (unfold hasDataInCache; rewrite Fb, Mb; exact H).
  split; [exact H'|]. split.
  - unfold getValueAsFunctionOfTime. rewrite H'. cbn [bind]. unfold getDataInCache. rewrite H'. cbn [bind negb]. rewrite Fb, Mb, G. reflexivity.
  - unfold updateCache. cbn [negb]. rewrite H'. reflexivity.
Qed.
Lemma dset_values (ret : list (K * V)) k v (kv : K * V) : In kv (dset key_eqb ret k v) -> snd kv = v \/ In kv ret.
Proof.
  induction ret as [|[k0 v0] r IH]; cbn [dset]; [intros [<-|[]]; left; reflexivity|].
  destruct (key_eqb k k0); cbn [In].
  - intros [<-|I]; [left; reflexivity|right; right; exact I].
  - intros [<-|I]; [right; left; reflexivity|]. destruct (IH I) as [A|A]; [left; exact A|right; right; exact A].
Qed.
Lemma read_values : forall ls ret d, read_data K V key_eqb keyI valueI ls ret = Ok d ->
  forall kv, In kv d -> (exists t, valueI t = Ok (snd kv)) \/ In kv ret.
Proof.
  induction ls as [|l ls IH]; intros ret d E kv I; cbn [read_data] in E.
  - injection E as <-. right. exact I.
  - destruct (split_line l) as [p|]; [|discriminate]. cbn [bind] in E. destruct (keyI (fst p)) as [k|]; [|discriminate]. cbn [bind] in E.
    destruct (valueI (snd p)) as [v|] eqn:Ev; [|discriminate]. cbn [bind] in E.
    destruct (IH _ _ E kv I) as [A|A]; [left; exact A|]. destruct (dset_values _ _ _ _ A) as [B|B]; [|right; exact B]. left. exists (snd p). rewrite B. exact Ev.
Qed.
Lemma cached_values c F (a : analysis M K V) d F' : has c F a = Ok true -> value c F a = Ok (d, F') ->
  F' = F /\ forall kv, In kv d -> exists t, valueI t = Ok (snd kv).
Proof.
  intros H E. unfold getValueAsFunctionOfTime in E. rewrite H in E. cbn [bind] in E. unfold getDataInCache in E. rewrite H in E. cbn [bind negb] in E.
  unfold getDataOrderedDict in E. unfold hasDataInCache in H. rewrite H in E. cbn [bind negb] in E.
  destruct (read cwd F _) as [t|]; [|discriminate]. cbn [bind] in E.
  destruct (read_data K V key_eqb keyI valueI (lines_of t) []) as [d0|] eqn:Er; [|discriminate]. cbn [bind] in E. injection E as <- <-.
  split; [reflexivity|]. intros kv I. destruct (read_values _ _ _ Er kv I) as [A|[]]. exact A.
Qed.
End CacheP.
