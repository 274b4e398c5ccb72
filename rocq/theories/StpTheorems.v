(** Property C107: star polymers made from settings. *)
From Coq Require Import String Ascii List ZArith Lia Bool Reals Lra.
From Verif Require Import PyBase StrBase CuModel CfgModel CfgSpec CfgProof CfgSimModel CfgSimSpec CfgSimProof VecBase VecModel VecSpec PotModel PotSpec PotProof StpModel StpSpec StpProof StpStateProof.
From Verif Require StarModel StarSpec StarProof StarClusterProof StarMdProof VtfModel VtfSpec VtfStarModel VtfProof VtfStepProof VtfStarTheorems.
Import ListNotations.
Open Scope list_scope.
Open Scope Z_scope.

Section Theorems.
Context (F : Type) (value : F -> R) (zero one : F) (round : R -> F) (neg : Z -> option Z) (debug : bool).
Context (cast : string -> option F) (show : F -> string) (negative : F -> bool) (files : string -> option string) (creatable : string -> bool).
Context (mp mv : Z -> F).
Local Notation make := (constructed F value zero one round neg debug cast show negative files creatable mp mv).

(** C107: star polymers are only made from settings that are complete and of the right types, with a positive size of time steps, and under Lees-Edwards boundary
    conditions; and they are made as given. If no initial state is given, nothing else is required, but for exactly one star if there are checks. *)
Theorem stars_from_settings : forall (s : setting F),
  (forall le w st, make le s = (w, Built st) -> le = true /\
     exists p, settings_given value one neg debug s (mdTimeStepSize st) (theStructure st) (particleMass st) p
       /\ theInteractions st = StarModel.createInteractions p) /\
  (forall dt x m p, settings_given value one neg debug s dt x m p -> start_given s None -> (debug = true -> StarModel.starCount x = 1) -> (debug = true -> StarModel.getParticleCount x <> 0) ->
     exists positions velocities, make true s = ([], Built (Stars dt x m (StarModel.createInteractions p) positions velocities))).
Proof.
  intros s. split.
  - intros le w st H. apply built_iff in H. destruct H as (L & _ & p & path & G & I & _). split; [exact L|]. exists p. auto.
  - intros dt x m p G S0 D1 D2.
    exists (coordinates F round mp (StarModel.initializePositions x (fun _ => None))), (coordinates F round mv (StarModel.initializeVelocities x (fun _ => None))).
    apply built_iff. split; [reflexivity|]. split; [exact D2|]. exists p, None. cbn [mdTimeStepSize theStructure particleMass theInteractions hostPositions hostVelocities].
    split; [exact G|]. split; [reflexivity|]. split; [exact S0|]. auto.
Qed.

(** C107: other boundary conditions and other settings are rejected with exceptions that say so, and no file is written then. *)
Theorem stars_rejected : forall (s : setting F),
  make false s = ([], Thrown Unimplemented) /\
  (forall w f, make true s = (w, Thrown f) -> w = [] /\ (f = InvalidConfiguration \/ debug = true /\ (f = GeneralException \/ f = Unimplemented))) /\
  ((forall dt x m p, ~ settings_given value one neg debug s dt x m p) ->
     debug = true /\ make true s = ([], AssertionFailed) \/ exists f, make true s = ([], Thrown f)).
Proof.
  intros s. split; [reflexivity|]. split.
  - intros w f H. apply thrown in H. destruct H as (-> & [(D & _)|H]); [discriminate D|]. split; [reflexivity|exact H].
  - intros N. destruct (make true s) as [w' e] eqn:E. destruct e as [st|f| |e].
    + apply built_iff in E. destruct E as (_ & _ & p & path & G & _). destruct (N _ _ _ _ G).
    + right. exists f. destruct (thrown _ _ _ _ _ _ _ _ _ _ _ _ _ _ _ _ _ E) as (-> & _). reflexivity.
    + left. revert E. unfold constructed. cbn [negb]. destruct (described F value one neg s) as [[[dt x] m]|]; [|discriminate].
      destruct debug; cbn [andb]; [destruct (_ =? 0); [intros [= <-]; auto|]|].
      all: destruct (next _ _) as [[p [w0 [[a b]|e]]]|]; discriminate.
    + exfalso. revert E. unfold constructed. cbn [negb]. destruct (described F value one neg s) as [[[dt x] m]|] eqn:D; [|discriminate].
      destruct (debug && _); [discriminate|]. destruct (next _ _) as [[p [w0 [[a b]|e0]]]|] eqn:P; try discriminate. intros _.
      apply next_done in P. destruct P as (p' & P & _). apply described_iff in D. apply parameters_iff in P. apply (N dt x m p'). unfold settings_given. tauto.
Qed.

(** C107: the potentials follow the documented mixing rules; the orientation of the dipoles is the given one, and its magnitude is of no relevance. *)
Theorem stars_potentials : forall (s : setting F) le w st, make le s = (w, Built st) ->
  exists eC eA eM sC sA sM dC dA dM mu o,
    float_at s ["interactionParameters"; "epsilon_core"]%string eC /\ float_at s ["interactionParameters"; "epsilon_arm"]%string eA
    /\ float_at s ["interactionParameters"; "epsilon_magnetic"]%string eM /\ float_at s ["interactionParameters"; "sigma_core"]%string sC
    /\ float_at s ["interactionParameters"; "sigma_arm"]%string sA /\ float_at s ["interactionParameters"; "sigma_magnetic"]%string sM
    /\ float_at s ["interactionParameters"; "D_core"]%string dC /\ float_at s ["interactionParameters"; "D_arm"]%string dA
    /\ float_at s ["interactionParameters"; "D_magnetic"]%string dM /\ float_at s ["interactionParameters"; "magneticPrefactor"]%string mu
    /\ direction_given value debug s o
    /\ (let e := per_type value eC eA eM in let g := per_type value sC sA sM in let d := per_type value dC dA dM in
        (forall t, (0 <= e t)%R) ->
        (forall t u, StarModel.WCAPotentials (theInteractions st) (StarModel.getParticleTypeCombinationIndex t u) =
           Some (WCAOffset (sqrt (e t * e u)) ((g t + g u) / 2) ((d t + d u) / 2)))
        /\ (forall t u p, StarModel.FENEPotentials (theInteractions st) (StarModel.getParticleTypeCombinationIndex t u) = Some p ->
             p = FENE (30 * sqrt (e t * e u) / ((g t + g u) / 2 * ((g t + g u) / 2))) ((d t + d u) / 2) (3 / 2 * ((g t + g u) / 2)))
        /\ (forall t, exists p, StarModel.FENEPotentials (theInteractions st) (StarModel.getParticleTypeCombinationIndex t StarModel.TArm) = Some p))%R
    /\ (let v := match o with Some v => v | None => Vec 0 0 1 end in
        StarModel.magneticPotential (theInteractions st) = Magnetic (value mu) (times3 (/ length3 v) v)
        /\ forall c, 0 < c -> times3 (/ length3 (times3 c v)) (times3 c v) = times3 (/ length3 v) v)%R.
Proof.
  intros s le w st H. apply built_iff in H. destruct H as (_ & _ & p & path & (_ & _ & _ & G) & I & _).
  destruct G as (eC & eA & eM & sC & sA & sM & dC & dA & dM & mu & o & -> & A1 & A2 & A3 & A4 & A5 & A6 & A7 & A8 & A9 & A10 & A11).
  exists eC, eA, eM, sC, sA, sM, dC, dA, dM, mu, o. do 11 (split; [assumption|]). rewrite I. split.
  - intros e g d N. set (p := StarModel.Parameters e g d (value mu) o). assert (NP : StarSpec.strengths_nonneg p) by exact N. split; [|split].
    + intros t u. exact (StarMdProof.wca_table p t u NP).
    + intros t u q Q. pose proof (StarMdProof.fene_table p t u NP) as E. assert (Q' := eq_trans (eq_sym E) Q). clear Q. rename Q' into Q. destruct (StarMdProof.has_fene t u); [|discriminate]. injection Q as <-. reflexivity.
    + intros t. exists (StarSpec.mixed_fene p t StarModel.TArm). refine (eq_trans (StarMdProof.fene_table p t StarModel.TArm NP) _). destruct t; reflexivity.
  - intros v. split; [apply StarMdProof.dipoles_eq|]. intros c C. rewrite length_times, (Rabs_pos_eq c) by lra. fold (length3 v). change (vmag v) with (length3 v).
    destruct v as [x y z]. unfold times3. cbn [vx vy vz]. destruct (Req_dec (length3 (Vec x y z)) 0) as [E|E].
    + rewrite E, Rmult_0_r, Rinv_0. f_equal; ring.
    + f_equal; field; lra.
Qed.

(** C107: without an initial state, a single star with arms is spread out, and its particles are at rest. *)
Theorem stars_start : forall (s : setting F) le w st, make le s = (w, Built st) -> start_given s None ->
  StarSpec.well_formed (theStructure st) ->
  w = []
  /\ (StarModel.starCount (theStructure st) = 1 -> 0 < StarModel.armCountPerStar (theStructure st) ->
      forall pl k, StarSpec.valid (theStructure st) pl -> 0 <= k < 3 ->
      hostPositions st (3 * StarSpec.number (theStructure st) pl + k) = round (component (StarSpec.initial (theStructure st) pl) k))
  /\ (forall pl k, StarSpec.valid (theStructure st) pl -> 0 <= k < 3 -> hostVelocities st (3 * StarSpec.number (theStructure st) pl + k) = round 0).
Proof.
  intros s le w st H S0 W. apply built_iff in H. destruct H as (_ & _ & p & path & _ & _ & S1 & K).
  destruct path as [q|]; [destruct (S0 _ S1)|]. destruct K as (_ & -> & -> & ->). split; [reflexivity|].
  assert (C : forall v k, 0 <= k < 3 -> coordinate v k = component v k).
  { intros v k Hk. assert (k = 0 \/ k = 1 \/ k = 2) as [->|[->| ->]] by lia; reflexivity. }
  split.
  - intros N A pl k V Hk. rewrite (coordinates_at _ _ _ _ (StarSpec.initial (theStructure st) pl)); [|exact (StarClusterProof.initial_positions _ _ W N A pl V)|exact Hk]. now rewrite C.
  - intros pl k V Hk. rewrite (coordinates_at _ _ _ _ zero3); [|exact (StarClusterProof.initial_velocities _ _ pl W V)|exact Hk]. rewrite C by exact Hk.
    f_equal. assert (k = 0 \/ k = 1 \/ k = 2) as [->|[->| ->]] by lia; reflexivity.
Qed.
(** C107: but of the other stars, the positions are whatever is in memory, and so is that of the core of a star without arms; unless there are checks, this goes unnoticed. *)
Theorem stars_start_refuted : forall (s : setting F) le w st, make le s = (w, Built st) -> start_given s None ->
  StarSpec.well_formed (theStructure st) -> forall pl k, StarSpec.valid (theStructure st) pl -> 0 <= k < 3 ->
  StarSpec.star_of pl <> 0 \/ StarModel.armCountPerStar (theStructure st) = 0 ->
  hostPositions st (3 * StarSpec.number (theStructure st) pl + k) = mp (3 * StarSpec.number (theStructure st) pl + k).
Proof.
  intros s le w st H S0 W pl k V Hk O. apply built_iff in H. destruct H as (_ & _ & p & path & _ & _ & S1 & K).
  destruct path as [q|]; [destruct (S0 _ S1)|]. destruct K as (_ & -> & -> & _). apply coordinates_none; [|exact Hk]. destruct O as [O|O].
  - now rewrite (StarClusterProof.other_stars _ _ pl W V O).
  - now rewrite (StarClusterProof.no_arms _ _ O).
Qed.
(** C107: from a snapshot, the positions are those of its first time step, and so are the velocities if there are any; otherwise, these are zero. *)
Theorem stars_snapshot : forall (s : setting F) dt x m p path text r ls rows rest,
  settings_given value one neg debug s dt x m p -> start_given s (Some path) -> 0 < StarModel.getParticleCount x ->
  files path = Some text -> VtfModel.open_file cast negative debug text = Ok (r, ls) -> VtfStarModel.readStateFromSnapshot x cast r ls = Ok (Some rows, rest) ->
  exists positions velocities, make true s = ([], Built (Stars dt x m (StarModel.createInteractions p) positions velocities))
    /\ Z.of_nat (length rows) = StarModel.getParticleCount x
    /\ (Forall (fun row => length row = 3%nat) rows \/ Forall (fun row => length row = 6%nat) rows)
    /\ forall i row k, nth_error rows i = Some row -> 0 <= k < 3 ->
         nth_error row (Z.to_nat k) = Some (positions (3 * Z.of_nat i + k))
         /\ velocities (3 * Z.of_nat i + k) = nth (3 + Z.to_nat k) row zero.
Proof.
  intros s dt x m p path text r ls rows rest G S0 N T0 O L.
  assert (LR : Z.of_nat (length rows) = StarModel.getParticleCount x /\ (Forall (fun row => length row = 3%nat) rows \/ Forall (fun row => length row = 6%nat) rows)).
  { unfold VtfStarModel.readStateFromSnapshot in L. destruct (VtfStarModel.snapshotStructureIsCompatible x r) as [b|] eqn:B; [|discriminate]. cbn [bind] in L.
    destruct b; [|discriminate]. assert (NA : VtfModel.getNumberOfAtoms r = StarModel.getParticleCount x).
    { unfold VtfStarModel.snapshotStructureIsCompatible in B. destruct (Z.eqb_spec (VtfModel.getNumberOfAtoms r) (StarModel.getParticleCount x)); [assumption|discriminate]. }
    rewrite NA in L. apply timestep_rows in L; [exact L|lia]. }
  pose proof (from_file value zero one round neg debug cast show negative files creatable mp mv s dt x m p path G S0 ltac:(intros _; lia)) as E.
  unfold from_snapshot in E. rewrite T0, O in E. cbn [bind] in E. rewrite L in E. cbn [bind fst snd] in E.
  eexists _, _. split; [exact E|]. destruct LR as (L1 & L2). split; [exact L1|]. split; [exact L2|]. intros i row k R0 Hk.
  assert (LT : (i < length rows)%nat) by (apply nth_error_Some; congruence).
  assert (L3 : (Z.to_nat k < length row)%nat).
  { destruct L2 as [L2|L2]; rewrite Forall_forall in L2; rewrite (L2 row) by exact (nth_error_In _ _ R0); lia. }
  split.
  - rewrite (fill_at _ _ 0 i k row R0 Hk). cbn [Nat.add]. apply nth_error_nth'. exact L3.
  - rewrite (fill_at _ _ 3 i k row R0 Hk). unfold zeroed.
    destruct (Z.leb_spec 0 (3 * Z.of_nat i + k)); [|lia]. destruct (Z.ltb_spec (3 * Z.of_nat i + k) (3 * StarModel.getParticleCount x)); [reflexivity|lia].
Qed.
(** C107: a simulation can be continued from the file that another one has written; it is the first state in the file that is used, even if there are others. *)
Theorem stars_restart : forall (s : setting F) dt x m p path minus_one default_radius calls positions velocities states,
  settings_given value one neg debug s dt x m p -> start_given s (Some path) -> StarSpec.well_formed x -> 0 < StarModel.getParticleCount x < 2 ^ 64 ->
  VtfSpec.prints show cast -> minus_one default_radius = true ->
  Forall VtfSpec.unsigned calls -> Forall VtfSpec.plain_names calls ->
  VtfSpec.c_atoms (VtfSpec.declared negative minus_one calls) = [] -> VtfSpec.c_bonds (VtfSpec.declared negative minus_one calls) = [] ->
  VtfSpec.c_steps (VtfSpec.declared negative minus_one calls) = [] ->
  exists w1 w2,
    VtfStarModel.writeStructureToSnapshot negative minus_one default_radius x (fold_left (VtfSpec.perform show negative minus_one) calls VtfModel.new_writer) = Ok w1
    /\ VtfStarModel.loop (fun w st => VtfStarModel.writeStateToSnapshot x show w (fst st) (snd st)) ((positions, velocities) :: states) w1 = Ok w2
    /\ (files path = Some (VtfModel.file_contents show w2) ->
        exists x' v', make true s = ([], Built (Stars dt x m (StarModel.createInteractions p) x' v'))
        /\ forall c, 0 <= c < 3 * StarModel.getParticleCount x -> x' c = positions c /\ v' c = velocities c).
Proof.
  intros s dt x m p path minus_one default_radius calls positions velocities states G S0 W N HP HR U P EA EB ES.
  destruct (restart_many F show cast negative minus_one default_radius x debug calls positions velocities states HP HR W (proj2 N) U P EA EB ES)
    as (w1 & w2 & r & ls & rest & E1 & E2 & O & L).
  exists w1, w2. split; [exact E1|]. split; [exact E2|]. intros T0.
  destruct (stars_snapshot s dt x m p path _ r ls _ rest G S0 (proj1 N) T0 O L) as (x' & v' & B & _ & _ & K). exists x', v'. split; [exact B|].
  intros c C. assert (R0 := step_rows_nth (Z.to_nat (StarModel.getParticleCount x)) positions velocities (Z.to_nat (c / 3))).
  assert (D : c = 3 * (c / 3) + c mod 3) by (apply Z.div_mod; lia). assert (M := Z.mod_pos_bound c 3 ltac:(lia)).
  assert (Q : 0 <= c / 3 < StarModel.getParticleCount x) by lia.
  specialize (R0 ltac:(lia)). specialize (K _ _ (c mod 3) R0 M). rewrite Z2Nat.id in K by lia. rewrite <- D in K. cbv zeta in K. destruct K as (K1 & K2).
  rewrite K2. clear K2 R0. remember (c / 3) as q eqn:Hq. remember (c mod 3) as k eqn:Hk. clear Hq Hk. subst c.
  assert (k = 0 \/ k = 1 \/ k = 2) as [->|[->| ->]] by lia; cbn [nth_error nth Z.to_nat Pos.to_nat Pos.iter_op Nat.add] in K1 |- *; apply (f_equal (fun o => match o with Some a => a | None => zero end)) in K1; (split; [rewrite <- K1|]); rewrite ?Z.add_0_r; reflexivity.
Qed.
(** C107: if the file has no time step, that goes unnoticed, and the positions are whatever is in memory. *)
Theorem stars_no_timestep_refuted : forall (s : setting F) dt x m p path minus_one default_radius,
  settings_given value one neg debug s dt x m p -> start_given s (Some path) -> StarSpec.well_formed x -> 0 < StarModel.getParticleCount x < 2 ^ 64 ->
  VtfSpec.prints show cast -> minus_one default_radius = true ->
  exists w1, VtfStarModel.writeStructureToSnapshot negative minus_one default_radius x VtfModel.new_writer = Ok w1
    /\ (files path = Some (VtfModel.file_contents show w1) ->
        exists v, make true s = ([], Built (Stars dt x m (StarModel.createInteractions p) mp v))).
Proof.
  intros s dt x m p path minus_one default_radius G S0 W N HP HR.
  destruct (restart_none F show cast negative minus_one default_radius x debug HP HR W (proj2 N)) as (w1 & r & ls & rest & E1 & O & L).
  exists w1. split; [exact E1|]. intros T0. pose proof (from_file value zero one round neg debug cast show negative files creatable mp mv s dt x m p path G S0 ltac:(intros _; lia)) as E.
  unfold from_snapshot in E. rewrite T0, O in E. cbn [bind] in E. rewrite L in E. cbn [bind fst snd] in E. eexists. exact E.
Qed.
(** C107: if there is no such file, it is created, if possible, and is empty; that is an error, and remains one at the next attempt. *)
Theorem stars_missing_file : forall (s : setting F) dt x m p path,
  settings_given value one neg debug s dt x m p -> start_given s (Some path) -> 0 < StarModel.getParticleCount x ->
  (files path = None -> make true s = if creatable path then ([(path, ""%string)], SnapshotError InvalidArgumentException) else ([], SnapshotError IOException))
  /\ (files path = Some ""%string -> make true s = ([], SnapshotError InvalidArgumentException)).
Proof.
  intros s dt x m p path G S0 N. pose proof (from_file value zero one round neg debug cast show negative files creatable mp mv s dt x m p path G S0 ltac:(intros _; lia)) as E.
  unfold from_snapshot in E. split; intros T0; rewrite T0 in E.
  - rewrite E. destruct (creatable path); reflexivity.
  - rewrite E. cbn [fst snd]. unfold VtfModel.open_file. cbn. unfold VtfStarModel.readStateFromSnapshot, VtfStarModel.snapshotStructureIsCompatible.
    change (VtfModel.getNumberOfAtoms VtfModel.new_structure) with 0. destruct (Z.eqb_spec 0 (StarModel.getParticleCount x)); [lia|]. reflexivity.
Qed.
(** C107: snapshots that are not of the same structure are rejected. *)
Theorem stars_other_structure : forall (s : setting F) dt x m p path text r ls,
  settings_given value one neg debug s dt x m p -> start_given s (Some path) -> 0 < StarModel.getParticleCount x ->
  files path = Some text -> VtfModel.open_file cast negative debug text = Ok (r, ls) -> VtfStarModel.snapshotStructureIsCompatible x r = Ok false ->
  make true s = ([], SnapshotError InvalidArgumentException).
Proof.
  intros s dt x m p path text r ls G S0 N T0 O C. pose proof (from_file value zero one round neg debug cast show negative files creatable mp mv s dt x m p path G S0 ltac:(intros _; lia)) as E.
  unfold from_snapshot in E. rewrite T0, O in E. cbn [bind] in E. unfold VtfStarModel.readStateFromSnapshot in E. rewrite C in E. exact E.
Qed.
End Theorems.
Print Assumptions stars_from_settings.
Print Assumptions stars_rejected.
Print Assumptions stars_potentials.
Print Assumptions stars_start.
Print Assumptions stars_start_refuted.
Print Assumptions stars_snapshot.
Print Assumptions stars_restart.
Print Assumptions stars_no_timestep_refuted.
Print Assumptions stars_missing_file.
Print Assumptions stars_other_structure.

(** Examples: numbers are integers. *)
Ltac reach := apply walk_reaches; reflexivity.
Ltac missing := apply walk_absent; reflexivity.
Definition axis_340 : list (string * setting Z) := [("dipoleOrientation"%string, Listing [Scalar (VFloat 3); Scalar (VFloat 4); Scalar (VFloat 0)])].
Definition sample_parameters o : StarModel.parameters := StarModel.Parameters (per_type IZR 2 1 1) (per_type IZR 2 1 1) (per_type IZR 2 1 1) (IZR 2) o.
Lemma sample_given n l more o : 0 <= n -> direction_given IZR true (sample 1 2 n l more) o -> absent (sample 1 2 n l more) ["structure"; "particleMass"]%string ->
  settings_given IZR 1 (fun _ => None) true (sample 1 2 n l more) 1 (StarModel.Structure n 2 1 false) 1 (sample_parameters o).
Proof.
  intros N D M. split; [|split; [|split]].
  - split; [reach|lra].
  - split; [exists n; split; [reach|left; split; [exact N|reflexivity]]|]. split; [exists 2; split; [reach|left; split; [lia|reflexivity]]|].
    split; [exists 1; split; [reach|left; split; [lia|reflexivity]]|reach].
  - right. split; [exact M|reflexivity].
  - exists 2, 1, 1, 2, 1, 1, 2, 1, 1, 2, o. split; [reflexivity|]. do 10 (split; [reach|]). exact D.
Qed.
Definition sample_make (files : string -> option string) := constructed Z IZR 0 1 Int_part (fun _ => None) true Z_of_str str_of_Z VtfSpec.z_negative files (fun _ => true) (fun _ => 77) (fun _ => 78).
(** One star, whose dipoles would point along (3, 4, 0). *)
Example stars_from_settings_example : exists positions velocities,
  sample_make (fun _ => None) true (sample 1 2 1 axis_340 []) =
    ([], Built (Stars 1 (StarModel.Structure 1 2 1 false) 1 (StarModel.createInteractions (sample_parameters (Some (Vec (IZR 3) (IZR 4) (IZR 0))))) positions velocities)).
Proof.
  apply (proj2 (stars_from_settings Z IZR 0 1 Int_part (fun _ => None) true Z_of_str str_of_Z VtfSpec.z_negative (fun _ => None) (fun _ => true) (fun _ => 77) (fun _ => 78) _)).
  - apply sample_given; [lia| |missing]. eexists. split; [reach|]. exists 3, 4, 0, []. split; [reflexivity|]. left. reflexivity.
  - missing.
  - reflexivity.
  - discriminate.
Qed.
(** Settings that are rejected: a number that is not of type float, and none at all. *)
Example stars_rejected_example :
  map (fun s => match snd (sample_make (fun _ => None) true s) with Thrown InvalidConfiguration => 1 | Thrown GeneralException => 2 | Thrown _ => 3 | AssertionFailed => 4 | _ => 0 end)
    [Group [("mdTimeStepSize"%string, Scalar (VInt 1))]; Group []] = [1; 1]
  /\ (forall dt x m p, ~ settings_given IZR 1 (fun _ => None) true (Group []) dt x m p).
Proof.
  split; [vm_compute; reflexivity|]. intros dt x m p ((A & _) & _). apply walk_reaches in A. discriminate A.
Qed.
Example stars_rejected_direction : forall w f, sample_make (fun _ => None) true (sample 1 2 1 [("dipoleOrientation"%string, Scalar (VFloat 1))] []) = (w, Thrown f) -> f = GeneralException.
Proof.
  intros w f. unfold sample_make, constructed. cbn [negb].
  assert (D : described Z IZR 1 (fun _ => None) (sample 1 2 1 [("dipoleOrientation"%string, Scalar (VFloat 1))] []) = Done (1, StarModel.Structure 1 2 1 false, 1)).
  { apply described_iff. split; [split; [reach|lra]|]. split.
    - split; [exists 1; split; [reach|left; split; [lia|reflexivity]]|]. split; [exists 2; split; [reach|left; split; [lia|reflexivity]]|].
      split; [exists 1; split; [reach|left; split; [lia|reflexivity]]|reach].
    - right. split; [missing|reflexivity]. }
  rewrite D. intros H. injection H as _ H. symmetry. exact H.
Qed.
(** The particle of the second arm of the star. *)
Example stars_start_example : StarSpec.valid (StarModel.Structure 1 2 1 false) (StarSpec.Bead 0 1 0) /\ StarSpec.number (StarModel.Structure 1 2 1 false) (StarSpec.Bead 0 1 0) = 2
  /\ component (StarSpec.initial (StarModel.Structure 1 2 1 false) (StarSpec.Bead 0 1 0)) 0 = (-1)%R.
Proof.
  split; [cbn; lia|]. split; [reflexivity|]. unfold component, StarSpec.initial. cbn [Z.to_nat nth vx times3 StarModel.armCountPerStar].
  replace (2 * PI * (1 / 2))%R with PI by field. rewrite cos_PI. cbn. ring.
Qed.
Example stars_start_refuted_example : StarSpec.valid (StarModel.Structure 2 2 1 false) (StarSpec.Core 1) /\ StarSpec.star_of (StarSpec.Core 1) <> 0.
Proof. cbn. lia. Qed.
(** A file with two states, without velocities, and one with velocities; and one without states. *)
Definition sample_structure : list string := ["atom 0 type Core"; "atom 1:2 type Arm"; "bond 0:1, 0:2"]%string.
Definition sample_text (l : list string) : string := VtfStarTheorems.example_text (sample_structure ++ l).
Definition sample_state (l : list string) : option (list Z * list Z) :=
  match snd (from_snapshot Z 0 true Z_of_str str_of_Z VtfSpec.z_negative (fun _ => Some (sample_text l)) (fun _ => true) (fun _ => 77) (fun _ => 78) (StarModel.Structure 1 2 1 false) "x") with
  | Ok (p, v) => Some (map p [0; 1; 2; 3; 4; 5; 6; 7; 8], map v [0; 1; 2; 3; 4; 5; 6; 7; 8])
  | Err _ => None
  end.
Example stars_snapshot_example :
  sample_state ["timestep"; "1 2 3"; "4 5 6"; "7 8 9"; "timestep"; "0 0 0"; "1 1 1"; "2 2 2"]%string = Some ([1; 2; 3; 4; 5; 6; 7; 8; 9], [0; 0; 0; 0; 0; 0; 0; 0; 0])
  /\ sample_state ["timestep"; "1 2 3 9 8 7"; "4 5 6 6 5 4"; "7 8 9 3 2 1"]%string = Some ([1; 2; 3; 4; 5; 6; 7; 8; 9], [9; 8; 7; 6; 5; 4; 3; 2; 1])
  /\ sample_state [] = Some ([77; 77; 77; 77; 77; 77; 77; 77; 77], [0; 0; 0; 0; 0; 0; 0; 0; 0])
  /\ sample_state ["timestep"; "1 2 3 9 8 7"; "4 5 6"; "7 8 9"]%string = None.
Proof. vm_compute. auto. Qed.
(** Settings with an initial state: a file that is missing, and one with a state. *)
Example stars_restart_example : forall files creatable mp mv,
  let s := sample 1 2 1 [] [("initialState", Scalar (VString "start.vtf"))]%string in
  VtfSpec.prints str_of_Z Z_of_str /\ start_given s (Some "start.vtf"%string)
  /\ settings_given IZR 1 (fun _ => None) true s 1 (StarModel.Structure 1 2 1 false) 1 (sample_parameters None)
  /\ (files "start.vtf"%string = None -> creatable "start.vtf"%string = true ->
      constructed Z IZR 0 1 Int_part (fun _ => None) true Z_of_str str_of_Z VtfSpec.z_negative files creatable mp mv true s = ([("start.vtf", "")]%string, SnapshotError InvalidArgumentException))
  /\ (files "start.vtf"%string = Some (sample_text ["timestep"; "1 2 3"; "4 5 6"; "7 8 9"]%string) ->
      exists st, constructed Z IZR 0 1 Int_part (fun _ => None) true Z_of_str str_of_Z VtfSpec.z_negative files creatable mp mv true s = ([], Built st) /\ hostPositions st 4 = 5 /\ hostVelocities st 4 = 0).
Proof.
  intros files creatable mp mv s. assert (G : settings_given IZR 1 (fun _ => None) true s 1 (StarModel.Structure 1 2 1 false) 1 (sample_parameters None)).
  { apply sample_given; [lia|missing|missing]. }
  assert (S0 : start_given s (Some "start.vtf"%string)) by reach.
  split; [exact VtfStepProof.integers_print|]. split; [exact S0|]. split; [exact G|]. split.
  - intros H C. rewrite (proj1 (stars_missing_file Z IZR 0 1 Int_part (fun _ => None) true Z_of_str str_of_Z VtfSpec.z_negative files creatable mp mv s 1 _ 1 _ "start.vtf"%string G S0 eq_refl) H), C. reflexivity.
  - intros H. destruct (VtfModel.open_file Z_of_str VtfSpec.z_negative true (sample_text ["timestep"; "1 2 3"; "4 5 6"; "7 8 9"]%string)) as [[r ls]|] eqn:O; [|vm_compute in O; discriminate O].
    destruct (VtfStarModel.readStateFromSnapshot (StarModel.Structure 1 2 1 false) Z_of_str r ls) as [[[rows|] rest]|] eqn:L;
      [|vm_compute in O; injection O as <- <-; vm_compute in L; discriminate L|vm_compute in O; injection O as <- <-; vm_compute in L; discriminate L].
    destruct (stars_snapshot Z IZR 0 1 Int_part (fun _ => None) true Z_of_str str_of_Z VtfSpec.z_negative files creatable mp mv s 1 _ 1 _ "start.vtf"%string _ r ls rows rest G S0 eq_refl H O L)
      as (p & v & E & _ & _ & K).
    eexists. split; [exact E|]. cbn [hostPositions hostVelocities]. vm_compute in O. injection O as <- <-. vm_compute in L. injection L as <- <-.
    destruct (K 1%nat _ 1 eq_refl ltac:(lia)) as (K1 & K2). cbn in K1, K2. injection K1 as <-. auto.
Qed.
