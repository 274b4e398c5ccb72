From Coq Require Import String Ascii List ZArith Lia Bool Reals Lra.
From Verif Require Import PyBase StrBase CuModel CfgModel CfgSpec CfgProof CfgReadProof CfgSimModel CfgSimSpec CfgSimProof VecModel StpModel StpSpec.
From Verif Require StarModel StarSpec StarProof StarClusterProof StarMdProof VtfModel VtfSpec VtfProof VtfStarModel VtfStarProof.
Import ListNotations.
Open Scope list_scope.
Open Scope Z_scope.

Ltac prop := apply proper_check; [discriminate|vm_compute; reflexivity].
Section Proof.
Context {F : Type} (value : F -> R) (zero one : F) (round : R -> F) (neg : Z -> option Z) (debug : bool).
Implicit Types s : setting F.
Lemma size_iff s p n : proper_path p -> (setting_read_size F neg s (dotted p) = Done n <-> unsigned_at neg s p n).
Proof.
  intros P. unfold setting_read_size, unsigned_at. rewrite setting_read_proper, read_value_proper by assumption.
  assert (E : forall z, reaches s p (Scalar (VInt z)) <-> walk F s p = Some (Scalar (VInt z))) by (intros z; symmetry; apply walk_reaches).
  destruct (walk F s p) as [[[b|z|z|x|x]| | |]|] eqn:W; cbn [convert next]; try (split; [discriminate|intros (z' & A & _); apply E in A; congruence]).
  destruct (Z.ltb_spec z 0) as [L|L].
  - destruct (neg z) as [k|] eqn:K; cbn [option_map next].
    + split; [intros H; injection H as <-; exists z; split; [now apply E|right; auto]|]. intros (z' & A & B). apply E in A. injection A as <-.
      destruct B as [(B & _)|(_ & B)]; [lia|]. rewrite K in B. injection B as ->. reflexivity.
    + split; [discriminate|]. intros (z' & A & B). apply E in A. injection A as <-. destruct B as [(B & _)|(_ & B)]; [lia|congruence].
  - split; [intros [= <-]; exists z; split; [now apply E|left; auto]|]. intros (z' & A & B). apply E in A. injection A as <-.
    destruct B as [(_ & B)|(B & _)]; [rewrite B; reflexivity|lia].
Qed.
Lemma bool_setting_iff s p b : proper_path p -> (setting_read_bool F neg s (dotted p) = Done b <-> bool_at s p b).
Proof.
  intros P. unfold setting_read_bool, bool_at. rewrite setting_read_proper, read_value_proper, <- walk_reaches by assumption.
  destruct (walk F s p) as [[[c|z|z|x|x]| | |]|]; cbn; split; intros H; congruence.
Qed.
Lemma number_iff s p d : proper_path p -> (number_at F neg s (dotted p) = Done d <-> float_at s p d).
Proof. intros P. unfold number_at, float_at. rewrite setting_float_iff, walk_reaches by assumption. reflexivity. Qed.
Lemma string_iff s p d : proper_path p -> (setting_read_string F neg s (dotted p) = Done d <-> text_at s p d).
Proof. intros P. unfold text_at. rewrite setting_string_iff, walk_reaches by assumption. reflexivity. Qed.
(** Failures are of one kind. *)
Lemma number_fails s p f : proper_path p -> number_at F neg s (dotted p) = Fails f -> f = InvalidConfiguration.
Proof.
  intros P. unfold number_at, setting_read_float. rewrite setting_read_proper, read_value_proper by assumption.
  destruct (walk F s p) as [[[c|z|z|x|x]| | |]|]; cbn; congruence.
Qed.
Lemma string_fails s p f : proper_path p -> setting_read_string F neg s (dotted p) = Fails f -> f = InvalidConfiguration.
Proof.
  intros P. unfold setting_read_string. rewrite setting_read_proper, read_value_proper by assumption.
  destruct (walk F s p) as [[[c|z|z|x|x]| | |]|]; cbn; congruence.
Qed.
Lemma bool_fails s p f : proper_path p -> setting_read_bool F neg s (dotted p) = Fails f -> f = InvalidConfiguration.
Proof.
  intros P. unfold setting_read_bool. rewrite setting_read_proper, read_value_proper by assumption.
  destruct (walk F s p) as [[[c|z|z|x|x]| | |]|]; cbn; congruence.
Qed.
Lemma size_fails s p f : proper_path p -> setting_read_size F neg s (dotted p) = Fails f -> f = InvalidConfiguration.
Proof.
  intros P. unfold setting_read_size. rewrite setting_read_proper, read_value_proper by assumption.
  destruct (walk F s p) as [[[c|z|z|x|x]| | |]|]; cbn; try congruence. destruct (z <? 0); [destruct (neg z)|]; cbn; congruence.
Qed.
Lemma has_setting_iff s p b : proper_path p -> (setting_has F s (dotted p) = Done b <-> if b then present s p else absent s p).
Proof.
  intros P. rewrite setting_has_proper by assumption. unfold present. destruct b; destruct (walk F s p) as [t|] eqn:W.
  - split; [intros _; exists t; now apply walk_reaches|reflexivity].
  - split; [discriminate|]. intros (t & T). apply walk_reaches in T. congruence.
  - split; [discriminate|]. intros A. apply walk_reaches in W. now apply A in W.
  - split; [intros _; now apply walk_absent|reflexivity].
Qed.
Lemma timestep_iff s dt : read_timestep F value neg s = Done dt <-> timestep_given value s dt.
Proof.
  unfold read_timestep, timestep_given. rewrite next_done.
  assert (E := number_iff s ["mdTimeStepSize"%string]). cbn [dotted String.concat] in E.
  split.
  - intros (d & A & B). apply E in A; [|prop]. destruct (rltb 0 (value d)) eqn:L; [|discriminate B]. injection B as ->. split; [exact A|].
    unfold rltb in L. destruct (Rlt_dec 0 (value dt)); [assumption|discriminate].
  - intros (A & B). exists dt. split; [apply E; [prop|exact A]|]. unfold rltb. destruct (Rlt_dec 0 (value dt)); [reflexivity|contradiction].
Qed.
Lemma structure_iff s x : read_structure F neg s = Done x <-> structure_given neg s x.
Proof.
  unfold read_structure, structure_given.
  assert (E1 := size_iff s ["structure"; "starCount"]%string). assert (E2 := size_iff s ["structure"; "armCountPerStar"]%string).
  assert (E3 := size_iff s ["structure"; "armParticlesPerArm"]%string). assert (E4 := bool_setting_iff s ["structure"; "hasMagneticParticles"]%string).
  cbn [dotted String.concat append] in *. split.
  - intros H. apply next_done in H. destruct H as (a & A & H). apply next_done in H. destruct H as (b & B & H). apply next_done in H. destruct H as (c & C & H).
    apply next_done in H. destruct H as (d & D & [= <-]). cbn. repeat split; [apply E1|apply E2|apply E3|apply E4]; (prop || assumption).
  - intros (A & B & C & D). destruct x as [a b c d]. cbn in A, B, C, D.
    rewrite (proj2 (E1 a ltac:(prop)) A). cbn [next]. rewrite (proj2 (E2 b ltac:(prop)) B). cbn [next]. rewrite (proj2 (E3 c ltac:(prop)) C). cbn [next].
    rewrite (proj2 (E4 d ltac:(prop)) D). reflexivity.
Qed.
Lemma reaches_absent s p t : reaches s p t -> absent s p -> False.
Proof. intros A B. exact (B t A). Qed.
Lemma mass_iff s m : read_mass F one neg s = Done m <-> mass_given one s m.
Proof.
  unfold read_mass, mass_given. rewrite next_done.
  assert (E := number_iff s ["structure"; "particleMass"]%string). assert (H := has_setting_iff s ["structure"; "particleMass"]%string).
  cbn [dotted String.concat append] in *. split.
  - intros (b & B & K). apply H in B; [|prop]. destruct b; [left; apply E; [prop|exact K]|right]. injection K as ->. auto.
  - intros [A|(A & ->)].
    + exists true. split; [apply H; [prop|]; eexists; exact A|]. apply E; [prop|exact A].
    + exists false. split; [apply H; [prop|exact A]|reflexivity].
Qed.
Lemma by_type_iff s a b c p q r f : proper_path p -> proper_path q -> proper_path r -> a = dotted p -> b = dotted q -> c = dotted r ->
  read_by_type F value neg s a b c = Done f <-> exists x y z, f = per_type value x y z /\ float_at s p x /\ float_at s q y /\ float_at s r z.
Proof.
  intros P Q R_ -> -> ->. unfold read_by_type. split.
  - intros H. apply next_done in H. destruct H as (x & A & H). apply next_done in H. destruct H as (y & B & H). apply next_done in H. destruct H as (z & C & [= <-]).
    exists x, y, z. apply number_iff in A; [|assumption]. apply number_iff in B; [|assumption]. apply number_iff in C; [|assumption].
    split; [|auto]. reflexivity.
  - intros (x & y & z & -> & A & B & C). apply number_iff in A; [|assumption]. apply number_iff in B; [|assumption]. apply number_iff in C; [|assumption].
    rewrite A, B, C. reflexivity.
Qed.
Definition axis := ["interactionParameters"; "dipoleOrientation"]%string.
Lemma axis_proper : proper_path axis.
Proof. prop. Qed.
Lemma component_eq s i : read_component F value neg debug s i =
  match walk F s axis with
  | None => Fails InvalidConfiguration
  | Some t => if debug && negb (isArrayOrList F t) then Fails GeneralException
              else match element F t i with Some (Scalar (VFloat d)) => Done (value d) | _ => Fails InvalidConfiguration end
  end.
Proof.
  unfold read_component, setting_getList, setting_getSetting. change "interactionParameters.dipoleOrientation"%string with (dotted axis).
  rewrite (setting_has_proper _ _ axis_proper), (lookup_proper _ _ axis_proper).
  destruct (walk F s axis) as [t|]; [|reflexivity]. destruct (debug && negb (isArrayOrList F t)); [reflexivity|]. cbn [next]. unfold list_read.
  destruct (element F t i) as [[[c|z|z|x|x]| | |]|]; reflexivity.
Qed.
Lemma element_nth t i x : element F t (Z.of_nat i) = Some x <-> nth_error (map snd (children F t)) i = Some x.
Proof.
  unfold element. destruct (Z.ltb_spec (Z.of_nat i) 0); [lia|]. rewrite Nat2Z.id, nth_error_map. reflexivity.
Qed.
Lemma three_first {A} (l : list A) a b c : nth_error l 0 = Some a /\ nth_error l 1 = Some b /\ nth_error l 2 = Some c <-> exists r, l = a :: b :: c :: r.
Proof.
  split.
  - intros (A0 & A1 & A2). destruct l as [|x [|y [|z r]]]; try discriminate. cbn in *. injection A0 as ->. injection A1 as ->. injection A2 as ->. eexists; reflexivity.
  - intros (r & ->). auto.
Qed.
Lemma direction_iff t v : direction value debug t v <->
  debug && negb (isArrayOrList F t) = false /\ exists x y z, v = Vec (value x) (value y) (value z)
  /\ element F t 0 = Some (Scalar (VFloat x)) /\ element F t 1 = Some (Scalar (VFloat y)) /\ element F t 2 = Some (Scalar (VFloat z)).
Proof.
  assert (E : forall x y z, (element F t 0 = Some x /\ element F t 1 = Some y /\ element F t 2 = Some z) <-> exists r, map snd (children F t) = x :: y :: z :: r).
  { intros x y z. rewrite <- three_first. rewrite (element_nth t 0), (element_nth t 1), (element_nth t 2). reflexivity. }
  split.
  - intros (x & y & z & rest & V & K). split.
    + destruct K as [->|[->|(-> & _)]]; [apply andb_false_r|apply andb_false_r|reflexivity].
    + exists x, y, z. split; [exact V|]. apply E. exists rest. destruct K as [->|[->|(_ & m & -> & M)]].
      * cbn [children]. rewrite map_map. cbn [snd]. apply map_id.
      * cbn [children]. rewrite map_map. cbn [snd]. apply map_id.
      * cbn [children]. rewrite map_map. cbn [snd]. exact M.
  - intros (B & x & y & z & V & K). apply E in K. destruct K as (rest & K). exists x, y, z, rest. split; [exact V|].
    destruct t as [v0|m|l|l]; cbn [children] in K.
    + discriminate K.
    + right. right. split; [destruct debug; [discriminate B|reflexivity]|]. exists m. split; [reflexivity|]. rewrite map_map in K. exact K.
    + left. rewrite map_map in K. cbn [snd] in K. rewrite map_id in K. now rewrite K.
    + right. left. rewrite map_map in K. cbn [snd] in K. rewrite map_id in K. now rewrite K.
Qed.
Lemma orientation_iff s o : read_orientation F value neg debug s = Done o <-> direction_given value debug s o.
Proof.
  unfold read_orientation, direction_given. change "interactionParameters.dipoleOrientation"%string with (dotted axis). fold axis.
  rewrite (setting_has_proper _ _ axis_proper). cbn [next]. rewrite !component_eq. destruct (walk F s axis) as [t|] eqn:W.
  - assert (RT := W). apply walk_reaches in RT. split.
    + intros H. apply next_done in H. destruct H as (x & A & H). apply next_done in H. destruct H as (y & B & H). apply next_done in H. destruct H as (z & C & [= <-]).
      exists t. split; [exact RT|]. apply direction_iff. destruct (debug && negb (isArrayOrList F t)); [discriminate A|]. split; [reflexivity|].
      destruct (element F t 0) as [[[| | |x0|]| | |]|]; try discriminate A. destruct (element F t 1) as [[[| | |y0|]| | |]|]; try discriminate B.
      destruct (element F t 2) as [[[| | |z0|]| | |]|]; try discriminate C. injection A as <-. injection B as <-. injection C as <-. exists x0, y0, z0. auto.
    + destruct o as [v|].
      * intros (t' & RT' & D). apply walk_reaches in RT'. rewrite W in RT'. injection RT' as <-. apply direction_iff in D.
        destruct D as (B & x & y & z & -> & A0 & A1 & A2). rewrite B, A0, A1, A2. reflexivity.
      * intros A. destruct (A t RT).
  - apply walk_absent in W. split; [intros [= <-]; exact W|]. destruct o as [v|]; [|reflexivity]. intros (t & RT & _). destruct (W t RT).
Qed.
Lemma parameters_iff s p : read_parameters F value neg debug s = Done p <-> parameters_given value debug s p.
Proof.
  unfold read_parameters, parameters_given.
  pose proof (by_type_iff s "interactionParameters.epsilon_core" "interactionParameters.epsilon_arm" "interactionParameters.epsilon_magnetic"
    ["interactionParameters"; "epsilon_core"]%string ["interactionParameters"; "epsilon_arm"]%string ["interactionParameters"; "epsilon_magnetic"]%string) as E1.
  pose proof (by_type_iff s "interactionParameters.sigma_core" "interactionParameters.sigma_arm" "interactionParameters.sigma_magnetic"
    ["interactionParameters"; "sigma_core"]%string ["interactionParameters"; "sigma_arm"]%string ["interactionParameters"; "sigma_magnetic"]%string) as E2.
  pose proof (by_type_iff s "interactionParameters.D_core" "interactionParameters.D_arm" "interactionParameters.D_magnetic"
    ["interactionParameters"; "D_core"]%string ["interactionParameters"; "D_arm"]%string ["interactionParameters"; "D_magnetic"]%string) as E3.
  assert (E4 := number_iff s ["interactionParameters"; "magneticPrefactor"]%string). cbn [dotted String.concat append] in E4.
  split.
  - intros H. apply next_done in H. destruct H as (e & A & H). apply next_done in H. destruct H as (g & B & H). apply next_done in H. destruct H as (d & C & H).
    apply next_done in H. destruct H as (mu & M & H). apply next_done in H. destruct H as (o & O & [= <-]).
    apply E1 in A; try (prop || reflexivity). apply E2 in B; try (prop || reflexivity). apply E3 in C; try (prop || reflexivity). apply E4 in M; [|prop]. apply orientation_iff in O.
    destruct A as (a1 & a2 & a3 & -> & A1 & A2 & A3). destruct B as (b1 & b2 & b3 & -> & B1 & B2 & B3). destruct C as (c1 & c2 & c3 & -> & C1 & C2 & C3).
    exists a1, a2, a3, b1, b2, b3, c1, c2, c3, mu, o. repeat (split; [first [reflexivity|assumption]|]). assumption.
  - intros (a1 & a2 & a3 & b1 & b2 & b3 & c1 & c2 & c3 & mu & o & -> & A1 & A2 & A3 & B1 & B2 & B3 & C1 & C2 & C3 & M & O).
    rewrite (proj2 (E1 (per_type value a1 a2 a3) ltac:(prop) ltac:(prop) ltac:(prop) eq_refl eq_refl eq_refl)) by (exists a1, a2, a3; auto). cbn [next].
    rewrite (proj2 (E2 (per_type value b1 b2 b3) ltac:(prop) ltac:(prop) ltac:(prop) eq_refl eq_refl eq_refl)) by (exists b1, b2, b3; auto). cbn [next].
    rewrite (proj2 (E3 (per_type value c1 c2 c3) ltac:(prop) ltac:(prop) ltac:(prop) eq_refl eq_refl eq_refl)) by (exists c1, c2, c3; auto). cbn [next].
    apply E4 in M; [|prop]. rewrite M. cbn [next]. apply orientation_iff in O. rewrite O. reflexivity.
Qed.
Lemma described_iff s dt x m : described F value one neg s = Done (dt, x, m) <-> timestep_given value s dt /\ structure_given neg s x /\ mass_given one s m.
Proof.
  unfold described. rewrite <- timestep_iff, <- structure_iff, <- mass_iff. split.
  - intros H. apply next_done in H. destruct H as (a & A & H). apply next_done in H. destruct H as (b & B & H). apply next_done in H. destruct H as (c & C & H).
    injection H as -> -> ->. auto.
  - intros (A & B & C). rewrite A, B, C. reflexivity.
Qed.
Lemma start_iff s b path : setting_has F s "initialState" = Done b -> (if b then setting_read_string F neg s "initialState" = Done path -> start_given s (Some path) else start_given s None).
Proof.
  intros H. pose proof (has_setting_iff s ["initialState"%string] b ltac:(prop)) as E. cbn [dotted String.concat] in E. apply E in H. destruct b; [|exact H].
  intros K. pose proof (string_iff s ["initialState"%string] path ltac:(prop)) as G. cbn [dotted String.concat] in G. apply G. exact K.
Qed.
Lemma started s path : start_given s path ->
  match path with Some x => setting_has F s "initialState" = Done true /\ setting_read_string F neg s "initialState" = Done x
  | None => setting_has F s "initialState" = Done false end.
Proof.
  pose proof (fun b => has_setting_iff s ["initialState"%string] b ltac:(prop)) as E. cbn [dotted String.concat] in E.
  destruct path as [x|]; cbn [start_given].
  - intros H. split; [apply E; eexists; exact H|]. pose proof (string_iff s ["initialState"%string] x ltac:(prop)) as G. cbn [dotted String.concat] in G. now apply G.
  - intros H. now apply E.
Qed.
(** * Failures *)
Lemma by_type_fails s a b c p q r f : proper_path p -> proper_path q -> proper_path r -> a = dotted p -> b = dotted q -> c = dotted r ->
  read_by_type F value neg s a b c = Fails f -> f = InvalidConfiguration.
Proof.
  intros P Q R_ -> -> ->. unfold read_by_type. intros H. apply next_fails in H. destruct H as [H|(x & _ & H)]; [exact (number_fails _ _ _ P H)|].
  apply next_fails in H. destruct H as [H|(y & _ & H)]; [exact (number_fails _ _ _ Q H)|].
  apply next_fails in H. destruct H as [H|(z & _ & H)]; [exact (number_fails _ _ _ R_ H)|]. discriminate.
Qed.
Lemma described_fails s f : described F value one neg s = Fails f -> f = InvalidConfiguration.
Proof.
  unfold described. intros H. apply next_fails in H. destruct H as [H|(dt & _ & H)].
  { unfold read_timestep in H. apply next_fails in H. destruct H as [H|(x & _ & H)]; [exact (number_fails s ["mdTimeStepSize"%string] _ ltac:(prop) H)|].
    destruct (rltb 0 (value x)); congruence. }
  apply next_fails in H. destruct H as [H|(x & _ & H)].
  { unfold read_structure in H. apply next_fails in H. destruct H as [H|(a & _ & H)]; [exact (size_fails s ["structure"; "starCount"]%string _ ltac:(prop) H)|].
    apply next_fails in H. destruct H as [H|(b & _ & H)]; [exact (size_fails s ["structure"; "armCountPerStar"]%string _ ltac:(prop) H)|].
    apply next_fails in H. destruct H as [H|(c & _ & H)]; [exact (size_fails s ["structure"; "armParticlesPerArm"]%string _ ltac:(prop) H)|].
    apply next_fails in H. destruct H as [H|(d & _ & H)]; [exact (bool_fails s ["structure"; "hasMagneticParticles"]%string _ ltac:(prop) H)|discriminate]. }
  apply next_fails in H. destruct H as [H|(m & _ & H)]; [|discriminate].
  unfold read_mass in H. apply next_fails in H. destruct H as [H|(b & _ & H)].
  { pose proof (setting_has_proper s ["structure"; "particleMass"]%string ltac:(prop)) as E. cbn [dotted String.concat append] in E. rewrite E in H. discriminate. }
  destruct b; [|discriminate]. exact (number_fails s ["structure"; "particleMass"]%string _ ltac:(prop) H).
Qed.
Lemma component_fails s i f : read_component F value neg debug s i = Fails f -> f = InvalidConfiguration \/ debug = true /\ f = GeneralException.
Proof.
  rewrite component_eq. destruct (walk F s axis) as [t|]; [|left; congruence]. destruct debug.
  - cbn [andb]. destruct (negb (isArrayOrList F t)); [right; split; [reflexivity|congruence]|left].
    destruct (element F t i) as [[[| | |x0|]| | |]|]; congruence.
  - cbn [andb]. left. destruct (element F t i) as [[[| | |x0|]| | |]|]; congruence.
Qed.
Lemma parameters_fails s f : read_parameters F value neg debug s = Fails f -> f = InvalidConfiguration \/ debug = true /\ f = GeneralException.
Proof.
  unfold read_parameters. intros H. apply next_fails in H. destruct H as [H|(e & _ & H)].
  { left. apply (by_type_fails s _ _ _ ["interactionParameters"; "epsilon_core"]%string ["interactionParameters"; "epsilon_arm"]%string ["interactionParameters"; "epsilon_magnetic"]%string f) in H; try (prop || reflexivity). exact H. }
  apply next_fails in H. destruct H as [H|(g & _ & H)].
  { left. apply (by_type_fails s _ _ _ ["interactionParameters"; "sigma_core"]%string ["interactionParameters"; "sigma_arm"]%string ["interactionParameters"; "sigma_magnetic"]%string f) in H; try (prop || reflexivity). exact H. }
  apply next_fails in H. destruct H as [H|(d & _ & H)].
  { left. apply (by_type_fails s _ _ _ ["interactionParameters"; "D_core"]%string ["interactionParameters"; "D_arm"]%string ["interactionParameters"; "D_magnetic"]%string f) in H; try (prop || reflexivity). exact H. }
  apply next_fails in H. destruct H as [H|(mu & _ & H)].
  { left. exact (number_fails s ["interactionParameters"; "magneticPrefactor"]%string _ ltac:(prop) H). }
  apply next_fails in H. destruct H as [H|(o & _ & H)]; [|discriminate].
  unfold read_orientation in H. apply next_fails in H. destruct H as [H|(b & _ & H)].
  { pose proof (setting_has_proper s axis axis_proper) as E. change (dotted axis) with "interactionParameters.dipoleOrientation"%string in E. rewrite E in H. discriminate. }
  destruct b; [|discriminate]. apply next_fails in H. destruct H as [H|(x & _ & H)]; [exact (component_fails _ _ _ H)|].
  apply next_fails in H. destruct H as [H|(y & _ & H)]; [exact (component_fails _ _ _ H)|].
  apply next_fails in H. destruct H as [H|(z & _ & H)]; [exact (component_fails _ _ _ H)|]. discriminate.
Qed.
End Proof.
