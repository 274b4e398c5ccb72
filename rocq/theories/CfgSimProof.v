From Verif Require Import StrBase CuModel CfgModel CfgSpec CfgSimModel CfgSimSpec CfgProof CfgSetProof CfgReadProof.
From Coq Require Import Lia.
Open Scope list_scope.
Open Scope Z_scope.

Lemma next_done {A B} (r : outcome A) (k : A -> outcome B) b : next r k = Done b <-> exists a, r = Done a /\ k a = Done b.
Proof.
  destruct r as [a|f]; cbn [next].
  - split; [eauto|]. intros (x & [= <-] & H). exact H.
  - split; [discriminate|]. intros (x & H & _). discriminate.
Qed.
Lemma next_fails {A B} (r : outcome A) (k : A -> outcome B) f : next r k = Fails f <-> r = Fails f \/ exists a, r = Done a /\ k a = Fails f.
Proof.
  destruct r as [a|g]; cbn [next].
  - split; [eauto|]. intros [H|(x & [= <-] & H)]; [discriminate|exact H].
  - split; [intros [= ->]; now left|]. intros [H|(x & H & _)]; [congruence|discriminate].
Qed.
Fixpoint all_valid (p : list string) : bool := match p with [] => true | n :: r => valid_name n && all_valid r end.
Lemma proper_check p : p <> [] -> all_valid p = true -> proper_path p.
Proof.
  intros N H. split; [assumption|]. clear N. induction p as [|a p IH]; cbn [all_valid] in H; [intros n []|]. apply andb_true_iff in H.
  intros n [<-|I]; [apply proper_valid; tauto|]. apply IH; tauto.
Qed.

Lemma if_not_true {A} b (x y : A) : b = true -> (if negb b then x else y) = y.
Proof. intros ->. reflexivity. Qed.
Lemma if_false {A} b (x y : A) : b = false -> (if b then x else y) = y.
Proof. intros ->. reflexivity. Qed.

Section Proof.
Context {D S_ : Type} (neg : Z -> option Z) (star : setting D -> outcome S_) (multiple : D -> S_ -> bool).
Implicit Types root s : setting D.
Lemma read_unfold ty root p : proper_path p -> read D neg ty root (dotted p) = match match walk D root p with Some x => convert D neg ty x | None => None end with Some v => Done v | None => Fails InvalidConfiguration end.
Proof. apply read_value_proper. Qed.
Lemma float_iff root p d : proper_path p -> (read_float D neg root (dotted p) = Done d <-> float_at root p d).
Proof.
  intros P. unfold read_float, float_at. rewrite read_unfold, <- walk_reaches by assumption.
  destruct (walk D root p) as [[[b|z|z|x|x]| | |]|]; cbn; split; intros H; congruence.
Qed.
Lemma bool_iff root p b : proper_path p -> (read_bool D neg root (dotted p) = Done b <-> bool_at root p b).
Proof.
  intros P. unfold read_bool, bool_at. rewrite read_unfold, <- walk_reaches by assumption.
  destruct (walk D root p) as [[[c|z|z|x|x]| | |]|]; cbn; split; intros H; congruence.
Qed.
Lemma unsigned_iff root p n : proper_path p -> (read_unsigned D neg root (dotted p) = Done n <-> unsigned_at neg root p n).
Proof.
  intros P. unfold read_unsigned, unsigned_at. rewrite read_unfold by assumption.
  assert (E : forall z, reaches root p (Scalar (VInt z)) <-> walk D root p = Some (Scalar (VInt z))) by (intros z; symmetry; apply walk_reaches).
  destruct (walk D root p) as [[[c|z|z|x|x]| | |]|]; cbn [convert next]; try (split; [discriminate|intros (z' & R & _); apply E in R; discriminate]).
  destruct (Z.ltb_spec z 0); [destruct (neg z) as [y|] eqn:N; cbn [option_map next]|]; (split; [|intros (z' & R & H'); apply E in R; injection R as <-]).
  - intros [= ->]. exists z. split; [now apply E|]. right. auto.
  - destruct H' as [[? ->]|[_ N']]; [lia|cbn in *; congruence].
  - discriminate.
  - destruct H' as [[? ->]|[_ N']]; [lia|cbn in *; congruence].
  - intros [= ->]. exists n. split; [now apply E|]. left. auto.
  - destruct H' as [[? ->]|[? _]]; [reflexivity|lia].
Qed.
Lemma has_iff root p : proper_path p -> (has D root (dotted p) = true <-> present root p).
Proof.
  intros P. unfold has, present. rewrite lookup_proper by assumption. destruct (walk D root p) as [s|] eqn:W.
  - split; [intros _; exists s; now apply walk_reaches|reflexivity].
  - split; [discriminate|]. intros [s R]. apply walk_reaches in R. congruence.
Qed.
Lemma has_not_iff root p : proper_path p -> (has D root (dotted p) = false <-> absent root p).
Proof.
  intros P. unfold has. rewrite lookup_proper by assumption. rewrite <- walk_absent. destruct (walk D root p); split; congruence.
Qed.
Lemma setting_float_iff s p d : proper_path p -> (setting_read_float D neg s (dotted p) = Done d <-> walk D s p = Some (Scalar (VFloat d))).
Proof.
  intros P. unfold setting_read_float. rewrite setting_read_proper, read_value_proper by assumption.
  destruct (walk D s p) as [[[c|z|z|x|x]| | |]|]; cbn; split; intros H; congruence.
Qed.
Lemma setting_string_iff s p d : proper_path p -> (setting_read_string D neg s (dotted p) = Done d <-> walk D s p = Some (Scalar (VString d))).
Proof.
  intros P. unfold setting_read_string. rewrite setting_read_proper, read_value_proper by assumption.
  destruct (walk D s p) as [[[c|z|z|x|x]| | |]|]; cbn; split; intros H; congruence.
Qed.
Lemma getSetting_iff root p s : proper_path p -> (getSetting D root (dotted p) = Done s <-> reaches root p s).
Proof.
  intros P. unfold getSetting, has. rewrite lookup_proper by assumption. rewrite <- walk_reaches. destruct (walk D root p); cbn; split; congruence.
Qed.
Lemma text_iff root p x : proper_path p -> (read D neg TString root (dotted p) = Done (VString x) <-> text_at root p x).
Proof.
  intros P. unfold text_at. rewrite read_unfold, <- walk_reaches by assumption.
  destruct (walk D root p) as [[[c|z|z|y|y]| | |]|]; cbn; split; intros H; congruence.
Qed.

Ltac prop := apply proper_check; [discriminate|vm_compute; reflexivity].
Lemma one_member n m (s : setting D) : length m = 1%nat -> find_member D n m = Some s -> m = [(n, s)].
Proof.
  destruct m as [|[k t] [|y m]]; try discriminate. intros _. cbn [find_member]. destruct (String.eqb_spec k n) as [->|]; [intros [= ->]; reflexivity|discriminate].
Qed.
Lemma walk_one s n : walk D s [n] = member D s n.
Proof. cbn [walk]. destruct (member D s n); reflexivity. Qed.
Lemma lees_iff config rate : leesEdwards D neg config = Done rate <-> config = Group [("shearRate"%string, Scalar (VFloat rate))].
Proof.
  unfold leesEdwards. destruct (Nat.eqb_spec (getChildCount D config) 1) as [E|E]; cbn [negb].
  - rewrite (setting_float_iff config ["shearRate"%string] rate) by prop. rewrite walk_one. split.
    + destruct config as [|m| |]; cbn [member]; try discriminate. intros F. f_equal. now apply one_member.
    + intros ->. reflexivity.
  - split; [discriminate|]. intros ->. exfalso. apply E. reflexivity.
Qed.
Lemma boundary_iff root rate :
  next (getSetting D root "boundaryConditions") (boundary D neg) = Done rate <-> boundary_given root rate.
Proof.
  rewrite next_done.
  assert (G : forall s, getSetting D root "boundaryConditions" = Done s <-> reaches root ["boundaryConditions"%string] s) by (intros s; apply (getSetting_iff root ["boundaryConditions"%string]); prop).
  assert (P1 : proper_path ["shearRate"%string]) by prop. assert (P2 : proper_path ["type"%string]) by prop. assert (P3 : proper_path ["LeesEdwards"%string]) by prop.
  assert (DEP : forall r, match set D false (Group []) "LeesEdwards.shearRate" (VFloat r) with (_, Some f) => Fails f | (newConfig, None) => next (getSetting D newConfig "LeesEdwards") (leesEdwards D neg) end = Done r).
  { intros r. reflexivity. }
  split.
  - intros (s & R & B). apply G in R. unfold boundary in B.
    destruct (Nat.eqb_spec (getChildCount D s) 0) as [|N0]; [discriminate|]. destruct (Nat.eqb_spec (getChildCount D s) 2) as [N2|N2].
    + apply next_done in B. destruct B as (ty & T & B). apply (setting_string_iff s ["type"%string]) in T; [|assumption]. rewrite walk_one in T.
      destruct (String.eqb_spec ty "Lees-Edwards") as [->|]; [|discriminate]. cbn [negb] in B.
      apply next_done in B. destruct B as (b & _ & B). destruct b; [|discriminate]. cbn [negb] in B.
      apply next_done in B. destruct B as (r & F & B). rewrite DEP in B. injection B as ->.
      apply (setting_float_iff s ["shearRate"%string]) in F; [|assumption]. rewrite walk_one in F.
      destruct s as [|m| |]; cbn [member] in *; try discriminate. destruct m as [|[k1 t1] [|[k2 t2] [|y m]]]; try discriminate.
      cbn [find_member] in *. eapply boundary_deprecated; [exact R|].
      destruct (String.eqb_spec k1 "type") as [->|K1].
      * injection T as ->. cbn [String.eqb Ascii.eqb Bool.eqb] in F. destruct (String.eqb_spec k2 "shearRate") as [->|]; [injection F as ->; now left|discriminate].
      * destruct (String.eqb_spec k2 "type") as [->|]; [|discriminate]. injection T as ->.
        destruct (String.eqb_spec k1 "shearRate") as [->|]; [injection F as ->; now right|discriminate].
    + destruct (Nat.eqb_spec (getChildCount D s) 1) as [N1|]; [|discriminate]. cbn [negb] in B.
      apply next_done in B. destruct B as (b & _ & B). destruct b; [|discriminate].
      apply next_done in B. destruct B as (g & F & B). apply lees_iff in B. subst g.
      unfold setting_getSetting in F. change "LeesEdwards"%string with (dotted ["LeesEdwards"%string]) in F. rewrite setting_has_proper, lookup_proper, walk_one in F by assumption.
      destruct s as [|m| |]; cbn [member] in *; try discriminate. destruct (find_member D "LeesEdwards" m) as [u|] eqn:E; [|discriminate]. injection F as ->.
      apply boundary_now. rewrite <- (one_member _ _ _ N1 E). exact R.
  - intros [R|a b R [E|E]].
    + eexists. split; [apply G; exact R|]. reflexivity.
    + injection E as -> ->. eexists. split; [apply G; exact R|]. reflexivity.
    + injection E as -> ->. eexists. split; [apply G; exact R|]. reflexivity.
Qed.
Lemma velocities_iff root v : read_velocities D neg root = Done v <-> velocities_given root v.
Proof.
  unfold read_velocities, velocities_given. rewrite next_done.
  assert (F1 := float_iff root ["initialization"; "particleVelocityDistribution"; "mean"]%string).
  assert (F2 := float_iff root ["initialization"; "particleVelocityDistribution"; "standardDeviation"]%string).
  assert (F3 := float_iff root ["initialization"; "kT"]%string).
  assert (H1 := has_iff root ["initialization"; "kT"]%string). assert (H2 := has_not_iff root ["initialization"; "kT"]%string).
  change (dotted ["initialization"; "particleVelocityDistribution"; "mean"]%string) with "initialization.particleVelocityDistribution.mean"%string in F1.
  change (dotted ["initialization"; "particleVelocityDistribution"; "standardDeviation"]%string) with "initialization.particleVelocityDistribution.standardDeviation"%string in F2.
  change (dotted ["initialization"; "kT"]%string) with "initialization.kT"%string in F3, H1, H2.
  split.
  - intros (a & A & B). apply F1 in A; [|prop]. apply next_done in B. destruct B as (b & B & C). apply F2 in B; [|prop].
    destruct (has D root "initialization.kT").
    + apply next_done in C. destruct C as (c & C & E). apply F3 in C; [|prop]. injection E as <-. cbn. auto.
    + injection C as <-. cbn. repeat split; auto. apply H2; [prop|reflexivity].
  - destruct v as [a b c]. cbn [vmean vdeviation vkT]. intros (A & B & C). exists a. split; [apply F1; [prop|assumption]|]. rewrite next_done. exists b. split; [apply F2; [prop|assumption]|].
    destruct c as [c|].
    + rewrite (proj2 (H1 ltac:(prop))) by (eexists; exact C). rewrite next_done. exists c. split; [apply F3; [prop|assumption]|reflexivity].
    + rewrite (proj2 (H2 ltac:(prop))) by exact C. reflexivity.
Qed.
Lemma steps_iff root p name1 name2 steps (P1 : proper_path (p ++ ["analyticalStreaming"%string])) (P2 : proper_path (p ++ ["mdStepCount"%string])) :
  name1 = dotted (p ++ ["analyticalStreaming"%string]) -> name2 = dotted (p ++ ["mdStepCount"%string]) ->
  (exists a, read_bool D neg root name1 = Done a /\ md_steps D neg root a name2 = Done steps) <-> steps_given neg root p steps.
Proof.
  intros -> ->. unfold steps_given, md_steps. split.
  - intros (a & A & B). apply bool_iff in A; [|assumption]. destruct a; [injection B as <-; assumption|]. apply next_done in B. destruct B as (n & B & C).
    apply unsigned_iff in B; [|assumption]. injection C as <-. auto.
  - destruct steps as [n|].
    + intros [A B]. exists false. split; [apply bool_iff; assumption|]. rewrite next_done. exists n. split; [apply unsigned_iff; assumption|reflexivity].
    + intros A. exists true. split; [apply bool_iff; assumption|reflexivity].
Qed.
Lemma even_mod z : (z mod 2 =? 0) = Z.even z.
Proof. rewrite Zmod_even. destruct (Z.even z); reflexivity. Qed.
Lemma rods_iff root count f v : rods D neg root count = Done (f, v) <-> rods_given neg root count f /\ velocities_given root v.
Proof.
  unfold rods, rods_given. rewrite even_mod. destruct (Z.even count) eqn:E; cbn [negb].
  - rewrite next_done. split.
    + intros (a & A & H). apply next_done in H. destruct H as (b & B & H). apply next_done in H. destruct H as (c & C & H). apply next_done in H. destruct H as (d & V & H). injection H as <- <-.
      apply (float_iff root ["mpc"; "fluid"; "gaussianRods"; "meanBondLength"]%string) in A; [|prop].
      apply (float_iff root ["mpc"; "fluid"; "gaussianRods"; "springConstant"]%string) in B; [|prop].
      apply (unsigned_iff root ["mpc"; "fluid"; "gaussianRods"; "mdStepCount"]%string) in C; [|prop].
      apply velocities_iff in V. split; [|assumption]. exists a, b, c. auto.
    + intros ((a & b & c & -> & _ & A & B & C) & V). exists a. split; [apply (float_iff root ["mpc"; "fluid"; "gaussianRods"; "meanBondLength"]%string); [prop|assumption]|].
      rewrite next_done. exists b. split; [apply (float_iff root ["mpc"; "fluid"; "gaussianRods"; "springConstant"]%string); [prop|assumption]|].
      rewrite next_done. exists c. split; [apply (unsigned_iff root ["mpc"; "fluid"; "gaussianRods"; "mdStepCount"]%string); [prop|assumption]|].
      rewrite next_done. exists v. split; [now apply velocities_iff|reflexivity].
  - split; [discriminate|]. intros ((a & b & c & _ & X & _) & _). discriminate.
Qed.
Lemma chains_iff root count f v : chains D neg root count = Done (f, v) <-> chains_given neg root count f /\ velocities_given root v.
Proof.
  unfold chains, chains_given. rewrite next_done. split.
  - intros (a & A & H). apply next_done in H. destruct H as (b & B & H). apply next_done in H. destruct H as (c & C & H).
    apply (unsigned_iff root ["mpc"; "fluid"; "gaussianChains"; "particlesPerChain"]%string) in A; [|prop].
    apply (float_iff root ["mpc"; "fluid"; "gaussianChains"; "springConstant"]%string) in B; [|prop].
    apply (unsigned_iff root ["mpc"; "fluid"; "gaussianChains"; "mdStepCount"]%string) in C; [|prop].
    assert (N : a <> 0) by (intros E; apply Z.eqb_eq in E; rewrite E in H; discriminate H). rewrite if_false in H by (now apply Z.eqb_neq).
    assert (M : count mod a = 0) by (destruct (count mod a =? 0) eqn:E; [now apply Z.eqb_eq|discriminate H]). rewrite if_not_true in H by (now apply Z.eqb_eq).
    apply next_done in H. destruct H as (d & V & H). injection H as <- <-. apply velocities_iff in V. split; [|assumption]. exists a, b, c.
    apply Z.mod_divide in M; [|assumption]. exact (conj eq_refl (conj N (conj M (conj A (conj B C))))).
  - intros ((a & b & c & -> & N & M & A & B & C) & V). exists a. split; [apply (unsigned_iff root ["mpc"; "fluid"; "gaussianChains"; "particlesPerChain"]%string); [prop|assumption]|].
    rewrite next_done. exists b. split; [apply (float_iff root ["mpc"; "fluid"; "gaussianChains"; "springConstant"]%string); [prop|assumption]|].
    rewrite next_done. exists c. split; [apply (unsigned_iff root ["mpc"; "fluid"; "gaussianChains"; "mdStepCount"]%string); [prop|assumption]|].
    apply Z.mod_divide in M; [|assumption]. rewrite if_false by (now apply Z.eqb_neq). rewrite if_not_true by (now apply Z.eqb_eq).
    rewrite next_done. exists v. split; [now apply velocities_iff|reflexivity].
Qed.
Lemma trimers_iff root count f v : trimers D neg root count = Done (f, v) <-> trimers_given neg root count f /\ velocities_given root v.
Proof.
  unfold trimers, trimers_given. destruct (Z.eqb_spec (count mod 3) 0) as [E|E]; cbn [negb].
  - rewrite next_done.
    assert (ST := fun steps => steps_iff root ["mpc"; "fluid"; "harmonicTrimers"]%string "mpc.fluid.harmonicTrimers.analyticalStreaming" "mpc.fluid.harmonicTrimers.mdStepCount" steps ltac:(prop) ltac:(prop) eq_refl eq_refl).
    split.
    + intros (a & A & H). apply next_done in H. destruct H as (b & B & H). apply next_done in H. destruct H as (c & C & H). apply next_done in H. destruct H as (d & Dd & H).
      apply next_done in H. destruct H as (w & V & H). injection H as <- <-.
      apply (float_iff root ["mpc"; "fluid"; "harmonicTrimers"; "springConstant1"]%string) in A; [|prop].
      apply (float_iff root ["mpc"; "fluid"; "harmonicTrimers"; "springConstant2"]%string) in B; [|prop].
      apply velocities_iff in V. split; [|assumption]. exists a, b, d. repeat split; auto; [now apply Z.mod_divide|]. apply ST. eauto.
    + intros ((a & b & d & -> & _ & A & B & X) & V). exists a. split; [apply (float_iff root ["mpc"; "fluid"; "harmonicTrimers"; "springConstant1"]%string); [prop|assumption]|].
      rewrite next_done. exists b. split; [apply (float_iff root ["mpc"; "fluid"; "harmonicTrimers"; "springConstant2"]%string); [prop|assumption]|].
      apply ST in X. destruct X as (c & C & X). rewrite next_done. exists c. split; [exact C|]. rewrite next_done. exists d. split; [exact X|].
      rewrite next_done. exists v. split; [now apply velocities_iff|reflexivity].
  - split; [discriminate|]. intros ((a & b & c & _ & X & _) & _). apply Z.mod_divide in X; [contradiction|discriminate].
Qed.
Lemma relative_iff root count u : relative_position D neg root count = Done u <->
  (count = 0 \/ text_at root ["initialization"; "dumbbell"; "relativePosition"]%string "relaxed" \/ text_at root ["initialization"; "dumbbell"; "relativePosition"]%string "perfect").
Proof.
  destruct u. unfold relative_position. destruct (Z.eqb_spec count 0) as [->|N]; [split; [now left|reflexivity]|]. rewrite next_done.
  assert (T := fun x => text_iff root ["initialization"; "dumbbell"; "relativePosition"]%string x ltac:(prop)).
  change (dotted ["initialization"; "dumbbell"; "relativePosition"]%string) with "initialization.dumbbell.relativePosition"%string in T. split.
  - intros (v & R & H). destruct v as [| | | |x]; try discriminate. right.
    destruct (String.eqb_spec x "relaxed") as [->|]; [left; now apply T|]. destruct (String.eqb_spec x "perfect") as [->|]; [right; now apply T|discriminate].
  - intros [->|[H|H]]; [contradiction| |]; apply T in H; eexists; (split; [exact H|reflexivity]).
Qed.
Lemma assert_iff root x : assertValue D neg (fun a b => match a, b with VString x, VString y => String.eqb x y | _, _ => false end) TString root "bulkThermostat.type" (VString x) = None
  <-> text_at root ["bulkThermostat"; "type"]%string x.
Proof.
  unfold assertValue, text_at. rewrite <- walk_reaches. change "bulkThermostat.type"%string with (dotted ["bulkThermostat"; "type"]%string). rewrite lookup_proper by prop.
  destruct (walk D root ["bulkThermostat"; "type"]%string) as [[[c|z|z|y|y]| | |]|]; cbn [convert]; try (split; intros H; discriminate).
  destruct (String.eqb_spec y x) as [->|N]; cbn [negb]; split; intros H; congruence.
Qed.
Lemma dumbbells_iff root count f v : dumbbells D neg root count = Done (f, v) <-> dumbbells_given neg root count f /\ velocities_given root v.
Proof.
  unfold dumbbells, dumbbells_given. rewrite next_done. rewrite even_mod.
  assert (ST := fun steps => steps_iff root ["mpc"; "fluid"; "dumbbell"]%string "mpc.fluid.dumbbell.analyticalStreaming" "mpc.fluid.dumbbell.mdStepCount" steps ltac:(prop) ltac:(prop) eq_refl eq_refl).
  split.
  - intros (kT & K & H). apply next_done in H. destruct H as (rate & R & H). assert (E : Z.even count = true) by (destruct (Z.even count); [reflexivity|discriminate H]). rewrite if_not_true in H by exact E.
    apply next_done in H. destruct H as (an & A & H). apply next_done in H. destruct H as (len & L & H). apply next_done in H. destruct H as (tau & T & H).
    apply next_done in H. destruct H as (steps & M & H). apply next_done in H. destruct H as (vel & V & H). apply next_done in H. destruct H as (u & Rp & H).
    assert (HB : assertValue D neg (fun a b => match a, b with VString x, VString y => String.eqb x y | _, _ => false end) TString root "bulkThermostat.type" (VString "MBS") = None /\ (FDumbbells len tau steps kT rate, vel) = (f, v))
      by (revert H; generalize (assertValue D neg (fun a b => match a, b with VString x, VString y => String.eqb x y | _, _ => false end) TString root "bulkThermostat.type" (VString "MBS")); intros [x|] H; [discriminate H|split; [reflexivity|congruence]]).
    destruct HB as [B HB]. injection HB as <- <-. apply assert_iff in B.
    apply (float_iff root ["bulkThermostat"; "targetkT"]%string) in K; [|prop].
    apply (float_iff root ["boundaryConditions"; "LeesEdwards"; "shearRate"]%string) in R; [|prop].
    apply (float_iff root ["mpc"; "fluid"; "dumbbell"; "rootMeanSquareLength"]%string) in L; [|prop].
    apply (float_iff root ["mpc"; "fluid"; "dumbbell"; "zeroShearRelaxationTime"]%string) in T; [|prop].
    apply velocities_iff in V. apply relative_iff in Rp. split; [|assumption]. exists len, tau, steps, kT, rate.
    exact (conj eq_refl (conj E (conj K (conj B (conj R (conj L (conj T (conj (proj1 (ST steps) (ex_intro _ an (conj A M))) Rp)))))))).
  - intros ((len & tau & steps & kT & rate & -> & E & K & B & R & L & T & X & Rp) & V).
    exists kT. split; [apply (float_iff root ["bulkThermostat"; "targetkT"]%string); [prop|assumption]|].
    rewrite next_done. exists rate. split; [apply (float_iff root ["boundaryConditions"; "LeesEdwards"; "shearRate"]%string); [prop|assumption]|].
    rewrite if_not_true by exact E. apply ST in X. destruct X as (an & A & X). rewrite next_done. exists an. split; [exact A|].
    rewrite next_done. exists len. split; [apply (float_iff root ["mpc"; "fluid"; "dumbbell"; "rootMeanSquareLength"]%string); [prop|assumption]|].
    rewrite next_done. exists tau. split; [apply (float_iff root ["mpc"; "fluid"; "dumbbell"; "zeroShearRelaxationTime"]%string); [prop|assumption]|].
    rewrite next_done. exists steps. split; [exact X|]. rewrite next_done. exists v. split; [now apply velocities_iff|].
    rewrite next_done. exists tt. split; [now apply relative_iff|]. apply assert_iff in B. rewrite B. reflexivity.
Qed.
Lemma fluid_iff root count f : read_float D neg root "mpc.timestep" <> Fails InvalidConfiguration -> (exists dt, float_at root ["mpc"; "timestep"]%string dt) ->
  (make_fluid D neg root count = Done f <->
   match f with Some (g, v) => present root ["mpc"; "fluid"]%string /\ fluid_given neg root count g /\ velocities_given root v | None => absent root ["mpc"; "fluid"]%string end).
Proof.
  clear star multiple. intros _ [dt T]. unfold make_fluid. rewrite (proj2 (float_iff root ["mpc"; "timestep"]%string dt ltac:(prop)) T : read_float D neg root "mpc.timestep" = _). cbn [next].
  pose proof (has_iff root ["mpc"; "fluid"]%string ltac:(prop)) as H. pose proof (has_not_iff root ["mpc"; "fluid"]%string ltac:(prop)) as N. change (dotted ["mpc"; "fluid"]%string) with "mpc.fluid"%string in H, N.
  destruct (has D root "mpc.fluid") eqn:HF; cbn [negb].
  2:{ split; [intros [= <-]; now apply N|]. destruct f as [[g v]|]; [|reflexivity]. intros [P _]. apply H in P. discriminate. }
  assert (HP : present root ["mpc"; "fluid"]%string) by now apply H.
  assert (NOT : f = None -> match f with Some (g, v) => present root ["mpc"; "fluid"]%string /\ fluid_given neg root count g /\ velocities_given root v | None => absent root ["mpc"; "fluid"]%string end -> False).
  { intros -> A. destruct HP as [s R]. eapply A; eassumption. }
  clear H N HF dt T.
  pose proof (fun k => has_iff root ["mpc"; "fluid"; k]%string) as H. pose proof (fun k => has_not_iff root ["mpc"; "fluid"; k]%string) as N.
  pose proof (H "simple"%string ltac:(prop)) as Hs. pose proof (H "dumbbell"%string ltac:(prop)) as Hd. pose proof (H "gaussianChains"%string ltac:(prop)) as Hc.
  pose proof (H "gaussianRods"%string ltac:(prop)) as Hr. pose proof (H "harmonicTrimers"%string ltac:(prop)) as Ht.
  pose proof (N "simple"%string ltac:(prop)) as Ns. pose proof (N "dumbbell"%string ltac:(prop)) as Nd. pose proof (N "gaussianChains"%string ltac:(prop)) as Nc.
  pose proof (N "gaussianRods"%string ltac:(prop)) as Nr. pose proof (N "harmonicTrimers"%string ltac:(prop)) as Nt.
  clear H N.
  change (dotted ["mpc"; "fluid"; "simple"]%string) with "mpc.fluid.simple"%string in *. change (dotted ["mpc"; "fluid"; "dumbbell"]%string) with "mpc.fluid.dumbbell"%string in *.
  change (dotted ["mpc"; "fluid"; "gaussianChains"]%string) with "mpc.fluid.gaussianChains"%string in *. change (dotted ["mpc"; "fluid"; "gaussianRods"]%string) with "mpc.fluid.gaussianRods"%string in *.
  change (dotted ["mpc"; "fluid"; "harmonicTrimers"]%string) with "mpc.fluid.harmonicTrimers"%string in *.
  (** The first kind that is present. *)
  assert (U : forall before n given after, kinds neg root = before ++ (n, given) :: after -> (forall k g, In (k, g) before -> absent root ["mpc"; "fluid"; k]%string) -> present root ["mpc"; "fluid"; n]%string ->
    forall g, fluid_given neg root count g <-> given count g).
  { intros before n given after E A P g. split.
    - intros (b' & n' & g' & a' & E' & A' & P' & G). rewrite E in E'.
      assert (L : length before = length b').
      { destruct (Nat.lt_trichotomy (length before) (length b')) as [L|[L|L]]; [|assumption|]; exfalso.
        - assert (I : In (n, given) b').
          { assert (X : nth_error (before ++ (n, given) :: after) (length before) = Some (n, given)) by (rewrite nth_error_app2, Nat.sub_diag by lia; reflexivity).
            rewrite E', nth_error_app1 in X by assumption. eapply nth_error_In, X. }
          apply A' in I. destruct P as [s R]. eapply I, R.
        - assert (I : In (n', g') before).
          { assert (X : nth_error (b' ++ (n', g') :: a') (length b') = Some (n', g')) by (rewrite nth_error_app2, Nat.sub_diag by lia; reflexivity).
            rewrite <- E', nth_error_app1 in X by assumption. eapply nth_error_In, X. }
          apply A in I. destruct P' as [s R]. eapply I, R. }
      assert (X : nth_error (before ++ (n, given) :: after) (length before) = Some (n, given)) by (rewrite nth_error_app2, Nat.sub_diag by lia; reflexivity).
      rewrite E', L, nth_error_app2, Nat.sub_diag in X by lia. injection X as _ <-. exact G.
    - intros G. exists before, n, given, after. auto. }
  assert (FIN : forall (r : outcome (fluid D * velocities D)) (given : Z -> fluid D -> Prop),
    (forall g v, r = Done (g, v) <-> given count g /\ velocities_given root v) -> (forall g, fluid_given neg root count g <-> given count g) ->
    (next r (fun f => Done (Some f)) = Done f <-> match f with Some (g, v) => present root ["mpc"; "fluid"]%string /\ fluid_given neg root count g /\ velocities_given root v | None => absent root ["mpc"; "fluid"]%string end)).
  { intros r given Q G. rewrite next_done. split.
    - intros ([g v] & R & [= <-]). rewrite G. apply Q in R. tauto.
    - destruct f as [[g v]|]; [|intros A; exfalso; now apply NOT]. rewrite G. intros [_ X]. exists (g, v). split; [now apply Q|reflexivity]. }
  destruct (has D root "mpc.fluid.simple") eqn:E1.
  { assert (FS : next (read_velocities D neg root) (fun vel => Done (Some (FSimple, vel))) = next (next (read_velocities D neg root) (fun vel => Done (@FSimple D, vel))) (fun f => Done (Some f)))
      by (destruct (read_velocities D neg root); reflexivity).
    rewrite FS. apply (FIN _ (fun _ g => g = FSimple)).
    - intros g v. rewrite next_done. split; [intros (w & V & [= <- <-]); apply velocities_iff in V; auto|]. intros [-> V]. exists v. split; [now apply velocities_iff|reflexivity].
    - apply (U [] "simple"%string (fun _ g => g = FSimple) _ eq_refl); [intros k g []|tauto]. }
  destruct (has D root "mpc.fluid.dumbbell") eqn:E2.
  { apply (FIN _ (dumbbells_given neg root)); [apply dumbbells_iff|]. eapply (U [_] "dumbbell"%string); [reflexivity| |tauto]. intros k g [[= <- <-]|[]]. tauto. }
  destruct (has D root "mpc.fluid.gaussianChains") eqn:E3.
  { apply (FIN _ (chains_given neg root)); [apply chains_iff|]. eapply (U [_; _] "gaussianChains"%string); [reflexivity| |tauto]. intros k g [[= <- <-]|[[= <- <-]|[]]]; tauto. }
  destruct (has D root "mpc.fluid.gaussianRods") eqn:E4.
  { apply (FIN _ (rods_given neg root)); [apply rods_iff|]. eapply (U [_; _; _] "gaussianRods"%string); [reflexivity| |tauto]. intros k g [[= <- <-]|[[= <- <-]|[[= <- <-]|[]]]]; tauto. }
  destruct (has D root "mpc.fluid.harmonicTrimers") eqn:E5.
  { apply (FIN _ (trimers_given neg root)); [apply trimers_iff|]. eapply (U [_; _; _; _] "harmonicTrimers"%string); [reflexivity| |tauto]. intros k g [[= <- <-]|[[= <- <-]|[[= <- <-]|[[= <- <-]|[]]]]]; tauto. }
  split; [discriminate|]. destruct f as [[g v]|]; [|intros A; exfalso; now apply NOT].
  intros (_ & (b & n & gv & a & E & _ & P & _) & _).
  assert (I : In (n, gv) (kinds neg root)) by (rewrite E; apply in_or_app; right; now left).
  destruct I as [[= <- <-]|[[= <- <-]|[[= <- <-]|[[= <- <-]|[[= <- <-]|[]]]]]]; exfalso; destruct P as [s R]; eapply Ns + eapply Nd + eapply Nc + eapply Nr + eapply Nt; try reflexivity; eassumption.
Qed.
Lemma no_children s : getChildCount D s = 0%nat <-> children D s = [].
Proof. unfold getChildCount. rewrite <- length_children. split; [apply length_zero_iff_nil|intros ->; reflexivity]. Qed.
Lemma solute_iff root (s : option S_) : make_solute D S_ star root = Done s <->
  match s with
  | None => absent root ["solute"%string] \/ exists t, reaches root ["solute"%string] t /\ children D t = []
  | Some x => exists g, reaches root ["solute"%string] (Group [("StarPolymers"%string, g)]) /\ star g = Done x
  end.
Proof.
  unfold make_solute.
  assert (PS : proper_path ["solute"%string]) by prop. assert (P3 : proper_path ["StarPolymers"%string]) by prop.
  pose proof (has_iff root ["solute"%string] PS) as H. pose proof (has_not_iff root ["solute"%string] PS) as N.
  pose proof (fun t => getSetting_iff root ["solute"%string] t PS) as G. change (dotted ["solute"%string]) with "solute"%string in *.
  destruct (has D root "solute"); cbn [negb].
  2:{ split; [intros [= <-]; left; now apply N|]. destruct s as [x|]; [|reflexivity]. intros (g & R & _). exfalso. apply (proj1 N eq_refl) in R. exact R. }
  destruct (proj1 H eq_refl) as [t R]. rewrite (proj2 (G t) R). cbn [next].
  assert (U : forall t', reaches root ["solute"%string] t' -> t' = t) by (intros t' R'; apply G in R'; apply G in R; congruence).
  destruct (Nat.eqb_spec (getChildCount D t) 0) as [Z0|Z0].
  { split.
    - intros [= <-]. right. exists t. split; [assumption|now apply no_children].
    - destruct s as [x|]; [|reflexivity]. intros (g & R' & _). apply U in R'. subst t. discriminate. }
  destruct (Nat.eqb_spec (getChildCount D t) 1) as [Z1|Z1]; cbn [negb].
  2:{ split; [discriminate|]. destruct s as [x|].
      - intros (g & R' & _). apply U in R'. subst t. exfalso. now apply Z1.
      - intros [A|(t' & R' & C)]; [exfalso; eapply A, R|]. apply U in R'. subst t'. apply no_children in C. contradiction. }
  change "StarPolymers"%string with (dotted ["StarPolymers"%string]). rewrite setting_has_proper by assumption. rewrite walk_one. cbn [next].
  unfold setting_getSetting. rewrite setting_has_proper, lookup_proper, walk_one by assumption.
  destruct (member D t "StarPolymers") as [g|] eqn:M.
  - cbn [next]. rewrite next_done. destruct t as [|m| |]; cbn [member] in M; try discriminate. assert (E := one_member _ _ _ Z1 M). subst m. split.
    + intros (x & X & [= <-]). exists g. auto.
    + destruct s as [x|].
      * intros (g' & R' & X). apply U in R'. injection R' as ->. exists x. auto.
      * intros [A|(t' & R' & C)]; [exfalso; eapply A, R|]. apply U in R'. subst t'. discriminate.
  - split; [discriminate|]. destruct s as [x|].
    + intros (g & R' & _). apply U in R'. subst t. discriminate.
    + intros [A|(t' & R' & C)]; [exfalso; eapply A, R|]. apply U in R'. subst t'. apply no_children in C. contradiction.
Qed.
End Proof.
