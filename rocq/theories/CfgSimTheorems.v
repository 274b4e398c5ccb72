(** Theorems on the configurations that simulations accept (C94). *)
From Verif Require Import StrBase CuModel CfgModel CfgSpec CfgSimModel CfgSimSpec CfgProof CfgSetProof CfgReadProof CfgSimProof.
From Coq Require Import Lia.
Open Scope list_scope.
Open Scope Z_scope.

Ltac prop := apply proper_check; [discriminate|vm_compute; reflexivity].

Section Construct.
Context {D S_ : Type} (neg : Z -> option Z) (star : setting D -> outcome S_) (multiple : D -> S_ -> bool).
Implicit Types root : setting D.
Lemma thermostat_iff root kT :
  (if has D root "bulkThermostat" then next (read_float D neg root "bulkThermostat.targetkT") (fun kT => Done (Some kT)) else Done None) = Done kT <->
  match kT with Some kT => float_at root ["bulkThermostat"; "targetkT"]%string kT | None => absent root ["bulkThermostat"%string] end.
Proof.
  pose proof (has_iff root ["bulkThermostat"%string] ltac:(prop)) as H. pose proof (has_not_iff root ["bulkThermostat"%string] ltac:(prop)) as N. change (dotted ["bulkThermostat"%string]) with "bulkThermostat"%string in *.
  assert (F := fun x => float_iff neg root ["bulkThermostat"; "targetkT"]%string x ltac:(prop)). change (dotted ["bulkThermostat"; "targetkT"]%string) with "bulkThermostat.targetkT"%string in F.
  destruct (has D root "bulkThermostat").
  - rewrite next_done. split.
    + intros (x & X & [= <-]). now apply F.
    + destruct kT as [x|]; [intros X; exists x; split; [now apply F|reflexivity]|]. intros A. apply N in A. discriminate.
  - split; [intros [= <-]; now apply N|]. destruct kT as [x|]; [|reflexivity]. unfold float_at. intros R. exfalso.
    apply walk_reaches in R. assert (P : present root ["bulkThermostat"%string]).
    { change ["bulkThermostat"; "targetkT"]%string with (["bulkThermostat"%string] ++ ["targetkT"%string]) in R. rewrite walk_snoc in R.
      destruct (walk D root ["bulkThermostat"%string]) as [s|] eqn:W; [|discriminate]. exists s. now apply walk_reaches. }
    apply H in P. discriminate.
Qed.
Lemma volume_mod x y z : volume x y z = (x * y * z) mod 2 ^ 32.
Proof. unfold volume, u32. rewrite Z.mul_mod_idemp_l by discriminate. reflexivity. Qed.
Lemma count_iff d v n : particle_count d v = Done n <-> n = d * v /\ n < 2 ^ 31.
Proof. unfold particle_count. destruct (Z.ltb_spec (2 ^ 31 - 1) (d * v)); split; try discriminate; try (intros [= <-]; split; [reflexivity|lia]); intros [-> ?]; [lia|reflexivity]. Qed.
Lemma check_iff (f : option (fluid D * velocities D)) density count u :
  match f with
  | Some _ => if density =? 0 then Fails InvalidConfiguration else if count =? 0 then Fails InvalidConfiguration else Done tt
  | None => if negb (density =? 0) then Fails InvalidConfiguration else Done tt
  end = Done u <-> match f with Some _ => density <> 0 /\ count <> 0 | None => density = 0 end.
Proof.
  destruct u. destruct f; destruct (Z.eqb_spec density 0); cbn [negb]; try (destruct (Z.eqb_spec count 0)); split; try discriminate; try reflexivity; try tauto; try (intros [? ?]; contradiction); try contradiction; auto.
Qed.

(** C94: a simulation is constructed if and only if the configuration has the settings described in CfgSimSpec.v, and with the values given there. *)
Theorem simulation_constructed : forall root sim, construct D S_ neg star multiple root = Done sim <-> simulation_given neg star multiple root sim.
Proof.
  intros root sim. unfold construct.
  pose proof (fun n => unsigned_iff neg root ["mpc"; "simulationBoxSize"; "x"]%string n ltac:(prop)) as UX. pose proof (fun n => unsigned_iff neg root ["mpc"; "simulationBoxSize"; "y"]%string n ltac:(prop)) as UY.
  pose proof (fun n => unsigned_iff neg root ["mpc"; "simulationBoxSize"; "z"]%string n ltac:(prop)) as UZ. pose proof (fun n => unsigned_iff neg root ["mpc"; "sweepSize"]%string n ltac:(prop)) as US.
  pose proof (fun n => unsigned_iff neg root ["initialization"; "particleDensity"]%string n ltac:(prop)) as UD.
  pose proof (fun n => float_iff neg root ["mpc"; "timestep"]%string n ltac:(prop)) as FT. pose proof (fun n => float_iff neg root ["mpc"; "srdCollisionAngle"]%string n ltac:(prop)) as FA.
  pose proof (fun n => float_iff neg root ["mpc"; "gridShiftScale"]%string n ltac:(prop)) as FG.
  pose proof (has_iff root ["boundaryConditions"%string] ltac:(prop)) as HB.
  change (dotted ["mpc"; "simulationBoxSize"; "x"]%string) with "mpc.simulationBoxSize.x"%string in UX. change (dotted ["mpc"; "simulationBoxSize"; "y"]%string) with "mpc.simulationBoxSize.y"%string in UY.
  change (dotted ["mpc"; "simulationBoxSize"; "z"]%string) with "mpc.simulationBoxSize.z"%string in UZ. change (dotted ["mpc"; "sweepSize"]%string) with "mpc.sweepSize"%string in US.
  change (dotted ["initialization"; "particleDensity"]%string) with "initialization.particleDensity"%string in UD. change (dotted ["mpc"; "timestep"]%string) with "mpc.timestep"%string in FT.
  change (dotted ["mpc"; "srdCollisionAngle"]%string) with "mpc.srdCollisionAngle"%string in FA. change (dotted ["mpc"; "gridShiftScale"]%string) with "mpc.gridShiftScale"%string in FG.
  change (dotted ["boundaryConditions"%string]) with "boundaryConditions"%string in HB.
  split.
  - intros H. apply next_done in H. destruct H as (x & X & H). apply next_done in H. destruct H as (y & Y & H). apply next_done in H. destruct H as (z & Z & H).
    apply next_done in H. destruct H as (dt & T & H). apply next_done in H. destruct H as (angle & A & H). apply next_done in H. destruct H as (shift & G & H).
    apply next_done in H. destruct H as (kT & K & H). apply next_done in H. destruct H as (sweep & W & H). apply next_done in H. destruct H as (density & Dn & H).
    destruct (has D root "boundaryConditions"); [|discriminate H]. rewrite if_not_true in H by reflexivity.
    apply next_done in H. destruct H as (rate & B & H). apply next_done in H. destruct H as (count & C & H). apply next_done in H. destruct H as (f & F & H).
    apply next_done in H. destruct H as (u & Q & H). apply next_done in H. destruct H as (s & So & H).
    apply UX in X. apply UY in Y. apply UZ in Z. apply FT in T. apply FA in A. apply FG in G. apply thermostat_iff in K. apply US in W. apply UD in Dn. apply boundary_iff in B. apply count_iff in C. apply check_iff in Q. apply solute_iff in So.
    apply fluid_iff in F; [|rewrite (proj2 (FT dt) T); discriminate|exists dt; exact T]. rewrite volume_mod in C.
    assert (E : sim = Simulation x y z dt angle shift kT sweep rate count f s /\ match s with Some t => multiple dt t = true | None => True end).
    { destruct s as [t|]; [destruct (multiple dt t); [|discriminate H]|]; injection H as <-; auto. }
    destruct E as [-> M]. unfold simulation_given. cbn [boxX boxY boxZ timestep collisionAngle gridShiftScale targetkT sweepSize shearRate particleCount theFluid theSolute].
    refine (conj X (conj Y (conj Z (conj T (conj A (conj G (conj W (conj K (conj B (conj _ _)))))))))).
    + exists density. split; [exact Dn|]. split; [apply C|]. split; [apply C|]. destruct f as [[f v]|]; tauto.
    + unfold solute_given. destruct s as [t|]; [|exact So]. destruct So as (g & R & E). exists g. auto.
  - destruct sim as [x y z dt angle shift kT sweep rate count f s]. unfold simulation_given. cbn [boxX boxY boxZ timestep collisionAngle gridShiftScale targetkT sweepSize shearRate particleCount theFluid theSolute].
    intros (X & Y & Z & T & A & G & W & K & B & (density & Dn & C1 & C2 & F) & So).
    rewrite (proj2 (UX x) X). cbn [next]. rewrite (proj2 (UY y) Y). cbn [next]. rewrite (proj2 (UZ z) Z). cbn [next]. rewrite (proj2 (FT dt) T). cbn [next].
    rewrite (proj2 (FA angle) A). cbn [next]. rewrite (proj2 (FG shift) G). cbn [next]. rewrite (proj2 (thermostat_iff root kT) K). cbn [next].
    rewrite (proj2 (US sweep) W). cbn [next]. rewrite (proj2 (UD density) Dn). cbn [next].
    rewrite if_not_true. 2:{ apply HB. destruct B as [R|a b R _]; eexists; exact R. }
    rewrite (proj2 (boundary_iff neg root rate) B). cbn [next].
    rewrite (proj2 (count_iff density (volume x y z) count)) by (rewrite volume_mod; auto). cbn [next].
    rewrite (proj2 (fluid_iff neg root count f ltac:(rewrite (proj2 (FT dt) T); discriminate) (ex_intro _ dt T))).
    2:{ destruct f as [[g v]|]; [|apply F]. destruct F as (F & V & _). split; [|auto]. destruct F as (b & n & gv & a & _ & _ & [s' R] & _).
        apply walk_reaches in R. change ["mpc"; "fluid"; n]%string with (["mpc"; "fluid"]%string ++ [n]) in R. rewrite walk_snoc in R.
        destruct (walk D root ["mpc"; "fluid"]%string) as [w|] eqn:E; [|discriminate]. exists w. now apply walk_reaches. }
    cbn [next]. rewrite (proj2 (check_iff f density count tt)) by (destruct f as [[g v]|]; tauto). cbn [next].
    rewrite (proj2 (solute_iff star root s)).
    2:{ unfold solute_given in So. destruct s as [t|]; [|exact So]. destruct So as (g & R & E & _). eauto. }
    cbn [next]. destruct s as [t|]; [|reflexivity]. destruct So as (g & _ & _ & M). rewrite M. reflexivity.
Qed.
End Construct.
Print Assumptions simulation_constructed.

(** Configurations for the examples; floating-point numbers are texts here. *)
Definition no_negatives (z : Z) : option Z := None.
Definition star_text (g : setting string) : outcome string := match g with Group [] => Fails InvalidArgument | _ => Done "star"%string end.
Definition always (dt s : string) : bool := true.
Definition number (z : Z) : setting string := Scalar (VInt z).
Definition real (x : string) : setting string := Scalar (VFloat x).
Definition modern : setting string := Group [("LeesEdwards", Group [("shearRate", real "0.5")])]%string.
Definition deprecated : setting string := Group [("type", Scalar (VString "Lees-Edwards")); ("shearRate", real "0.5")]%string.
Definition config (x y z density : Z) (conditions : setting string) (fluids more : list (string * setting string)) : setting string :=
  Group (("mpc", Group [("simulationBoxSize", Group [("x", number x); ("y", number y); ("z", number z)]); ("timestep", real "0.1"); ("srdCollisionAngle", real "2.27");
                       ("gridShiftScale", real "1.0"); ("sweepSize", number 1); ("fluid", Group fluids)])
        :: ("initialization", Group [("particleDensity", number density); ("particleVelocityDistribution", Group [("mean", real "0.0"); ("standardDeviation", real "1.0")]);
                                     ("dumbbell", Group [("relativePosition", Scalar (VString "relaxed"))])])
        :: ("boundaryConditions", conditions) :: more)%string.
Definition simple_fluid : list (string * setting string) := [("simple", Group [])]%string.
Definition dumbbell_fluid : list (string * setting string) :=
  [("dumbbell", Group [("analyticalStreaming", Scalar (VBool true)); ("rootMeanSquareLength", real "1.0"); ("zeroShearRelaxationTime", real "2.0")])]%string.
Definition trimer_fluid : list (string * setting string) :=
  [("harmonicTrimers", Group [("analyticalStreaming", Scalar (VBool true)); ("springConstant1", real "1.0"); ("springConstant2", real "2.0")])]%string.
Definition thermostat (type : string) : list (string * setting string) := [("bulkThermostat", Group [("type", Scalar (VString type)); ("targetkT", real "1.5")])]%string.
Definition sample_velocities : velocities string := Velocities "0.0"%string "1.0"%string None.
Definition constructed := construct string string no_negatives star_text always.

Example simulation_constructed_ex1 : constructed (config 10 11 12 3 modern simple_fluid []) =
  Done (Simulation 10 11 12 "0.1" "2.27" "1.0" None 1 "0.5" 3960 (Some (FSimple, sample_velocities)) None)%string.
Proof. vm_compute. reflexivity. Qed.
Example simulation_constructed_ex2 : constructed (config 10 11 12 3 modern dumbbell_fluid (thermostat "MBS" ++ [("solute"%string, Group [("StarPolymers"%string, Group [("x"%string, number 1)])])])) =
  Done (Simulation 10 11 12 "0.1" "2.27" "1.0" (Some "1.5") 1 "0.5" 3960 (Some (FDumbbells "1.0" "2.0" None "1.5" "0.5", sample_velocities)) (Some "star"))%string.
Proof. vm_compute. reflexivity. Qed.
Example simulation_constructed_ex3 : constructed (config 10 11 12 3 deprecated simple_fluid []) = constructed (config 10 11 12 3 modern simple_fluid []).
Proof. vm_compute. reflexivity. Qed.
Example simulation_constructed_ex4 : constructed (config 5 5 5 3 modern (tl dumbbell_fluid) []) = Fails InvalidConfiguration
  /\ constructed (config 5 5 5 3 modern dumbbell_fluid (thermostat "MBS")) = Fails InvalidConfiguration /\ constructed (config 5 5 5 0 modern simple_fluid []) = Fails InvalidConfiguration.
Proof. vm_compute. auto. Qed.

Section Failures.
Context {D S_ : Type} (neg : Z -> option Z) (star : setting D -> outcome S_) (multiple : D -> S_ -> bool).
Implicit Types root : setting D.
Definition may {A} (P : failure -> Prop) (r : outcome A) : Prop := forall f, r = Fails f -> P f.
Lemma may_next {A B} P (r : outcome A) (k : A -> outcome B) : may P r -> (forall a, r = Done a -> may P (k a)) -> may P (next r k).
Proof. intros H K f E. apply next_fails in E. destruct E as [E|(a & R & E)]; [now apply H|eapply K; eassumption]. Qed.
Lemma may_done {A} P (a : A) : may P (Done a).
Proof. intros f E. discriminate. Qed.
Lemma may_fails {A} (P : failure -> Prop) f : P f -> may (A := A) P (Fails f).
Proof. intros H g [= <-]. exact H. Qed.
Lemma may_if {A} P (b : bool) (x y : outcome A) : may P x -> may P y -> may P (if b then x else y).
Proof. destruct b; auto. Qed.
Let inv := eq InvalidConfiguration.
Lemma may_read ty root name : may inv (read D neg ty root name).
Proof. unfold read, read_value. destruct (match lookup D root name with Some x => convert D neg ty x | None => None end); [apply may_done|now apply may_fails]. Qed.
Lemma may_float root name : may inv (read_float D neg root name).
Proof. apply may_next; [apply may_read|]. intros [ | | | |] _; (apply may_done || now apply may_fails). Qed.
Lemma may_unsigned root name : may inv (read_unsigned D neg root name).
Proof. apply may_next; [apply may_read|]. intros [ | | | |] _; (apply may_done || now apply may_fails). Qed.
Lemma may_bool root name : may inv (read_bool D neg root name).
Proof. apply may_next; [apply may_read|]. intros [ | | | |] _; (apply may_done || now apply may_fails). Qed.
Lemma may_setting_read ty s p : proper_path p -> may inv (setting_read D neg ty s (dotted p)).
Proof. intros P. rewrite setting_read_proper by assumption. apply may_read. Qed.
Lemma may_setting_float s p : proper_path p -> may inv (setting_read_float D neg s (dotted p)).
Proof. intros P. apply may_next; [now apply may_setting_read|]. intros [ | | | |] _; (apply may_done || now apply may_fails). Qed.
Lemma may_setting_string s p : proper_path p -> may inv (setting_read_string D neg s (dotted p)).
Proof. intros P. apply may_next; [now apply may_setting_read|]. intros [ | | | |] _; (apply may_done || now apply may_fails). Qed.
Lemma may_getSetting root name : may inv (getSetting D root name).
Proof. unfold getSetting, has. destruct (lookup D root name); [apply may_done|now apply may_fails]. Qed.
Lemma may_setting_has s p : proper_path p -> may inv (setting_has D s (dotted p)).
Proof. intros P. rewrite setting_has_proper by assumption. apply may_done. Qed.
Lemma may_setting_getSetting s p : proper_path p -> may inv (setting_getSetting D s (dotted p)).
Proof. intros P. unfold setting_getSetting. rewrite setting_has_proper, lookup_proper by assumption. destruct (walk D s p); [apply may_done|now apply may_fails]. Qed.
Ltac inv_step :=
  first [apply may_done | apply may_fails; reflexivity | apply may_if | apply may_float | apply may_unsigned | apply may_bool | apply may_read | apply may_getSetting
        | apply may_next; [|intros ? _]].
Lemma may_lees s : may inv (leesEdwards D neg s).
Proof. unfold leesEdwards. apply may_if; [now apply may_fails|]. apply (may_setting_float s ["shearRate"%string]). prop. Qed.
Lemma may_boundary s : may inv (boundary D neg s).
Proof.
  unfold boundary. apply may_if; [now apply may_fails|]. apply may_if.
  - apply may_next; [apply (may_setting_string s ["type"%string]); prop|]. intros ty _. apply may_if; [now apply may_fails|].
    apply may_next; [apply (may_setting_has s ["shearRate"%string]); prop|]. intros b _. apply may_if; [now apply may_fails|].
    apply may_next; [apply (may_setting_float s ["shearRate"%string]); prop|]. intros r _.
    destruct (set D false (Group []) "LeesEdwards.shearRate" (VFloat r)) as [c [f|]] eqn:E; [vm_compute in E; discriminate|].
    apply may_next; [apply may_getSetting|]. intros a _. apply may_lees.
  - apply may_if; [now apply may_fails|]. apply may_next; [apply (may_setting_has s ["LeesEdwards"%string]); prop|]. intros b _. apply may_if; [|now apply may_fails].
    apply may_next; [apply (may_setting_getSetting s ["LeesEdwards"%string]); prop|]. intros a _. apply may_lees.
Qed.
Lemma may_velocities root : may inv (read_velocities D neg root).
Proof. unfold read_velocities. repeat inv_step. Qed.
Lemma may_fluid root count : may inv (make_fluid D neg root count).
Proof.
  unfold make_fluid, dumbbells, chains, rods, trimers, md_steps, relative_position. repeat (inv_step || apply may_velocities).
  - destruct a7; repeat inv_step.
  - unfold assertValue. destruct (match lookup D root "bulkThermostat.type" with Some x => convert D neg TString x | None => None end) as [v|]; [|repeat inv_step].
    match goal with |- context [negb ?b] => destruct b end; repeat inv_step.
Qed.

(** C94: which exceptions there are. *)
Theorem simulation_failures : forall root f, construct D S_ neg star multiple root = Fails f ->
  f = InvalidConfiguration
  \/ f = GeneralException /\ (exists x y z density, unsigned_at neg root ["mpc"; "simulationBoxSize"; "x"]%string x /\ unsigned_at neg root ["mpc"; "simulationBoxSize"; "y"]%string y
       /\ unsigned_at neg root ["mpc"; "simulationBoxSize"; "z"]%string z /\ unsigned_at neg root ["initialization"; "particleDensity"]%string density /\ 2 ^ 31 <= density * ((x * y * z) mod 2 ^ 32))
  \/ f = Unimplemented /\ (exists s, reaches root ["solute"%string] s /\ children D s <> [] /\ forall g, s <> Group [("StarPolymers"%string, g)])
  \/ exists g, reaches root ["solute"%string] (Group [("StarPolymers"%string, g)]) /\ star g = Fails f.
Proof.
  intros root.
  set (P := fun f => f = InvalidConfiguration
  \/ f = GeneralException /\ (exists x y z density, unsigned_at neg root ["mpc"; "simulationBoxSize"; "x"]%string x /\ unsigned_at neg root ["mpc"; "simulationBoxSize"; "y"]%string y
       /\ unsigned_at neg root ["mpc"; "simulationBoxSize"; "z"]%string z /\ unsigned_at neg root ["initialization"; "particleDensity"]%string density /\ 2 ^ 31 <= density * ((x * y * z) mod 2 ^ 32))
  \/ f = Unimplemented /\ (exists s, reaches root ["solute"%string] s /\ children D s <> [] /\ forall g, s <> Group [("StarPolymers"%string, g)])
  \/ exists g, reaches root ["solute"%string] (Group [("StarPolymers"%string, g)]) /\ star g = Fails f).
  change (may P (construct D S_ neg star multiple root)).
  assert (W : forall A (r : outcome A), may inv r -> may P r) by (intros A r H f E; left; symmetry; exact (H f E)).
  unfold construct.
  apply may_next; [apply W, may_unsigned|]. intros x X. apply may_next; [apply W, may_unsigned|]. intros y Y. apply may_next; [apply W, may_unsigned|]. intros z Z.
  apply may_next; [apply W, may_float|]. intros dt _. apply may_next; [apply W, may_float|]. intros angle _. apply may_next; [apply W, may_float|]. intros shift _.
  apply may_next; [apply W; repeat inv_step|]. intros kT _. apply may_next; [apply W, may_unsigned|]. intros sweep _. apply may_next; [apply W, may_unsigned|]. intros density Dn.
  apply may_if; [apply W; now apply may_fails|]. apply may_next; [apply W; apply may_next; [apply may_getSetting|intros a _; apply may_boundary]|]. intros rate _.
  apply may_next.
  { unfold particle_count. destruct (Z.ltb_spec (2 ^ 31 - 1) (density * volume x y z)) as [L|]; [|apply may_done]. apply may_fails. right. left. split; [reflexivity|].
    exists x, y, z, density. rewrite <- volume_mod. split; [apply (unsigned_iff neg root ["mpc"; "simulationBoxSize"; "x"]%string); [prop|exact X]|].
    split; [apply (unsigned_iff neg root ["mpc"; "simulationBoxSize"; "y"]%string); [prop|exact Y]|]. split; [apply (unsigned_iff neg root ["mpc"; "simulationBoxSize"; "z"]%string); [prop|exact Z]|].
    split; [apply (unsigned_iff neg root ["initialization"; "particleDensity"]%string); [prop|exact Dn]|]. lia. }
  intros count _. apply may_next; [apply W, may_fluid|]. intros f _. apply may_next; [apply W; destruct f; repeat inv_step|]. intros _ _.
  apply may_next; [|intros s _; apply W; destruct s; repeat inv_step].
  unfold make_solute. apply may_if; [apply may_done|].
  assert (P3 : proper_path ["StarPolymers"%string]) by prop.
  apply may_next; [apply W, may_getSetting|]. intros s So. apply (getSetting_iff root ["solute"%string]) in So; [|prop].
  assert (U : getChildCount D s <> 0%nat -> (forall g, s <> Group [("StarPolymers"%string, g)]) -> P Unimplemented).
  { intros N G. right. right. left. split; [reflexivity|]. exists s. split; [exact So|]. split; [|exact G]. intros E. apply N. now apply no_children. }
  destruct (Nat.eqb_spec (getChildCount D s) 0) as [|N0]; [apply may_done|].
  destruct (Nat.eqb_spec (getChildCount D s) 1) as [N1|N1]; cbn [negb].
  2:{ apply may_fails, U; [assumption|]. intros g ->. now apply N1. }
  change "StarPolymers"%string with (dotted ["StarPolymers"%string]). rewrite setting_has_proper by assumption. rewrite walk_one. cbn [next].
  unfold setting_getSetting. rewrite setting_has_proper, lookup_proper, walk_one by assumption.
  destruct (member D s "StarPolymers") as [g|] eqn:M.
  - cbn [next]. apply may_next; [|intros ? _; apply may_done]. intros f' E. right. right. right. exists g. split; [|exact E].
    destruct s as [|m| |]; cbn [member] in M; try discriminate. rewrite <- (one_member _ _ _ N1 M). exact So.
  - apply may_fails, U; [assumption|]. intros g ->. discriminate.
Qed.
End Failures.
Print Assumptions simulation_failures.
Example simulation_failures_ex : constructed (config 1000 1000 1000 3 modern simple_fluid []) = Fails GeneralException
  /\ constructed (config 10 10 10 3 modern simple_fluid [("solute", Group [("Rods", Group [])])]%string) = Fails Unimplemented
  /\ constructed (config 10 10 10 3 modern simple_fluid [("solute", Group [("StarPolymers", Group [])])]%string) = Fails InvalidArgument
  /\ constructed (Group []) = Fails InvalidConfiguration.
Proof. vm_compute. auto. Qed.

(** C94: the number of particles is not the density times the volume if the volume has more than 32 bits: the simulation is constructed with another number. *)
Theorem simulation_volume_refuted : exists root sim density, constructed root = Done sim /\ unsigned_at no_negatives root ["initialization"; "particleDensity"]%string density
  /\ particleCount _ _ sim < density * (boxX _ _ sim * boxY _ _ sim * boxZ _ _ sim) /\ particleCount _ _ sim = density * (boxX _ _ sim * boxY _ _ sim * boxZ _ _ sim - 2 ^ 32).
Proof.
  exists (config 65537 65537 1 1 modern simple_fluid []). eexists. exists 1. split; [vm_compute; reflexivity|]. split.
  - exists 1. split; [|left; split; [lia|reflexivity]]. apply walk_reaches. vm_compute. reflexivity.
  - cbn. lia.
Qed.
Print Assumptions simulation_volume_refuted.
(** C94: with a volume of less than [2^32], it is. *)
Theorem simulation_volume : forall D S_ neg star multiple root sim density, construct D S_ neg star multiple root = Done sim ->
  unsigned_at neg root ["initialization"; "particleDensity"]%string density ->
  0 <= boxX _ _ sim * boxY _ _ sim * boxZ _ _ sim < 2 ^ 32 -> particleCount _ _ sim = density * (boxX _ _ sim * boxY _ _ sim * boxZ _ _ sim).
Proof.
  intros D S_ neg star multiple root sim density C U B. apply simulation_constructed in C. destruct C as (_ & _ & _ & _ & _ & _ & _ & _ & _ & (d & Ud & E & _) & _).
  rewrite E, Z.mod_small by exact B. f_equal. apply (unsigned_iff neg root ["initialization"; "particleDensity"]%string) in U, Ud; [|prop|prop]. congruence.
Qed.
Print Assumptions simulation_volume.
Example simulation_volume_ex : match constructed (config 10 11 12 3 modern simple_fluid []) with Done sim => particleCount _ _ sim = 3 * (10 * 11 * 12) | Fails _ => False end.
Proof. vm_compute. reflexivity. Qed.

(** C94: boundary conditions in the deprecated form, which are accepted otherwise, are never accepted with dumbbells. *)
Theorem simulation_deprecated_refuted : forall D S_ neg star multiple (root : setting D) sim a b, reaches root ["boundaryConditions"%string] (Group [("type"%string, a); ("shearRate"%string, b)]) ->
  absent root ["mpc"; "fluid"; "simple"]%string -> present root ["mpc"; "fluid"; "dumbbell"]%string -> construct D S_ neg star multiple root <> Done sim.
Proof.
  intros D S_ neg star multiple root sim a b R N P C. apply simulation_constructed in C. destruct C as (_ & _ & _ & _ & _ & _ & _ & _ & _ & (d & _ & _ & _ & F) & _).
  destruct (theFluid _ _ sim) as [[f v]|].
  - destruct F as ((before & n & given & after & K & A & Pn & G) & _).
    destruct before as [|k1 [|k2 before]].
    + injection K as <- _ _. destruct Pn as [s R']. exact (N s R').
    + injection K as _ <- <- _. destruct G as (? & ? & ? & ? & rate & _ & _ & _ & _ & L & _). unfold float_at in L.
      apply walk_reaches in L, R. change ["boundaryConditions"; "LeesEdwards"; "shearRate"]%string with (["boundaryConditions"%string] ++ ["LeesEdwards"; "shearRate"]%string) in L.
      rewrite walk_app, R in L. discriminate.
    + injection K as _ <- _. destruct P as [s R']. exact (A _ _ (or_intror (or_introl eq_refl)) s R').
  - destruct F as [F _]. destruct P as [s R']. apply walk_reaches in R'. change ["mpc"; "fluid"; "dumbbell"]%string with (["mpc"; "fluid"]%string ++ ["dumbbell"%string]) in R'.
    rewrite walk_snoc in R'. destruct (walk D root ["mpc"; "fluid"]%string) as [w|] eqn:E; [|discriminate]. apply walk_reaches in E. exact (F w E).
Qed.
Print Assumptions simulation_deprecated_refuted.
Example simulation_deprecated_ex : constructed (config 10 11 12 3 deprecated dumbbell_fluid (thermostat "MBS")) = Fails InvalidConfiguration
  /\ exists sim, constructed (config 10 11 12 3 modern dumbbell_fluid (thermostat "MBS")) = Done sim.
Proof. split; [vm_compute; reflexivity|]. eexists. vm_compute. reflexivity. Qed.

(** C94: trimers with analytical streaming are accepted, but every attempt to stream throws. *)
Theorem simulation_trimers_refuted : forall D S_ neg star multiple (root : setting D) sim, construct D S_ neg star multiple root = Done sim ->
  bool_at root ["mpc"; "fluid"; "harmonicTrimers"; "analyticalStreaming"]%string true -> forall k1 k2 steps v, theFluid _ _ sim = Some (FTrimers k1 k2 steps, v) ->
  stream_trimers D (FTrimers k1 k2 steps) = Fails Unimplemented.
Proof.
  intros D S_ neg star multiple root sim C T k1 k2 steps v E. apply simulation_constructed in C. destruct C as (_ & _ & _ & _ & _ & _ & _ & _ & _ & (d & _ & _ & _ & F) & _).
  rewrite E in F. destruct F as ((before & n & given & after & K & _ & _ & G) & _).
  assert (I : In (n, given) (kinds neg root)) by (rewrite K; apply in_or_app; right; now left).
  destruct I as [[= <- <-]|[[= <- <-]|[[= <- <-]|[[= <- <-]|[[= <- <-]|[]]]]]].
  - discriminate.
  - destruct G as (? & ? & ? & ? & ? & G & _). discriminate.
  - destruct G as (? & ? & ? & G & _). discriminate.
  - destruct G as (? & ? & ? & G & _). discriminate.
  - destruct G as (? & ? & s & [= <- <- <-] & _ & _ & _ & G). destruct steps as [m|]; [|reflexivity]. destruct G as [G _].
    unfold bool_at in *. apply walk_reaches in G, T. cbn [app] in G. congruence.
Qed.
Print Assumptions simulation_trimers_refuted.
Example simulation_trimers_ex : constructed (config 10 11 12 3 modern trimer_fluid []) =
  Done (Simulation 10 11 12 "0.1" "2.27" "1.0" None 1 "0.5" 3960 (Some (FTrimers "1.0" "2.0" None, sample_velocities)) None)%string.
Proof. vm_compute. reflexivity. Qed.

(** C94: only with dumbbells is the type of the thermostat read; with other fluids, any type is accepted. *)
Theorem simulation_thermostat_refuted : forall type, constructed (config 10 11 12 3 modern simple_fluid (thermostat type)) =
  Done (Simulation 10 11 12 "0.1" "2.27" "1.0" (Some "1.5") 1 "0.5" 3960 (Some (FSimple, sample_velocities)) None)%string.
Proof. intros type. vm_compute. reflexivity. Qed.
Print Assumptions simulation_thermostat_refuted.
Example simulation_thermostat_ex : constructed (config 10 11 12 3 modern dumbbell_fluid (thermostat "none")) = Fails InvalidConfiguration.
Proof. vm_compute. reflexivity. Qed.
