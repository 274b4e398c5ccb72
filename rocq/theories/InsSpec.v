(** What the instruments of a simulation are to measure. *)
From Verif Require Import QcBase StrBase PyBase CuModel CfgModel CfgSpec CfgSimSpec CfgSimModel OtfsModel FlowModel FlowSpec MeasModel MeasSpec InsModel.
Open Scope list_scope.
Open Scope Qc_scope.

(** The primary box, and the vectors of the sheared lattice, as in SimSpec.v. *)
Definition positive (box : cell) : Prop := let '(x, y, z) := box in (0 < x /\ 0 < y /\ 0 < z)%nat.
Definition in_box (box : cell) (q : vec) : Prop :=
  let '(bx, by_, bz) := box in let '(x, y, z) := q in (0 <= x /\ x < qn bx) /\ (0 <= y /\ y < qn by_) /\ (0 <= z /\ z < qn bz).
Definition lattice (shear time : Qc) (box : cell) (i j k : Z) : vec :=
  let '(bx, by_, bz) := box in (qz i * qn bx + qz j * (shear * qn by_ * time), qz j * qn by_, qz k * qn bz).
Definition plus3 (a b : vec) : vec := let '(x, y, z) := a in let '(x', y', z') := b in (x + x', y + y', z + z').
(** A particle at [p], which is [j] layers from the primary box, is seen in that box at [q]. *)
Definition seen_at (shear time : Qc) (box : cell) (p : vec) (j : Z) (q : vec) : Prop :=
  in_box box q /\ exists i k, p = plus3 q (lattice shear time box i j k).
(** The box of one subdivision of a collision cell. *)
Definition in_subcell (subs : cell) (q : vec) (c : cell) : Prop :=
  let '(sx, sy, sz) := subs in let '(x, y, z) := q in let '(cx, cy, cz) := c in
  (qn cx / qn sx <= x /\ x < (qn cx + 1) / qn sx) /\ (qn cy / qn sy <= y /\ y < (qn cy + 1) / qn sy) /\ (qn cz / qn sz <= z /\ z < (qn cz + 1) / qn sz).
Definition located (shear time : Qc) (box subs : cell) (p : vec) (c : cell) : Prop :=
  exists j q, seen_at shear time box p j q /\ in_subcell subs q c.
(** A function that says where particles are, at a time. *)
Definition locates (shear : Qc) (box subs : cell) (where_ : Qc -> vec -> cell) : Prop :=
  forall time p c, located shear time box subs p c <-> c = where_ time p.
(** The velocity in the frame of the primary box: the next layer moves past it. *)
Definition seen_velocity (shear time : Qc) (box : cell) (p v w : vec) : Prop :=
  exists j q, seen_at shear time box p j q /\ v = plus3 w (qz j * (shear * qn (snd (fst box))), 0, 0).
(** A function that gives these velocities. *)
Definition sees (shear : Qc) (box : cell) (velocity : Qc -> vec -> vec -> vec) : Prop :=
  forall time p v w, seen_velocity shear time box p v w <-> w = velocity time p v.

(** A state of a fluid with particles of a certain mass, under shear: time, particles, and whether there is a solute that is measured. *)
Notation snapshot := (Qc * list (vec * vec) * bool)%type.
Definition state (shear : Qc) (box : cell) (mass : Qc) (s : snapshot) : sim_state :=
  SimState (Some (FluidState mass (snd (fst s)))) (Some shear) box (fst (fst s)) (snd s).
(** Instruments that have not measured. *)
Definition fresh (box : cell) (m : instruments) : Prop :=
  (forall h, velocityMagnitudeHistogram m = Some h -> exists low high n, n <> 0%nat /\ low < high /\ h = hist_new low high n) /\
  (forall d, densityProfile m = Some d -> exists subs, dens_new box subs = Ok d) /\
  (forall f, flowProfile m = Some f -> exists subs per, cfp_new box subs per = Ok f) /\
  fluidMeasurements m = 0%nat /\ soluteMeasurements m = 0%nat /\ measurementCount m = 0%nat.
Definition given {A} (o : option A) : bool := match o with Some _ => true | None => false end.
(** The numbers of particles in a subdivision. *)
Definition found (where_ : Qc -> vec -> cell) (l : list snapshot) (c : cell) : nat :=
  length (flat_map (fun s => filter (fun p => MeasModel.cell_eqb (where_ (fst (fst s)) (fst p)) c) (snd (fst s))) l).
(** The velocities of the particles in a subdivision, in the measurements that belong to a block. *)
Definition velocities_in (where_ : Qc -> vec -> cell) (velocity : Qc -> vec -> vec -> vec) (block : nat -> bool) (l : list snapshot) (c : cell) : list vec :=
  flat_map (fun ns => if block (fst ns)
    then map (fun p => velocity (fst (fst (snd ns))) (fst p) (snd p))
           (filter (fun p => FlowModel.cell_eqb c (where_ (fst (fst (snd ns))) (fst p))) (snd (fst (snd ns)))) else [])
    (combine (seq 0 (length l)) l).
(** The same particles, each displaced by a vector of the lattice and with the velocity that its layer has in addition. *)
Inductive equivalent (shear time : Qc) (box : cell) : vec * vec -> vec * vec -> Prop :=
| displaced : forall p v i j k,
    equivalent shear time box (p, v) (plus3 p (lattice shear time box i j k), plus3 v (qz j * (shear * qn (snd (fst box))), 0, 0)).

Inductive displaced_snapshot (shear : Qc) (box : cell) : snapshot -> snapshot -> Prop :=
| displaced_one : forall time ps ps' b, Forall2 (equivalent shear time box) ps ps' -> displaced_snapshot shear box (time, ps, b) (time, ps', b).

(** What the constructor is to make of a configuration. *)
Section Constructor.
Variable neg : Z -> option Z.
Variable root : setting Qc.
(** Numbers of subdivisions: one, unless there is a group with three positive numbers. *)
Definition subdivided (p : list string) (subs : cell) : Prop :=
  let '(x, y, z) := subs in (x <> 0 /\ y <> 0 /\ z <> 0)%nat /\
  (absent root (p ++ ["cellSubdivision"]%string) /\ subs = (1, 1, 1)%nat \/
   exists a b c, unsigned_at neg root (p ++ ["cellSubdivision"; "x"]%string) a /\ unsigned_at neg root (p ++ ["cellSubdivision"; "y"]%string) b
     /\ unsigned_at neg root (p ++ ["cellSubdivision"; "z"]%string) c /\ subs = (Z.to_nat a, Z.to_nat b, Z.to_nat c)).
Definition histogram_given (h : option hist) : Prop :=
  match h with
  | None => absent root ["instrumentation"; "velocityMagnitudeHistogram"]%string
  | Some h => exists n low high, unsigned_at neg root ["instrumentation"; "velocityMagnitudeHistogram"; "binCount"]%string n
      /\ float_at root ["instrumentation"; "velocityMagnitudeHistogram"; "low"]%string low
      /\ float_at root ["instrumentation"; "velocityMagnitudeHistogram"; "high"]%string high
      /\ h = mk_hist (repeat 0%nat (Z.to_nat n)) 0 0 low high ((high - low) / qn (Z.to_nat n))
  end.
Definition density_given (box : cell) (d : option dens) : Prop :=
  let p := ["instrumentation"; "densityProfile"]%string in
  match d with
  | None => absent root p
  | Some d => present root p /\ exists subs, subdivided p subs /\ dens_new box subs = Ok d
  end.
Definition flow_given (box : cell) (f : option cfp) : Prop :=
  let p := ["instrumentation"; "flowProfile"]%string in
  match f with
  | None => absent root p
  | Some f => present root p /\ exists subs per, subdivided p subs
      /\ (absent root (p ++ ["sweepCountPerOutput"]%string) /\ per = 0%nat \/
          exists n, unsigned_at neg root (p ++ ["sweepCountPerOutput"]%string) n /\ per = Z.to_nat n)
      /\ cfp_new box subs per = Ok f
  end.
Definition no_instruments (m : instruments) : Prop := m = Instruments None None None 0 0 0.
(** The names of the settings for instruments. *)
Definition instrument_names : list string :=
  ["densityProfile"; "dumbbellBondAngleWithFlowDirectionHistogram"; "dumbbellBondLengthHistogram"; "dumbbellBondLengthSquaredHistogram"; "dumbbellBondXHistogram";
   "dumbbellBondXXHistogram"; "dumbbellBondXYAngleWithFlowDirectionHistogram"; "dumbbellBondXYHistogram"; "dumbbellBondYHistogram"; "dumbbellBondYYHistogram";
   "dumbbellBondZHistogram"; "dumbbellBondZZHistogram"; "flowProfile"; "fourierTransformedVelocity"; "gaussianChains"; "gaussianRods"; "harmonicTrimers";
   "logicalEntityMeanSquareDisplacement"; "normalModeAutocorrelation"; "selfDiffusionCoefficient"; "velocityAutocorrelation"; "velocityMagnitudeHistogram"]%string.
Definition instruments_given (hasFluid : bool) (box : cell) (m : instruments) : Prop :=
  absent root ["instrumentation"]%string /\ no_instruments m \/
  exists s, reaches root ["instrumentation"]%string s
    /\ (forall n t, In (n, t) (children Qc s) -> exists name, n = Some name /\ In name instrument_names)
    /\ (hasFluid = false /\ no_instruments m \/
        hasFluid = true /\ histogram_given (velocityMagnitudeHistogram m) /\ density_given box (densityProfile m) /\ flow_given box (flowProfile m)
        /\ fluidMeasurements m = 0%nat /\ soluteMeasurements m = 0%nat /\ measurementCount m = 0%nat).
End Constructor.

(** The files that are to be written. *)
Section Files.
Variables (histogram_text : hist -> string) (density_text : dens -> string) (flow_text : cfp -> string) (show : Z -> string).
Variables (m : instruments) (fluid solute : option (string -> list (string * string))) (sweeps : Z) (host device started ended : string).
Variables (rngSeed : Z) (gitRevision config_text : string) (exists_ : string -> bool).
Open Scope string_scope.
(** Whose files, and with what contents. *)
Inductive file_of (rundir : string) : string -> string -> Prop :=
| of_histogram : forall h, velocityMagnitudeHistogram m = Some h -> file_of rundir (rundir ++ "/velocityMagnitudeHistogram.data") (histogram_text h)
| of_density : forall d, densityProfile m = Some d -> file_of rundir (rundir ++ "/densityProfile.data") (density_text d)
| of_flow : forall f, flowProfile m = Some f -> file_of rundir (rundir ++ "/flowProfile.data") (flow_text f)
| of_fluid : forall f path text, fluid = Some f -> In (path, text) (f rundir) -> file_of rundir path text
| of_solute : forall f path text, solute = Some f -> In (path, text) (f rundir) -> file_of rundir path text
| of_run : file_of rundir (rundir ++ "/metadata.txt")
    (String.concat "" (map (fun e => fst e ++ ": " ++ snd e ++ String (ascii_of_nat 10) "")
       (let q s := String (ascii_of_nat 34) (s ++ String (ascii_of_nat 34) "") in
        [("numberOfCompletedSweeps", show sweeps); ("executingHost", q host); ("DefaultCUDADevicePCIAddress", q device);
         ("startTimeUTC", q started); ("endTimeUTC", q ended)])))
| of_seed : file_of rundir (rundir ++ "/rngSeed.txt") (show rngSeed)
| of_configuration : exists_ (rundir ++ "/config.txt") = false -> file_of rundir (rundir ++ "/config.txt") config_text
| of_revision : gitRevision <> "" -> file_of rundir (rundir ++ "/git-revision") gitRevision.
End Files.
