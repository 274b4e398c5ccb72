From Coq Require Import String Ascii List ZArith Lia Bool Reals Lra.
From Verif Require Import PyBase StrBase CuModel CfgModel CfgSpec CfgProof CfgReadProof CfgSimModel CfgSimSpec CfgSimProof VecModel StpModel StpSpec StpProof.
From Verif Require StarModel StarSpec StarProof StarClusterProof StarMdProof VtfModel VtfSpec VtfProof VtfStarModel VtfStarProof.
Import ListNotations.
Open Scope list_scope.
Open Scope Z_scope.

Section Proof.
Context {F : Type} (value : F -> R) (zero one : F) (round : R -> F) (neg : Z -> option Z) (debug : bool).
Context (cast : string -> option F) (show : F -> string) (negative : F -> bool) (files : string -> option string) (creatable : string -> bool).
Context (mp mv : Z -> F).
Local Notation make := (constructed F value zero one round neg debug cast show negative files creatable mp mv).
Local Notation snap := (from_snapshot F zero debug cast show negative files creatable mp mv).
Implicit Types s : setting F.

Lemma built_iff le s w st : make le s = (w, Built st) <->
  le = true /\ (debug = true -> StarModel.getParticleCount (theStructure st) <> 0) /\
  exists p path, settings_given value one neg debug s (mdTimeStepSize st) (theStructure st) (particleMass st) p
  /\ theInteractions st = StarModel.createInteractions p /\ start_given s path
  /\ match path with
     | None => (debug = true -> StarModel.starCount (theStructure st) = 1) /\ w = []
        /\ hostPositions st = coordinates F round mp (StarModel.initializePositions (theStructure st) (fun _ => None))
        /\ hostVelocities st = coordinates F round mv (StarModel.initializeVelocities (theStructure st) (fun _ => None))
     | Some x => snap (theStructure st) x = (w, Ok (hostPositions st, hostVelocities st))
     end.
Proof.
  unfold constructed. destruct le; cbn [negb]; [|split; [discriminate|intros ([=] & _)]]. split.
  - intros H. split; [reflexivity|]. destruct (described F value one neg s) as [[[dt x] m]|f] eqn:D; [|discriminate]. apply described_iff in D.
    destruct (debug && (3 * StarModel.getParticleCount x =? 0)) eqn:A; [discriminate|].
    destruct (next (read_parameters F value neg debug s) _) as [[p [w' r]]|f] eqn:P; [|discriminate].
    apply next_done in P. destruct P as (p' & P & K). apply next_done in K. destruct K as (i & K & E). injection E as -> ->. apply parameters_iff in P.
    destruct r as [[xp xv]|e]; [|discriminate]. injection H as -> <-. cbn [mdTimeStepSize theStructure particleMass theInteractions hostPositions hostVelocities].
    split. { intros B. rewrite B in A. cbn [andb] in A. apply Z.eqb_neq in A. lia. }
    unfold initial_state in K. apply next_done in K. destruct K as (b & B & K). pose proof (fun q => start_iff neg s b q B) as G. destruct b.
    + apply next_done in K. destruct K as (q & Q & [= K]). exists p, (Some q). split; [unfold settings_given; tauto|]. split; [reflexivity|]. split; [exact (G q Q)|]. exact K.
    + exists p, None. split; [unfold settings_given; tauto|]. split; [reflexivity|]. split; [exact (G ""%string)|].
      destruct (debug && negb (StarModel.starCount x =? 1)) eqn:U; [discriminate|]. injection K as <- <- <-. split; [|auto].
      intros B1. rewrite B1 in U. destruct (Z.eqb_spec (StarModel.starCount x) 1); [assumption|discriminate].
  - intros (_ & N & p & path & (G1 & G2 & G3 & G4) & I & S0 & K). destruct st as [dt x m i xp xv]. cbn [mdTimeStepSize theStructure particleMass theInteractions hostPositions hostVelocities] in *.
    rewrite (proj2 (described_iff value one neg s dt x m)) by auto.
    assert (A : debug && (3 * StarModel.getParticleCount x =? 0) = false).
    { destruct debug; [|reflexivity]. cbn [andb]. apply Z.eqb_neq. specialize (N eq_refl). lia. }
    rewrite A. rewrite (proj2 (parameters_iff value neg debug s p)) by assumption. cbn [next]. unfold initial_state. apply (started neg) in S0. destruct path as [q|].
    + destruct S0 as (S1 & S2). rewrite S1. cbn [next]. rewrite S2. cbn [next]. rewrite K, I. reflexivity.
    + destruct K as (K1 & -> & -> & ->). rewrite S0. cbn [next].
      assert (U : debug && negb (StarModel.starCount x =? 1) = false). { destruct debug; [|reflexivity]. rewrite K1 by reflexivity. reflexivity. }
      rewrite U. cbn [next]. rewrite I. reflexivity.
Qed.
Lemma thrown le s w f : make le s = (w, Thrown f) ->
  w = [] /\ (le = false /\ f = Unimplemented \/ f = InvalidConfiguration \/ debug = true /\ (f = GeneralException \/ f = Unimplemented)).
Proof.
  unfold constructed. destruct le; cbn [negb]; [|intros [= <- <-]; auto].
  destruct (described F value one neg s) as [[[dt x] m]|f0] eqn:D.
  - destruct (debug && (3 * StarModel.getParticleCount x =? 0)); [discriminate|].
    destruct (next (read_parameters F value neg debug s) _) as [[p [w' r]]|f1] eqn:P; [destruct r as [[a b]|e]; discriminate|].
    intros [= <- <-]. split; [reflexivity|]. right. apply next_fails in P. destruct P as [P|(p & _ & P)]; [apply parameters_fails in P; tauto|].
    apply next_fails in P. destruct P as [P|(i & _ & P)]; [|discriminate]. unfold initial_state in P. apply next_fails in P. destruct P as [P|(b & _ & P)].
    + pose proof (setting_has_proper s ["initialState"%string] ltac:(prop)) as E. cbn [dotted String.concat] in E. rewrite E in P. discriminate.
    + destruct b.
      * apply next_fails in P. destruct P as [P|(i & _ & P)]; [|discriminate]. left. exact (string_fails neg s ["initialState"%string] _ ltac:(prop) P).
      * destruct debug; [|discriminate P]. cbn [andb] in P. destruct (negb _); [|discriminate P]. injection P as <-. tauto.
  - intros [= <- <-]. apply described_fails in D. auto.
Qed.
Lemma snapshot_error le s w e : make le s = (w, SnapshotError e) ->
  exists x path, start_given s (Some path) /\ snap x path = (w, Err e).
Proof.
  unfold constructed. destruct le; cbn [negb]; [|discriminate]. destruct (described F value one neg s) as [[[dt x] m]|f0] eqn:D; [|discriminate].
  destruct (debug && (3 * StarModel.getParticleCount x =? 0)); [discriminate|].
  destruct (next (read_parameters F value neg debug s) _) as [[p [w' r]]|f1] eqn:P; [|discriminate]. destruct r as [[a b]|e']; [discriminate|]. intros [= -> ->].
  apply next_done in P. destruct P as (p' & _ & P). apply next_done in P. destruct P as (i & P & [= -> ->]). unfold initial_state in P.
  apply next_done in P. destruct P as (b & B & P). pose proof (fun q => start_iff neg s b q B) as G. destruct b.
  - apply next_done in P. destruct P as (q & Q & [= K]). exists x, q. split; [exact (G q Q)|exact K].
  - destruct (debug && _); [discriminate|]. discriminate.
Qed.
(** Settings that are complete, with a path whose file is or is not acceptable. *)
Lemma from_file s dt x m p path : settings_given value one neg debug s dt x m p -> start_given s (Some path) ->
  (debug = true -> StarModel.getParticleCount x <> 0) ->
  make true s = (fst (snap x path), match snd (snap x path) with Ok (a, b) => Built (Stars dt x m (StarModel.createInteractions p) a b) | Err e => SnapshotError e end).
Proof.
  intros (G1 & G2 & G3 & G4) S0 N. unfold constructed. cbn [negb]. rewrite (proj2 (described_iff value one neg s dt x m)) by auto.
  assert (A : debug && (3 * StarModel.getParticleCount x =? 0) = false).
  { destruct debug; [|reflexivity]. cbn [andb]. apply Z.eqb_neq. specialize (N eq_refl). lia. }
  rewrite A. rewrite (proj2 (parameters_iff value neg debug s p)) by assumption. cbn [next]. unfold initial_state. apply (started neg) in S0.
  destruct S0 as (S1 & S2). rewrite S1. cbn [next]. rewrite S2. cbn [next]. destruct (snap x path) as [w [[a b]|e]]; reflexivity.
Qed.
(** Coordinates. *)
Lemma coordinates_at memory h i v k : h i = Some v -> 0 <= k < 3 -> coordinates F round memory h (3 * i + k) = round (coordinate v k).
Proof.
  intros H K. unfold coordinates. replace ((3 * i + k) / 3) with i by (apply (Z.div_unique _ _ i k); lia). replace ((3 * i + k) mod 3) with k by (apply (Z.mod_unique _ _ i k); lia).
  now rewrite H.
Qed.
Lemma coordinates_none memory h i k : h i = None -> 0 <= k < 3 -> coordinates F round memory h (3 * i + k) = memory (3 * i + k).
Proof.
  intros H K. unfold coordinates. replace ((3 * i + k) / 3) with i by (apply (Z.div_unique _ _ i k); lia). now rewrite H.
Qed.
Lemma fill_at memory rows from i k row : nth_error rows i = Some row -> 0 <= k < 3 ->
  fill F memory rows from (3 * Z.of_nat i + k) = nth (from + Z.to_nat k) row (memory (3 * Z.of_nat i + k)).
Proof.
  intros H K. unfold fill. destruct (Z.ltb_spec (3 * Z.of_nat i + k) 0); [lia|].
  replace ((3 * Z.of_nat i + k) / 3) with (Z.of_nat i) by (apply (Z.div_unique _ _ _ k); lia).
  replace ((3 * Z.of_nat i + k) mod 3) with k by (apply (Z.mod_unique _ _ (Z.of_nat i) k); lia). now rewrite Nat2Z.id, H.
Qed.
End Proof.

(** * A file with several states *)
Section Restart.
Variable F : Type.
Variable show : F -> string.
Variable cast : string -> option F.
Variable negative minus_one : F -> bool.
Variable default_radius : F.
Import VtfModel VtfSpec VtfProof VtfStarModel VtfStarProof.
Lemma steps_written s : forall states w c, inv F show negative w c -> getNumberOfAtoms (w_structure w) = StarModel.getParticleCount s ->
  exists w', VtfStarModel.loop (fun w st => writeStateToSnapshot s show w (fst st) (snd st)) states w = Ok w'
    /\ inv F show negative w' (Contents (c_atoms c) (c_bonds c) (c_volume c) (c_steps c ++ map (fun st => (fst st, Some (snd st))) states)).
Proof.
  induction states as [|[x v] states IH]; intros w c H N.
  - exists w. split; [reflexivity|]. cbn [map]. rewrite app_nil_r. destruct c. exact H.
  - cbn [VtfStarModel.loop]. unfold writeStateToSnapshot at 1. rewrite N, Z.eqb_refl. cbn [negb bind fst snd].
    pose proof (perform_inv F show negative minus_one w c (CallTimestep x (Some v)) H Logic.I Logic.I) as S2. cbn [perform declare] in S2.
    pose proof (count_atoms F show negative w c H) as N1. pose proof (count_atoms F show negative _ _ S2) as N2. cbn [c_atoms] in N2.
    destruct (IH (writeTimestepBlock show w x (Some v)) _ S2) as (w' & E & I'). { rewrite N2, <- N1. exact N. }
    exists w'. split; [exact E|]. cbn [c_atoms c_bonds c_volume c_steps] in I'. rewrite <- app_assoc in I'. exact I'.
Qed.
Lemma restart_many s (debug : bool) (calls : list (call F)) x v states :
  prints show cast -> minus_one default_radius = true -> StarSpec.well_formed s -> StarModel.getParticleCount s < 2 ^ 64 ->
  Forall unsigned calls -> Forall plain_names calls ->
  c_atoms (declared negative minus_one calls) = [] -> c_bonds (declared negative minus_one calls) = [] -> c_steps (declared negative minus_one calls) = [] ->
  exists w1 w2 r ls rest,
    writeStructureToSnapshot negative minus_one default_radius s (fold_left (perform show negative minus_one) calls new_writer) = Ok w1 /\
    VtfStarModel.loop (fun w st => writeStateToSnapshot s show w (fst st) (snd st)) ((x, v) :: states) w1 = Ok w2 /\
    open_file cast negative debug (file_contents show w2) = Ok (r, ls) /\
    readStateFromSnapshot s cast r ls = Ok (Some (step_rows (Z.to_nat (StarModel.getParticleCount s)) (x, Some v)), rest).
Proof.
  intros HP HR Hs HC U P EA EB ES. set (w := fold_left (perform show negative minus_one) calls new_writer).
  pose proof (written_inv F show negative minus_one calls U P) as I. fold w in I.
  assert (I0 : inv F show negative w (Contents [] [] (c_volume (declared negative minus_one calls)) [])).
  { destruct (declared negative minus_one calls) as [ca cb cv cs]. cbn [c_atoms c_bonds c_steps c_volume] in *. subst. exact I. }
  destruct (write_structure_ok F show negative minus_one default_radius HR s Hs _ w I0) as [w1 [E1 S1]].
  pose proof (count_atoms F show negative w1 _ S1) as N1. cbn [c_atoms] in N1. rewrite map_length, (VtfStarProof.places_length s Hs) in N1.
  destruct (steps_written s ((x, v) :: states) w1 _ S1 N1) as (w2 & E2 & S2). cbn [c_atoms c_bonds c_volume c_steps app map fst snd] in S2.
  pose proof (count_atoms F show negative w2 _ S2) as N2. cbn [c_atoms] in N2. rewrite map_length, (VtfStarProof.places_length s Hs) in N2.
  destruct (open_ok F show cast negative HP debug (w_structure w2) ((x, Some v) :: map (fun st => (fst st, Some (snd st))) states)) as [ls [O1 O2]];
    [apply S2|rewrite N2; exact HC|].
  cbn [map reads_steps] in O2. destruct O2 as [rest [O2 _]].
  exists w1, w2, (w_structure w2), ls, rest. split; [exact E1|]. split; [exact E2|]. split.
  { rewrite (file_lines F show negative w2 _ S2). exact O1. }
  assert (CO : snapshotStructureIsCompatible s (w_structure w2) = Ok true).
  { apply (compatible F s Hs _ _ (describes_ok F show negative w2 _ S2)); reflexivity. }
  unfold readStateFromSnapshot. rewrite CO. cbn [bind]. rewrite O2. do 3 f_equal.
  rewrite <- rows_spec, N2. do 2 f_equal. rewrite Z2Nat.id; [reflexivity|].
  rewrite <- (VtfStarProof.places_length s Hs). lia.
Qed.
Lemma restart_none s (debug : bool) :
  prints show cast -> minus_one default_radius = true -> StarSpec.well_formed s -> StarModel.getParticleCount s < 2 ^ 64 ->
  exists w1 r ls rest,
    writeStructureToSnapshot negative minus_one default_radius s new_writer = Ok w1 /\
    open_file cast negative debug (file_contents show w1) = Ok (r, ls) /\
    readStateFromSnapshot s cast r ls = Ok (None, rest).
Proof.
  intros HP HR Hs HC. pose proof (written_inv F show negative minus_one [] (Forall_nil _) (Forall_nil _)) as I0. cbn [fold_left] in I0.
  destruct (write_structure_ok F show negative minus_one default_radius HR s Hs None new_writer I0) as [w1 [E1 S1]].
  pose proof (count_atoms F show negative w1 _ S1) as N1. cbn [c_atoms] in N1. rewrite map_length, (VtfStarProof.places_length s Hs) in N1.
  destruct (open_ok F show cast negative HP debug (w_structure w1) []) as [ls [O1 O2]]; [apply S1|rewrite N1; exact HC|].
  cbn [map reads_steps] in O2. destruct O2 as [rest O2].
  exists w1, (w_structure w1), ls, rest. split; [exact E1|]. split.
  { rewrite (file_lines F show negative w1 _ S1). exact O1. }
  assert (CO : snapshotStructureIsCompatible s (w_structure w1) = Ok true).
  { apply (compatible F s Hs _ _ (describes_ok F show negative w1 _ S1)); reflexivity. }
  unfold readStateFromSnapshot. rewrite CO. cbn [bind]. exact O2.
Qed.
Lemma cast_all_length ts xs : cast_all cast ts = Ok xs -> length xs = length ts.
Proof.
  revert xs. induction ts as [|t ts IH]; intros xs; cbn [cast_all]; [intros [= <-]; reflexivity|].
  destruct (cast_number cast t) as [x|]; [|discriminate]. cbn [bind]. destruct (cast_all cast ts) as [l|]; [|discriminate]. cbn [bind]. intros [= <-].
  cbn [length]. f_equal. now apply IH.
Qed.
Lemma read_row_length line row : read_row cast line = Ok row -> length row = 3%nat \/ length row = 6%nat.
Proof.
  unfold read_row. destruct (cast_all cast (firstn 6 _)) as [xs|] eqn:E; [|discriminate]. cbn [bind]. apply cast_all_length in E. rewrite firstn_length in E.
  destruct (Nat.eqb_spec (length (words is_blank line)) 3) as [A|A]; cbn [orb]; [intros [= <-]; left; lia|].
  destruct (Nat.eqb_spec (length (words is_blank line)) 6) as [B|B]; [intros [= <-]; right; lia|discriminate].
Qed.
Lemma read_rows_length : forall ls k rows rest, read_rows cast k ls = Ok (rows, rest) -> Forall (fun row => length row = 3%nat \/ length row = 6%nat) rows.
Proof.
  induction ls as [|l ls IH]; intros k rows rest; destruct k as [|k]; cbn [read_rows]; try (intros [= <- <-]; constructor).
  destruct (stripLeadingWhitespace l) as [|a line] eqn:E; [apply IH|].
  destruct (read_row cast (String a line)) as [x|] eqn:X; [|discriminate]. cbn [bind]. destruct (read_rows cast k ls) as [[xs r]|] eqn:Y; [|discriminate]. cbn [bind].
  intros [= <- <-]. constructor; [exact (read_row_length _ _ X)|exact (IH _ _ _ Y)].
Qed.
Lemma timestep_rows n ls rows rest : 0 <= n -> readTimestepBlock cast n ls = Ok (Some rows, rest) ->
  Z.of_nat (length rows) = n /\ (Forall (fun row => length row = 3%nat) rows \/ Forall (fun row => length row = 6%nat) rows).
Proof.
  intros Hn. unfold readTimestepBlock. destruct (next_line ls) as [[line ls']|]; [|discriminate]. destruct (check_header line); [|discriminate]. cbn [bind].
  destruct (Z.eqb_spec n 0) as [->|N]; [intros [= <- <-]; split; [reflexivity|left; constructor]|].
  destruct (read_rows cast (Z.to_nat n) ls') as [[rs r]|] eqn:E; [|discriminate]. cbn [bind]. apply read_rows_length in E. destruct rs as [|x rs]; [discriminate|].
  destruct (existsb (fun x => Nat.eqb (length x) 3) (x :: rs)) eqn:A3; destruct (existsb (fun x => Nat.eqb (length x) 6) (x :: rs)) eqn:A6; cbn [andb]; try discriminate;
    destruct (Z.eqb_spec (Z.of_nat (length (x :: rs))) n) as [L|L]; cbn [negb]; try discriminate; intros [= <- <-]; (split; [exact L|]).
  - left. rewrite Forall_forall in E |- *. intros row I. destruct (E row I) as [|B]; [assumption|].
    assert (existsb (fun x => Nat.eqb (length x) 6) (x :: rs) = true) by (apply existsb_exists; exists row; split; [exact I|now apply Nat.eqb_eq]). congruence.
  - right. rewrite Forall_forall in E |- *. intros row I. destruct (E row I) as [B|]; [|assumption].
    assert (existsb (fun x => Nat.eqb (length x) 3) (x :: rs) = true) by (apply existsb_exists; exists row; split; [exact I|now apply Nat.eqb_eq]). congruence.
  - left. rewrite Forall_forall in E |- *. intros row I. destruct (E row I) as [|B]; [assumption|].
    assert (existsb (fun x => Nat.eqb (length x) 6) (x :: rs) = true) by (apply existsb_exists; exists row; split; [exact I|now apply Nat.eqb_eq]). congruence.
Qed.
End Restart.
Lemma step_rows_nth {F} n (x v : Z -> F) i : (i < n)%nat -> nth_error (VtfSpec.step_rows n (x, Some v)) i =
  Some (let j := 3 * Z.of_nat i in [x j; x (j + 1); x (j + 2); v j; v (j + 1); v (j + 2)]).
Proof.
  intros H. unfold VtfSpec.step_rows. rewrite nth_error_map.
  rewrite (nth_error_nth' (seq 0 n) 0%nat) by (rewrite seq_length; lia). rewrite seq_nth by lia. reflexivity.
Qed.
