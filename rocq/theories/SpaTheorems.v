(** Theorems about time series of star polymers (C96), and about their cache (C97). *)
From Verif Require Import StrBase FsBase PyBase VtfPyModel VtfPySpec VtfPyTheorems VecBase VecModel VecSpec PartModel PartSpec EckModel EckSpec StarModel RunsModel RunsSpec RunsTheorems
  SpaModel SpaSpec SpaProof.
From Coq Require Import Reals List Arith Bool Lia Lra.
Import ListNotations.
Open Scope string_scope.
Open Scope list_scope.
Open Scope R_scope.

(** C96: an analysis of every snapshot has, for each snapshot of the file in its order, the value of that snapshot, at times that are one time step apart, the first one a time step after the
    warmup; the first exception ends it. *)
Theorem series_values : forall float V S_ (measure : S_ -> coll -> result (S_ * V)) mass dt w cs fuel contents s, 0 <= mass -> dt <> 0 ->
  py_reads float (snd (py_open contents)) cs -> Forall (fun c => fst c <> []) cs -> (length cs < fuel)%nat ->
  compute_every float measure s mass dt w fuel contents =
  match measured measure mass s cs with Err e => Err e | Ok vs => Ok (Some (combine (sample_times dt w (length cs)) vs)) end.
Proof. intros float V S_ measure mass dt w cs fuel contents s Hm Hd. exact (compute_every_ok float V S_ measure mass dt w Hm Hd cs fuel contents s). Qed.
Print Assumptions series_values.
(** C96: with a time step of zero all snapshots are at the same time, for which the last value is reported. *)
Theorem series_standstill : forall float V S_ (measure : S_ -> coll -> result (S_ * V)) mass w c cs fuel contents s, 0 <= mass ->
  py_reads float (snd (py_open contents)) (c :: cs) -> Forall (fun c => fst c <> []) (c :: cs) -> (length (c :: cs) < fuel)%nat ->
  compute_every float measure s mass 0 w fuel contents =
  match measured measure mass s (c :: cs) with Err e => Err e | Ok vs => Ok (Some (map (fun v => (0, v)) (rev (firstn 1 (rev vs))))) end.
Proof. intros. apply compute_still; assumption. Qed.
Print Assumptions series_standstill.

(** C96: the series of shape descriptors are those of the points in the snapshots, wherever their centre of mass is. *)
Theorem series_shape : forall float st eig mass dt w cs fuel contents,
  finds_eigenvalues eig -> 0 < mass -> dt <> 0 -> Forall (full_snapshot (py_count st)) cs ->
  py_reads float (snd (py_open contents)) cs -> (length cs < fuel)%nat ->
  exists ms ks,
    Forall2 (fun c m => moments_of (points (fst c)) m) cs ms /\
    Forall2 (fun c k => let g := spread (points (fst c)) in forall x y z, moments_of (points (fst c)) (x, y, z) -> g <> 0 ->
      k = ((z - (x + y) / 2) * (z - (x + y) / 2) + 3 / 4 * ((y - x) * (y - x))) / (g * g)) cs ks /\
    compute_every float (framed st (asphericity eig)) tt mass dt w fuel contents =
      Ok (Some (combine (sample_times dt w (length cs)) (map (fun m => let '(x, y, z) := m in z - (x + y) / 2) ms))) /\
    compute_every float (framed st (acylindricity eig)) tt mass dt w fuel contents =
      Ok (Some (combine (sample_times dt w (length cs)) (map (fun m => let '(x, y, z) := m in y - x) ms))) /\
    compute_every float (framed st (radius eig)) tt mass dt w fuel contents =
      Ok (Some (combine (sample_times dt w (length cs)) (map (fun c => sqrt (spread (points (fst c)))) cs))) /\
    compute_every float (framed st (anisotropy eig)) tt mass dt w fuel contents =
      Ok (Some (combine (sample_times dt w (length cs)) ks)).
Proof. exact shape_series. Qed.
Print Assumptions series_shape.

(** C96: if the particles of each snapshot move and turn rigidly, the series of rotation frequencies has their angular velocities; provided that matrices are inverted correctly, and that the
    moment of inertia tensors have inverses. *)
Theorem series_rotation : forall float st inv mass dt w cs ws fuel contents,
  0 < mass -> dt <> 0 -> Forall (full_snapshot (py_count st)) cs ->
  (forall M, (exists J, forall u, mapply J (mapply M u) = u) -> exists J, inv M = Ok J /\ forall u, mapply J (mapply M u) = u) ->
  Forall2 (fun c w => exists u, moving u w (points (fst c)) (points (snd c))) cs ws ->
  Forall (fun c => exists J, forall u, mapply J (inertia_map mass (points (fst c)) u) = u) cs ->
  py_reads float (snd (py_open contents)) cs -> (length cs < fuel)%nat ->
  compute_every float (framed st (rotation_frequency inv)) tt mass dt w fuel contents = Ok (Some (combine (sample_times dt w (length cs)) ws)).
Proof. exact rotation_series. Qed.
Print Assumptions series_rotation.

(** C96: the series of Eckart angular velocities takes the first snapshot as the reference for all. *)
Theorem series_eckart : forall float velocity mass dt w c0 ref cs ws fuel contents,
  0 <= mass -> dt <> 0 -> Forall (fun c => fst c <> []) (c0 :: cs) -> eckart_new (snap mass c0) = Ok ref ->
  Forall2 (fun c v => velocity ref (snap mass c) = Ok v) (c0 :: cs) ws ->
  py_reads float (snd (py_open contents)) (c0 :: cs) -> (length (c0 :: cs) < fuel)%nat ->
  compute_every float (measure_eckart velocity) None mass dt w fuel contents = Ok (Some (combine (sample_times dt w (length (c0 :: cs))) ws)).
Proof. exact eckart_series. Qed.
Print Assumptions series_eckart.

(** C96: potential energies and numbers of clusters: the first snapshot and every [every]-th after it, where [every] time steps are the least that make up a time of 100; and the loop ends. *)
Theorem series_sparse : forall float V (measure : coll -> result V) dt w every cs (v : nat -> V) fuel contents,
  0 < dt -> (0 < every)%nat -> INR (every - 1) * dt < 100 -> 100 <= INR every * dt -> (0 <= w)%Z ->
  py_reads float (snd (py_open contents)) cs -> Forall (fun c => fst c <> []) cs -> (length cs + every < fuel)%nat ->
  (forall j c, nth_error cs j = Some c -> (j mod every = 0)%nat -> measure (collection_of c) = Ok (v j)) ->
  compute_some float measure dt w fuel contents = Ok (Some (map (fun j => ((IZR w + INR (S j)) * dt, v j)) (multiples every (length cs)))).
Proof. intros float V measure dt w every cs v fuel contents H1 H2 H3 H4. exact (compute_some_ok float V measure dt w every H1 H2 H3 H4 cs v fuel contents). Qed.
Print Assumptions series_sparse.
(** What is measured are the potential energy, and the clusters with distance 2.5, of the positions in the snapshot. *)
Theorem series_sparse_values : forall st p fuel c, Z.of_nat (length (fst c)) = py_count st ->
  let at_ i := nth (Z.to_nat i) (points (fst c)) zero3 in
  unframed st (measure_energy st p) (collection_of c) = py_getPotentialEnergy st p (Some at_) /\
  unframed st (measure_clusters fuel st) (collection_of c) = match py_getMagneticClusters fuel st (Some at_) (5 / 2) with Ok l => Ok (length l) | Err e => Err e end.
Proof.
  intros st p fuel c L. cbv zeta.
  assert (E : pos_values (collection_of c) = points (fst c)).
  { assert (A := snap_pos 0 c). rewrite <- A. unfold pos_values, collection_of, snap. cbn [ph PartModel.positions]. rewrite points_vec. reflexivity. }
  unfold unframed, setParticles. cbn [collection_of PartModel.positions]. rewrite seq_length, L, Z.eqb_refl. cbn [negb bind].
  unfold measure_energy, measure_clusters, by_number. fold (collection_of c). rewrite E. unfold zero3. split; [reflexivity|].
  destruct (py_getMagneticClusters fuel st _ (5 / 2)); reflexivity.
Qed.
Print Assumptions series_sparse_values.
(** A snapshot with another number of particles is an error in all analyses but the Eckart one. *)
Theorem series_wrong_count : forall V st (value : coll -> result V) c, Z.of_nat (length (PartModel.positions c)) <> py_count st ->
  unframed st value c = Err ValueError /\ forall c', PartModel.shift c = Ok c' -> framed st value tt c = Err ValueError.
Proof.
  intros V st value c N. assert (B : (Z.of_nat (length (PartModel.positions c)) =? py_count st)%Z = false) by (apply Z.eqb_neq; exact N). split.
  - unfold unframed, setParticles. rewrite B. reflexivity.
  - intros c' E. unfold framed. rewrite E. cbn [bind]. unfold setParticles.
    assert (L : length (PartModel.positions c') = length (PartModel.positions c)).
    { revert E. unfold PartModel.shift. destruct (center_of_mass c); [|discriminate]. cbn [bind]. destruct (center_of_mass_velocity c); [|discriminate]. cbn [bind].
      intros X. injection X as <-. cbn [PartModel.positions]. rewrite seq_length, map_length. unfold pos_values. apply map_length. }
    rewrite L, B. reflexivity.
Qed.
Print Assumptions series_wrong_count.

(** C96: if sweeps have a single step, the times are those at which the simulation wrote the snapshots. *)
Theorem series_times : forall dt w n, sample_times dt (Z.of_nat w) n = snapshot_times dt w 1 n.
Proof.
  intros dt w n. rewrite snapshot_times_ok. unfold sample_times. apply map_ext. intros i. rewrite Nat.mul_1_r, plus_INR, <- INR_IZR_INZ. reflexivity.
Qed.
Print Assumptions series_times.
(** C96 is false for any other number of steps per sweep: then all times but the one before the first snapshot are wrong. *)
Theorem series_times_refuted : forall dt w sweepSize n i, dt <> 0 -> sweepSize <> 1%nat -> (i < n)%nat ->
  nth i (snapshot_times dt w sweepSize n) 0 = INR (w + S i * sweepSize) * dt /\
  nth i (sample_times dt (Z.of_nat w) n) 0 <> nth i (snapshot_times dt w sweepSize n) 0.
Proof.
  intros dt w k n i Hd Hk Hi.
  assert (A : nth i (snapshot_times dt w k n) 0 = INR (w + S i * k) * dt).
  { rewrite snapshot_times_ok. rewrite (nth_indep _ 0 (INR (w + 0 * k) * dt)) by (rewrite map_length, seq_length; exact Hi).
    rewrite (map_nth (fun j => INR (w + j * k) * dt)), seq_nth by exact Hi. reflexivity. }
  split; [exact A|]. rewrite A. unfold sample_times.
  rewrite (nth_indep _ 0 ((IZR (Z.of_nat w) + INR 0) * dt)) by (rewrite map_length, seq_length; exact Hi).
  rewrite (map_nth (fun j => (IZR (Z.of_nat w) + INR j) * dt)), seq_nth by exact Hi. rewrite <- INR_IZR_INZ, <- plus_INR. intros E.
  apply Rmult_eq_reg_r in E; [|exact Hd]. apply INR_eq in E. cbn [Nat.add] in E.
  destruct k as [|[|k]]; [lia|congruence|]. nia.
Qed.
Print Assumptions series_times_refuted.

(** A file with two snapshots of two particles, and its analysis. *)
Definition two_snapshots : list (list (R * R * R) * list (R * R * R)) :=
  [([(1, 0, 0); (0, 0, 0)], [(0, 1, 0); (0, 0, 0)]); ([(5, 2, 0); (5, 0, 0)], [(0, 0, 0); (0, 0, 0)])].
Definition digit (t : string) : option R := match Z_of_str t with Some z => Some (IZR z) | None => None end.
Definition two_file : string := fst (py_written str_of_Z false (text_with ["atom 0:1"])
  [([(1, 0, 0); (0, 0, 0)], [(0, 1, 0); (0, 0, 0)]); ([(5, 2, 0); (5, 0, 0)], [(0, 0, 0); (0, 0, 0)])]%Z).
Example series_example :
  py_reads digit (snd (py_open two_file)) two_snapshots /\ Forall (fun c => fst c <> []) two_snapshots /\
  Forall (full_snapshot 2) two_snapshots /\ sample_times (1 / 10) 100 2 = [101 / 10; 102 / 10] /\
  moments_of (points (fst (nth 0 two_snapshots ([], [])))) (0, 0, 1 / 4) /\ moments_of (points (fst (nth 1 two_snapshots ([], [])))) (0, 0, 1).
Proof.
  split; [|split; [|split; [|split; [|split]]]].
  - eexists. split; [vm_compute; reflexivity|]. eexists. split; [vm_compute; reflexivity|]. split; [|reflexivity]. reflexivity.
  - repeat constructor; cbn; congruence.
  - repeat constructor; cbn; congruence.
  - unfold sample_times. cbn [seq map INR]. repeat (apply f_equal2; [lra|]). reflexivity.
  - cbn [nth two_snapshots fst points map snd]. split; [|lra]. intros t. unfold charpoly, gyr_row, gyr, det3, minus3. cbn. field.
  - cbn [nth two_snapshots fst points map snd]. split; [|lra]. intros t. unfold charpoly, gyr_row, gyr, det3, minus3. cbn. field.
Qed.
Example series_sparse_example : INR (40 - 1) * (5 / 2) < 100 /\ 100 <= INR 40 * (5 / 2) /\ multiples 40 100 = [0; 40; 80]%nat.
Proof.
  rewrite !INR_IZR_INZ. split; [replace (Z.of_nat (40 - 1)) with 39%Z by reflexivity; lra|]. split; [replace (Z.of_nat 40) with 40%Z by reflexivity; lra|]. vm_compute. reflexivity.
Qed.

(** * C97: the cache *)
Section CacheT.
Variable cwd : path.
Variables (M : Type) (dump : M -> string) (load : string -> option M) (meta_eqb : M -> M -> bool).
Variables (K V : Type) (key_eqb : K -> K -> bool).
Variables (str_k : K -> string) (str_v : V -> string).
Variables (keyI : string -> result K) (valueI : string -> result V).
Hypothesis key_eqb_spec : forall a b, key_eqb a b = true <-> a = b.
Notation value := (getValueAsFunctionOfTime cwd M dump load meta_eqb K V key_eqb str_k str_v keyI valueI).
Notation has := (hasDataInCache cwd M load meta_eqb K V).
Notation update := (updateCache cwd M dump load meta_eqb K V str_k str_v).
Notation name := (cacheFilename M K V).
Notation meta := (cacheMetadata M K V).

(** C97: without cached data, an analysis computes; from then on it returns the same data without computing, and changes no files. *)
Theorem analysis_cached : forall c F a d F', ca_write c = None -> name_ok (name a) -> load (dump (meta a)) = Some (meta a) -> meta_eqb (meta a) (meta a) = true ->
  has c F a = Ok false -> computeValue M K V a F = Ok d -> NoDup (map fst d) -> (forall kv, In kv d -> entry_ok K V str_k str_v keyI valueI kv) ->
  value c F a = Ok (d, F') ->
  forall b, name b = name a -> meta b = meta a -> has c F' b = Ok true /\ value c F' b = Ok (d, F') /\ update false c F' b = Ok F'.
Proof.
  intros c F a d F' W N L E H C ND EO G b Fb Mb. unfold getValueAsFunctionOfTime in G. rewrite H in G. cbn [bind] in G. rewrite C in G. cbn [bind] in G.
  destruct (storeDataInCache cwd M dump K V str_k str_v c F a d) as [F1|] eqn:St; [|discriminate]. cbn [bind] in G. injection G as <-.
  exact (stored_value cwd M dump load meta_eqb K V key_eqb str_k str_v keyI valueI key_eqb_spec c F a d F1 W N L E ND EO St b Fb Mb).
Qed.
(** C97: a forced update computes, whatever is cached, and the new data are returned afterwards; an update that is not forced computes if nothing is cached. *)
Theorem analysis_update : forall forced c F a d F', ca_write c = None -> name_ok (name a) -> load (dump (meta a)) = Some (meta a) -> meta_eqb (meta a) (meta a) = true ->
  forced = true \/ has c F a = Ok false -> computeValue M K V a F = Ok d -> NoDup (map fst d) -> (forall kv, In kv d -> entry_ok K V str_k str_v keyI valueI kv) ->
  update forced c F a = Ok F' -> value c F' a = Ok (d, F').
Proof.
  intros forced c F a d F' W N L E H C ND EO G. unfold updateCache in G.
  assert (S0 : (if negb forced then has c F a else Ok false) = Ok false) by (destruct H as [-> | H]; [reflexivity|destruct forced; [reflexivity|exact H]]).
  rewrite S0 in G. cbn [bind] in G. rewrite C in G. cbn [bind] in G.
  exact (proj1 (proj2 (stored_value cwd M dump load meta_eqb K V key_eqb str_k str_v keyI valueI key_eqb_spec c F a d F' W N L E ND EO G a eq_refl eq_refl))).
Qed.
(** C97: an exception while computing is passed on, and nothing is stored. *)
Theorem analysis_fails : forall c F a e, has c F a = Ok false -> computeValue M K V a F = Err e ->
  value c F a = Err e /\ (forall forced, update forced c F a = Err e).
Proof.
  intros c F a e H C. split.
  - unfold getValueAsFunctionOfTime. rewrite H. cbn [bind]. rewrite C. reflexivity.
  - intros forced. unfold updateCache. destruct forced; cbn [negb bind]; [|rewrite H; cbn [bind]]; rewrite C; reflexivity.
Qed.
End CacheT.
Print Assumptions analysis_cached.
Print Assumptions analysis_update.
Print Assumptions analysis_fails.

(** An analysis of a file with a text, with keys and values that are texts. *)
Definition ex_analysis : analysis string string string :=
  Analysis string string string "asphericity.txt" "cacheVersion: 1" (fun F => do t <- read ["w"] F "/w/a/snapshots"; Ok [("1", t)]).
Definition ex_value := getValueAsFunctionOfTime ["w"] string (fun s => s) Some String.eqb string string String.eqb (fun s => s) (fun s => s) (fun s => Ok s) strip_nl.
Definition ex_files (t : string) : fs := match write ["w"] (ex_dirs ["a"]) "/w/a/snapshots" t with Ok F => F | Err _ => [] end.
(** C97 is false once the snapshots change: the old data are returned. *)
Theorem analysis_stale_refuted : exists F1 F2, 
  ex_value ex_cache (ex_files "2.5") ex_analysis = Ok ([("1", "2.5")], F1) /\ write ["w"] F1 "/w/a/snapshots" "7.5" = Ok F2 /\
  computeValue string string string ex_analysis F2 = Ok [("1", "7.5")] /\ ex_value ex_cache F2 ex_analysis = Ok ([("1", "2.5")], F2).
Proof. eexists. eexists. split; [vm_compute; reflexivity|]. split; [vm_compute; reflexivity|]. split; vm_compute; reflexivity. Qed.
Print Assumptions analysis_stale_refuted.
(** C97 is false if there is a separate path for writing: what has been stored is not found. *)
Theorem analysis_write_path_refuted : exists c F1 d, ca_write c <> None /\
  ex_value c (ex_files "2.5") ex_analysis = Ok (d, F1) /\ hasDataInCache ["w"] string Some String.eqb string string c F1 ex_analysis = Ok false.
Proof.
  exists (mk_cache "/w/a" (Some "/w/out")). eexists. eexists. split; [discriminate|]. split; vm_compute; reflexivity.
Qed.
Print Assumptions analysis_write_path_refuted.
(** C97 is false of analyses of vectors: what is returned the first time are vectors, but later tuples. *)
Theorem analysis_vectors_refuted : forall cwd M dump load meta_eqb K key_eqb str_k keyI literal_eval c F a d F' d' F'',
  (forall t v, literal_eval t = Ok v -> exists x y z, v = Tuple x y z) ->
  getValueAsFunctionOfTime cwd M dump load meta_eqb K py_value key_eqb str_k str_value keyI literal_eval c F a = Ok (d, F') ->
  Forall (fun kv => exists x y z, snd kv = Vector3DReal x y z) d -> d <> [] ->
  hasDataInCache cwd M load meta_eqb K py_value c F' a = Ok true ->
  getValueAsFunctionOfTime cwd M dump load meta_eqb K py_value key_eqb str_k str_value keyI literal_eval c F' a = Ok (d', F'') -> d' <> d.
Proof.
  intros cwd M dump load meta_eqb K key_eqb str_k keyI literal_eval c F a d F' d' F'' Hl G Hd N H G' E. subst d'.
  destruct (cached_values cwd M dump load meta_eqb K py_value key_eqb str_k str_value keyI literal_eval c F' a d F'' H G') as (_ & A).
  destruct d as [|kv d]; [congruence|]. destruct (A kv (or_introl eq_refl)) as (t & Et). destruct (Hl t _ Et) as (x & y & z & T).
  inversion Hd as [|kv' d' (x' & y' & z' & T') _]; subst. congruence.
Qed.
Print Assumptions analysis_vectors_refuted.
Definition ex_tuple (t : string) : result py_value := if String.eqb t ("(1.0, 2.0, 3.0)" ++ nl1)%string then Ok (Tuple "1.0" "2.0" "3.0") else Err ValueError.
Definition ex_vectors : analysis string string py_value := Analysis string string py_value "rotationFrequencies.txt" "1" (fun _ => Ok [("0.1", Vector3DReal "1.0" "2.0" "3.0")]).
Definition ex_value_of := getValueAsFunctionOfTime ["w"] string (fun s => s) Some String.eqb string py_value String.eqb (fun s => s) str_value (fun s => Ok s) ex_tuple.
Example analysis_vectors_example : exists F1,
  ex_value_of ex_cache (ex_dirs ["a"]) ex_vectors = Ok ([("0.1", Vector3DReal "1.0" "2.0" "3.0")], F1) /\
  hasDataInCache ["w"] string Some String.eqb string py_value ex_cache F1 ex_vectors = Ok true /\
  ex_value_of ex_cache F1 ex_vectors = Ok ([("0.1", Tuple "1.0" "2.0" "3.0")], F1).
Proof. eexists. split; [vm_compute; reflexivity|]. split; vm_compute; reflexivity. Qed.
