(** Transverse velocity correlation functions: C90, C91. *)
From Coq Require Import String Ascii List ZArith Bool Reals Lra Lia Sorting.Sorted.
From Verif Require Import PyBase StrBase VecModel VecSpec VecProof VtfModel VtfSpec VtfPyModel VtfStepProof FourModel TvcModel TvcSpec TvcTextProof TvcProof TvcRunProof TvcPyProof.
Import ListNotations.
Open Scope list_scope.
Open Scope R_scope.

(** C90: program and script compute the part of a velocity that is perpendicular to a vector. *)
Theorem transverse_parts : forall k v w, k <> Vec 0 0 0 ->
  (transverse k v w <-> w = part_across k v) /\ (cv_perpendicular v (complex_vector k) = Ok w <-> transverse k v w) /\ (py_perpendicular v (complex_vector k) = Ok w <-> transverse k v w).
Proof.
  intros k v w N. rewrite (cpp_across k v N), (py_across k v N), (across_transverse k v w N). split; [reflexivity|]. split; (split; [intros E; injection E as <-; reflexivity|intros ->; reflexivity]).
Qed.
Print Assumptions transverse_parts.

(** C90: what is in the tables. *)
Theorem transverse_tables : forall (F : Type) (value : F -> R) (show : F -> string) (read : string -> option F) box minimumTime maximumTime dt runs,
  prints show read -> nonzero_box box -> 0 < dt ->
  (forall r, In r runs -> let k := vector_of F value (fst r) in
     k <> Vec 0 0 0 /\ mean_of (correlated F value box minimumTime runs k 0) <> 0 /\ complete F value box minimumTime maximumTime dt runs k) ->
  exists ks n, StronglySorted lex3 ks /\ (forall k, In k ks <-> exists r, In r runs /\ vector_of F value (fst r) = k) /\ (forall s, (s < n)%nat <-> INR s * dt < maximumTime)
  /\ writePlotfiles F value read box minimumTime maximumTime dt (map (fun r => saveFourierTransformedVelocities F show (fst r) (snd r)) runs)
     = (map (fun k => (k, map (fun s => let data := correlated F value box minimumTime runs k in
                                        Row (INR s * dt) (mean_of (data s) / mean_of (data 0%nat)) (mean_of (data s)) (length (data s))) (seq 0 n))) ks, None).
Proof.
  intros F value show read box m T dt runs P B D H. destruct (grouped F value show read P runs) as (ks & S & I & E). exists ks, (max_stride T dt).
  split; [exact S|]. split; [exact I|]. split; [intros s; apply max_stride_spec, D|]. unfold writePlotfiles.
  change (map (fun r => saveFourierTransformedVelocities F show (fst r) (snd r)) runs) with (map (saved F show) runs). rewrite E.
  apply (plot_all F value show read P box m T dt runs D B). intros k K. apply I in K. destruct K as (r & R & <-). apply (H r R).
Qed.
Print Assumptions transverse_tables.

(** C90: times between the velocities in a row. *)
Theorem transverse_times : forall (F : Type) (value : F -> R) dt minimumTime samples s a b, 0 < dt -> regular dt (map (time_of F value) samples) ->
  In (a, b) (lag_pairs s (late F value minimumTime samples)) -> time_of F value a - time_of F value b = INR s * dt.
Proof. intros F value dt m l s a b D R I. apply (lag_times F value dt s (late F value m l)); [apply late_regular; assumption|exact I]. Qed.
Print Assumptions transverse_times.

(** C90: the program fails if there are fewer than two products for a time. *)
Theorem transverse_incomplete : forall (F : Type) (value : F -> R) (show : F -> string) (read : string -> option F) box minimumTime maximumTime dt runs r,
  prints show read -> nonzero_box box -> 0 < dt -> (forall r, In r runs -> vector_of F value (fst r) <> Vec 0 0 0) ->
  In r runs -> ~ complete F value box minimumTime maximumTime dt runs (vector_of F value (fst r)) ->
  let out := writePlotfiles F value read box minimumTime maximumTime dt (map (fun r => saveFourierTransformedVelocities F show (fst r) (snd r)) runs) in
  snd out = Some InvalidCallException /\ (forall k, In k (map fst (fst out)) -> ~ lex3 (vector_of F value (fst r)) k).
Proof.
  intros F value show read box m T dt runs r P B D H R C out. destruct (grouped F value show read P runs) as (ks & S & I & E). subst out. unfold writePlotfiles.
  change (map (fun r => saveFourierTransformedVelocities F show (fst r) (snd r)) runs) with (map (saved F show) runs). rewrite E.
  apply (plot_short F value show read P box m T dt runs D B); [|exact S|apply I; exists r; auto|exact C]. intros k K. apply I in K. destruct K as (r' & R' & <-). apply H, R'.
Qed.
Print Assumptions transverse_incomplete.

(** C90: a wave vector of zero ends the program. *)
Theorem transverse_zero : forall (F : Type) (value : F -> R) (show : F -> string) (read : string -> option F) box minimumTime maximumTime dt runs r,
  prints show read -> In r runs -> vector_of F value (fst r) = Vec 0 0 0 -> late F value minimumTime (snd r) <> [] ->
  let out := writePlotfiles F value read box minimumTime maximumTime dt (map (fun r => saveFourierTransformedVelocities F show (fst r) (snd r)) runs) in
  snd out <> None /\ (forall k, In k (map fst (fst out)) -> ~ lex3 (Vec 0 0 0) k).
Proof.
  intros F value show read box m T dt runs r P R Z L out. destruct (grouped F value show read P runs) as (ks & S & I & E). subst out. unfold writePlotfiles.
  change (map (fun r => saveFourierTransformedVelocities F show (fst r) (snd r)) runs) with (map (saved F show) runs). rewrite E.
  apply (plot_zero F value show read P box m T dt runs); [exact S|apply I; exists r; auto|exists r; auto].
Qed.
Print Assumptions transverse_zero.

(** C91: what the script computes. *)
Theorem transverse_script : forall (F : Type) (value : F -> R) (show : F -> string) (read : string -> option F) maxStrides dt k_n runs,
  prints show read -> 0 < dt -> (0 < maxStrides)%nat -> vector_of F value k_n <> Vec 0 0 0 -> (forall l, In l runs -> regular dt (map (time_of F value) l)) ->
  let data := fun s => lag_data s (map (map (fun x => part_across (vector_of F value k_n) (velocity_of F value x))) runs) in
  mean_of (data 0%nat) <> 0 ->
  (forall l, py_integer_components F value read (saveFourierTransformedVelocities F show k_n l) = Ok (vector_of F value k_n))
  /\ py_correlation F value read maxStrides (vector_of F value k_n) (map (saveFourierTransformedVelocities F show k_n) runs)
     = Ok (map (fun s => (INR s * dt, mean_of (data s) / mean_of (data 0%nat))) (seq 0 (Nat.min maxStrides (longest runs)))).
Proof.
  intros F value show read N dt k_n runs P D NP K R data M. split; [intros l; rewrite (py_header_read F value show read P); reflexivity|].
  set (rs := map (fun l => (k_n, l)) runs).
  pose proof (script F value show read P dt N (vector_of F value k_n) rs D K) as H.
  assert (E1 : map snd rs = runs) by (subst rs; rewrite map_map; apply map_id).
  assert (E2 : map (saved F show) rs = map (saveFourierTransformedVelocities F show k_n) runs) by (subst rs; rewrite map_map; reflexivity).
  assert (E3 : map (fun r : F * F * F * list (F * (F * F * F * F * F * F)) => map (fun x => part_across (vector_of F value k_n) (velocity_of F value x)) (snd r)) rs
    = map (map (fun x => part_across (vector_of F value k_n) (velocity_of F value x))) runs) by (subst rs; rewrite map_map; reflexivity).
  rewrite E1, E2, E3 in H. apply H; [|exact NP|exact M]. intros r I. apply R. rewrite <- E1. apply (in_map snd), I.
Qed.
Print Assumptions transverse_script.

(** C91: in a cube, this is what the program computes, if no measurement is left out. *)
Theorem transverse_script_cube : forall (F : Type) (value : F -> R) L minimumTime k_n runs s, (L <> 0)%Z -> vector_of F value k_n <> Vec 0 0 0 ->
  (forall l, In l runs -> forall x, In x l -> minimumTime <= time_of F value x) ->
  lag_data s (map (map (fun x => part_across (vector_of F value k_n) (velocity_of F value x))) runs)
  = correlated F value (L, L, L) minimumTime (map (fun l => (k_n, l)) runs) (vector_of F value k_n) s.
Proof.
  intros F value L m k_n runs s B K T. unfold correlated. f_equal.
  replace (of_vector F value (vector_of F value k_n) (map (fun l => (k_n, l)) runs)) with (map (fun l => (k_n, l)) runs).
  - rewrite map_map. apply map_ext_in. intros l I. cbn [snd]. rewrite late_all by (intros x X; specialize (T l I x X); lra). apply map_ext. intros x. rewrite across_cube by assumption. reflexivity.
  - unfold of_vector. clear T. induction runs as [|l runs IH]; [reflexivity|]. cbn [map filter fst]. destruct (vec_dec (vector_of F value k_n) (vector_of F value k_n)); [|congruence]. rewrite <- IH. reflexivity.
Qed.
Print Assumptions transverse_script_cube.

(** Two equal runs with two measurements each. *)
Definition ex_run : list (Z * (Z * Z * Z * Z * Z * Z)) := [(0, (1, 0, 0, 0, 0, 0)); (1, (0, 0, 1, 0, 0, 0))]%Z.
Definition ex_runs : list (Z * Z * Z * list (Z * (Z * Z * Z * Z * Z * Z))) := [((1, 1, 0)%Z, ex_run); ((1, 1, 0)%Z, ex_run)].
Lemma ex_regular : regular 1 (map (time_of Z IZR) ex_run).
Proof.
  intros i j d I J. unfold ex_run in *. cbn [map length] in I, J. unfold ex_run, time_of. cbn [map fst].
  destruct i as [|[|]], j as [|[|]]; try lia; cbn [nth INR]; lra.
Qed.
Lemma ex_late : late Z IZR 0 ex_run = ex_run.
Proof. apply late_all. intros x [<-|[<-|[]]] Q; unfold time_of in Q; cbn [fst] in Q; lra. Qed.
Lemma components_eq a b c d e f a' b' c' d' e' f' : a = a' -> b = b' -> c = c' -> d = d' -> e = e' -> f = f' ->
  CVec (Cplx a b) (Cplx c d) (Cplx e f) = CVec (Cplx a' b') (Cplx c' d') (Cplx e' f').
Proof. intros. subst. reflexivity. Qed.
Lemma ex_correlated s : correlated Z IZR (10, 20, 10)%Z 0 ex_runs (Vec 1 1 0) s
  = lag_data s (repeat [complex3 (Vec (1/5) (-2/5) 0) (Vec 0 0 0); complex3 (Vec (-2/5) (4/5) 0) (Vec 0 0 0)] 2).
Proof.
  unfold correlated, of_vector, ex_runs. cbn [filter fst vector_of]. destruct (vec_dec (Vec 1 1 0) (Vec 1 1 0)); [|congruence]. cbn [map snd repeat]. rewrite ex_late.
  replace (wave_vector (10, 20, 10)%Z (Vec 1 1 0)) with (times3 (PI / 10) (Vec 2 1 0)).
  2:{ unfold wave_vector, times3. cbn [vx vy vz]. f_equal; lra. }
  assert (E : map (fun x => part_across (times3 (PI / 10) (Vec 2 1 0)) (velocity_of Z IZR x)) ex_run = [complex3 (Vec (1/5) (-2/5) 0) (Vec 0 0 0); complex3 (Vec (-2/5) (4/5) 0) (Vec 0 0 0)]).
  { unfold ex_run. cbn [map]. rewrite !(across_scaled (PI / 10) (Vec 2 1 0)) by (first [pose proof PI_RGT_0; intros Q; lra | intros Q; injection Q; intros; lra]).
    unfold part_across. replace (dot3 (Vec 2 1 0) (Vec 2 1 0)) with 5 by (unfold dot3; cbn [vx vy vz]; lra).
    unfold velocity_of, complex3, minus3, times3, dot3, cre, cim. cbn [fst snd vx vy vz re im cvx cvy cvz]. f_equal; [apply components_eq; lra|f_equal; apply components_eq; lra]. }
  rewrite E. reflexivity.
Qed.
Lemma ex_means : mean_of (correlated Z IZR (10, 20, 10)%Z 0 ex_runs (Vec 1 1 0) 0) = 1/2 /\ mean_of (correlated Z IZR (10, 20, 10)%Z 0 ex_runs (Vec 1 1 0) 1) = -2/5
  /\ length (correlated Z IZR (10, 20, 10)%Z 0 ex_runs (Vec 1 1 0) 0) = 4%nat /\ length (correlated Z IZR (10, 20, 10)%Z 0 ex_runs (Vec 1 1 0) 1) = 2%nat.
Proof.
  rewrite !ex_correlated. unfold mean_of, lag_data, lag_pairs. cbn [repeat flat_map skipn combine map app length fold_right fst snd INR].
  unfold product, dot3, cre, cim, complex3. cbn [vx vy vz re im cvx cvy cvz]. repeat split; lra.
Qed.
Example transverse_ex :
  writePlotfiles Z IZR Z_of_str (10, 20, 10)%Z 0 2 1 (map (fun r => saveFourierTransformedVelocities Z str_of_Z (fst r) (snd r)) ex_runs)
  = ([(Vec 1 1 0, [Row 0 1 (1/2) 4; Row 1 (-4/5) (-2/5) 2])], None).
Proof.
  destruct ex_means as (M0 & M1 & L0 & L1).
  destruct (transverse_tables Z IZR str_of_Z Z_of_str (10, 20, 10)%Z 0 2 1 ex_runs integers_print) as (ks & n & S & I & N & ->).
  - cbn [nonzero_box]. lia.
  - lra.
  - intros r R. assert (vector_of Z IZR (fst r) = Vec 1 1 0) as -> by (destruct R as [<-|[<-|[]]]; reflexivity). cbv zeta. split; [intros Q; injection Q; intros; lra|]. split; [rewrite M0; lra|].
    intros s Q. destruct s as [|[|s]]; [lia|lia|]. rewrite !S_INR in Q. pose proof (pos_INR s). lra.
  - assert (n = 2%nat) as ->.
    { pose proof (N 1%nat) as A. pose proof (N 2%nat) as A'. cbn [INR] in A, A'. assert (1 < n)%nat by (apply A; lra). assert (~ (2 < n)%nat) by (intros Q; apply A' in Q; lra). lia. }
    assert (ks = [Vec 1 1 0]) as ->.
    { assert (K : forall k, In k ks <-> k = Vec 1 1 0). { intros k. rewrite I. split; [intros (r & [<-|[<-|[]]] & <-); reflexivity|]. intros ->. exists ((1, 1, 0)%Z, ex_run). split; [left; reflexivity|reflexivity]. }
      destruct ks as [|k ks]; [destruct (proj2 (K (Vec 1 1 0)) eq_refl)|]. rewrite (proj1 (K k) (or_introl eq_refl)) in *. destruct ks as [|k' ks]; [reflexivity|]. exfalso.
      inversion S as [|? ? _ Q]. inversion Q as [|? ? Q' _]. rewrite (proj1 (K k') (or_intror (or_introl eq_refl))) in Q'. exact (lex3_irrefl _ Q'). }
    cbn [map seq]. cbv zeta. rewrite M0, M1, L0, L1. cbn [INR]. replace (0 * 1) with 0 by lra. replace (1 * 1) with 1 by lra. replace (1 / 2 / (1 / 2)) with 1 by lra. replace (-2 / 5 / (1 / 2)) with (-4 / 5) by lra. reflexivity.
Qed.
(** C91: the script uses the integer components in place of the wave vector, which makes a difference if the sides of the box are not equal. *)
Theorem transverse_script_refuted : ~ (forall (F : Type) (value : F -> R) (show : F -> string) (read : string -> option F) maxStrides box maximumTime dt k_n runs rows points,
  prints show read -> nonzero_box box -> 0 < dt -> vector_of F value k_n <> Vec 0 0 0 -> (forall l, In l runs -> regular dt (map (time_of F value) l)) ->
  writePlotfiles F value read box 0 maximumTime dt (map (saveFourierTransformedVelocities F show k_n) runs) = ([(vector_of F value k_n, rows)], None) ->
  py_correlation F value read maxStrides (vector_of F value k_n) (map (saveFourierTransformedVelocities F show k_n) runs) = Ok points ->
  forall t c c', In (t, c) (map (fun r => (time r, normalized r)) rows) -> In (t, c') points -> c = c').
Proof.
  intros H.
  destruct (transverse_script Z IZR str_of_Z Z_of_str 2 1 (1, 1, 0)%Z [ex_run; ex_run] integers_print) as (_ & E).
  - lra.
  - lia.
  - cbn [vector_of]. intros Q; injection Q; intros; lra.
  - intros l [<-|[<-|[]]]; apply ex_regular.
  - unfold mean_of, lag_data, lag_pairs, ex_run, part_across, velocity_of, vector_of. cbn [flat_map skipn combine map app length fold_right fst snd INR].
    unfold product, dot3, cre, cim, complex3, minus3, times3. cbn [vx vy vz re im cvx cvy cvz]. lra.
  - assert (Q : -4/5 = -1); [|lra]. eapply (H Z IZR str_of_Z Z_of_str 2%nat (10, 20, 10)%Z 2 1 (1, 1, 0)%Z [ex_run; ex_run]); [exact integers_print| | | | |exact transverse_ex|exact E|right; left; reflexivity|].
    + cbn [nonzero_box]. lia.
    + lra.
    + cbn [vector_of]. intros Q; injection Q; intros; lra.
    + intros l [<-|[<-|[]]]; apply ex_regular.
    + cbn [time]. right. left. cbn [INR]. f_equal; [lra|].
      unfold mean_of, lag_data, lag_pairs, ex_run, part_across, velocity_of, vector_of. cbn [flat_map skipn combine map app length fold_right fst snd INR].
      unfold product, dot3, cre, cim, complex3, minus3, times3. cbn [vx vy vz re im cvx cvy cvz]. lra.
Qed.
Print Assumptions transverse_script_refuted.

(** A single run of that kind has only one product for the second row; and a run with a wave vector of zero. *)
Example transverse_incomplete_ex :
  snd (writePlotfiles Z IZR Z_of_str (10, 20, 10)%Z 0 2 1 [saveFourierTransformedVelocities Z str_of_Z (1, 1, 0)%Z ex_run]) = Some InvalidCallException.
Proof.
  refine (proj1 (transverse_incomplete Z IZR str_of_Z Z_of_str (10, 20, 10)%Z 0 2 1 [((1, 1, 0)%Z, ex_run)] ((1, 1, 0)%Z, ex_run) integers_print _ _ _ _ _)).
  - cbn [nonzero_box]. lia.
  - lra.
  - intros r [<-|[]]. cbn [fst vector_of]. intros Q; injection Q; intros; lra.
  - left. reflexivity.
  - intros C. specialize (C 1%nat). cbn [INR] in C. specialize (C ltac:(lra)). unfold correlated, of_vector in C. cbn [filter fst] in C.
    destruct (vec_dec (vector_of Z IZR (1, 1, 0)%Z) (vector_of Z IZR (1, 1, 0)%Z)); [|congruence]. cbn [map snd] in C. rewrite ex_late in C. rewrite lag_data_length in C. cbn [map ex_run length fold_right] in C. lia.
Qed.
Example transverse_zero_ex :
  snd (writePlotfiles Z IZR Z_of_str (10, 20, 10)%Z 0 2 1 [saveFourierTransformedVelocities Z str_of_Z (0, 0, 0)%Z ex_run]) <> None.
Proof.
  refine (proj1 (transverse_zero Z IZR str_of_Z Z_of_str (10, 20, 10)%Z 0 2 1 [((0, 0, 0)%Z, ex_run)] ((0, 0, 0)%Z, ex_run) integers_print _ _ _)).
  - left. reflexivity.
  - reflexivity.
  - cbn [snd]. rewrite ex_late. discriminate.
Qed.
