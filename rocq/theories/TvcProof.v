(** Proofs about transverse velocity correlation functions. *)
From Coq Require Import String Ascii List ZArith Bool Reals Lra Lia.
From Verif Require Import PyBase StrBase VecModel VecSpec VtfModel VtfSpec VtfPyModel FourModel TvcModel TvcSpec TvcTextProof.
Import ListNotations.
Open Scope list_scope.
Open Scope R_scope.

(** * Transverse parts *)
Lemma dot3_pos k : k <> Vec 0 0 0 -> 0 < dot3 k k.
Proof.
  intros N. destruct k as [x y z]. unfold dot3. cbn [vx vy vz].
  destruct (Req_dec x 0) as [->|X]; [|assert (0 < x * x) by nra; nra].
  destruct (Req_dec y 0) as [->|Y]; [|assert (0 < y * y) by nra; nra].
  destruct (Req_dec z 0) as [->|Z']; [congruence|assert (0 < z * z) by nra; nra].
Qed.
Lemma complex_length k : cvlen2 (complex_vector k) = dot3 k k.
Proof. destruct k as [x y z]. unfold cvlen2, cvdot, cadd, cmul, cconj, complex_vector, cR, dot3. cbn [re im cvx cvy cvz vx vy vz]. ring. Qed.
Lemma across_by k v m : m * m = / dot3 k k ->
  let n := cvmul (complex_vector k) (cR m) in cvsub v (cvmul n (cvdot n v)) = part_across k v.
Proof.
  intros M. destruct k as [x y z], v as [[a a'] [b b'] [c c']].
  unfold part_across, cvsub, cvmul, cvdot, csub, cadd, cmul, cconj, complex_vector, cR, complex3, minus3, times3, cre, cim. cbn [re im cvx cvy cvz vx vy vz].
  unfold Rdiv. rewrite <- M. unfold dot3. cbn [vx vy vz]. f_equal; f_equal; ring.
Qed.
Lemma inv_sqrt k : k <> Vec 0 0 0 -> sqrt (dot3 k k) <> 0 /\ / sqrt (dot3 k k) * / sqrt (dot3 k k) = / dot3 k k.
Proof.
  intros N. pose proof (dot3_pos k N) as P. pose proof (sqrt_lt_R0 _ P) as S. split; [lra|].
  rewrite <- Rinv_mult. f_equal. apply sqrt_sqrt. lra.
Qed.
Lemma cpp_across k v : k <> Vec 0 0 0 -> cv_perpendicular v (complex_vector k) = Ok (part_across k v).
Proof.
  intros N. destruct (inv_sqrt k N) as (S & M). unfold cv_perpendicular, cv_normalized. rewrite complex_length.
  destruct (Req_EM_T (sqrt (dot3 k k)) 0); [contradiction|]. cbn [bind]. f_equal. apply (across_by k v _ M).
Qed.
Lemma py_across k v : k <> Vec 0 0 0 -> py_perpendicular v (complex_vector k) = Ok (part_across k v).
Proof.
  intros N. destruct (inv_sqrt k N) as (S & M). unfold py_perpendicular, py_normalized. rewrite complex_length.
  destruct (Req_EM_T (sqrt (dot3 k k)) 0); [contradiction|]. cbn [bind]. f_equal. apply across_by. unfold Rdiv. rewrite !Rmult_1_l. exact M.
Qed.
Lemma no_length : sqrt (dot3 (Vec 0 0 0) (Vec 0 0 0)) = 0.
Proof. replace (dot3 (Vec 0 0 0) (Vec 0 0 0)) with 0; [apply sqrt_0|]. unfold dot3. cbn [vx vy vz]. ring. Qed.
Lemma cpp_across_zero v : cv_perpendicular v (complex_vector (Vec 0 0 0)) = Err ZeroDivisionError.
Proof. unfold cv_perpendicular, cv_normalized. rewrite complex_length, no_length. destruct (Req_EM_T 0 0); [reflexivity|lra]. Qed.
Lemma across_transverse k v w : k <> Vec 0 0 0 -> transverse k v w <-> w = part_across k v.
Proof.
  intros N. pose proof (dot3_pos k N) as P. split.
  - intros ((a & b & A & B) & O1 & O2). unfold part_across.
    assert (E : forall u t c, u = plus3 t (times3 c k) -> dot3 k t = 0 -> minus3 u (times3 (dot3 k u / dot3 k k) k) = t).
    { intros u t c -> O. replace (dot3 k (plus3 t (times3 c k)) / dot3 k k) with c.
      - destruct t as [t1 t2 t3], k as [k1 k2 k3]. unfold minus3, plus3, times3. cbn [vx vy vz]. apply vec_ext; ring.
      - apply (Rmult_eq_reg_r (dot3 k k)); [|lra]. unfold Rdiv. rewrite Rmult_assoc, Rinv_l, Rmult_1_r by lra.
        transitivity (dot3 k t + c * dot3 k k); [rewrite O; ring|]. destruct t as [t1 t2 t3], k as [k1 k2 k3]. unfold dot3, plus3, times3. cbn [vx vy vz]. ring. }
    rewrite (E _ _ _ A O1), (E _ _ _ B O2). destruct w as [[] [] []]. reflexivity.
  - intros ->. change (part_across k v) with (let f := fun x => minus3 x (times3 (dot3 k x / dot3 k k) k) in complex3 (f (cre v)) (f (cim v))).
    cbv zeta. set (f := fun x => minus3 x (times3 (dot3 k x / dot3 k k) k)).
    assert (O : forall x, dot3 k (f x) = 0).
    { intros x. subst f. cbn beta. transitivity (dot3 k x - dot3 k x / dot3 k k * dot3 k k); [|field; lra].
      generalize (dot3 k x / dot3 k k). intros c. destruct x as [x1 x2 x3], k as [k1 k2 k3]. unfold dot3, minus3, times3. cbn [vx vy vz]. ring. }
    assert (RE : cre (complex3 (f (cre v)) (f (cim v))) = f (cre v)) by (generalize (f (cre v)); intros []; reflexivity).
    assert (IM : cim (complex3 (f (cre v)) (f (cim v))) = f (cim v)) by (generalize (f (cim v)); intros []; reflexivity).
    unfold transverse.
    change (minus3 (cre v) (times3 (dot3 k (cre v) / dot3 k k) k)) with (f (cre v)). change (minus3 (cim v) (times3 (dot3 k (cim v) / dot3 k k) k)) with (f (cim v)).
    rewrite RE, IM. split; [|split; apply O].
    exists (dot3 k (cre v) / dot3 k k), (dot3 k (cim v) / dot3 k k). split; subst f; cbn beta.
    + generalize (dot3 k (cre v) / dot3 k k). intros c. destruct (cre v) as [x1 x2 x3], k as [k1 k2 k3]. unfold plus3, minus3, times3. cbn [vx vy vz]. apply vec_ext; ring.
    + generalize (dot3 k (cim v) / dot3 k k). intros c. destruct (cim v) as [x1 x2 x3], k as [k1 k2 k3]. unfold plus3, minus3, times3. cbn [vx vy vz]. apply vec_ext; ring.
Qed.
Lemma product_dot a b : re (cvdot a b) = product a b.
Proof. destruct a as [[] [] []], b as [[] [] []]. unfold product, cvdot, cadd, cmul, cconj, dot3, cre, cim. cbn. ring. Qed.
Lemma product_self_pos a : 0 <= product a a.
Proof. destruct a as [[] [] []]. unfold product, dot3, cre, cim. cbn. nra. Qed.
Lemma self_dot_im a : im (cvdot a a) = 0.
Proof. destruct a as [[] [] []]. unfold cvdot, cadd, cmul, cconj. cbn. ring. Qed.

(** * Pairs *)
Lemma skipn_nth {A} (d : A) : forall i l, (i < length l)%nat -> skipn i l = nth i l d :: skipn (S i) l.
Proof. induction i as [|i IH]; intros [|a l] H; cbn [length] in H; try lia; [reflexivity|]. cbn [skipn nth]. rewrite IH by lia. reflexivity. Qed.
Lemma combine_nil {A B} (l : list A) : combine l (@nil B) = [].
Proof. destruct l; reflexivity. Qed.
Lemma add_data_from set s : forall n i, (length set - i <= n)%nat ->
  add_data set s n i = map (fun p => product (snd (fst p)) (snd (snd p))) (combine (skipn (i + s) set) (skipn i set)).
Proof.
  induction n as [|n IH]; intros i H; cbn [add_data].
  - rewrite (skipn_all2 set (n := i)) by lia. rewrite combine_nil. reflexivity.
  - destruct (Nat.leb_spec (length set) (i + s)) as [L|L].
    + rewrite (skipn_all2 set (n := i + s)) by lia. reflexivity.
    + rewrite IH by lia. set (d := (0, CVec (cR 0) (cR 0) (cR 0))). rewrite (skipn_nth d (i + s)), (skipn_nth d i) by lia. cbn [combine map fst snd].
      rewrite product_dot. reflexivity.
Qed.
Lemma skipn_map {A B} (f : A -> B) : forall n l, skipn n (map f l) = map f (skipn n l).
Proof. induction n as [|n IH]; intros [|a l]; try reflexivity. cbn [map skipn]. apply IH. Qed.
Lemma combine_map {A B C D} (f : A -> C) (g : B -> D) : forall l m, combine (map f l) (map g m) = map (fun p => (f (fst p), g (snd p))) (combine l m).
Proof. induction l as [|a l IH]; intros [|b m]; try reflexivity. cbn [map combine fst snd]. f_equal. apply IH. Qed.
Lemma lag_pairs_map {A B} (f : A -> B) s l : lag_pairs s (map f l) = map (fun p => (f (fst p), f (snd p))) (lag_pairs s l).
Proof. unfold lag_pairs. rewrite skipn_map. apply combine_map. Qed.
Lemma stride_data_lag sets s : stride_data sets s = lag_data s (map (map snd) sets).
Proof.
  unfold stride_data, lag_data. induction sets as [|set sets IH]; [reflexivity|]. cbn [flat_map map]. rewrite IH. f_equal.
  rewrite add_data_from by lia. rewrite lag_pairs_map, map_map. reflexivity.
Qed.
Lemma lag_pairs_length {A} s (l : list A) : length (lag_pairs s l) = (length l - s)%nat.
Proof. unfold lag_pairs. rewrite combine_length, skipn_length. lia. Qed.
Lemma lag_data_length s runs : length (lag_data s runs) = fold_right Nat.add 0%nat (map (fun r => length r - s)%nat runs).
Proof.
  unfold lag_data. induction runs as [|r runs IH]; [reflexivity|]. cbn [flat_map map fold_right]. rewrite app_length, map_length, lag_pairs_length, IH. reflexivity.
Qed.
Lemma lag_data_shorter s t runs : (s <= t)%nat -> (length (lag_data t runs) <= length (lag_data s runs))%nat.
Proof. intros L. rewrite !lag_data_length. induction runs as [|r runs IH]; cbn [map fold_right]; lia. Qed.
Lemma lag_pairs_nth {A} s (l : list A) a b : In (a, b) (lag_pairs s l) -> exists i, (i + s < length l)%nat /\ forall d, nth (i + s) l d = a /\ nth i l d = b.
Proof.
  intros H. apply (In_nth _ _ (a, b)) in H. destruct H as (i & L & E). rewrite lag_pairs_length in L. exists i. split; [lia|].
  intros d. assert (E' : nth i (lag_pairs s l) (d, d) = (a, b)) by (rewrite <- E; apply nth_indep; rewrite lag_pairs_length; lia).
  unfold lag_pairs in E'. pose proof (combine_nth (skipn s (firstn (length l) l)) l i d d).
  assert (G : forall (x y : list A) k, (k < length x)%nat -> (k < length y)%nat -> nth k (combine x y) (d, d) = (nth k x d, nth k y d)).
  { induction x as [|x0 x IH]; intros [|y0 y] k X Y; cbn [length] in *; try lia. destruct k; [reflexivity|]. cbn [combine nth]. apply IH; lia. }
  rewrite G in E' by (rewrite ?skipn_length; lia). injection E' as E1 E2. split; [|exact E2]. rewrite <- E1.
  clear - L. revert l L. induction s as [|s IH]; intros l L; [now rewrite Nat.add_0_r|]. destruct l as [|x l]; cbn [length] in L; [lia|].
  rewrite Nat.add_succ_r. cbn [nth skipn]. apply IH. lia.
Qed.

(** * Reading *)
Section Files.
Variables (F : Type) (value : F -> R) (show : F -> string) (read : string -> option F).
Hypothesis P : prints show read.
Lemma velocity_components a b c d e f t : CVec (Cplx (value a) (value b)) (Cplx (value c) (value d)) (Cplx (value e) (value f)) = velocity_of F value (t, (a, b, c, d, e, f)).
Proof. reflexivity. Qed.
Lemma cpp_lines_read k m l : k <> Vec 0 0 0 -> cpp_lines F value read (complex_vector k) m (map (sample_line F show) l)
  = Ok (map (fun s => (time_of F value s, part_across k (velocity_of F value s))) (late F value m l)).
Proof.
  intros N. induction l as [|[t [[[[[a b] c] d] e] f]] l IH]; [reflexivity|]. cbn [map cpp_lines late filter]. unfold cpp_line.
  rewrite (sample_split F value show read P), (casts_show F value show read P). cbn [length map Nat.eqb negb bind]. unfold late in IH. rewrite IH.
  change (time_of F value (t, (a, b, c, d, e, f))) with (value t). destruct (Rlt_dec (value t) m); [reflexivity|].
  rewrite (velocity_components a b c d e f t), cpp_across by exact N. cbn [bind map app]. reflexivity.
Qed.
Lemma cpp_file_read k_n k m l : k <> Vec 0 0 0 -> getDataFromFile F value read (saveFourierTransformedVelocities F show k_n l) (complex_vector k) m
  = Ok (map (fun s => (time_of F value s, part_across k (velocity_of F value s))) (late F value m l)).
Proof. intros N. unfold getDataFromFile. rewrite (file_lines F value show read P). cbn [tl]. apply cpp_lines_read, N. Qed.
Lemma read_files_all k m runs : k <> Vec 0 0 0 ->
  read_files F value read (map (fun r => saveFourierTransformedVelocities F show (fst r) (snd r)) runs) (complex_vector k) m
  = Ok (map (fun r => map (fun s => (time_of F value s, part_across k (velocity_of F value s))) (late F value m (snd r))) runs).
Proof.
  intros N. induction runs as [|r runs IH]; [reflexivity|]. cbn [map read_files].
  rewrite cpp_file_read by exact N. cbn [bind]. rewrite IH. reflexivity.
Qed.
End Files.

(** * Rows *)
Lemma rows_ok (data : nat -> list R) (c dt : R) : c <> 0 -> forall n i, (forall s, (i <= s < i + n)%nat -> (2 <= length (data s))%nat) ->
  write_rows c (map (fun s => (INR s * dt, data s)) (seq i n))
  = (map (fun s => Row (INR s * dt) (mean_of (data s) / c) (mean_of (data s)) (length (data s))) (seq i n), None).
Proof.
  intros C. induction n as [|n IH]; intros i H; [reflexivity|]. cbn [seq map write_rows]. destruct (Nat.leb_spec (length (data i)) 1); [specialize (H i); lia|].
  destruct (Req_EM_T c 0); [contradiction|]. rewrite IH by (intros; apply H; lia). reflexivity.
Qed.
Lemma rows_start (data : nat -> list R) (dt : R) n : mean_of (data 0%nat) <> 0 -> (forall s, (s < n)%nat -> (2 <= length (data s))%nat) ->
  write_rows 0 (map (fun s => (INR s * dt, data s)) (seq 0 n))
  = (map (fun s => Row (INR s * dt) (mean_of (data s) / mean_of (data 0%nat)) (mean_of (data s)) (length (data s))) (seq 0 n), None).
Proof.
  intros C H. destruct n as [|n]; [reflexivity|]. cbn [seq map write_rows]. destruct (Nat.leb_spec (length (data 0%nat)) 1); [specialize (H 0%nat); lia|].
  destruct (Req_EM_T 0 0); [|lra]. change (sample_mean (data 0%nat)) with (mean_of (data 0%nat)).
  rewrite (rows_ok data (mean_of (data 0%nat)) dt C n 1) by (intros; apply H; lia). reflexivity.
Qed.
Lemma rows_short (data : nat -> list R) (dt : R) : forall n i c s0, (i <= s0 < i + n)%nat -> (length (data s0) < 2)%nat -> (forall s, (i <= s < s0)%nat -> (2 <= length (data s))%nat) ->
  snd (write_rows c (map (fun s => (INR s * dt, data s)) (seq i n))) = Some InvalidCallException
  /\ length (fst (write_rows c (map (fun s => (INR s * dt, data s)) (seq i n)))) = (s0 - i)%nat.
Proof.
  induction n as [|n IH]; intros i c s0 I S H; [lia|]. cbn [seq map write_rows]. destruct (Nat.leb_spec (length (data i)) 1) as [L|L].
  - split; [reflexivity|]. cbn [fst length]. destruct (Nat.eq_dec i s0); [lia|]. specialize (H i). lia.
  - assert (i <> s0) by (intros ->; lia). set (c' := if Req_EM_T c 0 then sample_mean (data i) else c).
    destruct (IH (Datatypes.S i) c' s0 ltac:(lia) S ltac:(intros; apply H; lia)) as (A & B).
    destruct (write_rows c' (map (fun s => (INR s * dt, data s)) (seq (Datatypes.S i) n))) as [rows e]. cbn [fst snd length] in *. split; [exact A|lia].
Qed.
Lemma max_stride_spec T dt s : 0 < dt -> (s < max_stride T dt)%nat <-> INR s * dt < T.
Proof.
  intros D. unfold max_stride. set (q := T / dt). assert (TQ : T = q * dt) by (subst q; field; lra).
  destruct (base_Int_part (- q)) as (A & B). set (z := Int_part (- q)) in *.
  assert (E : INR s * dt < T <-> INR s < q) by (rewrite TQ; split; intros; nra). rewrite E. rewrite INR_IZR_INZ. split; intros H.
  - assert (Z.of_nat s < - z)%Z by lia. assert (IZR (Z.of_nat s + 1) <= IZR (- z)) by (apply IZR_le; lia). rewrite plus_IZR, opp_IZR in *. lra.
  - assert (H1 : IZR (Z.of_nat s) < IZR (- z)) by (rewrite opp_IZR; lra). apply lt_IZR in H1. lia.
Qed.
