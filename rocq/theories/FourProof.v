(** Proofs about Fourier-transformed velocities. *)
From Coq Require Import List ZArith Bool Reals Lra Lia Permutation.
From Verif Require Import PyBase VecModel CuModel CuProof StarProof FourModel FourSpec.
Import ListNotations.
Open Scope Z_scope.

(** * Threads *)
Lemma swapped_one B g off : 0 < g -> 0 <= off -> off + B * g <= 2 ^ 32 -> swapped_threads B (g, off) = zfrom off (B * g).
Proof. intros. unfold swapped_threads. cbn [fst snd]. apply grid_units; lia. Qed.

Lemma filter_app_zfrom N a n : a + n <= N -> filter (fun i => i <? N) (zfrom a n) = zfrom a n.
Proof. intros. apply filter_all. intros x X. apply In_zfrom in X. apply Z.ltb_lt. lia. Qed.

Lemma swapped_from N G B : 0 < B -> 0 < G -> N + 1 < 2 ^ 32 -> N + G * B <= 2 ^ 32 ->
  forall k w, 0 <= w -> N - w <= Z.of_nat k * (G * B) -> forall f, (k < f)%nat ->
  exists l, option_map (flat_map (swapped_threads B)) (launches f N G B w) = Some l
    /\ filter (fun i => i <? N) l = zfrom w (N - w) /\ Forall (fun i => 0 <= i < N + B) l.
Proof.
  intros HB HG HN HW. induction k as [|k IH]; intros w Hw Hk f Hf; (destruct f as [|f]; [lia|]).
  - cbn [launches]. rewrite (proj2 (Z.ltb_ge w N)) by lia. cbn. exists []. rewrite zfrom_nil by lia. auto.
  - destruct (Z.ltb_spec w N) as [L|L].
    + assert (0 < G * B) by nia. rewrite launches_step by (try lia; nia). rewrite u32_small by lia.
      destruct (IH (w + G * B) ltac:(lia) ltac:(nia) f ltac:(lia)) as (l & IH1 & IH2 & IH3).
      destruct (launches f N G B (w + G * B)) as [l'|]; [|discriminate]. cbn [option_map] in *.
      injection IH1 as IH1. cbn [flat_map]. rewrite IH1. eexists. split; [reflexivity|].
      destruct (grid_covers N G B w) as [C D]; try lia.
      rewrite swapped_one by (try lia; nia). rewrite filter_app, IH2, filter_zfrom by lia.
      rewrite (Z.mul_comm B). rewrite C. split.
      * destruct (Z.min_spec (G * B) (N - w)) as [[M ->]|[M ->]].
        -- rewrite zfrom_app by lia. f_equal. lia.
        -- rewrite (zfrom_nil (w + G * B)) by lia. apply app_nil_r.
      * apply Forall_app. split; [|exact IH3]. apply Forall_forall. intros x X. apply In_zfrom in X.
        split; [lia|]. assert (grid_size N G B w * B <= N - w + B).
        { unfold grid_size. pose proof (Z.mul_div_le (N - w) B HB). pose proof (Z.le_min_r G ((N - w) / B + 1)). nia. }
        lia.
    + cbn [launches]. rewrite (proj2 (Z.ltb_ge w N)) by lia. cbn. exists []. rewrite zfrom_nil by lia. auto.
Qed.
Lemma swapped_exact N G B : 0 < B -> 0 < G -> N + 1 < 2 ^ 32 -> N + G * B <= 2 ^ 32 ->
  exists f0, forall f, (f0 <= f)%nat -> exists l, swapped_dispatched f N G B = Some l
    /\ filter (fun i => i <? N) l = zrange N /\ Forall (fun i => 0 <= i < N + B) l.
Proof.
  intros HB HG HN HW. exists (S (Z.to_nat N)). intros f Hf. unfold swapped_dispatched.
  destruct (swapped_from N G B HB HG HN HW (Z.to_nat N) 0 ltac:(lia) ltac:(nia) f ltac:(lia)) as (l & A & C & D).
  exists l. rewrite C, Z.sub_0_r, zfrom_0. auto.
Qed.
Lemma flat_map_guard {A} (N : Z) (g h : Z -> list A) l :
  (forall i, In i l -> g i = if i <? N then h i else []) -> flat_map g l = flat_map h (filter (fun i => i <? N) l).
Proof.
  induction l as [|a l IH]; intros H; [reflexivity|]. cbn [flat_map filter]. rewrite (H a) by (left; reflexivity).
  destruct (a <? N); cbn [flat_map]; rewrite IH by (intros; apply H; right; assumption); reflexivity.
Qed.

(** * Memory *)
Definition keys (l : list write) : list Z := map fst l.
Lemma performed_other l : forall m i, ~ In i (keys l) ->
  fst (fold_left perform_write l m) i = fst m i /\ snd (fold_left perform_write l m) i = snd m i.
Proof.
  induction l as [|w l IH]; intros m i H; [split; reflexivity|]. cbn [fold_left keys map In] in *.
  destruct (IH (perform_write m w) i ltac:(tauto)) as (-> & ->). unfold perform_write. cbn [fst snd].
  destruct (Z.eqb_spec i (fst w)); [exfalso; apply H; left; congruence|split; reflexivity].
Qed.
Lemma performed_at l : NoDup (keys l) -> forall m i x y, In (i, (x, y)) l ->
  fst (fold_left perform_write l m) i = x /\ snd (fold_left perform_write l m) i = y.
Proof.
  induction l as [|w l IH]; intros N m i x y H; [destruct H|]. cbn [keys map] in N. apply NoDup_cons_iff in N. destruct N as (N1 & N2).
  cbn [fold_left]. destruct H as [->|H]; [|apply IH; assumption].
  destruct (performed_other l (perform_write m (i, (x, y))) i N1) as (-> & ->). cbn [perform_write fst snd]. rewrite Z.eqb_refl. auto.
Qed.

Definition stores_of (k : vec) (b : Z -> vec * vec) (j : Z) : list write := store_wave k (fst (b j)) (snd (b j)) j.
Lemma keys_app l m : keys (l ++ m) = keys l ++ keys m.
Proof. apply map_app. Qed.
Lemma keys_stores k b n : keys (flat_map (stores_of k b) (zrange n)) = zrange (3 * n).
Proof.
  revert n. apply zrange_ind.
  - intros n H. rewrite !zrange_nil by lia. reflexivity.
  - intros n H IH. rewrite zrange_succ by lia. rewrite flat_map_app, keys_app, IH. unfold keys, stores_of, store_wave. cbn [flat_map map fst app].
    replace (3 * (n + 1)) with (3 * n + 1 + 1 + 1) by ring. rewrite !zrange_succ by lia. rewrite <- !app_assoc. cbn [app].
    replace (3 * n + 1 + 1) with (3 * n + 2) by ring. reflexivity.
Qed.
Lemma strided_three n c : 0 <= n -> 0 <= c < 3 -> strided_visited 3 (3 * n - c) = map (fun i => 3 * i) (zrange n).
Proof.
  intros N C. unfold strided_visited. f_equal. f_equal. symmetry. apply (Z.div_unique _ 3 n (2 - c)); lia.
Qed.
Lemma fold_total (f : vec * vec -> R) (b : Z -> vec * vec) l : forall s,
  fold_left (fun s j => s + f (b j))%R l s = (s + total f (map b l))%R.
Proof.
  unfold total. induction l as [|a l IH]; intros s; cbn [fold_left map fold_right]; [lra|]. rewrite IH. lra.
Qed.
Lemma fold_left_ext {A B} (g h : A -> B -> A) l : (forall s b, In b l -> g s b = h s b) -> forall s, fold_left g l s = fold_left h l s.
Proof.
  induction l as [|b l IH]; intros E s; [reflexivity|]. cbn [fold_left]. rewrite E by (left; reflexivity). apply IH. intros; apply E; right; assumption.
Qed.
Lemma fold_left_map' {A B C} (g : A -> C -> A) (h : B -> C) l : forall s, fold_left g (map h l) s = fold_left (fun s b => g s (h b)) l s.
Proof. induction l as [|b l IH]; intros s; [reflexivity|]. cbn [map fold_left]. apply IH. Qed.
Lemma strided_total (a : array) (f : vec * vec -> R) (b : Z -> vec * vec) n c : 0 <= n -> 3 * n < 2 ^ 32 -> 0 <= c < 3 ->
  (forall j, 0 <= j < n -> a (c + 3 * j) = f (b j)) -> strided_sum a c n = total f (map b (zrange n)).
Proof.
  intros N S C H. unfold strided_sum. replace (n * 3) with (3 * n) by ring. rewrite u32_small by lia. rewrite strided_three by lia.
  rewrite fold_left_map'. rewrite (fold_left_ext _ (fun s j => s + f (b j))%R).
  - rewrite fold_total. lra.
  - intros s j J. apply In_zrange in J. rewrite H by lia. reflexivity.
Qed.
Lemma transform_stores k b n order buffers : 0 < n -> 3 * n < 2 ^ 32 -> Permutation (flat_map (stores_of k b) (zrange n)) order ->
  reduce_buffers n (fold_left perform_write order buffers) = mean_wave k (map b (zrange n)).
Proof.
  intros N S P. assert (ND : NoDup (keys order)).
  { apply (Permutation_NoDup (l := keys (flat_map (stores_of k b) (zrange n)))); [apply Permutation_map, P|]. rewrite keys_stores. apply zrange_nodup. }
  assert (A : forall j i x y, 0 <= j < n -> In (i, (x, y)) (stores_of k b j) ->
    fst (fold_left perform_write order buffers) i = x /\ snd (fold_left perform_write order buffers) i = y).
  { intros j i x y J H. apply performed_at; [exact ND|]. apply (Permutation_in _ P). apply in_flat_map. exists j. split; [apply In_zrange; lia|exact H]. }
  assert (PH : forall j, vdot k (fst (b j)) = phase k (b j)) by reflexivity.
  unfold reduce_buffers, mean_wave, average. rewrite map_length, zrange_length, INR_IZR_INZ, Z2Nat.id by lia.
  assert (E : forall j, 0 <= j < n -> forall c, (c = 0 \/ c = 1 \/ c = 2) ->
    let g := if c =? 0 then vx else if c =? 1 then vy else vz in
    fst (fold_left perform_write order buffers) (c + 3 * j) = (g (snd (b j)) * cos (phase k (b j)))%R /\
    snd (fold_left perform_write order buffers) (c + 3 * j) = (g (snd (b j)) * sin (phase k (b j)))%R).
  { intros j J c C g. apply (A j); [lia|]. unfold stores_of, store_wave. rewrite PH.
    destruct C as [->|[->| ->]]; subst g; cbn [Z.eqb]; [left|right; left|right; right; left]; cbn [vx vy vz vscale]; f_equal; lia. }
  f_equal; f_equal; f_equal; (apply strided_total; [lia|lia|lia|]; intros j J).
  - exact (proj1 (E j J 0 (or_introl eq_refl))).
  - exact (proj2 (E j J 0 (or_introl eq_refl))).
  - exact (proj1 (E j J 1 (or_intror (or_introl eq_refl)))).
  - exact (proj2 (E j J 1 (or_intror (or_introl eq_refl)))).
  - exact (proj1 (E j J 2 (or_intror (or_intror eq_refl)))).
  - exact (proj2 (E j J 2 (or_intror (or_intror eq_refl)))).
Qed.

(** * Kernels *)
Definition group (f : kind) : Z := match f with Simple => 1 | Doublets => 2 | Triplets => 3 | Chains l => l end.
Definition at_particle (p v : array) (i : Z) : vec * vec := (stored p i, stored v i).
Definition body (f : kind) (p v : array) (j : Z) : vec * vec :=
  match f with
  | Simple => at_particle p v j
  | _ => centre (map (at_particle p v) (zfrom (group f * j) (group f)))
  end.
Lemma average_two (f : vec * vec -> R) a b : average f [a; b] = ((f a + f b) / 2)%R.
Proof. unfold average, total. cbn [map fold_right length INR]. f_equal. lra. Qed.
Lemma average_three (f : vec * vec -> R) a b c : average f [a; b; c] = ((f a + f b + f c) / 3)%R.
Proof. unfold average, total. cbn [map fold_right length INR]. replace (1 + 1 + 1)%R with 3%R by lra. f_equal. lra. Qed.
Lemma chain_loop p v : forall n a r w, 0 <= a -> a + Z.of_nat n < 2 ^ 32 -> forall m, (n <= m)%nat ->
  let t := fun g => total g (map (at_particle p v) (zfrom a (Z.of_nat n))) in
  chain_sums p v m a (a + Z.of_nat n - 1) r w =
   (Vec (vx r + t (fun b => vx (fst b))) (vy r + t (fun b => vy (fst b))) (vz r + t (fun b => vz (fst b))),
    Vec (vx w + t (fun b => vx (snd b))) (vy w + t (fun b => vy (snd b))) (vz w + t (fun b => vz (snd b)))).
Proof.
  induction n as [|n IH]; intros a r w A S m M t.
  - assert (E : chain_sums p v m a (a + Z.of_nat 0 - 1) r w = (r, w)).
    { destruct m as [|m]; cbn [chain_sums]; [reflexivity|]. rewrite (proj2 (Z.leb_gt a (a + Z.of_nat 0 - 1))) by lia. reflexivity. }
    rewrite E. subst t. cbn. rewrite !Rplus_0_r. rewrite <- !vec_eta. reflexivity.
  - destruct m as [|m]; [lia|]. cbn [chain_sums]. rewrite (proj2 (Z.leb_le a (a + Z.of_nat (Datatypes.S n) - 1))) by lia. rewrite u32_small by lia.
    replace (a + Z.of_nat (Datatypes.S n) - 1) with (a + 1 + Z.of_nat n - 1) by lia.
    rewrite (IH (a + 1)) by lia. subst t. cbn beta.
    assert (E : zfrom a (Z.of_nat (Datatypes.S n)) = a :: zfrom (a + 1) (Z.of_nat n)).
    { replace (Z.of_nat (Datatypes.S n)) with (1 + Z.of_nat n) by lia. rewrite <- zfrom_app by lia. unfold zfrom at 1. change (zrange 1) with [0]. cbn [map app]. rewrite Z.add_0_r. reflexivity. }
    rewrite E. cbn [map]. unfold total. cbn [map fold_right]. change (fst (at_particle p v a)) with (stored p a). change (snd (at_particle p v a)) with (stored v a).
    cbn [vadd vx vy vz]. f_equal; apply vec_ext; lra.
Qed.
Lemma zfrom_two a : zfrom a 2 = [a; a + 1].
Proof. unfold zfrom. change (zrange 2) with [0; 1]. cbn [map]. now rewrite Z.add_0_r. Qed.
Lemma zfrom_three a : zfrom a 3 = [a; a + 1; a + 2].
Proof. unfold zfrom. change (zrange 3) with [0; 1; 2]. cbn [map]. now rewrite Z.add_0_r. Qed.
Lemma zfrom_length a n : length (zfrom a n) = Z.to_nat n.
Proof. unfold zfrom. now rewrite map_length, zrange_length. Qed.

Lemma kernel f p v k N i : 0 < group f -> 0 <= N -> N + 512 * group f < 2 ^ 32 -> 0 <= i < N / group f + 512 ->
  single f N p v k i = if i <? N / group f then stores_of k (body f p v) i else [].
Proof.
  intros G HN S I. assert (ID : i < N / group f <-> group f * i + group f - 1 < N).
  { split; intros L.
    - pose proof (Z.mul_div_le N (group f) G). nia.
    - assert (group f * (i + 1) <= N) by lia. assert (i + 1 <= N / group f); [|lia]. apply Z.div_le_lower_bound; lia. }
  assert (W : group f * i + group f < 2 ^ 32).
  { pose proof (Z.mul_div_le N (group f) G). nia. }
  assert (W' : 0 <= group f * i) by nia.
  assert (D : forall a b : list write, (if N <=? group f * i + group f - 1 then a else b) = if i <? N / group f then b else a).
  { intros a b. destruct (Z.leb_spec N (group f * i + group f - 1)), (Z.ltb_spec i (N / group f)); try reflexivity; exfalso; lia. }
  unfold stores_of. destruct f as [| | |len]; cbn [single group body] in *.
  - unfold simple_single. rewrite <- D. replace (1 * i + 1 - 1) with i by lia. reflexivity.
  - unfold doublet_single. rewrite !u32_small by (rewrite ?u32_small by lia; lia). rewrite <- D. replace (2 * i + 2 - 1) with (2 * i + 1) by lia.
    destruct (N <=? 2 * i + 1); [reflexivity|]. unfold centre. rewrite zfrom_two. cbn [map]. rewrite !average_two. reflexivity.
  - unfold triplet_single. rewrite !u32_small by (rewrite ?u32_small by lia; lia). rewrite <- D. replace (3 * i + 3 - 1) with (3 * i + 2) by lia.
    destruct (N <=? 3 * i + 2); [reflexivity|]. unfold centre. rewrite zfrom_three. cbn [map]. rewrite !average_three. reflexivity.
  - unfold chain_single. rewrite (Z.mul_comm i). rewrite (u32_small (len * i)) by lia.
    rewrite !u32_small by (rewrite ?u32_small by lia; lia). rewrite <- D.
    destruct (N <=? len * i + len - 1); [reflexivity|].
    pose proof (chain_loop p v (Z.to_nat len) (len * i) (Vec 0 0 0) (Vec 0 0 0) W' ltac:(lia) (Z.to_nat (len * i + len - 1 + 1)) ltac:(lia)) as L.
    rewrite Z2Nat.id in L by lia. cbn zeta in L. rewrite L. cbn [vx vy vz]. unfold centre, average. cbn [fst snd].
    rewrite map_length, zfrom_length, INR_IZR_INZ, Z2Nat.id by lia. unfold vdivs. cbn [vx vy vz]. rewrite !Rplus_0_l. reflexivity.
Qed.

(** All together. *)
Lemma all_transform f N p v k : 0 < group f <= N -> 3 * (N / group f) < 2 ^ 32 -> N + 512 * group f < 2 ^ 32 ->
  let n := N / group f in
  constituents f N = n /\ exists f0 stores, (forall fuel, (f0 <= fuel)%nat -> all_writes f fuel N p v k = Some stores)
   /\ Forall (fun w => 0 <= fst w < 3 * n) stores
   /\ forall buffers order, Permutation stores order -> transformed f N buffers order = mean_wave k (map (body f p v) (zrange n)).
Proof.
  intros G S W n. assert (E : constituents f N = n) by (destruct f; cbn [group constituents] in *; subst n; [now rewrite Z.div_1_r|reflexivity..]).
  split; [exact E|]. assert (n1 : 1 <= n) by (subst n; apply Z.div_le_lower_bound; lia).
  destruct (swapped_exact n (max_grid f) 512) as (f0 & H); [lia|destruct f; cbn; lia|lia|destruct f; cbn [max_grid]; lia|].
  exists f0, (flat_map (stores_of k (body f p v)) (zrange n)). split; [|split].
  - intros fuel F. destruct (H fuel F) as (l & L & Fl & R). unfold all_writes. rewrite E, L. cbn [option_map]. f_equal. rewrite <- Fl.
    apply flat_map_guard. intros i I. apply (proj1 (Forall_forall _ _) R) in I. subst n. apply kernel; lia.
  - apply Forall_forall. intros w I. assert (K : In (fst w) (keys (flat_map (stores_of k (body f p v)) (zrange n)))) by (apply in_map, I).
    rewrite keys_stores in K. apply In_zrange in K. exact K.
  - intros buffers order P. unfold transformed. rewrite E. apply transform_stores; [lia|lia|exact P].
Qed.

(** * Arrays *)
Lemma particle_stored p v i : particle p v i = at_particle p v (Z.of_nat i).
Proof. unfold particle, at_particle, stored. f_equal; f_equal; f_equal; lia. Qed.
Lemma zfrom_seq a n : zfrom (Z.of_nat a) (Z.of_nat n) = map Z.of_nat (seq a n).
Proof.
  unfold zfrom, zrange. rewrite Nat2Z.id, map_map. revert a. induction n as [|n IH]; intros a; [reflexivity|].
  cbn [seq map]. f_equal; [lia|]. rewrite <- IH, <- seq_shift, map_map. apply map_ext. intros. lia.
Qed.
Lemma group_centres p v g n : map (fun j => centre (map (at_particle p v) (zfrom (Z.of_nat g * j) (Z.of_nat g)))) (zrange (Z.of_nat n)) = centres p v g n.
Proof.
  unfold centres, zrange. rewrite Nat2Z.id, map_map. apply map_ext. intros j. rewrite <- Nat2Z.inj_mul, zfrom_seq, map_map. f_equal.
  apply map_ext. intros. symmetry. apply particle_stored.
Qed.

(** * Waves *)
Open Scope R_scope.
Lemma total_ext f g l : (forall b, In b l -> f b = g b) -> total f l = total g l.
Proof. intros H. unfold total. f_equal. apply map_ext_in, H. Qed.
Lemma total_map f (h : vec * vec -> vec * vec) l : total f (map h l) = total (fun b => f (h b)) l.
Proof. unfold total. rewrite map_map. reflexivity. Qed.
Lemma total_opp f l : total (fun b => - f b) l = - total f l.
Proof. unfold total. induction l as [|b l IH]; cbn [map fold_right]; lra. Qed.
Lemma average_ext f g l : (forall b, In b l -> f b = g b) -> average f l = average g l.
Proof. intros H. unfold average. now rewrite (total_ext f g). Qed.
Lemma average_opp f l : average (fun b => - f b) l = - average f l.
Proof. unfold average. rewrite total_opp. unfold Rdiv. ring. Qed.
Lemma wave_zero l : mean_wave (Vec 0 0 0) l =
  CVec (Cplx (average (fun b => vx (snd b)) l) 0) (Cplx (average (fun b => vy (snd b)) l) 0) (Cplx (average (fun b => vz (snd b)) l) 0).
Proof.
  assert (P : forall b, phase (Vec 0 0 0) b = 0) by (intros; unfold phase; cbn [vx vy vz]; ring).
  assert (C : forall c : vec -> R, average (fun b => c (snd b) * cos (phase (Vec 0 0 0) b)) l = average (fun b => c (snd b)) l).
  { intros c. apply average_ext. intros b _. rewrite P, cos_0. ring. }
  assert (S : forall c : vec -> R, average (fun b => c (snd b) * sin (phase (Vec 0 0 0) b)) l = 0).
  { intros c. rewrite (average_ext _ (fun _ => 0)); [|intros b _; rewrite P, sin_0; ring]. unfold average, total.
    replace (fold_right Rplus 0 (map (fun _ : vec * vec => 0) l)) with 0; [unfold Rdiv; ring|]. clear. induction l as [|b l IH]; cbn [map fold_right]; [reflexivity|lra]. }
  unfold mean_wave. rewrite !C, !S. reflexivity.
Qed.
Lemma wave_opposite k l : mean_wave (opposite k) l = conjugate (mean_wave k l).
Proof.
  assert (P : forall b, phase (opposite k) b = - phase k b) by (intros; unfold phase, opposite; cbn [vx vy vz]; ring).
  unfold mean_wave, conjugate. cbn [cvx cvy cvz re im].
  assert (C : forall c : vec -> R, average (fun b => c (snd b) * cos (phase (opposite k) b)) l = average (fun b => c (snd b) * cos (phase k b)) l)
    by (intros c; apply average_ext; intros b _; rewrite P, cos_neg; reflexivity).
  assert (S : forall c : vec -> R, average (fun b => c (snd b) * sin (phase (opposite k) b)) l = - average (fun b => c (snd b) * sin (phase k b)) l)
    by (intros c; rewrite <- average_opp; apply average_ext; intros b _; rewrite P, sin_neg; lra).
  rewrite !C, !S. reflexivity.
Qed.
Lemma cos_period_Z x (z : Z) : cos (x + 2 * IZR z * PI) = cos x /\ sin (x + 2 * IZR z * PI) = sin x.
Proof.
  destruct (Z_le_gt_dec 0 z) as [L|L].
  - rewrite <- (Z2Nat.id z L), <- INR_IZR_INZ. split; [apply cos_period|apply sin_period].
  - set (y := x + 2 * IZR z * PI). assert (E : x = y + 2 * INR (Z.to_nat (- z)) * PI).
    { subst y. rewrite INR_IZR_INZ, Z2Nat.id, opp_IZR by lia. ring. }
    rewrite E. split; symmetry; [apply cos_period|apply sin_period].
Qed.
Lemma wave_moved box n l ms : let '(x, y, z) := box in (x <> 0 /\ y <> 0 /\ z <> 0)%Z -> length ms = length l ->
  mean_wave (fitting box n) (map (fun p => (moved box (fst p) (fst (snd p)), snd (snd p))) (combine ms l)) = mean_wave (fitting box n) l.
Proof.
  destruct box as [[x y] z]. intros (X & Y & Z') L. set (k := fitting (x, y, z) n).
  set (mv := fun p : Z * Z * Z * (vec * vec) => (moved (x, y, z) (fst p) (fst (snd p)), snd (snd p))).
  assert (PH : forall p, exists w : Z, phase k (mv p) = phase k (snd p) + 2 * IZR w * PI).
  { intros [[[a b] c] [r v]]. destruct n as [[n1 n2] n3]. exists (n1 * a + n2 * b + n3 * c)%Z. subst k mv. unfold phase, fitting, moved. cbn [fst snd vx vy vz].
    rewrite !plus_IZR, !mult_IZR. field. repeat split; apply not_0_IZR; assumption. }
  assert (T : forall (g : R -> R) (c : vec -> R), (forall x w, g (x + 2 * IZR w * PI) = g x) ->
    average (fun b => c (snd b) * g (phase k b)) (map mv (combine ms l)) = average (fun b => c (snd b) * g (phase k b)) l).
  { intros g c G. unfold average. rewrite map_length, combine_length, L, Nat.min_id. f_equal. unfold total. rewrite map_map. f_equal.
    clear - PH G L. revert l L. induction ms as [|m ms IH]; intros [|b l] L; try discriminate; [reflexivity|]. cbn [combine map].
    f_equal; [|apply IH; injection L as L; exact L]. destruct (PH (m, b)) as (w & E). rewrite E, G. cbn [snd]. destruct b. reflexivity. }
  unfold mean_wave. rewrite !T; try reflexivity; intros; apply cos_period_Z.
Qed.
