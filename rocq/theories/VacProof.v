(** Proofs about measurements of the velocity autocorrelation. *)
From Coq Require Import Permutation Lia.
From Verif Require Import QcBase QcLra StrBase PyBase CuModel CuProof StarProof FourProof MeasModel MeasProof VacModel VacSpec.
Open Scope string_scope.
Open Scope list_scope.
Open Scope Qc_scope.

(** * Threads and kernels *)
Lemma threads_from N G B : (0 < B)%Z -> (0 < G)%Z -> (N + 1 < 2 ^ 32)%Z -> (N + G * B <= 2 ^ 32)%Z ->
  forall k w, (0 <= w)%Z -> (N - w <= Z.of_nat k * (G * B))%Z -> forall f, (k < f)%nat ->
  exists l, option_map (flat_map (launched B)) (launches f N G B w) = Some l
    /\ filter (fun i => Z.ltb i N) l = zfrom w (N - w) /\ Forall (fun i => (0 <= i < N + B)%Z) l.
Proof.
  intros HB HG HN HW. induction k as [|k IH]; intros w Hw Hk f Hf; (destruct f as [|f]; [lia|]).
  - cbn [launches]. rewrite (proj2 (Z.ltb_ge w N)) by lia. cbn [option_map flat_map]. exists []. rewrite zfrom_nil by lia. auto.
  - destruct (Z.ltb_spec w N) as [L|L].
    + assert (0 < G * B)%Z by nia. rewrite launches_step by (try lia; nia). rewrite u32_small by lia.
      destruct (IH (w + G * B)%Z ltac:(lia) ltac:(nia) f ltac:(lia)) as (l & IH1 & IH2 & IH3).
      destruct (launches f N G B (w + G * B)) as [l'|]; [|discriminate]. cbn [option_map] in *.
      injection IH1 as IH1. cbn [flat_map]. rewrite IH1. eexists. split; [reflexivity|].
      destruct (grid_covers N G B w) as [C D]; try lia.
      assert (LE : launched B (grid_size N G B w, w) = zfrom w (grid_size N G B w * B)) by (unfold launched; cbn [fst snd]; apply grid_units; try lia; nia).
      rewrite LE. rewrite filter_app, IH2, filter_zfrom by lia. rewrite C. split.
      * destruct (Z.min_spec (G * B) (N - w)) as [[M ->]|[M ->]].
        -- rewrite zfrom_app by lia. f_equal. lia.
        -- rewrite (zfrom_nil (w + G * B)) by lia. apply app_nil_r.
      * apply Forall_app. split; [|exact IH3]. apply Forall_forall. intros x X. apply In_zfrom in X.
        split; [lia|]. assert (grid_size N G B w * B <= N - w + B)%Z.
        { unfold grid_size. pose proof (Z.mul_div_le (N - w) B HB). pose proof (Z.le_min_r G ((N - w) / B + 1)). nia. }
        lia.
    + cbn [launches]. rewrite (proj2 (Z.ltb_ge w N)) by lia. cbn [option_map flat_map]. exists []. rewrite zfrom_nil by lia. auto.
Qed.
Lemma launches_more N G B : forall f w l, launches f N G B w = Some l -> forall f', (f <= f')%nat -> launches f' N G B w = Some l.
Proof.
  induction f as [|f IH]; intros w l H f' L; [discriminate|]. destruct f' as [|f']; [lia|]. cbn [launches] in *.
  destruct (Z.ltb w N); [|exact H].
  destruct (launches f N G B _) as [l'|] eqn:E; [|discriminate]. rewrite (IH _ _ E f' ltac:(lia)). exact H.
Qed.
Lemma threads_exact N fuel l : (N + 524288 <= 2 ^ 32)%Z -> threads fuel N = Some l ->
  filter (fun i => Z.ltb i N) l = zrange N /\ Forall (fun i => (0 <= i < N + 512)%Z) l.
Proof.
  intros W H. destruct (threads_from N 1024 512 ltac:(lia) ltac:(lia) ltac:(lia) ltac:(lia) (Z.to_nat N) 0%Z ltac:(lia) ltac:(lia) (Datatypes.S (Z.to_nat N) + fuel)%nat ltac:(lia)) as (l' & A & C & D).
  unfold threads in H. destruct (launches fuel N 1024 512 0) as [q|] eqn:E; [|discriminate].
  rewrite (launches_more _ _ _ _ _ _ E) in A by lia. rewrite A in H. injection H as <-. rewrite C, Z.sub_0_r, zfrom_0. auto.
Qed.
Lemma threads_exist N : (N + 524288 <= 2 ^ 32)%Z -> exists fuel l, threads fuel N = Some l.
Proof.
  intros W. exists (Datatypes.S (Z.to_nat N)).
  destruct (threads_from N 1024 512 ltac:(lia) ltac:(lia) ltac:(lia) ltac:(lia) (Z.to_nat N) 0%Z ltac:(lia) ltac:(lia) (Datatypes.S (Z.to_nat N)) ltac:(lia)) as (l & A & _). exists l. exact A.
Qed.

Lemma written_other l : forall a i, ~ In i (map fst l) -> fold_left write_to l a i = a i.
Proof.
  induction l as [|w l IH]; intros a i H; [reflexivity|]. cbn [fold_left map In] in *. rewrite IH by tauto.
  unfold write_to. destruct (Z.eqb_spec i (fst w)); [exfalso; apply H; left; congruence|reflexivity].
Qed.
Lemma written_at l : NoDup (map fst l) -> forall a i x, In (i, x) l -> fold_left write_to l a i = x.
Proof.
  induction l as [|w l IH]; intros N a i x H; [destruct H|]. cbn [map] in N. apply NoDup_cons_iff in N. destruct N as (N1 & N2).
  cbn [fold_left]. destruct H as [->|H]; [|apply IH; assumption].
  rewrite written_other by exact N1. unfold write_to. cbn [fst snd]. now rewrite Z.eqb_refl.
Qed.
Lemma stores_keys (g : Z -> Z -> Qc) n : map fst (flat_map (fun i => store i (g i)) (zrange n)) = zrange (3 * n).
Proof.
  revert n. apply zrange_ind.
  - intros n H. rewrite !zrange_nil by lia. reflexivity.
  - intros n H IH. rewrite zrange_succ by lia. rewrite flat_map_app, map_app, IH. unfold store. cbn [flat_map map fst app].
    replace (3 * (n + 1))%Z with (3 * n + 1 + 1 + 1)%Z by ring. rewrite !zrange_succ by lia. rewrite <- !app_assoc. cbn [app].
    replace (3 * n + 1 + 1)%Z with (3 * n + 2)%Z by ring. reflexivity.
Qed.
Lemma stored_all (g : Z -> Z -> Qc) n order before : Permutation (flat_map (fun i => store i (g i)) (zrange n)) order ->
  forall k c, (0 <= k < n)%Z -> (0 <= c < 3)%Z -> fold_left write_to order before (3 * k + c)%Z = g k c.
Proof.
  intros P k c K C. apply written_at.
  - apply (Permutation_NoDup (l := map fst (flat_map (fun i => store i (g i)) (zrange n)))); [apply Permutation_map, P|].
    rewrite stores_keys. apply zrange_nodup.
  - apply (Permutation_in _ P). apply in_flat_map. exists k. split; [apply In_zrange; lia|]. unfold store.
    assert (c = 0 \/ c = 1 \/ c = 2)%Z as [->|[->| ->]] by lia; rewrite ?Z.add_0_r; cbn [In]; auto.
Qed.

(** What the code stores for an entity: for triplets, it is the mean of two particles. *)
Definition as_doublets (f : fluid) : fluid := match f with Triplets => Doublets | _ => f end.

Lemma qz_1 : qz 1 = 1.
Proof. reflexivity. Qed.
Lemma entity_simple v k c : entity_velocity Simple v k c = v (3 * k + c)%Z.
Proof.
  unfold entity_velocity, entity_particles, velocity_of. cbn [entity_size]. change (Z.to_nat 1) with 1%nat. cbn [seq map qsum fold_right].
  rewrite qz_1. replace (3 * (1 * k + Z.of_nat 0) + c)%Z with (3 * k + c)%Z by lia. unfold qsum. cbn [fold_right]. field. discriminate.
Qed.
Lemma entity_doublet v k c : entity_velocity Doublets v k c = (v (3 * (2 * k) + c)%Z + v (3 * (2 * k + 1) + c)%Z) / (1 + 1).
Proof.
  unfold entity_velocity, entity_particles, velocity_of. cbn [entity_size]. change (Z.to_nat 2) with 2%nat. cbn [seq map].
  unfold qsum. cbn [fold_right]. replace (2 * k + Z.of_nat 0)%Z with (2 * k)%Z by lia. replace (2 * k + Z.of_nat 1)%Z with (2 * k + 1)%Z by lia.
  change (qz 2) with (1 + 1). f_equal. ring.
Qed.
Lemma chain_sum_all L first v : (0 <= L < 2 ^ 32)%Z -> forall n o acc c, (0 <= o <= L)%Z -> (L - o < Z.of_nat n)%Z ->
  (0 <= first)%Z -> (first + L <= 2 ^ 32)%Z ->
  chain_sum n o L first v acc c = acc c + qsum (map (fun i => v (3 * (first + o + Z.of_nat i) + c)%Z) (seq 0 (Z.to_nat (L - o)))).
Proof.
  intros HL. induction n as [|n IH]; intros o acc c O N F FL; [lia|]. cbn [chain_sum]. destruct (Z.ltb_spec o L).
  - rewrite (u32_small (o + 1)) by lia. rewrite IH by lia. rewrite (u32_small (first + o)) by lia. unfold stored.
    replace (Z.to_nat (L - o)) with (Datatypes.S (Z.to_nat (L - (o + 1)))) by lia. cbn [seq map]. rewrite <- seq_shift, map_map.
    unfold qsum at 2. cbn [fold_right]. fold (qsum (map (fun i => v (3 * (first + o + Z.of_nat (Datatypes.S i)) + c)%Z) (seq 0 (Z.to_nat (L - (o + 1)))))).
    replace (first + o + Z.of_nat 0)%Z with (first + o)%Z by lia.
    rewrite (map_ext (fun i => v (3 * (first + (o + 1) + Z.of_nat i) + c)%Z) (fun i => v (3 * (first + o + Z.of_nat (Datatypes.S i)) + c)%Z)) by (intros; f_equal; lia).
    ring.
  - replace (Z.to_nat (L - o)) with 0%nat by lia. cbn [seq map]. unfold qsum. cbn [fold_right]. ring.
Qed.
Lemma kernel_stores f N v fuel l : f <> Simple -> sound f N -> threads fuel (constituents f N) = Some l ->
  exists g, (forall k c, (0 <= k < entity_count f N)%Z -> g k c = entity_velocity (as_doublets f) v k c) /\
    flat_map (kernel f N v) l = flat_map (fun i => store i (g i)) (zrange (entity_count f N)).
Proof.
  intros NS (S1 & S2 & S3) T. assert (CE : constituents f N = entity_count f N) by (destruct f; try reflexivity; now destruct NS).
  rewrite CE in T. pose proof (Z_div_mod_eq_full N (entity_size f)) as DM. pose proof (Z.mod_pos_bound N (entity_size f) S2) as MB.
  fold (entity_count f N) in DM. set (n := entity_count f N) in *.
  assert (NN : (n * entity_size f <= N)%Z) by lia. assert (n <= N)%Z by nia.
  destruct (threads_exact n fuel l ltac:(lia) T) as (T1 & T2).
  destruct f as [| | |L]; [now destruct NS| | |]; cbn [entity_size as_doublets] in *.
  - exists (fun k => doublet_velocity k v). split.
    + intros k c K. rewrite entity_doublet. unfold doublet_velocity, stored. rewrite !u32_small by (rewrite ?u32_small by lia; lia).
      replace (k * 2 + 0)%Z with (2 * k)%Z by lia. replace (k * 2 + 1)%Z with (2 * k + 1)%Z by lia. reflexivity.
    + rewrite <- T1. apply flat_map_guard. intros i I. rewrite Forall_forall in T2. apply T2 in I. unfold kernel.
      rewrite (u32_small (i * 2)) by lia. rewrite u32_small by lia.
      destruct (Z.leb_spec N (i * 2 + 1)), (Z.ltb_spec i n); try reflexivity; lia.
  - exists (fun k => doublet_velocity k v). split.
    + intros k c K. rewrite entity_doublet. unfold doublet_velocity, stored. rewrite !u32_small by (rewrite ?u32_small by lia; lia).
      replace (k * 2 + 0)%Z with (2 * k)%Z by lia. replace (k * 2 + 1)%Z with (2 * k + 1)%Z by lia. reflexivity.
    + rewrite <- T1. apply flat_map_guard. intros i I. rewrite Forall_forall in T2. apply T2 in I. unfold kernel.
      rewrite (u32_small (i * 3)) by lia. rewrite u32_small by lia.
      destruct (Z.leb_spec N (i * 3 + 2)), (Z.ltb_spec i n); try reflexivity; lia.
  - exists (fun k => chain_velocity k L v). split.
    + intros k c K. unfold chain_velocity, entity_velocity, entity_particles, velocity_of. cbn [entity_size].
      rewrite (u32_small (k * L)) by nia. rewrite chain_sum_all by nia.
      rewrite Z.sub_0_r, map_map. f_equal. rewrite Qcplus_0_l. f_equal. apply map_ext. intros i. f_equal. lia.
    + rewrite <- T1. apply flat_map_guard. intros i I. unfold kernel. change (N / L)%Z with n.
      destruct (Z.leb_spec n i), (Z.ltb_spec i n); try reflexivity; lia.
Qed.
Lemma populated f N v before after : sound f N -> populates f N v before after ->
  forall k c, (0 <= k < entity_count f N)%Z -> (0 <= c < 3)%Z -> after (3 * k + c)%Z = entity_velocity (as_doublets f) v k c.
Proof.
  intros S P k c K C. assert (f = Simple \/ f <> Simple) as [->|NS] by (destruct f; auto; right; discriminate).
  - cbn [populates] in P. subst after. cbn [as_doublets]. rewrite entity_simple. unfold entity_count in K. cbn [entity_size] in K. rewrite Z.div_1_r in K.
    destruct (Z.leb_spec 0 (3 * k + c)), (Z.ltb_spec (3 * k + c) (3 * N)); try reflexivity; lia.
  - assert (exists fuel l order, threads fuel (constituents f N) = Some l /\
           Permutation (flat_map (kernel f N v) l) order /\ after = fold_left write_to order before) as (fuel & l & order & T & Q & ->)
      by (destruct f; [now destruct NS|exact P|exact P|exact P]).
    destruct (kernel_stores f N v fuel l NS S T) as (g & G & E). rewrite E in Q.
    rewrite (stored_all g _ order before Q k c K C). apply G. exact K.
Qed.
Lemma sound_constituents f N : constituents f N = entity_count f N.
Proof. destruct f; try reflexivity. unfold entity_count. cbn. now rewrite Z.div_1_r. Qed.
Lemma populated_exists f N v before : sound f N -> exists after, populates f N v before after.
Proof.
  intros (S1 & S2 & S3). assert (constituents f N + 524288 <= 2 ^ 32)%Z.
  { rewrite sound_constituents. unfold entity_count in *. assert (N / entity_size f <= N)%Z; [|lia].
    assert (0 <= N)%Z by (destruct (Z_lt_le_dec N 0); [|assumption]; exfalso; pose proof (Z.div_lt_upper_bound N (entity_size f) 0 S2); lia).
    apply Z.div_le_upper_bound; nia. }
  destruct (threads_exist _ H) as (fuel & l & T).
  assert (A : exists after fuel l order, threads fuel (constituents f N) = Some l /\ Permutation (flat_map (kernel f N v) l) order /\ after = fold_left write_to order before).
  { exists (fold_left write_to (flat_map (kernel f N v) l) before), fuel, l, (flat_map (kernel f N v) l). auto. }
  destruct f; [eexists; reflexivity|exact A|exact A|exact A].
Qed.

(** * One measurement *)
Lemma forall2_length {A B} (P : A -> B -> Prop) l m : Forall2 P l m -> length l = length m.
Proof. induction 1; cbn; congruence. Qed.
Definition holds (n : Z) (a : array) (u : Z -> Z -> Qc) : Prop := forall k c, (0 <= k < n)%Z -> (0 <= c < 3)%Z -> a (3 * k + c)%Z = u k c.
Lemma inner_product n a b u v : holds n a u -> holds n b v -> (0 <= n)%Z ->
  fold_left (fun sum i => sum + a i * b i) (zrange (3 * n)) 0 =
  qsum (map (fun k => u k 0%Z * v k 0%Z + u k 1%Z * v k 1%Z + u k 2%Z * v k 2%Z) (zrange n)).
Proof.
  intros A B N. revert N A B. apply (zrange_ind (fun n => (0 <= n)%Z -> holds n a u -> holds n b v -> fold_left (fun sum i => sum + a i * b i) (zrange (3 * n)) 0 = qsum (map _ (zrange n)))).
  - intros m M M0 _ _. rewrite !zrange_nil by lia. reflexivity.
  - intros m M IH _ A B. replace (3 * (m + 1))%Z with (3 * m + 1 + 1 + 1)%Z by ring. rewrite !zrange_succ by lia.
    rewrite !fold_left_app, IH by (try lia; intros k c K C; (apply A || apply B); lia). cbn [fold_left]. rewrite map_app, qsum_app. cbn [map]. unfold qsum at 3. cbn [fold_right].
    rewrite <- (A m 0%Z), <- (A m 1%Z), <- (A m 2%Z), <- (B m 0%Z), <- (B m 1%Z), <- (B m 2%Z) by lia.
    rewrite Z.add_0_r. replace (3 * m + 1 + 1)%Z with (3 * m + 2)%Z by ring. ring.
Qed.

Section Calls.
Variables (f : fluid) (N : Z) (mt : Qc) (count : nat).
Hypothesis Hs : sound f N.
Hypothesis Hc : (0 < count)%nat.
Hypothesis Hm : millionth <= mt / qn count.
Notation n := (entity_count f N).
Notation E := (entity_velocity (as_doublets f)).

Definition represents (s : snapshot) (c : call) : Prop := snapshotTime s = fst c /\ 0 <= fst c /\ holds n (buffer s) (E (snd c)).
Definition waiting (s : snapshot) : Prop := snapshotTime s < 0.

Lemma mt_bound : millionth <= mt.
Proof.
  assert (1 <= qn count) by (rewrite <- qn_1, !qn_qz; apply qz_le; lia).
  assert (0 < millionth) by reflexivity.
  assert (E0 : mt = mt / qn count * qn count) by (field; apply qn_neq0; lia). rewrite E0.
  set (x := mt / qn count) in *. apply (Qcle_trans _ (x * 1)); [now rewrite Qcmult_1_r|].
  rewrite !(Qcmult_comm x). apply Qcmult_le_compat_r; [assumption|]. apply (Qcle_trans _ millionth); [discriminate|exact Hm].
Qed.
Lemma older_qltb now (s : snapshot) c : snapshotTime s = fst c -> qltb mt (now - snapshotTime s - tolerance) = older mt now c.
Proof.
  intros ->. unfold older. change tolerance with millionth. apply eq_iff_eq_true. rewrite !qltb_spec. split; intros; qlra.
Qed.
Lemma represents_nonneg s c : represents s c -> qleb 0 (snapshotTime s) = true.
Proof. intros (A & B & _). rewrite A. now apply qleb_spec. Qed.
Lemma taken_represents now cur v : 0 <= now -> holds n cur (E v) -> represents (taken now cur) (now, v).
Proof. intros A B. split; [reflexivity|]. split; [exact A|exact B]. Qed.

Definition renewed (new : call) (c : call) : call := if older mt (fst new) c then new else c.
Lemma update_prefix now cur v l cs : 0 <= now -> holds n cur (E v) -> Forall2 represents l cs -> forall prev w,
  exists l', Forall2 represents l' (map (renewed (now, v)) cs) /\
    updateSnapshots mt now cur count prev (l ++ w) =
    l' ++ updateSnapshots mt now cur count (match rev (map (renewed (now, v)) cs) with [] => prev | c :: _ => Some (fst c) end) w.
Proof.
  intros T B F. induction F as [|s c l cs Hsc F IH]; intros prev w; [exists []; split; [constructor|reflexivity]|].
  cbn [app updateSnapshots]. unfold initializeIfAppropriate. rewrite (represents_nonneg s c Hsc).
  rewrite (older_qltb now s c (proj1 Hsc)).
  set (s' := if older mt now c then taken now cur else s).
  assert (R : represents s' (renewed (now, v) c)).
  { unfold s', renewed. cbn [fst]. destruct (older mt now c); [now apply taken_represents|exact Hsc]. }
  destruct (IH (Some (snapshotTime s')) w) as (l' & F' & Eq). exists (s' :: l'). split; [constructor; assumption|].
  rewrite Eq. cbn [app map rev]. do 2 f_equal. destruct (rev (map (renewed (now, v)) cs)) as [|q r]; cbn [app]; [rewrite (proj1 R); reflexivity|reflexivity].
Qed.
Lemma update_waiting now cur v w prev : 0 <= now -> holds n cur (E v) -> Forall waiting w ->
  match prev with Some p => 0 <= p | None => True end ->
  let due := match prev with None => true | Some p => qltb (mt / qn count - millionth) (now - p) end in
  match w with
  | [] => updateSnapshots mt now cur count prev w = []
  | s :: r => updateSnapshots mt now cur count prev w = if due then taken now cur :: r else w
  end.
Proof.
  intros T B W P due. destruct w as [|s r]; [reflexivity|]. cbn [updateSnapshots]. apply Forall_cons_iff in W. destruct W as (W1 & W2).
  assert (I0 : forall x, Forall waiting [x] -> qleb 0 (snapshotTime x) = false).
  { intros x X. apply Forall_cons_iff in X. now apply qleb_false. }
  assert (D : initializeIfAppropriate mt now cur count prev s = if due then Some (taken now cur) else None).
  { unfold initializeIfAppropriate. rewrite I0 by (constructor; auto). destruct prev as [p|]; [|reflexivity].
    rewrite (proj2 (qltb_false p 0) P). change tolerance with millionth.
    assert (X : qltb (mt / qn count) (now - p + millionth) = due).
    { unfold due. apply eq_iff_eq_true. rewrite !qltb_spec. split; intros; qlra. }
    now rewrite X. }
  rewrite D. destruct due; [|reflexivity].
  assert (X : qltb mt (now - snapshotTime (taken now cur) - tolerance) = false).
  { apply qltb_false. cbn [taken snapshotTime]. change tolerance with millionth. pose proof mt_bound. assert (0 < millionth) by reflexivity. qlra. }
  rewrite X. f_equal. cbn [taken snapshotTime]. destruct r as [|s2 r]; [reflexivity|]. cbn [updateSnapshots].
  apply Forall_cons_iff in W2. destruct W2 as (W2 & W3).
  unfold initializeIfAppropriate. rewrite I0 by (constructor; auto). rewrite (proj2 (qltb_false now 0) T).
  assert (Y : qltb (mt / qn count) (now - now + tolerance) = false).
  { apply qltb_false. change tolerance with millionth. qlra. }
  now rewrite Y.
Qed.
Lemma measured_with now cur v s c : represents s c -> holds n cur (E v) ->
  measureWithSnapshot (constituents f N) now cur s = (fst c, now, correlation n (E (snd c)) (E v)).
Proof.
  intros (A & _ & B) C. unfold measureWithSnapshot. rewrite sound_constituents, A. destruct Hs as (S1 & S2 & S3).
  assert (n <= N)%Z. { unfold entity_count in *. assert (0 <= N)%Z by (destruct (Z_lt_le_dec N 0); [|assumption]; exfalso; pose proof (Z.div_lt_upper_bound N (entity_size f) 0 S2); lia). apply Z.div_le_upper_bound; nia. }
  rewrite u32_small by lia. rewrite (inner_product n (buffer s) cur (E (snd c)) (E v) B C) by lia. reflexivity.
Qed.

(** Snapshots [cs] have been taken, the others have not. *)
Definition invariant (s : state) (cs : list call) : Prop :=
  exists l w, snapshots s = l ++ w /\ Forall2 represents l cs /\ Forall waiting w /\ length (snapshots s) = count.
Definition V (u v : array) : Qc := correlation n (E u) (E v).

Lemma measured_step s cs now cur v : invariant s cs -> 0 <= now -> holds n cur (E v) ->
  let cs' := procedure false count mt cs (now, v) in
  invariant (measured (constituents f N) mt now cur s) cs' /\
  autocorrelations (measured (constituents f N) mt now cur s) = autocorrelations s ++ map (fun c => (fst c, now, V (snd c) v)) cs'.
Proof.
  intros (l & w & Es & F & W & L) T B cs'.
  unfold measured. cbn [snapshots autocorrelations]. rewrite L, Es.
  destruct (update_prefix now cur v l cs T B F None w) as (l' & F' & Eq). rewrite Eq. clear Eq.
  rewrite Es, app_length in L. pose proof (forall2_length _ _ _ F) as Lc. pose proof (forall2_length _ _ _ F') as Lc'. rewrite map_length in Lc'.
  set (R := map (renewed (now, v)) cs) in *.
  assert (NN : match match rev R with [] => None | c :: _ => Some (fst c) end with Some p => 0 <= p | None => True end).
  { destruct (rev R) as [|c r] eqn:ER; [exact Logic.I|]. assert (I : In c R) by (apply in_rev; rewrite ER; left; reflexivity).
    clear - F' I. induction F' as [|a b x y H F' IH]; [destruct I|]. destruct I as [->|I]; [apply H|auto]. }
  pose proof (update_waiting now cur v w _ T B W NN) as U. cbv zeta in U.
  set (due := match match rev R with [] => None | c :: _ => Some (fst c) end with None => true | Some p => qltb (mt / qn count - millionth) (now - p) end) in *.
  assert (Ecs : cs' = if Nat.ltb (length cs) count && due then R ++ [(now, v)] else R).
  { assert (D : due = match rev R with [] => true | c :: _ => qltb (mt / qn count - millionth) (now - fst c) end) by (unfold due; destruct (rev R); reflexivity).
    rewrite D. reflexivity. }
  assert (Z0 : forall x y, Forall2 represents x y -> filter (fun s => qleb 0 (snapshotTime s)) x = x).
  { intros x y H. apply filter_all. intros z Iz. clear - H Iz. induction H as [|a b x y H1 H IH]; [destruct Iz|]. destruct Iz as [->|Iz]; [exact (represents_nonneg _ _ H1)|auto]. }
  assert (Z1 : forall x, Forall waiting x -> filter (fun s => qleb 0 (snapshotTime s)) x = []).
  { intros x H. apply filter_none. intros z Iz. rewrite Forall_forall in H. apply qleb_false. apply H. exact Iz. }
  assert (M : forall x y, Forall2 represents x y -> map (measureWithSnapshot (constituents f N) now cur) x = map (fun c => (fst c, now, V (snd c) v)) y).
  { intros x y H. induction H as [|a b x y H1 H IH]; [reflexivity|]. cbn [map]. rewrite IH, (measured_with now cur v a b H1 B). reflexivity. }
  assert (Fin : forall x y z, Forall2 represents x y -> Forall waiting z -> length (x ++ z) = count -> cs' = y ->
    invariant (State cur (x ++ z) (autocorrelations s ++ map (measureWithSnapshot (constituents f N) now cur) (filter (fun s => qleb 0 (snapshotTime s)) (x ++ z)))) cs' /\
    autocorrelations s ++ map (measureWithSnapshot (constituents f N) now cur) (filter (fun s => qleb 0 (snapshotTime s)) (x ++ z)) =
    autocorrelations s ++ map (fun c => (fst c, now, V (snd c) v)) cs').
  { intros x y z Fx Wz Ln ->. rewrite filter_app, (Z0 x y Fx), (Z1 z Wz), app_nil_r, (M x y Fx). split; [|reflexivity].
    exists x, z. cbn [snapshots]. auto. }
  destruct w as [|s0 w].
  - rewrite U. cbn [length] in L. rewrite (proj2 (Nat.ltb_ge (length cs) count)) in Ecs by lia. cbn [andb] in Ecs.
    apply (Fin l' R []); auto. rewrite app_length. cbn. lia.
  - rewrite U. cbn [length] in L. rewrite (proj2 (Nat.ltb_lt (length cs) count)) in Ecs by lia. cbn [andb] in Ecs.
    apply Forall_cons_iff in W as W'. destruct W' as (W1 & W2). destruct due.
    + replace (l' ++ taken now cur :: w) with ((l' ++ [taken now cur]) ++ w) by (rewrite <- app_assoc; reflexivity).
      apply (Fin (l' ++ [taken now cur]) (R ++ [(now, v)]) w); auto.
      * apply Forall2_app; [exact F'|]. constructor; [now apply taken_represents|constructor].
      * rewrite !app_length. cbn. lia.
    + apply (Fin l' R (s0 :: w)); auto. rewrite app_length. cbn. lia.
Qed.
Lemma measures_records calls : forall s s' cs, invariant s cs -> (forall c, In c calls -> 0 <= fst c) ->
  measures f N mt calls s s' -> autocorrelations s' = autocorrelations s ++ records false V count mt cs calls.
Proof.
  induction calls as [|(now, v) calls IH]; intros s s' cs I T M; inversion M; subst.
  - cbn [records]. now rewrite app_nil_r.
  - match goal with H : populates _ _ _ _ ?c |- _ => pose proof (populated f N v _ c Hs H) as B end.
    destruct (measured_step s cs now _ v I (T (now, v) (or_introl eq_refl)) B) as (I' & A).
    match goal with H : measures _ _ _ _ _ _ |- _ => rewrite (IH _ _ _ I' (fun c C => T c (or_intror C)) H) end.
    rewrite A. cbn [records]. cbn [fst snd]. now rewrite <- app_assoc.
Qed.
Lemma fresh_invariant contents cur : invariant (fresh contents cur count) [].
Proof.
  exists [], (snapshots (fresh contents cur count)). split; [reflexivity|]. split; [constructor|]. split.
  - apply Forall_forall. intros x X. apply in_map_iff in X. destruct X as (i & <- & _). reflexivity.
  - unfold fresh. cbn [snapshots]. now rewrite map_length, seq_length.
Qed.
End Calls.
Lemma measures_exist f N mt calls : sound f N -> forall s, exists s', measures f N mt calls s s'.
Proof.
  intros Hs. induction calls as [|(now, v) calls IH]; intros s; [exists s; constructor|].
  destruct (populated_exists f N v (currentVelocities s) Hs) as (cur & P).
  destruct (IH (measured (constituents f N) mt now cur s)) as (s' & M). exists s'. econstructor; eauto.
Qed.

(** * Regular intervals *)
Section Regular.
Variables (t0 h mt : Qc) (v : nat -> array) (count m p : nat) (W : array -> array -> Qc).
Hypothesis Hc : (0 < count)%nat.
Hypothesis Hm : (0 < m)%nat.
Hypothesis Hmp : (count = 1 \/ m < p)%nat.
Hypothesis Hp : (0 < p)%nat.
Hypothesis Hi : intervals count mt h m p.
Notation R := (regular_call t0 h v).

Definition taken_by (k : nat) : nat := Nat.min count (k / m + 1).
Definition references (k : nat) : list call := map (fun i => R (reference m p k i)) (seq 0 (taken_by k)).

Lemma lag k r : (r <= k)%nat -> fst (R k) - fst (R r) = qn (k - r) * h.
Proof.
  intros L. unfold regular_call. cbn [fst]. replace k with ((k - r) + r)%nat at 1 by lia. rewrite qn_add. ring.
Qed.
Lemma reference_le k i : (i * m <= k)%nat -> (reference m p k i <= k)%nat.
Proof. intros L. unfold reference. pose proof (Nat.mul_div_le (k - i * m) p). nia. Qed.
Lemma older_lag k r : (r <= k)%nat -> older mt (fst (R k)) (R r) = Nat.leb p (k - r).
Proof.
  intros L. unfold older. rewrite lag by exact L. apply eq_iff_eq_true. rewrite qltb_spec, Nat.leb_le. apply Hi.
Qed.
Lemma due_lag k r : (r <= k)%nat -> qltb (mt / qn count - millionth) (fst (R k) - fst (R r)) = Nat.leb m (k - r).
Proof.
  intros L. rewrite lag by exact L. apply eq_iff_eq_true. rewrite qltb_spec, Nat.leb_le. apply Hi.
Qed.
Lemma reference_next k i : (i * m <= k)%nat ->
  (if Nat.leb p (Datatypes.S k - reference m p k i) then Datatypes.S k else reference m p k i) = reference m p (Datatypes.S k) i.
Proof.
  intros L. unfold reference. set (d := (k - i * m)%nat). replace (Datatypes.S k - i * m)%nat with (Datatypes.S d) by (unfold d; lia).
  pose proof (Nat.div_mod d p ltac:(lia)) as E. pose proof (Nat.mod_upper_bound d p ltac:(lia)) as U.
  set (q := (d / p)%nat) in *. set (s := (d mod p)%nat) in *.
  assert (K : k = (i * m + d)%nat) by (unfold d; lia).
  destruct (Nat.leb_spec p (Datatypes.S k - (i * m + q * p))) as [H|H].
  - assert (Datatypes.S d = (q + 1) * p)%nat as -> by nia. rewrite Nat.div_mul by lia. nia.
  - replace (Datatypes.S d / p)%nat with q; [reflexivity|]. apply (Nat.div_unique (Datatypes.S d) p q (Datatypes.S s)); nia.
Qed.
Lemma taken_index k i : (i < taken_by k)%nat -> (i * m <= k)%nat.
Proof. unfold taken_by. intros L. pose proof (Nat.mul_div_le k m). nia. Qed.
Lemma references_renewed k : map (fun c => if older mt (fst (R (Datatypes.S k))) c then R (Datatypes.S k) else c) (references k) =
  map (fun i => R (reference m p (Datatypes.S k) i)) (seq 0 (taken_by k)).
Proof.
  unfold references. rewrite map_map. apply map_ext_in. intros i I. apply in_seq in I.
  pose proof (taken_index k i ltac:(lia)) as L. pose proof (reference_le k i L). rewrite older_lag by lia. rewrite <- reference_next by exact L.
  destruct (Nat.leb p (Datatypes.S k - reference m p k i)); reflexivity.
Qed.
Lemma references_step k : procedure false count mt (references k) (R (Datatypes.S k)) = references (Datatypes.S k).
Proof.
  unfold procedure. cbn [negb orb]. rewrite references_renewed.
  assert (L0 : length (references k) = taken_by k) by (unfold references; now rewrite map_length, seq_length).
  rewrite L0. pose proof (Nat.div_mod k m ltac:(lia)) as E. pose proof (Nat.mod_upper_bound k m ltac:(lia)) as U.
  pose proof (Nat.div_mod (Datatypes.S k) m ltac:(lia)) as E'. pose proof (Nat.mod_upper_bound (Datatypes.S k) m ltac:(lia)) as U'.
  destruct (Nat.ltb_spec (taken_by k) count) as [L|L].
  - assert (T : taken_by k = Datatypes.S (k / m)) by (unfold taken_by in *; lia). rewrite T, seq_S, map_app, rev_app_distr. cbn [map rev app Nat.add].
    assert (MP : (m < p)%nat) by (unfold taken_by in *; lia).
    assert (A : reference m p (Datatypes.S k) (k / m) = (k / m * m)%nat).
    { unfold reference. assert (X : (Datatypes.S k - k / m * m)%nat = Datatypes.S (k mod m)) by lia. rewrite X, (Nat.div_small (Datatypes.S (k mod m)) p) by lia. lia. }
    rewrite A, due_lag by lia. cbn [andb]. unfold references.
    destruct (Nat.leb_spec m (Datatypes.S k - k / m * m)) as [D|D].
    + assert (Q : (Datatypes.S k / m = Datatypes.S (k / m))%nat) by (symmetry; apply (Nat.div_unique _ m _ 0); nia).
      assert (T' : taken_by (Datatypes.S k) = Datatypes.S (Datatypes.S (k / m))) by (unfold taken_by in *; rewrite Q; lia).
      rewrite T', (seq_S (Datatypes.S (k / m))), seq_S, !map_app. cbn [map Nat.add]. rewrite <- A at 1. f_equal. f_equal. f_equal.
      unfold reference. replace (Datatypes.S (k / m) * m)%nat with (Datatypes.S k) by nia. rewrite Nat.sub_diag, Nat.div_0_l by lia. lia.
    + assert (Q : (Datatypes.S k / m = k / m)%nat) by (symmetry; apply (Nat.div_unique _ m _ (Datatypes.S (k mod m))); nia).
      assert (T' : taken_by (Datatypes.S k) = Datatypes.S (k / m)) by (unfold taken_by in *; rewrite Q; lia).
      rewrite T', seq_S, map_app. cbn [map Nat.add]. rewrite A. reflexivity.
  - cbn [andb]. unfold references. assert (T : taken_by (Datatypes.S k) = taken_by k); [|now rewrite T].
    assert (k / m <= Datatypes.S k / m)%nat by (apply Nat.div_le_mono; lia). unfold taken_by in *. lia.
Qed.
Definition rows (k : nat) : list (Qc * Qc * Qc) := map (fun c => (fst c, fst (R k), W (snd c) (v k))) (references k).
Lemma records_from K : forall k, records false W count mt (references k) (map R (seq (Datatypes.S k) K)) = flat_map rows (seq (Datatypes.S k) K).
Proof.
  induction K as [|K IH]; intros k; [reflexivity|]. cbn [seq map records flat_map]. rewrite references_step, IH. reflexivity.
Qed.
Lemma records_regular K : records false W count mt [] (map R (seq 0 K)) = flat_map rows (seq 0 K).
Proof.
  destruct K as [|K]; [reflexivity|]. cbn [seq map records flat_map].
  assert (A : procedure false count mt [] (R 0%nat) = references 0).
  { unfold procedure. cbn [negb orb map length]. rewrite (proj2 (Nat.ltb_lt 0 count)) by lia. cbn [rev andb app].
    unfold references, taken_by. rewrite Nat.div_0_l by lia. replace (Nat.min count (0 + 1)) with 1%nat by lia. cbn [seq map]. f_equal. f_equal.
    unfold reference. rewrite Nat.div_0_l by lia. reflexivity. }
  rewrite A, records_from. reflexivity.
Qed.
End Regular.

(** * Bounds *)
Lemma ordered_nth l : ordered l -> forall i j a b, (i <= j)%nat -> nth_error l i = Some a -> nth_error l j = Some b -> fst a <= fst b.
Proof.
  assert (H0 : forall l a, ordered (a :: l) -> ordered l /\ forall b, In b l -> fst a <= fst b).
  { clear l. induction l as [|b l IH]; intros a O; [split; [exact Logic.I|intros b []]|]. destruct O as (A & O). split; [exact O|].
    intros c [->|C]; [exact A|]. apply (Qcle_trans _ (fst b)); [exact A|]. exact (proj2 (IH b O) c C). }
  induction l as [|c l IH]; intros O i j a b L A B; [destruct i; discriminate|]. destruct (H0 l c O) as (O' & F).
  destruct i as [|i].
  - injection A as <-. destruct j as [|j]; [injection B as <-; apply Qcle_refl|]. apply F. apply (nth_error_In l j). exact B.
  - destruct j as [|j]; [lia|]. exact (IH O' i j a b ltac:(lia) A B).
Qed.
Section Bounds.
Variables (V : array -> array -> Qc) (count : nat) (mt : Qc).
Hypothesis Hc : (0 < count)%nat.
Hypothesis Hm : 0 <= mt.
Definition from_past (past : list call) (c : call) : Prop := exists i, nth_error past i = Some c.
Definition from_pair (calls : list call) (e : Qc * Qc * Qc) : Prop :=
  exists i j c1 c2, (i <= j)%nat /\ nth_error calls i = Some c1 /\ nth_error calls j = Some c2 /\ e = (fst c1, fst c2, V (snd c1) (snd c2)) /\ fst c2 - fst c1 <= mt + millionth.
Lemma procedure_in snaps new c : In c (procedure false count mt snaps new) -> fst new - fst c <= mt + millionth /\ (c = new \/ In c snaps).
Proof.
  intros H. assert (A : c = new \/ In c (map (fun c => if older mt (fst new) c then new else c) snaps)).
  { unfold procedure in H. cbn [negb orb] in H. destruct (_ && _); [apply in_app_or in H; destruct H as [H|[->|[]]]; auto|auto]. }
  assert (B : fst new - fst new <= mt + millionth) by (assert (0 < millionth) by reflexivity; qlra).
  destruct A as [->|A]; [auto|]. apply in_map_iff in A. destruct A as (d & E & I). destruct (older mt (fst new) d) eqn:O; [subst; auto|]. subst d. split; [|auto].
  unfold older in O. apply qltb_false in O. exact O.
Qed.
Lemma procedure_length full snaps new : (length snaps <= count)%nat ->
  (1 <= length (procedure full count mt snaps new) <= count)%nat.
Proof.
  intros L. unfold procedure. set (s' := if negb full || Nat.eqb (length snaps) count then _ else snaps).
  assert (L' : length s' = length snaps) by (unfold s'; destruct (negb full || Nat.eqb (length snaps) count); [apply map_length|reflexivity]).
  destruct (Nat.ltb_spec (length snaps) count) as [X|X]; cbn [andb].
  - destruct (rev s') as [|c r] eqn:E.
    + rewrite app_length, L'. cbn. lia.
    + assert (length s' <> 0)%nat by (intros Z; apply length_zero_iff_nil in Z; rewrite Z in E; discriminate).
      destruct (qltb _ _); rewrite ?app_length, L'; cbn; lia.
  - lia.
Qed.
Lemma records_from_pairs calls : forall past snaps, (forall c, In c snaps -> from_past past c) ->
  Forall (from_pair (past ++ calls)) (records false V count mt snaps calls).
Proof.
  induction calls as [|new calls IH]; intros past snaps P; [constructor|]. cbn [records].
  assert (P' : forall c, In c (procedure false count mt snaps new) -> from_past (past ++ [new]) c).
  { intros c I. apply procedure_in in I. destruct I as (_ & [->|I]).
    - exists (length past). rewrite nth_error_app2, Nat.sub_diag by lia. reflexivity.
    - destruct (P c I) as (i & E). exists i. rewrite nth_error_app1; [exact E|]. apply nth_error_Some. congruence. }
  apply Forall_app. split.
  - apply Forall_forall. intros e E. apply in_map_iff in E. destruct E as (c & <- & I). destruct (P' c I) as (i & Ei).
    exists i, (length past), c, new. assert (i < length (past ++ [new]))%nat by (apply nth_error_Some; congruence). rewrite app_length in *. cbn in *.
    split; [lia|]. split; [|split; [|split; [reflexivity|apply (procedure_in snaps new c I)]]].
    + change (new :: calls) with ([new] ++ calls). rewrite app_assoc, nth_error_app1; [exact Ei|]. rewrite app_length. cbn. lia.
    + rewrite nth_error_app2, Nat.sub_diag by lia. reflexivity.
  - change (new :: calls) with ([new] ++ calls). rewrite app_assoc. apply IH. exact P'.
Qed.
(** The records of each call: the lines that end at it. *)
Lemma records_groups full calls : forall snaps, (length snaps <= count)%nat ->
  exists groups, records full V count mt snaps calls = concat groups /\
    Forall2 (fun c g => (1 <= length g <= count)%nat /\ Forall (fun e => snd (fst e) = fst c) g) calls groups.
Proof.
  induction calls as [|new calls IH]; intros snaps L; [exists []; split; [reflexivity|constructor]|]. cbn [records].
  pose proof (procedure_length full snaps new L) as PL.
  destruct (IH (procedure full count mt snaps new) ltac:(lia)) as (groups & E & F).
  exists (map (fun c => (fst c, fst new, V (snd c) (snd new))) (procedure full count mt snaps new) :: groups). cbn [concat]. rewrite E. split; [reflexivity|].
  constructor; [|exact F]. rewrite map_length. split; [exact PL|]. apply Forall_forall. intros e I. apply in_map_iff in I. destruct I as (c & <- & _). reflexivity.
Qed.
End Bounds.

(** * Numbers of intervals *)
Lemma millionth_pos : 0 < millionth.
Proof. reflexivity. Qed.
Lemma div_mul count (x : Qc) : (0 < count)%nat -> x / qn count * qn count = x.
Proof. intros H. field. apply qn_neq0. lia. Qed.
Section Accepted.
Variables (count : nat) (mt h : Qc).
Hypothesis Hc : (0 < count)%nat.
Hypothesis Hh : millionth <= h.
Hypothesis Ha : qn count * h <= mt - millionth.
Lemma separation_bound : h <= mt / qn count.
Proof.
  assert (P : 0 < qn count) by (apply qn_pos; lia). pose proof millionth_pos.
  apply (Qcmult_lt_0_le_reg_r _ _ (qn count)); [exact P|]. rewrite div_mul by exact Hc. rewrite Qcmult_comm. qlra.
Qed.
Lemma intervals_sound m p : intervals count mt h m p -> (0 < m)%nat /\ (0 < p)%nat /\ (count = 1 \/ m < p)%nat.
Proof.
  intros (M & P). pose proof separation_bound as SB. pose proof millionth_pos as MP.
  assert (P1 : 1 <= qn count) by (rewrite <- qn_1, !qn_qz; apply qz_le; lia).
  set (x := mt / qn count) in *. assert (EX : mt = x * qn count) by (symmetry; apply div_mul; exact Hc).
  assert (XM : x <= mt). { rewrite EX. qnra. }
  split; [|split].
  - destruct m; [|lia]. exfalso. pose proof (proj2 (M 0%nat) ltac:(lia)) as Q. rewrite qn_0 in Q. qlra.
  - destruct p; [|lia]. exfalso. pose proof (proj2 (P 0%nat) ltac:(lia)) as Q. rewrite qn_0 in Q. qlra.
  - destruct (Nat.eq_dec count 1) as [E|E]; [left; exact E|right]. destruct (le_lt_dec p m) as [L|L]; [|exact L]. exfalso.
    assert (2 <= count)%nat by lia.
    assert (P2 : 1 + 1 <= qn count) by (rewrite qn_qz; change (1 + 1) with (qz 2); apply qz_le; lia).
    destruct p as [|p].
    { pose proof (proj2 (P 0%nat) ltac:(lia)) as Q. rewrite qn_0 in Q. qlra. }
    pose proof (proj2 (P (Datatypes.S p)) ltac:(lia)) as Q1. rewrite qn_S in Q1.
    assert (Q2 : ~ x - millionth < qn p * h). { intros Q. apply M in Q. lia. } apply Qcnot_lt_le in Q2.
    assert (Q3 : x + x <= mt). { rewrite EX. qnra. }
    assert ((qn p + 1) * h = qn p * h + h) by ring. qlra.
Qed.
End Accepted.
Lemma intervals_exact count m h : (0 < count)%nat -> millionth < h -> intervals count (qn (count * m) * h) h m (count * m + 1).
Proof.
  intros Hc Hh. pose proof millionth_pos as MP.
  assert (E : qn (count * m) * h / qn count = qn m * h) by (rewrite qn_mul; field; apply qn_neq0; lia).
  assert (LE : forall a b, (a <= b)%nat -> qn a * h <= qn b * h).
  { intros a b L. apply Qcmult_le_compat_r; [rewrite !qn_qz; apply qz_le; lia|]. qlra. }
  split; intros k.
  - rewrite E. split; intros H.
    + destruct (le_lt_dec m k) as [L|L]; [exact L|]. exfalso. pose proof (LE (Datatypes.S k) m ltac:(lia)) as Q. rewrite qn_S in Q. assert ((qn k + 1) * h = qn k * h + h) by ring. qlra.
    + pose proof (LE m k H). qlra.
  - split; intros H.
    + destruct (le_lt_dec (count * m + 1) k) as [L|L]; [exact L|]. exfalso. pose proof (LE k (count * m)%nat ltac:(lia)). qlra.
    + pose proof (LE (count * m + 1)%nat k H) as Q. rewrite qn_add, qn_1 in Q. assert ((qn (count * m) + 1) * h = qn (count * m) * h + h) by ring. qlra.
Qed.
