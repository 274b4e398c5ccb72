From Verif Require Import QcBase QcLra PyBase DictBase SortBase OtfsModel OtfsSpec OtfsProof
  Data2DModel Data2DSpec.
From Coq Require Import Sorted.
Set Implicit Arguments.
Open Scope Qc_scope.

Ltac qdestr :=
  repeat match goal with
  | H : qltb _ _ = true |- _ => apply qltb_spec in H
  | H : qltb _ _ = false |- _ => apply qltb_false in H
  | H : qleb _ _ = true |- _ => apply qleb_spec in H
  | H : qleb _ _ = false |- _ => apply qleb_false in H
  end.

(** * Stored points *)
Lemma build_get_aux h d x : NoDup (dkeys d) ->
  let d' := fold_left (fun d p => addPoint d (fst p) (snd p)) h d in
  NoDup (dkeys d') /\
  dget qeqb d' x = match last_value h x with Some y => Some y | None => dget qeqb d x end.
Proof.
  revert d. induction h as [|[a b] h IH]; intros d H; cbn; [auto|].
  destruct (IH (addPoint d a b)) as [N G].
  { apply dset_nodup; [apply qeqb_spec|assumption]. }
  split; [exact N|]. rewrite G. destruct (last_value h x); [reflexivity|].
  unfold addPoint. rewrite dget_dset by apply qeqb_spec. destruct (qeqb x a); reflexivity.
Qed.
Lemma build_nodup h : NoDup (dkeys (build h)).
Proof. apply (@build_get_aux h [] 0). constructor. Qed.
Lemma build_get h x : dget qeqb (build h) x = last_value h x.
Proof.
  destruct (@build_get_aux h [] x) as [_ G]; [constructor|]. unfold build. rewrite G.
  destruct (last_value h x); reflexivity.
Qed.
Lemma build_in h x y : In (x, y) (build h) <-> last_value h x = Some y.
Proof.
  rewrite <- build_get. split.
  - apply in_dget; [apply qeqb_spec|apply build_nodup].
  - apply dget_in, qeqb_spec.
Qed.

(** * Sorting by key *)
Definition klt {V : Type} (a b : Qc * V) : Prop := fst a < fst b.

Lemma key_le_total {V} (a b : Qc * V) : key_le a b = true \/ key_le b a = true.
Proof.
  unfold key_le. rewrite !qleb_spec. destruct (Qclt_le_dec (fst a) (fst b)) as [H|H]; [left|right];
  [apply Qclt_le_weak|]; assumption.
Qed.
Lemma key_le_trans {V} (a b c : Qc * V) : key_le a b = true -> key_le b c = true -> key_le a c = true.
Proof. unfold key_le. rewrite !qleb_spec. apply Qcle_trans. Qed.

Lemma isort_key_sorted {V} (d : list (Qc * V)) : NoDup (dkeys d) ->
  StronglySorted klt (isort key_le d).
Proof.
  intros N.
  assert (N' : NoDup (map fst (isort key_le d))).
  { eapply Permutation_NoDup; [|exact N]. apply Permutation_map, isort_perm. }
  pose proof (isort_sorted _ (@key_le_total V) (@key_le_trans V) d) as S.
  induction S as [|a l S IH F]; [constructor|].
  inversion N' as [|? ? N1 N2]; subst. constructor; [apply IH, N2|].
  rewrite Forall_forall in *. intros b Hb. specialize (F b Hb). unfold key_le in F.
  apply qleb_spec in F. unfold klt. apply Qcle_lt_or_eq in F. destruct F as [F|F]; [exact F|].
  exfalso. apply N1. rewrite F. apply in_map, Hb.
Qed.
Lemma isort_in {V} (d : list (Qc * V)) p : In p (isort key_le d) <-> In p d.
Proof.
  split; apply Permutation_in; [apply Permutation_sym|]; apply isort_perm.
Qed.
Lemma klt_sorted_unique {V} (l1 l2 : list (Qc * V)) : StronglySorted klt l1 -> StronglySorted klt l2 ->
  Permutation l1 l2 -> l1 = l2.
Proof.
  intros S1. revert l2. induction S1 as [|a l1 S1 IH F1]; intros l2 S2 P.
  - apply Permutation_nil in P. auto.
  - destruct S2 as [|b l2 S2 F2]; [apply Permutation_sym, Permutation_nil in P; discriminate|].
    assert (a = b).
    { rewrite Forall_forall in F1, F2.
      destruct (Permutation_in a P (or_introl eq_refl)) as [E|H1]; [auto|].
      destruct (Permutation_in b (Permutation_sym P) (or_introl eq_refl)) as [E|H2]; [auto|].
      specialize (F1 b H2). specialize (F2 a H1). unfold klt in *.
      exfalso. apply (Qclt_not_le _ _ F1). apply Qclt_le_weak, F2. }
    subst b. f_equal. apply IH; [exact S2|]. eapply Permutation_cons_inv, P.
Qed.
Lemma klt_nodup {V} (l : list (Qc * V)) : StronglySorted klt l -> NoDup (map fst l).
Proof.
  induction 1 as [|a l S IH F]; cbn; constructor; [|exact IH].
  intros HI. apply in_map_iff in HI. destruct HI as (b & E & Hb). rewrite Forall_forall in F.
  specialize (F b Hb). unfold klt in F. rewrite E in F. apply (Qclt_not_eq _ _ F). reflexivity.
Qed.
Lemma sorted_perm {V} (d l : list (Qc * V)) : StronglySorted klt l -> Permutation d l ->
  isort key_le d = l.
Proof.
  intros S P. apply klt_sorted_unique; [|exact S|].
  - apply isort_key_sorted. eapply Permutation_NoDup; [apply Permutation_sym, Permutation_map, P|].
    apply klt_nodup, S.
  - etransitivity; [apply Permutation_sym, isort_perm|exact P].
Qed.

(** * Nearest point *)
Definition nearer (x : Qc) (p p' : Qc * Qc) : Prop :=
  qabs (x - fst p) < qabs (x - fst p') \/
  (qabs (x - fst p) = qabs (x - fst p') /\ fst p <= fst p').

Lemma qabs_spec x : (0 <= x /\ qabs x = x) \/ (x < 0 /\ qabs x = - x).
Proof.
  unfold qabs. destruct (qltb x 0) eqn:E; qdestr; [right|left]; auto.
Qed.
Ltac qabs_all :=
  repeat match goal with
  | |- context [qabs ?t] => let H := fresh in pose proof (qabs_spec t) as H;
      let E := fresh in destruct H as [[H E]|[H E]]; rewrite E in *; clear E
  | _ : context [qabs ?t] |- _ => let H := fresh in pose proof (qabs_spec t) as H;
      let E := fresh in destruct H as [[H E]|[H E]]; rewrite E in *; clear E
  end.

Lemma nearer_lt x p p' : qabs (x - fst p) < qabs (x - fst p') -> nearer x p p'.
Proof. left. assumption. Qed.

Lemma qc_lt_or_eq_or_gt (a b : Qc) : a < b \/ a = b \/ b < a.
Proof.
  destruct (Qclt_le_dec a b) as [H|H]; [auto|]. apply Qcle_lt_or_eq in H.
  destruct H as [H|H]; auto.
Qed.

Lemma nearest_loop_ok x rest lx ly : 0 <= x - lx ->
  StronglySorted klt ((lx, ly) :: rest) ->
  let p := nearest_loop x lx ly (x - lx) rest in
  In p ((lx, ly) :: rest) /\ (forall p', In p' ((lx, ly) :: rest) -> nearer x p p') /\ lx <= fst p
  /\ qabs (x - fst p) <= x - lx.
Proof.
  revert lx ly. induction rest as [|[cx cy] r IH]; intros lx ly H S; cbn [nearest_loop].
  - split; [left; reflexivity|]. split; [|split; [apply Qcle_refl|]].
    + intros p' [<-|[]]. right. split; [reflexivity|apply Qcle_refl].
    + cbn. qabs_all; qlra.
  - inversion S as [|? ? S1 F1]; subst. inversion F1 as [|? ? F2 F3]; subst. cbv zeta.
    unfold klt in F2. cbn in F2.
    inversion S1 as [|? ? S2 F4]; subst.
    destruct (qltb (x - cx) 0) eqn:E; qdestr.
    + assert (FR : forall p', In p' r -> cx < fst p').
      { rewrite Forall_forall in F4. intros p' Hp. apply (F4 p' Hp). }
      destruct (qltb (- (x - cx)) (x - lx)) eqn:E2; qdestr.
      * split; [right; left; reflexivity|]. split; [|split; [apply Qclt_le_weak, F2|]].
        -- intros p' [<-|[<-|Hp]].
           ++ left. cbn. qabs_all; qlra.
           ++ right. split; [reflexivity|apply Qcle_refl].
           ++ left. specialize (FR p' Hp). cbn. qabs_all; qlra.
        -- cbn. qabs_all; qlra.
      * split; [left; reflexivity|]. split; [|split; [apply Qcle_refl|]].
        -- intros p' [<-|[<-|Hp]].
           ++ right. split; [reflexivity|apply Qcle_refl].
           ++ cbn. destruct (qc_lt_or_eq_or_gt (qabs (x - lx)) (qabs (x - cx))) as [G|[G|G]].
              ** left. exact G.
              ** right. split; [exact G|apply Qclt_le_weak, F2].
              ** exfalso. qabs_all; qlra.
           ++ left. specialize (FR p' Hp). cbn. qabs_all; qlra.
        -- cbn. qabs_all; qlra.
    + destruct (IH cx cy E S1) as (I1 & I2 & I3 & I4).
      split; [right; exact I1|]. split; [|split].
      * intros p' [<-|Hp]; [|apply I2, Hp]. left. cbn [fst].
        generalize dependent (nearest_loop x cx cy (x - cx) r). intros p _ _ I3 I4.
        qabs_all; qlra.
      * generalize dependent (nearest_loop x cx cy (x - cx) r). intros p _ _ I3 I4. qlra.
      * generalize dependent (nearest_loop x cx cy (x - cx) r). intros p _ _ I3 I4. qlra.
Qed.

Lemma nearest_ok h x :
  (h = [] -> getNearestPoint (build h) x = Err StopIteration) /\
  (h <> [] -> exists p, getNearestPoint (build h) x = Ok p /\ is_nearest h x p).
Proof.
  split; [intros ->; reflexivity|]. intros Hne.
  unfold getNearestPoint, d2_sort.
  pose proof (isort_key_sorted _ (build_nodup h)) as S.
  assert (IN : forall a b, In (a, b) (isort key_le (build h)) <-> last_value h a = Some b).
  { intros a b. rewrite isort_in. apply build_in. }
  destruct (isort key_le (build h)) as [|[fx fy] r].
  { exfalso. destruct h as [|[a b] h]; [contradiction|].
    assert (exists v, last_value ((a, b) :: h) a = Some v) as [v Hv].
    { cbn. destruct (last_value h a); [eauto|].
      destruct (qeqb a a) eqn:E; [eauto|]. exfalso.
      assert (qeqb a a = true) by (apply qeqb_spec; reflexivity). congruence. }
    apply IN in Hv. destruct Hv. }
  assert (G : forall p, In p ((fx, fy) :: r) -> (forall p', In p' ((fx, fy) :: r) -> nearer x p p') ->
    is_nearest h x p).
  { intros [a b] H1 H2. split; [apply IN, H1|]. intros x' y' L. apply IN in L. apply (H2 _ L). }
  destruct (qleb x fx) eqn:E; qdestr.
  - eexists. split; [reflexivity|]. apply G; [left; reflexivity|].
    inversion S as [|? ? S1 F]; subst. rewrite Forall_forall in F.
    intros p' [<-|Hp].
    + right. split; [reflexivity|apply Qcle_refl].
    + specialize (F p' Hp). unfold klt in F. cbn in F. left. cbn. qabs_all; qlra.
  - eexists. split; [reflexivity|].
    destruct (@nearest_loop_ok x r fx fy) as (I1 & I2 & _); [qlra|exact S|].
    apply G; assumption.
Qed.

(** * Moving average *)
Lemma fold_sum_snd (l : data2d) a : fold_left (fun s v => s + snd v) l a = a + qsum (map snd l).
Proof. revert a. induction l as [|v l IH]; intros a; cbn; [ring|]. rewrite IH. ring. Qed.
Lemma fold_count {A} (l : list A) a : fold_left (fun c _ => S c) l a = (a + length l)%nat.
Proof. revert a. induction l as [|v l IH]; intros a; cbn; [lia|]. rewrite IH. lia. Qed.

Lemma sma_cons w win p r : sma_loop w win (p :: r) =
  if qleb w (fst p - fst (nth 0 (win ++ [p]) (0, 0)))
  then (fst p, qsum (map snd (win ++ [p])) / qn (length (win ++ [p])))
       :: sma_loop w (tl (win ++ [p])) r
  else sma_loop w (win ++ [p]) r.
Proof.
  destruct p as [x y]. cbn [sma_loop fst]. rewrite fold_sum_snd, fold_count.
  replace (0 + qsum (map snd (win ++ [(x, y)]))) with (qsum (map snd (win ++ [(x, y)]))) by ring.
  reflexivity.
Qed.

Section Uniform.
Variables (x0 h w : Qc) (y : nat -> Qc) (m : nat).
Hypothesis Hh : 0 < h.
Hypothesis Hm1 : w <= qn m * h.
Hypothesis Hm2 : forall m', (m' < m)%nat -> qn m' * h < w.
Definition pt (k : nat) : Qc * Qc := (x0 + qn k * h, y k).

Lemma pt_sorted n a : StronglySorted klt (map pt (seq a n)).
Proof.
  revert a. induction n as [|n IH]; intros a; cbn; constructor; [apply IH|].
  rewrite Forall_forall. intros p Hp. apply in_map_iff in Hp. destruct Hp as (k & <- & Hk).
  apply in_seq in Hk. unfold klt, pt. cbn [fst].
  assert (P : 0 < qn (k - a) * h).
  { replace 0 with (0 * h) by ring. apply Qcmult_lt_compat_r; [exact Hh|]. apply qn_pos. lia. }
  replace k with (a + (k - a))%nat by lia. rewrite qn_add.
  replace (x0 + (qn a + qn (k - a)) * h) with (x0 + qn a * h + qn (k - a) * h) by ring.
  clear Hm1 Hm2 IH Hk. qlra.
Qed.

Definition expected (k : nat) : Qc * Qc :=
  (x0 + qn k * h, qsum (map y (seq (k - m) (S m))) / qn (S m)).

Lemma pt_diff a b : (a <= b)%nat -> fst (pt b) - fst (pt a) = qn (b - a) * h.
Proof.
  intros H. unfold pt. cbn [fst]. replace b with (a + (b - a))%nat at 1 by lia. rewrite qn_add. ring.
Qed.

Lemma sma_uniform_loop n k j : (j <= k)%nat -> j = (k - m)%nat ->
  sma_loop w (map pt (seq j (k - j))) (map pt (seq k n))
  = map expected (seq (Nat.max k m) (k + n - Nat.max k m)).
Proof.
  revert k j. induction n as [|n IH]; intros k j Hj Hjk.
  - rewrite Nat.add_0_r. replace (k - Nat.max k m)%nat with 0%nat by lia. reflexivity.
  - cbn [seq map]. rewrite sma_cons.
    replace (map pt (seq j (k - j)) ++ [pt k]) with (map pt (seq j (S (k - j)))).
    2:{ rewrite seq_S, map_app. cbn [map]. replace (j + (k - j))%nat with k by lia. reflexivity. }
    change (nth 0 (map pt (seq j (S (k - j)))) (0, 0)) with (pt j).
    rewrite pt_diff by assumption.
    destruct (qleb w (qn (k - j) * h)) eqn:E; qdestr.
    + assert (KM : (m <= k)%nat).
      { destruct (le_lt_dec m k); [assumption|]. exfalso.
        assert (j = 0)%nat by lia. subst j. rewrite H in E. rewrite Nat.sub_0_r in E.
        apply (Qclt_not_le _ _ (Hm2 l) E). }
      replace (Nat.max k m) with k by lia. replace (k + S n - k)%nat with (S n) by lia.
      change (seq k (S n)) with (k :: seq (S k) n). rewrite map_cons. f_equal.
      * unfold expected. rewrite map_length, seq_length, map_map.
        replace (S (k - j)) with (S m) by lia. rewrite Hjk. reflexivity.
      * replace (tl (map pt (seq j (S (k - j))))) with (map pt (seq (S j) (S k - S j))) by reflexivity.
        rewrite IH by lia. replace (Nat.max (S k) m) with (S k) by lia.
        f_equal. f_equal. lia.
    + assert (KM : (k < m)%nat).
      { destruct (le_lt_dec m k); [|assumption]. exfalso.
        replace (k - j)%nat with m in E by lia. apply (Qclt_not_le _ _ E Hm1). }
      replace (S (k - j)) with (S k - j)%nat by lia.
      rewrite IH by lia. f_equal. f_equal; lia.
Qed.

Lemma sma_uniform d n : Permutation d (map pt (seq 0 n)) ->
  getSimpleMovingAverageDict d w = map expected (seq m (n - m)).
Proof.
  intros P. unfold getSimpleMovingAverageDict, d2_sort.
  rewrite (@sorted_perm _ _ _ (pt_sorted n 0) P).
  pose proof (@sma_uniform_loop n 0 0 (le_n _) eq_refl) as L. cbn [seq map Nat.sub] in L.
  rewrite L. cbn [Nat.max Nat.add]. reflexivity.
Qed.
End Uniform.

Lemma sma_uniform_mean x0 h w y m : 0 < h -> w <= qn m * h ->
  (forall m', (m' < m)%nat -> qn m' * h < w) ->
  forall d n, Permutation d (map (fun k => (x0 + qn k * h, y k)) (seq 0 n)) ->
  getSimpleMovingAverageDict d w
  = map (fun k => (x0 + qn k * h, mean (map y (seq (k - m) (S m))))) (seq m (n - m)).
Proof.
  intros H1 H2 H3 d n P. rewrite (@sma_uniform x0 h w y m H1 H2 H3 d n P).
  apply map_ext. intros k. unfold expected, mean. rewrite map_length, seq_length. reflexivity.
Qed.

(** The window is not honoured for unevenly spaced points. *)
Lemma sma_uneven :
  let d := build (map (fun z => (qz z, qz z)) [0; 1; 2; 10; 11]%Z) in
  (exists v, dget qeqb (getSimpleMovingAverageDict d (qz 2)) (qz 10) = Some v /\
    v = mean (map qz [1; 2; 10]%Z) /\ v <> mean (map qz [2; 10]%Z) /\ v <> mean (map qz [10]%Z)) /\
  let d2 := build (map (fun z => (qz z, qz z)) [0; 10; 11]%Z) in
  dget qeqb (getSimpleMovingAverageDict d2 (qz 2)) (qz 11) = None.
Proof.
  cbv zeta. split; [|vm_compute; reflexivity].
  exists (mean (map qz [1; 2; 10]%Z)). split; [|split; [reflexivity|split]].
  - match goal with |- ?a = Some ?b =>
      assert (E : match a with Some v => qeqb v b | None => false end = true) by (vm_compute; reflexivity);
      destruct a as [v|]; [apply qeqb_spec in E; rewrite E; reflexivity|discriminate]
    end.
  - intros E. apply qeqb_spec in E. vm_compute in E. discriminate.
  - intros E. apply qeqb_spec in E. vm_compute in E. discriminate.
Qed.

(** * Local extrema *)
Lemma omap_in {A B} (f : A -> option B) l b : In b (omap f l) <-> exists a, In a l /\ f a = Some b.
Proof.
  induction l as [|a l IH]; cbn; [split; [intros []|intros (a & [] & _)]|].
  destruct (f a) eqn:E; cbn; rewrite IH; split.
  - intros [<-|(a' & H1 & H2)]; eauto.
  - intros (a' & [<-|H1] & H2); [left; congruence|right; eauto].
  - intros (a' & H1 & H2); eauto.
  - intros (a' & [<-|H1] & H2); [congruence|eauto].
Qed.

Lemma sorted_nth {V} (l : list (Qc * V)) : StronglySorted klt l -> forall i j p q, (i < j)%nat ->
  nth_error l i = Some p -> nth_error l j = Some q -> fst p < fst q.
Proof.
  induction 1 as [|a l S IH F]; intros i j p q H E1 E2; [destruct i; discriminate|].
  destruct j as [|j]; [lia|]. cbn in E2. destruct i as [|i]; cbn in E1.
  - injection E1 as <-. rewrite Forall_forall in F. apply F. eapply nth_error_In, E2.
  - eapply IH; [|exact E1|exact E2]. lia.
Qed.

Section Extrema.
Variable h : list (Qc * Qc).
Notation l := (d2_sort (build h)).

Lemma l_sorted : StronglySorted klt l.
Proof. apply isort_key_sorted, build_nodup. Qed.
Lemma l_in a b : In (a, b) l <-> last_value h a = Some b.
Proof. unfold d2_sort. rewrite isort_in. apply build_in. Qed.
Lemma l_lt i j p q : nth_error l i = Some p -> nth_error l j = Some q -> fst p < fst q -> (i < j)%nat.
Proof.
  intros E1 E2 H. destruct (lt_eq_lt_dec i j) as [[L|L]|L]; [assumption| |].
  - subst. rewrite E1 in E2. injection E2 as ->. exfalso. apply (Qclt_not_eq _ _ H). reflexivity.
  - exfalso. pose proof (sorted_nth l_sorted L E2 E1) as H2. apply (Qclt_not_le _ _ H).
    apply Qclt_le_weak, H2.
Qed.
Lemma l_find x : last_value h x <> None -> exists i y, nth_error l i = Some (x, y).
Proof.
  intros H. destruct (last_value h x) as [y|] eqn:E; [|contradiction].
  apply l_in in E. apply In_nth_error in E. destruct E as [i E]. eauto.
Qed.
Lemma l_val i x y : nth_error l i = Some (x, y) -> last_value h x = Some y.
Proof. intros E. apply l_in. eapply nth_error_In, E. Qed.

Lemma left_nb i x y x' : nth_error l i = Some (x, y) ->
  (left_neighbour h x x' <-> (exists y', (0 < i)%nat /\ nth_error l (i - 1) = Some (x', y'))).
Proof.
  intros E. split.
  - intros (H1 & H2 & H3). destruct (l_find _ H2) as (j & y' & Ej).
    assert (L : (j < i)%nat) by (eapply l_lt; eauto).
    assert (Li : (i < length l)%nat) by (apply nth_error_Some; rewrite E; discriminate).
    destruct (Nat.eq_dec j (i - 1)) as [->|D].
    + exists y'. split; [lia|exact Ej].
    + exfalso. destruct (nth_error l (i - 1)) as [[z zy]|] eqn:Ez.
      * pose proof (@sorted_nth _ _ l_sorted j (i - 1) _ _ ltac:(lia) Ej Ez) as A.
        pose proof (@sorted_nth _ _ l_sorted (i - 1) i _ _ ltac:(lia) Ez E) as B. cbn in A, B.
        specialize (H3 z A B). apply l_val in Ez. congruence.
      * apply nth_error_None in Ez. lia.
  - intros (y' & H & E'). split; [|split].
    + apply (@sorted_nth _ _ l_sorted (i - 1) i _ _ ltac:(lia) E' E).
    + rewrite (l_val _ E'). discriminate.
    + intros z A B. destruct (last_value h z) as [zy|] eqn:Ez; [|reflexivity]. exfalso.
      assert (Hz : last_value h z <> None) by (rewrite Ez; discriminate).
      destruct (l_find _ Hz) as (j & y2 & Ej).
      pose proof (@l_lt (i - 1) j (x', y') (z, y2) E' Ej A).
      pose proof (@l_lt j i (z, y2) (x, y) Ej E B). lia.
Qed.
Lemma right_nb i x y x' : nth_error l i = Some (x, y) ->
  (right_neighbour h x x' <-> (exists y', nth_error l (i + 1) = Some (x', y'))).
Proof.
  intros E. split.
  - intros (H1 & H2 & H3). destruct (l_find _ H2) as (j & y' & Ej).
    assert (L : (i < j)%nat) by (eapply l_lt; eauto).
    assert (Lj : (j < length l)%nat) by (apply nth_error_Some; rewrite Ej; discriminate).
    destruct (Nat.eq_dec j (i + 1)) as [->|D].
    + exists y'. exact Ej.
    + exfalso. destruct (nth_error l (i + 1)) as [[z zy]|] eqn:Ez.
      * pose proof (@sorted_nth _ _ l_sorted i (i + 1) _ _ ltac:(lia) E Ez) as A.
        pose proof (@sorted_nth _ _ l_sorted (i + 1) j _ _ ltac:(lia) Ez Ej) as B. cbn in A, B.
        specialize (H3 z A B). apply l_val in Ez. congruence.
      * apply nth_error_None in Ez. lia.
  - intros (y' & E'). split; [|split].
    + apply (@sorted_nth _ _ l_sorted i (i + 1) _ _ ltac:(lia) E E').
    + rewrite (l_val _ E'). discriminate.
    + intros z A B. destruct (last_value h z) as [zy|] eqn:Ez; [|reflexivity]. exfalso.
      assert (Hz : last_value h z <> None) by (rewrite Ez; discriminate).
      destruct (l_find _ Hz) as (j & y2 & Ej).
      pose proof (@l_lt i j (x, y) (z, y2) E Ej A).
      pose proof (@l_lt j (i + 1) (z, y2) (x', y') Ej E' B). lia.
Qed.

Lemma nth_of_error {V} (k : list V) i d v : nth_error k i = Some v -> nth i k d = v.
Proof. apply nth_error_nth. Qed.

Lemma extremum_ok cmp (P : Qc -> Qc -> Prop) incl x y :
  (forall a b, cmp a b = true <-> P a b) ->
  (In (x, y) (getLocalExtremaByComparisonFunction cmp incl (build h)) <-> is_extremum P incl h x y).
Proof.
  intros HP. unfold getLocalExtremaByComparisonFunction. rewrite omap_in.
  assert (CF : forall a b, cmp a b = false -> ~ P a b).
  { intros a b E H. apply HP in H. congruence. }
  split.
  - intros (i & Hi & E). unfold extremum_at in E.
    destruct (nth_error l i) as [[a b]|] eqn:Ei; [|discriminate].
    assert (Hab : (a, b) = (x, y) /\
      (forall x' y', left_neighbour h a x' -> last_value h x' = Some y' -> P b y') /\
      (forall x' y', right_neighbour h a x' -> last_value h x' = Some y' -> P b y') /\
      (incl = false -> (exists x', left_neighbour h a x') /\ (exists x', right_neighbour h a x'))).
    { destruct (Nat.eqb_spec i 0) as [->|Hi0].
      - destruct incl; [|discriminate]. cbn [negb] in E.
        destruct (nth_error l (0 + 1)) as [[a2 b2]|] eqn:E2.
        + destruct (cmp b b2) eqn:C; [|discriminate]. injection E as -> ->.
          split; [reflexivity|]. split; [|split; [|discriminate]].
          * intros x' y' L. apply (left_nb _ _ Ei) in L. destruct L as (? & L & _). lia.
          * intros x' y' R V. apply (right_nb _ _ Ei) in R. destruct R as (y2 & R).
            rewrite E2 in R. injection R as -> ->. apply l_val in E2. rewrite E2 in V. injection V as <-.
            apply HP, C.
        + injection E as -> ->. split; [reflexivity|]. split; [|split; [|discriminate]].
          * intros x' y' L. apply (left_nb _ _ Ei) in L. destruct L as (? & L & _). lia.
          * intros x' y' R V. apply (right_nb _ _ Ei) in R. destruct R as (y2 & R). congruence.
      - assert (Li : (i < length l)%nat) by (apply nth_error_Some; rewrite Ei; discriminate).
        destruct (nth_error l (i - 1)) as [[a1 b1]|] eqn:E1.
        2:{ apply nth_error_None in E1. lia. }
        rewrite (nth_of_error _ _ (0, 0) E1) in E. cbn [snd] in E.
        destruct (nth_error l (i + 1)) as [[a2 b2]|] eqn:E2.
        + destruct (cmp b b1) eqn:C1; [|discriminate]. destruct (cmp b b2) eqn:C2; [|discriminate].
          cbn [negb] in E. split; [congruence|]. split; [|split].
          * intros x' y' L V. apply (left_nb _ _ Ei) in L. destruct L as (y2 & _ & L).
            rewrite E1 in L. injection L as -> ->. apply l_val in E1. rewrite E1 in V. injection V as <-.
            apply HP, C1.
          * intros x' y' R V. apply (right_nb _ _ Ei) in R. destruct R as (y2 & R).
            rewrite E2 in R. injection R as -> ->. apply l_val in E2. rewrite E2 in V. injection V as <-.
            apply HP, C2.
          * intros _. split; [exists a1; apply (left_nb _ _ Ei)|exists a2; apply (right_nb _ _ Ei)].
            -- exists b1. split; [lia|exact E1].
            -- exists b2. exact E2.
        + destruct incl; [|discriminate]. cbn [negb] in E.
          destruct (cmp b b1) eqn:C1; [|discriminate].
          split; [congruence|]. split; [|split; [|discriminate]].
          * intros x' y' L V. apply (left_nb _ _ Ei) in L. destruct L as (y2 & _ & L).
            rewrite E1 in L. injection L as -> ->. apply l_val in E1. rewrite E1 in V. injection V as <-.
            apply HP, C1.
          * intros x' y' R V. apply (right_nb _ _ Ei) in R. destruct R as (y2 & R). congruence. }
    destruct Hab as (Q & H1 & H2 & H3). injection Q as -> ->.
    split; [eapply l_val, Ei|]. auto.
  - intros (V & H1 & H2 & H3).
    assert (Hx : last_value h x <> None) by (rewrite V; discriminate).
    destruct (l_find _ Hx) as (i & y0 & Ei). pose proof (l_val _ Ei) as V0. rewrite V in V0.
    injection V0 as <-.
    assert (Li : (i < length l)%nat) by (apply nth_error_Some; rewrite Ei; discriminate).
    exists i. split; [apply in_seq; lia|].
    unfold extremum_at. rewrite Ei.
    assert (HL : forall a b, (0 < i)%nat -> nth_error l (i - 1) = Some (a, b) -> cmp y b = true).
    { intros a b Hi E. apply HP. apply (H1 a b); [apply (left_nb _ _ Ei); eauto|eapply l_val, E]. }
    assert (HR : forall a b, nth_error l (i + 1) = Some (a, b) -> cmp y b = true).
    { intros a b E. apply HP. apply (H2 a b); [apply (right_nb _ _ Ei); eauto|eapply l_val, E]. }
    assert (HI : incl = false -> (0 < i)%nat /\ nth_error l (i + 1) <> None).
    { intros I. destruct (H3 I) as [[a A] [b B]]. apply (left_nb _ _ Ei) in A. apply (right_nb _ _ Ei) in B.
      destruct A as (? & A & _). destruct B as (? & B). rewrite B. split; [exact A|discriminate]. }
    destruct (Nat.eqb_spec i 0) as [->|Hi0].
    + destruct incl; [cbn [negb]|exfalso; destruct (HI eq_refl); lia].
      destruct (nth_error l (0 + 1)) as [[a2 b2]|] eqn:E2; [|reflexivity].
      rewrite (HR _ _ eq_refl). reflexivity.
    + destruct (nth_error l (i - 1)) as [[a1 b1]|] eqn:E1.
      2:{ apply nth_error_None in E1. lia. }
      rewrite (nth_of_error _ _ (0, 0) E1). cbn [snd].
      rewrite (HL a1 b1 ltac:(lia) eq_refl). cbn [negb].
      destruct (nth_error l (i + 1)) as [[a2 b2]|] eqn:E2.
      * rewrite (HR _ _ eq_refl). reflexivity.
      * destruct incl; [reflexivity|]. exfalso. destruct (HI eq_refl) as [_ X]. apply X, eq_refl.
Qed.
End Extrema.

Lemma maxima_ok h incl x y :
  In (x, y) (getLocalMaxima incl (build h)) <-> is_extremum (fun a b => b < a) incl h x y.
Proof. apply extremum_ok. intros a b. apply qltb_spec. Qed.
Lemma minima_ok h incl x y :
  In (x, y) (getLocalMinima incl (build h)) <-> is_extremum (fun a b => a < b) incl h x y.
Proof. apply extremum_ok. intros a b. apply qltb_spec. Qed.

(** * Ranges of equal sign *)
Lemma ranges_loop_ok l sign lastPos index rest prev :
  (lastPos < index)%nat -> (index <= length l)%nat -> skipn index l = rest ->
  (forall i v, (lastPos <= i < index)%nat -> nth_error l i = Some v -> (0 <= v <-> sign = true)) ->
  prev <> Some sign ->
  sign_partition l lastPos prev (ranges_loop sign lastPos index rest).
Proof.
  revert sign lastPos index prev.
  induction rest as [|v r IH]; intros sign lastPos index prev H1 H2 H3 H4 H5; cbn [ranges_loop].
  - assert (L : length (skipn index l) = 0%nat) by (rewrite H3; reflexivity).
    rewrite skipn_length in L. assert (index = length l) by lia. subst index.
    constructor; [lia|exact H5|exact H4|constructor].
  - assert (N : nth_error l index = Some v).
    { clear -H3. revert l H3. induction index as [|k IH]; intros [|x l] H; cbn in *; try discriminate.
      - congruence.
      - apply IH, H. }
    assert (L : (index < length l)%nat) by (apply nth_error_Some; rewrite N; discriminate).
    assert (S3 : skipn (S index) l = r).
    { clear -H3. revert l H3. induction index as [|k IH]; intros [|x l] H; cbn in *; try discriminate.
      - congruence.
      - apply (IH l H). }
    destruct (Bool.eqb (qleb 0 v) sign) eqn:E; cbn [negb].
    + apply Bool.eqb_prop in E. apply IH; try assumption; [lia|].
      intros i w Hi Hw. destruct (Nat.eq_dec i index) as [->|D]; [|apply (H4 i); [lia|assumption]].
      rewrite N in Hw. injection Hw as <-. rewrite <- E. symmetry. apply qleb_spec.
    + apply Bool.eqb_false_iff in E. constructor; [lia|exact H5|exact H4|].
      apply IH; [lia|lia|exact S3| |].
      * intros i w Hi Hw. assert (i = index) by lia. subst i. rewrite N in Hw. injection Hw as <-.
        rewrite <- qleb_spec. destruct (qleb 0 v), sign; cbn; try intuition congruence.
      * intros X. injection X as X. destruct sign; discriminate.
Qed.

Lemma ranges_ok l : sign_partition l 0 None (findRangesOfEqualSign l).
Proof.
  destruct l as [|v r]; cbn [findRangesOfEqualSign]; [apply sp_nil|].
  apply ranges_loop_ok; [lia|cbn; lia|reflexivity| |discriminate].
  intros i w Hi Hw. assert (i = 0)%nat by lia. subst i. injection Hw as <-. symmetry. apply qleb_spec.
Qed.

Lemma sign_partition_unique l a prev r1 r2 :
  sign_partition l a prev r1 -> sign_partition l a prev r2 -> r1 = r2.
Proof.
  intros P1. revert r2. induction P1 as [prev|a b s prev r H1 H2 H3 P1 IH]; intros r2 P2.
  - inversion P2 as [|? ? ? ? ? G]; subst; [reflexivity|]. lia.
  - inversion P2 as [|a' b' s' prev' r' G1 G2 G3 P2']; subst; [lia|].
    destruct (nth_error l a) as [v|] eqn:Ea.
    2:{ apply nth_error_None in Ea. lia. }
    assert (s = s').
    { pose proof (H3 a v ltac:(lia) Ea) as A. pose proof (G3 a v ltac:(lia) Ea) as B.
      rewrite A in B. destruct s, s'; try reflexivity; exfalso; intuition congruence. }
    subst s'.
    assert (b = b').
    { assert (forall c c' q, sign_partition l c (Some s) q -> (c < c' <= length l)%nat ->
        (forall i v, (a <= i < c')%nat -> nth_error l i = Some v -> (0 <= v <-> s = true)) ->
        (a < c)%nat -> False) as K.
      { intros c c' q P Hc Q Hac. inversion P as [|? ? s2 ? ? J1 J2 J3]; subst; [lia|].
        destruct (nth_error l c) as [w|] eqn:Ec.
        2:{ apply nth_error_None in Ec. lia. }
        pose proof (Q c w ltac:(lia) Ec) as A. pose proof (J3 c w ltac:(lia) Ec) as B.
        rewrite A in B. destruct s, s2; try (apply J2; reflexivity); intuition congruence. }
      destruct (lt_eq_lt_dec b b') as [[L|L]|L]; [|assumption|]; exfalso.
      - apply (K b b' r P1); [lia|exact G3|lia].
      - apply (K b' b r' P2'); [lia|exact H3|lia]. }
    subst b'. f_equal. apply IH, P2'.
Qed.

(** * Thinning *)
Lemma keep_loop_in {V} n l skipped (p : Qc * V) : (skipped < n)%nat ->
  (In p (keep_loop n skipped l) <->
   exists i, nth_error l i = Some p /\ ((skipped + i + 1) mod n = 0)%nat).
Proof.
  revert skipped. induction l as [|kv r IH]; intros s Hs; cbn [keep_loop].
  - split; [intros []|]. intros (i & E & _). destruct i; discriminate.
  - destruct (Nat.eqb_spec (S s) n) as [E|E]; cbn [negb].
    + cbn [In]. rewrite IH by lia. split.
      * intros [<-|(i & E1 & E2)].
        -- exists 0%nat. split; [reflexivity|]. replace (s + 0 + 1)%nat with n by lia. apply Nat.mod_same. lia.
        -- exists (S i). split; [exact E1|].
           replace (s + S i + 1)%nat with ((0 + i + 1) + 1 * n)%nat by lia. rewrite Nat.mod_add by lia. exact E2.
      * intros ([|i] & E1 & E2); [left; cbn in E1; congruence|]. right. exists i. split; [exact E1|].
        replace (s + S i + 1)%nat with ((0 + i + 1) + 1 * n)%nat in E2 by lia.
        rewrite Nat.mod_add in E2 by lia. exact E2.
    + rewrite IH by lia. split.
      * intros (i & E1 & E2). exists (S i). split; [exact E1|].
        replace (s + S i + 1)%nat with (S s + i + 1)%nat by lia. exact E2.
      * intros ([|i] & E1 & E2).
        -- exfalso. rewrite Nat.mod_small in E2 by lia. lia.
        -- exists i. split; [exact E1|]. replace (S s + i + 1)%nat with (s + S i + 1)%nat by lia. exact E2.
Qed.

Lemma filter_perm_len {A} (f : A -> bool) l1 l2 : Permutation l1 l2 ->
  length (filter f l1) = length (filter f l2).
Proof.
  induction 1; cbn; try congruence.
  - destruct (f x); cbn; congruence.
  - destruct (f x), (f y); reflexivity.
Qed.

Lemma sorted_rank {V} (l : list (Qc * V)) : StronglySorted klt l -> forall i p,
  nth_error l i = Some p -> rank l (fst p) = i.
Proof.
  unfold rank. induction 1 as [|a l S IH F]; intros i p E; [destruct i; discriminate|].
  rewrite Forall_forall in F. destruct i as [|i]; cbn in E |- *.
  - injection E as ->. replace (qltb (fst p) (fst p)) with false
      by (symmetry; apply qltb_false, Qcle_refl).
    replace (filter _ l) with (@nil (Qc * V)); [reflexivity|]. symmetry.
    clear -F. induction l as [|b l IH]; [reflexivity|]. cbn.
    replace (qltb (fst b) (fst p)) with false.
    + apply IH. intros x Hx. apply F. right. exact Hx.
    + symmetry. apply qltb_false. apply Qclt_le_weak. apply F. left. reflexivity.
  - replace (qltb (fst a) (fst p)) with true
      by (symmetry; apply qltb_spec, F; eapply nth_error_In, E).
    cbn. f_equal. apply IH, E.
Qed.
Lemma keep_nodup {V} n l s : StronglySorted klt l -> NoDup (dkeys (@keep_loop V n s l)).
Proof.
  intros S. revert s. induction S as [|a l S IH F]; intros s; cbn; [constructor|].
  destruct (negb _); [apply IH|]. cbn. constructor; [|apply IH].
  intros HI. apply in_map_iff in HI. destruct HI as (b & E & Hb).
  assert (Hb' : In b l).
  { clear -Hb. revert Hb. generalize 0%nat. induction l as [|c l IH]; intros s; cbn; [auto|].
    destruct (negb _); cbn; [intros H; right; eapply IH, H|]. intros [->|H]; [left; reflexivity|right; eapply IH, H]. }
  rewrite Forall_forall in F. specialize (F b Hb'). unfold klt in F. rewrite E in F.
  apply (Qclt_not_eq _ _ F). reflexivity.
Qed.

Lemma keep_ok {V} (c : list (Qc * V)) (n : Z) : NoDup (dkeys c) ->
  ((n <= 0)%Z -> keepOnlyEveryNthDataPoint c n = Err ValueError) /\
  ((0 < n)%Z -> exists c', keepOnlyEveryNthDataPoint c n = Ok c' /\ NoDup (dkeys c') /\
    forall k v, dget qeqb c' k = Some v <->
      dget qeqb c k = Some v /\ ((Z.of_nat (rank c k) + 1) mod n = 0)%Z).
Proof.
  intros N. unfold keepOnlyEveryNthDataPoint. split; intros Hn.
  - destruct (Z.leb_spec n 0); [reflexivity|lia].
  - destruct (Z.leb_spec n 0); [lia|].
    destruct (Z.eqb_spec n 1) as [->|D].
    + exists c. split; [reflexivity|]. split; [exact N|]. intros k v. rewrite Z.mod_1_r. intuition.
    + eexists. split; [reflexivity|].
      pose proof (isort_key_sorted c N) as S.
      assert (N' : NoDup (dkeys (keep_loop (Z.to_nat n) 0 (isort key_le c)))) by (apply keep_nodup, S).
      split; [exact N'|]. intros k v.
      assert (G1 : dget qeqb (keep_loop (Z.to_nat n) 0 (isort key_le c)) k = Some v <->
                   In (k, v) (keep_loop (Z.to_nat n) 0 (isort key_le c))).
      { split; [apply dget_in, qeqb_spec|apply in_dget; [apply qeqb_spec|exact N']]. }
      assert (G2 : dget qeqb c k = Some v <-> In (k, v) c).
      { split; [apply dget_in, qeqb_spec|apply in_dget; [apply qeqb_spec|exact N]]. }
      rewrite G1, G2, keep_loop_in by lia.
      assert (R : forall i, nth_error (isort key_le c) i = Some (k, v) -> rank c k = i).
      { intros i E. rewrite <- (sorted_rank S i E). cbn [fst]. apply filter_perm_len, isort_perm. }
      assert (M : forall i, ((0 + i + 1) mod Z.to_nat n = 0)%nat <-> ((Z.of_nat i + 1) mod n = 0)%Z).
      { intros i. replace n with (Z.of_nat (Z.to_nat n)) at 2 by lia.
        replace (Z.of_nat i + 1)%Z with (Z.of_nat (0 + i + 1)) by lia.
        rewrite <- Nat2Z.inj_mod. lia. }
      split.
      * intros (i & E1 & E2). split.
        -- apply isort_in. eapply nth_error_In, E1.
        -- rewrite (R i E1). apply M, E2.
      * intros [E1 E2]. apply isort_in in E1. apply In_nth_error in E1. destruct E1 as [i E1].
        exists i. split; [exact E1|]. apply M. rewrite (R i E1) in E2. exact E2.
Qed.

(** * Filling a collection *)
Definition coll_rep (c : collection) (d : Qc -> list Qc) (keys : Qc -> Prop) : Prop :=
  forall k, match dget qeqb c k with
            | Some s => rep s (d k) /\ keys k
            | None => d k = [] /\ ~ keys k end.

Lemma holds_rep s l : holds s l -> rep s l.
Proof.
  intros (os & st & i & R & -> & ->). destruct (rep_run0 os) as (st' & R' & H).
  rewrite R in R'. injection R' as <-. apply H.
Qed.

Lemma coll_add_rep dat e c d K :
  (forall k s, In (k, VStat s) e -> holds s (dat s)) ->
  (forall k, ~ In (k, VOther) e) ->
  coll_rep c d K ->
  exists c', coll_add c e = (c', Ok tt) /\
    coll_rep c' (fun k => d k ++ given dat e k) (fun k => K k \/ In k (map fst e)).
Proof.
  revert c d K. induction e as [|[key v] e IH]; intros c d K H1 H2 R.
  - exists c. split; [reflexivity|]. intros k. specialize (R k). cbn. rewrite app_nil_r.
    destruct (dget qeqb c k); intuition.
  - set (s0 := match dget qeqb c key with Some s => s | None => otfs_new end).
    assert (R0 : rep s0 (d key)).
    { unfold s0. specialize (R key). destruct (dget qeqb c key); [apply R|].
      destruct R as [-> _]. apply rep_new. }
    assert (STEP : exists s1 l1, (match v with VStat t => mergeSample s0 t | VNum x => Ok (addDatum s0 x)
        | VOther => Err TypeError end) = Ok s1 /\ rep s1 (d key ++ l1) /\
        l1 = match v with VNum x => [x] | VStat s => dat s | VOther => [] end).
    { destruct v as [x|t|].
      - exists (addDatum s0 x), [x]. split; [reflexivity|]. split; [apply rep_add, R0|reflexivity].
      - assert (Rt : rep t (dat t)) by (apply holds_rep, (H1 key); left; reflexivity).
        destruct (rep_merge R0 Rt) as (s1 & E & R1). exists s1, (dat t). auto.
      - exfalso. apply (H2 key). left. reflexivity. }
    destruct STEP as (s1 & l1 & E1 & R1 & L1).
    assert (EQ : coll_add c ((key, v) :: e) = coll_add (dset qeqb c key s1) e).
    { cbn [coll_add]. fold s0. destruct v as [x|t|].
      - injection E1 as ->. reflexivity.
      - rewrite E1. reflexivity.
      - discriminate. }
    rewrite EQ.
    destruct (IH (dset qeqb c key s1) (fun k => d k ++ (if qeqb k key then l1 else []))
                 (fun k => K k \/ k = key)) as (c' & E' & R').
    { intros k s Hs. apply (H1 k). right. exact Hs. }
    { intros k Hk. apply (H2 k). right. exact Hk. }
    { intros k. rewrite dget_dset by apply qeqb_spec. destruct (qeqb k key) eqn:Ek.
      - apply qeqb_spec in Ek. subst k. split; [exact R1|right; reflexivity].
      - rewrite app_nil_r. specialize (R k). destruct (dget qeqb c k); [intuition|].
        destruct R as [R2 R3]. split; [exact R2|]. intros [HK| ->]; [auto|].
        assert (qeqb key key = true) by (apply qeqb_spec; reflexivity). congruence. }
    exists c'. split; [exact E'|]. intros k. specialize (R' k). cbn [given map fst].
    assert (G : d k ++ (if qeqb k key then match v with VNum x => [x] | VStat s => dat s | VOther => [] end
                        else []) ++ given dat e k
              = (d k ++ (if qeqb k key then l1 else [])) ++ given dat e k).
    { rewrite <- L1. apply app_assoc. }
    rewrite G. destruct (dget qeqb c' k).
    + destruct R' as [A B]. split; [exact A|]. cbn. intuition.
    + destruct R' as [A B]. split; [exact A|]. cbn. intuition.
Qed.

Lemma given_app dat a b k : given dat (a ++ b) k = given dat a k ++ given dat b k.
Proof.
  induction a as [|[k' v] a IH]; cbn; [reflexivity|]. rewrite IH. apply app_assoc.
Qed.

Lemma coll_run_rep dat calls c d K :
  (forall k s, In (k, VStat s) (concat calls) -> holds s (dat s)) ->
  (forall k, ~ In (k, VOther) (concat calls)) ->
  coll_rep c d K ->
  exists c', coll_run c calls = Ok c' /\
    coll_rep c' (fun k => d k ++ given dat (concat calls) k) (fun k => K k \/ In k (map fst (concat calls))).
Proof.
  revert c d K. induction calls as [|e calls IH]; intros c d K H1 H2 R.
  - exists c. split; [reflexivity|]. intros k. specialize (R k). cbn. rewrite app_nil_r.
    destruct (dget qeqb c k); intuition.
  - destruct (@coll_add_rep dat e c d K) as (c1 & E1 & R1); [| |exact R|].
    { intros k s Hs. apply (H1 k). cbn. apply in_or_app. left. exact Hs. }
    { intros k Hk. apply (H2 k). cbn. apply in_or_app. left. exact Hk. }
    cbn [coll_run]. rewrite E1.
    destruct (IH c1 _ _ ltac:(intros k s Hs; apply (H1 k); cbn; apply in_or_app; right; exact Hs)
                 ltac:(intros k Hk; apply (H2 k); cbn; apply in_or_app; right; exact Hk) R1)
      as (c' & E' & R').
    exists c'. split; [exact E'|]. intros k. specialize (R' k). cbn [concat].
    destruct (dget qeqb c' k); rewrite given_app, app_assoc, map_app, in_app_iff; intuition.
Qed.

Lemma coll_ok dat calls :
  (forall k s, In (k, VStat s) (concat calls) -> holds s (dat s)) ->
  (forall k, ~ In (k, VOther) (concat calls)) ->
  exists c, coll_run [] calls = Ok c /\ forall k,
    (forall s, dget qeqb c k = Some s -> answers s (given dat (concat calls) k)) /\
    (dget qeqb c k = None <-> ~ In k (map fst (concat calls))).
Proof.
  intros H1 H2.
  destruct (@coll_run_rep dat calls [] (fun _ => []) (fun _ => False) H1 H2) as (c & E & R).
  { intros k. cbn. auto. }
  exists c. split; [exact E|]. intros k. specialize (R k). cbn [app] in R.
  destruct (dget qeqb c k) as [s|].
  - destruct R as [A B]. split.
    + intros s' X. injection X as <-. apply rep_answers, A.
    + split; [discriminate|]. intros X. exfalso. intuition.
  - destruct R as [A B]. split; [discriminate|]. intuition.
Qed.
