(** Velocity autocorrelation files (C28), histograms (C61), density profiles (C62). *)
From Verif Require Import QcBase PyBase DictBase OtfsSpec DddaModel MeasModel MeasSpec MeasProof.
Set Implicit Arguments.
Open Scope Qc_scope.

(** C28, what holds: the statistics for each time difference are those of
    exactly the values whose second time is not below the minimum, in the order
    of the files. *)
Theorem vac_content_exact : forall (round : Qc -> Z) m dt files, dt <> 0 -> files <> [] ->
  (forall f l, In f files -> In l f -> vac_wellformed l) ->
  exists s, vac_new round m dt files = Ok s /\
  forall n, match vac_values round dt (fun _ t2 => qleb m t2) n (concat files) with
            | [] => vac_get s (qz n * dt) = Err ValueError
            | l => vac_get s (qz n * dt) = Ok (fold_left ddda_add l ddda_new)
            end.
Proof. exact vac_content. Qed.
Print Assumptions vac_content_exact.

(** C28 as documented is false: a measurement that involves a time below the
    minimum contributes. *)
Theorem vac_minimum_time_refuted : forall round : Qc -> Z, exists m dt files s n,
  vac_new round m dt files = Ok s /\ dt <> 0 /\
  vac_values round dt (fun t1 t2 => qleb m t1 && qleb m t2) n (concat files) = [] /\
  exists d, vac_get s (qz n * dt) = Ok d.
Proof.
  intros round.
  set (f := [[0; qz 2; qz 7]]).
  destruct (@vac_content_exact round (qz 1) 1 [f]) as (s & E & H).
  - discriminate.
  - discriminate.
  - intros g l [<-|[]] [<-|[]]. exists 0, (qz 2), (qz 7). split; [reflexivity|]. split; discriminate.
  - exists (qz 1), 1, [f], s, (round ((qz 2 - 0) / 1)). split; [exact E|]. split; [discriminate|]. split; [reflexivity|].
    specialize (H (round ((qz 2 - 0) / 1))). unfold f in H. cbn [concat app] in H.
    unfold vac_values in H. cbn [flat_map app] in H.
    rewrite Z.eqb_refl in H. change (qleb (qz 1) (qz 2)) with true in H. cbn [andb app] in H. eauto.
Qed.
Print Assumptions vac_minimum_time_refuted.

(** C61: every value is counted once and in the right place. *)
Theorem histogram_counts : forall low high n l, n <> 0%nat -> low < high ->
  exists h, hist_fill_all (hist_new low high n) l = Ok h /\
    h_under h = count (fun v => qltb v low) l /\
    h_over h = count (fun v => qleb high v) l /\
    h_bins h = map (fun i => count (bin_has low high n i) l) (seq 0 n) /\
    (h_under h + h_over h + nsum (h_bins h))%nat = length l.
Proof. exact hist_counts. Qed.
Print Assumptions histogram_counts.

Theorem histogram_normalized : forall low high n l bp h, n <> 0%nat -> low < high ->
  hist_fill_all (hist_new low high n) l = Ok h ->
  ((bp < 0 \/ 1 < bp) -> hist_graph h bp = Err InvalidArgumentException) /\
  (0 <= bp <= 1 -> exists g, hist_graph h bp = Ok g /\ length g = n /\
    (forall i d, (i < n)%nat ->
       bin_low low high n i <= fst (nth i g d) <= bin_low low high n (S i) /\
       fst (nth i g d) = bin_low low high n i + bp * (bin_low low high n (S i) - bin_low low high n i)) /\
    ((exists v, In v l /\ low <= v < high) ->
       qsum (map (fun p => snd p * ((high - low) / qn n)) g) = 1)).
Proof. exact hist_normalized. Qed.
Print Assumptions histogram_normalized.

(** The function that saves a histogram is documented to reject the same
    positions, but accepts all. *)
Theorem histogram_save_check_refuted : forall h bp, exists g, hist_save h bp = Ok g.
Proof. exact (fun h bp => ex_intro _ _ eq_refl). Qed.
Print Assumptions histogram_save_check_refuted.

Example histogram_ex :
  match hist_fill_all (hist_new 0 (qz 4) 2) (map qz [-1; 0; 1; 2; 3; 3; 4; 9]%Z) with
  | Ok h => h_under h = 1%nat /\ h_over h = 2%nat /\ h_bins h = [2; 3]%nat
  | Err _ => False
  end.
Proof. vm_compute. auto. Qed.

(** C62: the lines of the file, in order: position and mean mass per fill. *)
Theorem density_file : forall box subs s0 os s, dens_new box subs = Ok s0 -> dens_run s0 os = Ok s ->
  (0 < fills os)%nat ->
  let '(bx, by_, bz) := box in let '(sx, sy, sz) := subs in
  dens_rows s =
  flat_map (fun x => flat_map (fun y => map (fun z =>
      (qn x / qn sx, qn y / qn sy, qn z / qn sz, qsum (masses os (x, y, z)) / qn (fills os)))
    (seq 0 (bz * sz))) (seq 0 (by_ * sy))) (seq 0 (bx * sx)).
Proof. exact dens_file. Qed.
Print Assumptions density_file.

(** The analysis reduces a file with distinct positions to the mean over [z]. *)
Theorem density_reduction : forall rows x y, NoDup (map fst rows) ->
  match dget qeqb (reduceToXY (dens_read rows)) x with Some px => dget qeqb px y | None => None end =
  match map rd (filter (at_xy x y) rows) with [] => None | l => Some (mean l) end.
Proof. exact reduce_mean. Qed.
Print Assumptions density_reduction.

Example density_ex :
  match dens_new (1, 1, 2)%nat (1, 1, 1)%nat with
  | Ok s0 =>
    match dens_run s0 [DFill; DMass (0, 0, 0)%nat (qz 3); DMass (0, 0, 1)%nat (qz 1); DFill;
                       DMass (0, 0, 0)%nat (qz 5)] with
    | Ok s =>
      forallb (fun p => qeqb (fst p) (snd p)) (combine (map rd (dens_rows s)) [qz 4; qz 1 / qz 2]) &&
      match dget qeqb (reduceToXY (dens_read (dens_rows s))) 0 with
      | Some px => match dget qeqb px 0 with Some d => qeqb d (qz 9 / qz 4) | None => false end
      | None => false
      end
    | Err _ => false
    end
  | Err _ => false
  end = true.
Proof. vm_compute. reflexivity. Qed.
