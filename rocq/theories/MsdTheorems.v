(** C58: mean square displacements. *)
From Coq Require Import String Ascii QArith.Qround.
From Verif Require Import QcBase PyBase StrBase VtfSpec VtfTextProof OtfsModel OtfsSpec DddaModel DddaSpec DddaProof AutocorrSpec AutocorrProof
  MsdModel MsdSpec LagProof MsdProof.
Open Scope list_scope.
Open Scope Qc_scope.

(** The positions that are measured are those of the first call of [measure], and of every
    [every]-th after it; the displacement between any two of them that are at most [count]
    measurements apart is available, however many have been taken. *)
Theorem msd_values : forall entities every count garbage (xs : list array) t T, every <> 0%nat ->
  (t < T < length (measured every xs))%nat -> (T - t <= count)%nat ->
  forall a b, nth_error xs (every * T) = Some a -> nth_error xs (every * t) = Some b ->
  getMeanSquareDisplacement (fold_left (msd_measure entities every count) xs (msd_new count garbage)) t T
  = Some (mean_square_displacement entities a b).
Proof.
  intros entities every count garbage xs t T E H1 H2 a b A B.
  rewrite (get_value entities every count E _ (measured every xs)) by (auto using measure_all).
  rewrite <- measured_nth in A, B by exact E.
  now rewrite (nth_error_nth _ _ _ A), (nth_error_nth _ _ _ B), ms_spec.
Qed.
Print Assumptions msd_values.

(** The number of measurements. *)
Theorem msd_count : forall every (xs : list array), every <> 0%nat ->
  forall t, (t < length (measured every xs))%nat <-> (every * t < length xs)%nat.
Proof.
  intros every xs E t. rewrite <- !nth_error_Some. now rewrite measured_nth by exact E.
Qed.
Print Assumptions msd_count.

(** What is saved at the end of any number of runs is read by the analysis, and the accumulator
    for each time difference has been given, once each, the displacements of exactly the pairs of
    measurements of the same run that are that far apart. *)
Theorem msd_analysis : forall entities every count show float rd, every <> 0%nat -> prints_as show float rd ->
  forall runs : list ((nat -> array) * list array), exists files s,
  Forall2 (fun run file => msd_save count show (fold_left (msd_measure entities every count) (snd run) (msd_new count (fst run))) = Some file)
    runs files /\
  py_files float (py_new count) files = Ok s /\
  (forall d, (1 <= d <= Z.of_nat count)%Z ->
    let data := flat_map (fun run => map rd (lagged (mean_square_displacement entities) (Z.to_nat d) (measured every (snd run)))) runs in
    py_get count s d = Ok (fold_left ddda_add data ddda_new) /\
    answers (block (fold_left ddda_add data ddda_new) 0) data) /\
  (forall d, (d <= 0 \/ Z.of_nat count < d)%Z -> py_get count s d = Err ValueError).
Proof.
  intros entities every count show float rd E P runs.
  destruct (msd_end_to_end entities every count E show float rd P runs) as (files & s & F & R & G).
  exists files, s. split; [exact F|]. split; [exact R|]. split.
  - intros d H data. split; [exact (G d H)|].
    destruct (stream_correct data) as [L A]. destruct (A 0%nat) as [X _]; [rewrite L; unfold block_count; lia|].
    rewrite block_data_0 in X. exact X.
  - intros d H. unfold py_get. destruct (Z.leb_spec d 0); [reflexivity|]. destruct (Z.ltb_spec (Z.of_nat count) d); [reflexivity|lia].
Qed.
Print Assumptions msd_analysis.

(** The fit uses all the available time differences if no limits are given; with limits, the
    largest one is left out, although it is documented to be used. *)
Theorem msd_fit_times : forall count d, In d (fit_times count None None) <-> (1 <= d <= Z.of_nat count)%Z.
Proof.
  intros count d. unfold fit_times. rewrite in_map_iff. split.
  - intros (k & <- & H). apply in_seq in H. lia.
  - intros H. exists (Z.to_nat (d - 1)). split; [lia|]. apply in_seq. lia.
Qed.
Print Assumptions msd_fit_times.
Theorem msd_fit_maximum_refuted :
  ~ (forall count a b d, (1 <= a <= b)%Z -> (b <= Z.of_nat count)%Z ->
     (In d (fit_times count (Some a) (Some b)) <-> (a <= d <= b)%Z)).
Proof.
  intros H. specialize (H 3%nat 1%Z 3%Z 3%Z ltac:(lia) ltac:(lia)). destruct H as [_ H].
  specialize (H ltac:(lia)). destruct H as [H|[H|[]]]; discriminate H.
Qed.
Print Assumptions msd_fit_maximum_refuted.

(** Numbers printed without decimals. *)
Definition show_integer (x : Qc) : string := str_of_Z (Z.abs (Qfloor x)).
Definition read_integer (s : string) : option Qc := option_map (fun z => Q2Qc (inject_Z z)) (Z_of_str s).
Example integers_print : prints_as show_integer read_integer (fun x => Q2Qc (inject_Z (Z.abs (Qfloor x)))).
Proof.
  intros x. unfold read_integer, show_integer. rewrite Z_of_str_of_Z. split; [reflexivity|].
  split; [apply str_of_Z_nonempty|apply id_no_space; lia].
Qed.
(** Two entities; of five calls the first, third and fifth take measurements. *)
Definition example_positions : list array :=
  map (fun k i => qz (if Nat.ltb i 3 then k * k else 0)) [1; 7; 2; 9; 4]%Z.
Example msd_example :
  match msd_save 2 show_integer (fold_left (msd_measure 2 2 2) example_positions (msd_new 2 (fun _ _ => qz 5))) with
  | Some file => String.eqb file
     ("0" ++ String "009" ("1" ++ String "009" ("13" ++ String "010" ("0" ++ String "009" ("2" ++ String "009" ("337" ++ String "010"
      ("1" ++ String "009" ("1" ++ String "009" ("216" ++ String "010" "")))))))))%string = true
  | None => False
  end.
Proof. vm_compute. reflexivity. Qed.
