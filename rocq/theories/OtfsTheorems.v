(** Properties C01-C04: incremental statistics. *)
From Verif Require Import QcBase PyBase StrBase NumFmt OtfsModel OtfsSpec OtfsProof.
Set Implicit Arguments.
Open Scope Qc_scope.

(** C01. Whatever sequence of creations, additions and merges is executed on any
    number of objects (including merging an object into itself), no operation
    fails and every object reports the size, mean and variance of exactly the
    data fed into it. *)
Theorem otfs_history_correct : forall os : list op,
  exists st, run store0 os = Ok st /\
  forall i, answers (st i) (data_of os i).
Proof. exact history_correct. Qed.
Print Assumptions otfs_history_correct.

Definition ex_ops : list op :=
  [OAdd 0 (qz 3); OAdd 0 (qz 7); OAdd 1 (qz 5); OMerge 0 1; OMerge 2 0; OMerge 2 2;
   OMergeAll 1 [0; 1; 2]%nat; OAdd 1 (qz (-4))].
Example otfs_history_correct_ex :
  length (data_of ex_ops 1) = 15%nat /\
  match run store0 ex_ops with
  | Ok st => match getSampleMean (st 1%nat) with
             | Ok m => qeqb m (qz 66 / qz 15)
             | Err _ => false end
  | Err _ => false
  end = true.
Proof. split; [reflexivity|vm_compute; reflexivity]. Qed.

(** C01, C++ class: after any sequence of data, size, mean and variance are
    those of the data (0 where undefined, as documented). *)
Theorem otfs_cpp_stream_correct : forall l : list Qc,
  getSampleSize (add_all otfs_new l) = length l /\
  cpp_getSampleMean (add_all otfs_new l) = match l with [] => 0 | _ => mean l end /\
  cpp_getSampleVariance (add_all otfs_new l)
    = match l with [] | [_] => 0 | _ => variance l end.
Proof. exact cpp_stream. Qed.
Print Assumptions otfs_cpp_stream_correct.

Example otfs_cpp_stream_correct_ex :
  cpp_getSampleVariance (add_all otfs_new [qz 1; qz 2; qz 6]) = qz 7.
Proof. apply Qc_is_canon. vm_compute. reflexivity. Qed.

(** C02. Two objects, produced by any two programs, whose data agree up to
    order, are in the same state; hence all statistics agree. *)
Theorem otfs_order_independent : forall os1 os2 st1 st2 i j,
  run store0 os1 = Ok st1 -> run store0 os2 = Ok st2 ->
  Permutation (data_of os1 i) (data_of os2 j) ->
  st1 i = st2 j.
Proof. exact order_independent. Qed.
Print Assumptions otfs_order_independent.

Example otfs_order_independent_ex : exists st1 st2,
  run store0 [OAdd 0 (qz 1); OAdd 0 (qz 2); OAdd 0 (qz 9)] = Ok st1 /\
  run store0 [OAdd 3 (qz 9); OAdd 4 (qz 2); OAdd 4 (qz 1); OMerge 3 4] = Ok st2 /\
  Permutation [qz 1; qz 2; qz 9] [qz 9; qz 2; qz 1] /\ st1 0%nat = st2 3%nat.
Proof.
  eexists; eexists. split; [reflexivity|]. split; [reflexivity|].
  assert (P : Permutation [qz 1; qz 2; qz 9] [qz 9; qz 2; qz 1])
    by (apply (Permutation_rev [qz 1; qz 2; qz 9])).
  split; [exact P|].
  eapply (@otfs_order_independent
    [OAdd 0 (qz 1); OAdd 0 (qz 2); OAdd 0 (qz 9)]
    [OAdd 3 (qz 9); OAdd 4 (qz 2); OAdd 4 (qz 1); OMerge 3 4]); [reflexivity|reflexivity|exact P].
Qed.

(** C02. Splitting data into any parts, accumulating the parts separately and
    merging them is the same as accumulating the data in one object, in any
    order. *)
Theorem otfs_partition_independent : forall (parts : list (list Qc)) (l : list Qc),
  Permutation (concat parts) l ->
  mergeSamples otfs_new (map (add_all otfs_new) parts) = Ok (add_all otfs_new l).
Proof. exact partition_independent. Qed.
Print Assumptions otfs_partition_independent.

Example otfs_partition_independent_ex :
  Permutation (concat [[qz 1; qz 2]; []; [qz 3]; [qz 4; qz 5]])
              [qz 1; qz 2; qz 3; qz 4; qz 5].
Proof. apply Permutation_refl. Qed.

(** C02. The reported variance is never negative. *)
Theorem otfs_variance_nonneg : forall os st i v,
  run store0 os = Ok st -> getSampleVariance (st i) = Ok v -> 0 <= v.
Proof. exact variance_nonneg. Qed.
Print Assumptions otfs_variance_nonneg.

Example otfs_variance_nonneg_ex : exists st v,
  run store0 [OAdd 0 (qz 1); OAdd 0 (qz 2)] = Ok st /\
  getSampleVariance (st 0%nat) = Ok v.
Proof. eexists; eexists; split; reflexivity. Qed.

(** C03. Every reachable object survives serialization, in Python and C++, for
    every number format that round-trips and does not contain the separator. *)
Theorem otfs_serialization_roundtrip :
  forall (fmt : Qc -> string) (parse : string -> option Qc),
  (forall x, parse (fmt x) = Some x) ->
  (forall x, has_char ";" (fmt x) = false) ->
  forall os st i self, run store0 os = Ok st ->
  unserialize parse self (serialize fmt (st i)) = (st i, Ok tt) /\
  cpp_unserialize parse self (serialize fmt (st i)) = (st i, Ok tt).
Proof. exact roundtrip_run. Qed.
Print Assumptions otfs_serialization_roundtrip.

Example otfs_serialization_roundtrip_ex :
  (forall x, parse_q (fmt_q x) = Some x) /\
  (forall x, has_char ";" (fmt_q x) = false) /\
  serialize fmt_q (add_all otfs_new [qz 1; qz 2]) = "1;2;3/2;1/2"%string /\
  unserialize parse_q otfs_new "1;2;3/2;1/2" = (add_all otfs_new [qz 1; qz 2], Ok tt).
Proof.
  split; [apply parse_fmt_q|]. split; [intros x; apply fmt_q_no; reflexivity|].
  split; [reflexivity|].
  change "1;2;3/2;1/2"%string with (serialize fmt_q (add_all otfs_new [qz 1; qz 2])).
  apply (@py_roundtrip_valid fmt_q parse_q parse_fmt_q).
  - intros x; apply fmt_q_no; reflexivity.
  - split; [discriminate|]. apply qleb_spec. vm_compute. reflexivity.
Qed.

(** C03. A rejected string leaves the object as it was, an accepted one leaves
    it in a state that can describe data; for any parser whatsoever. *)
Theorem otfs_unserialize_safe :
  forall (parse : string -> option Qc) self str,
  (forall e, snd (unserialize parse self str) = Err e ->
     fst (unserialize parse self str) = self) /\
  (forall e, snd (cpp_unserialize parse self str) = Err e ->
     fst (cpp_unserialize parse self str) = self) /\
  (forall s, unserialize parse self str = (s, Ok tt) -> valid s) /\
  (forall s, cpp_unserialize parse self str = (s, Ok tt) -> valid s).
Proof. exact unserialize_safe. Qed.
Print Assumptions otfs_unserialize_safe.

Example otfs_unserialize_safe_ex :
  unserialize parse_q (mk_otfs 1 1 0) "1;2;1/1;-1/1" = (mk_otfs 1 1 0, Err ValueError) /\
  unserialize parse_q (mk_otfs 1 1 0) "1;2;1/1" = (mk_otfs 1 1 0, Err ValueError) /\
  cpp_unserialize parse_q (mk_otfs 1 1 0) "1;-2;1/1;1/1"
    = (mk_otfs 1 1 0, Err InvalidArgumentException) /\
  snd (cpp_unserialize parse_q (mk_otfs 1 1 0) "1;2;1/1;1/1") = Ok tt.
Proof. repeat split. Qed.

(** C04 is false: an empty sample constructed with a non-zero variance can turn
    the variance of the object it is merged into negative. *)
Theorem otfs_empty_merge_refuted :
  exists m v e s s' x,
    otfs_init (Some m) (Some v) (Some 0%nat) = Ok e /\
    s = addDatum otfs_new x /\
    mergeSample s e = Ok s' /\
    exists w w', getSampleVariance (addDatum s x) = Ok w /\
                 getSampleVariance (addDatum s' x) = Ok w' /\
                 0 <= w /\ w' < 0.
Proof. exact empty_merge_bad. Qed.
Print Assumptions otfs_empty_merge_refuted.

(** C04, what does hold: an empty sample with zero variance, whatever its mean,
    is neutral now and for all data added later; into objects holding at least
    two data, any empty sample is neutral. *)
Theorem otfs_empty_merge_neutral : forall m e os st i s' l,
  otfs_init (Some m) (Some 0) (Some 0%nat) = Ok e ->
  run store0 os = Ok st ->
  mergeSample (st i) e = Ok s' ->
  answers (add_all s' l) (data_of os i ++ l).
Proof. exact empty_merge_neutral_run. Qed.
Print Assumptions otfs_empty_merge_neutral.

Theorem otfs_empty_merge_big : forall m v e s,
  otfs_init (Some m) (Some v) (Some 0%nat) = Ok e -> (2 <= getSampleSize s)%nat ->
  mergeSample s e = Ok s.
Proof. exact empty_merge_big. Qed.
Print Assumptions otfs_empty_merge_big.

Example otfs_empty_merge_ex : exists e s',
  otfs_init (Some (qz 5)) (Some 0) (Some 0%nat) = Ok e /\
  mergeSample (addDatum otfs_new (qz 2)) e = Ok s' /\
  getSampleSize s' = 1%nat /\
  mergeSample (add_all otfs_new [qz 2; qz 3]) e = Ok (add_all otfs_new [qz 2; qz 3]).
Proof. eexists; eexists; repeat split. Qed.
