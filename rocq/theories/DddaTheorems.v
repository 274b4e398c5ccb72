(** Properties C05-C09: decorrelation accumulator. *)
From Verif Require Import QcBase PyBase StrBase NumFmt OtfsModel OtfsSpec DddaModel DddaSpec DddaProof DddaCppProof.
Set Implicit Arguments.
Open Scope Qc_scope.

(** C05. After feeding the data [l] one at a time there are [1 + log2 |l|]
    blocks, block [i] reports the statistics of the averages of the consecutive
    complete groups of [2^i] data, and its waiting datum is the last of these
    averages exactly if their number is odd. *)
Theorem ddda_stream_correct : forall l : list Qc,
  let d := fold_left ddda_add l ddda_new in
  length d = block_count (length l) /\
  forall i, (i < length d)%nat ->
    answers (block d i) (block_data l i) /\
    waiting d i = last_if_odd (block_data l i).
Proof. exact stream_correct. Qed.
Print Assumptions ddda_stream_correct.

Theorem ddda_block_data_length : forall l i,
  length (block_data l i) = (length l / 2 ^ i)%nat.
Proof. exact block_data_length. Qed.
Print Assumptions ddda_block_data_length.

Example ddda_stream_correct_ex :
  let l := map qz [1; 3; 5; 9; 2; 4; 7]%Z in
  length (fold_left ddda_add l ddda_new) = 3%nat /\
  forallb (fun p => qeqb (fst p) (snd p))
    (combine (block_data l 1) (map qz [2; 7; 3]%Z)) = true /\
  length (block_data l 1) = 3%nat.
Proof. vm_compute. repeat split. Qed.

(** C06. After any program of additions and merges (of distinct accumulators)
    every accumulator has the promised structure for the data it received. *)
Theorem ddda_merge_structure : forall os, no_self os ->
  exists st, drun dstore0 os = Ok st /\ forall i, structure_ok (st i) (ddata_of os i).
Proof. exact run_structure. Qed.
Print Assumptions ddda_merge_structure.

Definition ex_dops : list dop :=
  [DAdd 0 (qz 1); DAdd 0 (qz 2); DAdd 0 (qz 3); DAdd 1 (qz 4); DAdd 1 (qz 5); DAdd 1 (qz 6);
   DMerge 0 1; DAdd 0 (qz 7); DMerge 2 0; DMerge 2 1].
Example ddda_merge_structure_ex :
  no_self ex_dops /\ length (ddata_of ex_dops 2) = 10%nat /\
  match drun dstore0 ex_dops with
  | Ok st => map (fun l => getSampleSize (fst l)) (st 2%nat) = [10; 5; 2; 1]%nat
  | Err _ => False
  end.
Proof.
  split; [|split; [reflexivity|vm_compute; reflexivity]].
  intros i H. cbn in H.
  repeat match goal with H : _ \/ _ |- _ => destruct H as [H|H]; [try discriminate; try (injection H; lia)|] end.
  exact H.
Qed.

(** C07 is false. Merging an accumulator with itself, which the documentation
    allows, differs from merging it with an equal copy: a waiting datum is lost,
    and block sizes become inconsistent. *)
Theorem ddda_self_merge_refuted :
  (exists d D d1 d2 e,
    d = fold_left ddda_add D ddda_new /\ ddda_merge d d = Ok d1 /\
    ddda_merge_self d = Ok d2 /\
    length d1 = length d2 /\
    map (fun l => getSampleSize (fst l)) d1 = map (fun l => getSampleSize (fst l)) d2 /\
    waiting d1 1 = Some e /\ waiting d2 1 = None /\
    Nat.odd (getSampleSize (block d2 1)) = true) /\
  (exists d D d1 d2,
    d = fold_left ddda_add D ddda_new /\ ddda_merge d d = Ok d1 /\
    ddda_merge_self d = Ok d2 /\
    map (fun l => getSampleSize (fst l)) d1 = [10; 5; 2; 1]%nat /\
    map (fun l => getSampleSize (fst l)) d2 = [10; 5; 3; 1]%nat).
Proof. exact (conj self_merge_bad self_merge_bad_sizes). Qed.
Print Assumptions ddda_self_merge_refuted.

(** C07, what does hold: if no block but the last one has a waiting datum,
    merging with itself is the same as merging with a copy. *)
Theorem ddda_self_merge_no_waiting : forall d,
  (forall i, (S i < length d)%nat -> waiting d i = None) ->
  ddda_merge_self d = ddda_merge d d.
Proof. exact self_merge_ok. Qed.
Print Assumptions ddda_self_merge_no_waiting.

Example ddda_self_merge_no_waiting_ex :
  let d := fold_left ddda_add (map qz [1; 2; 3; 4]%Z) ddda_new in
  length d = 3%nat /\ waiting d 0 = None /\ waiting d 1 = None.
Proof. vm_compute. repeat split. Qed.

(** C07, what does hold: size, mean and variance of the whole sample are right
    after merging an accumulator with itself, whatever its history. *)
Theorem ddda_self_merge_total : forall os st i, no_self os -> drun dstore0 os = Ok st ->
  exists d', ddda_merge_self (st i) = Ok d' /\
    answers (block d' 0) (ddata_of os i ++ ddata_of os i).
Proof. exact run_self_merge_total. Qed.
Print Assumptions ddda_self_merge_total.

Example ddda_self_merge_total_ex : no_self [DAdd 0 (qz 1)] /\
  drun dstore0 [DAdd 0 (qz 1)] = Ok (upd dstore0 0 (ddda_add ddda_new (qz 1))).
Proof. split; [|reflexivity]. intros i [H|[]]. discriminate. Qed.

(** C08. With fewer than two data the search fails as documented; otherwise it
    returns the documented block, which has a variance (so that the optimal
    standard error exists), and reliability is as documented. *)
Theorem ddda_optimal_block : forall os st i, no_self os -> drun dstore0 os = Ok st ->
  let D := ddata_of os i in
  ((length D < 2)%nat -> optimalBlockID (st i) = Err RuntimeError) /\
  ((2 <= length D)%nat ->
   exists b, optimalBlockID (st i) = Ok b /\
     documented_block (st i) (Nat.log2 (length D) - 1) b /\
     optimalIsReliable (st i) = Ok (Nat.ltb (50 * 2 ^ b) (length D)) /\
     optimalStandardError_squared (st i) = Ok (se2 (block (st i) b))).
Proof. exact run_optimal. Qed.
Print Assumptions ddda_optimal_block.

Example ddda_optimal_block_ex :
  optimalBlockID (fold_left ddda_add
    (map qz [1; -1; 2; -2; 1; -1; 3; -3; 1; -1; 2; -2; 1; -1; 3; -3]%Z) ddda_new) = Ok 1%nat /\
  optimalBlockID (fold_left ddda_add (map qz [1; 1; 2; 2; 5; 5; 9; 9]%Z) ddda_new) = Ok 2%nat /\
  optimalBlockID (fold_left ddda_add (map qz [4; 4; 4]%Z) ddda_new) = Ok 0%nat.
Proof. vm_compute. repeat split. Qed.

(** C08, C++: the same block is found as long as fewer than 2^24 data have been
    added (beyond that, the cube of the block size wraps around). *)
Theorem ddda_cpp_optimal_block : forall os st i, no_self os -> drun dstore0 os = Ok st ->
  (Z.of_nat (length (ddata_of os i)) < 2 ^ 24)%Z ->
  cpp_optimalBlockID (st i) = optimalBlockID (st i).
Proof. exact run_cpp_optimal24. Qed.
Print Assumptions ddda_cpp_optimal_block.

Example ddda_cpp_optimal_block_ex : exists st, drun dstore0 ex_dops = Ok st /\
  (Z.of_nat (length (ddata_of ex_dops 2)) < 2 ^ 24)%Z.
Proof. eexists; split; reflexivity. Qed.

(** C08, C++: that bound is sharp. There are 2^24 data for which the documented
    block, which the Python class reports, is 22, but the C++ class reports 23,
    since [size_t] arithmetic modulo 2^64 gives 0 for the cube of 2^22. *)
Theorem ddda_cpp_optimal_block_refuted : exists l d, Z.of_nat (length l) = (2 ^ 24)%Z /\
  d = fold_left ddda_add l ddda_new /\
  optimalBlockID d = Ok 22%nat /\ cpp_optimalBlockID d = Ok 23%nat.
Proof.
  destruct counter as (l & d & L & D & O & C). exists l, d. split; [|auto].
  rewrite L, Nat2Z.inj_mul, Nat2Z.inj_pow. reflexivity.
Qed.
Print Assumptions ddda_cpp_optimal_block_refuted.

(** C09. Every accumulator survives serialization, for every number format that
    round-trips, avoids the separators and is never empty. *)
Theorem ddda_serialization_roundtrip :
  forall (fmt : Qc -> string) (parse : string -> option Qc),
  (forall x, parse (fmt x) = Some x) ->
  (forall x, has_char ";" (fmt x) = false) ->
  (forall x, has_char "|" (fmt x) = false) ->
  (forall x, fmt x <> ""%string) ->
  forall os st i self, no_self os -> drun dstore0 os = Ok st ->
  ddda_unserialize parse self (ddda_serialize fmt (st i)) = (st i, Ok tt).
Proof. exact run_roundtrip. Qed.
Print Assumptions ddda_serialization_roundtrip.

Example ddda_serialization_roundtrip_ex :
  (forall x, parse_q (fmt_q x) = Some x) /\
  (forall x, has_char ";" (fmt_q x) = false) /\
  (forall x, has_char "|" (fmt_q x) = false) /\
  (forall x, fmt_q x <> ""%string) /\
  ddda_serialize fmt_q (fold_left ddda_add [qz 1; qz 2] ddda_new)
    = "1|2|1;2;3/2;1/2|1;1;3/2;0/1||3/2"%string.
Proof.
  split; [apply parse_fmt_q|]. split; [intros x; apply fmt_q_no; reflexivity|].
  split; [intros x; apply fmt_q_no; reflexivity|]. split; [apply fmt_q_nonempty|].
  vm_compute. reflexivity.
Qed.

(** C09. A rejected string leaves the accumulator as it was. *)
Theorem ddda_unserialize_reject : forall (parse : string -> option Qc) self str e,
  snd (ddda_unserialize parse self str) = Err e ->
  fst (ddda_unserialize parse self str) = self.
Proof. exact ddda_reject. Qed.
Print Assumptions ddda_unserialize_reject.

Example ddda_unserialize_reject_ex :
  snd (ddda_unserialize parse_q ddda_new "1|1|1;0;0/1;0/1") = Err ValueError.
Proof. reflexivity. Qed.

(** C09. An accepted string gives an accumulator with as many blocks as the string
    says, and with one empty block if the string says none: the accumulator can be used. *)
Theorem ddda_unserialize_accept : forall (parse : string -> option Qc) self str d,
  ddda_unserialize parse self str = (d, Ok tt) ->
  exists n : nat, StrBase.Z_of_str (nth 0 (StrBase.split "|" str) ""%string) = Some 1%Z
    /\ StrBase.Z_of_str (nth 1 (StrBase.split "|" str) ""%string) = Some (Z.of_nat n)
    /\ length d = Nat.max 1 n.
Proof. exact ddda_accept. Qed.
Print Assumptions ddda_unserialize_accept.
Example ddda_unserialize_accept_ex :
  match ddda_unserialize parse_q [] "1|0" with (d, Ok _) => Nat.eqb (length d) 1 && Nat.eqb (ddda_size d) 0 | _ => false end = true.
Proof. vm_compute. reflexivity. Qed.
