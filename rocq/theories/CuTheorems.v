(** Theorems about launches, iterator ranges, bit sets and random number generators. *)
From Coq Require Import List ZArith Bool Lia.
From Verif Require Import PyBase CuModel CuSpec CuProof CuBitsProof CuLcgProof.
Import ListNotations.
Open Scope Z_scope.

(** C49: the loop ends, and dispatches all units exactly once, in order. *)
Theorem launch_all_once : forall N G B, 0 < B -> 0 < G -> N + 1 < 2 ^ 32 -> N + G * B <= 2 ^ 32 ->
  exists f0, forall f, (f0 <= f)%nat -> dispatched f N G B = Some (zrange N).
Proof. exact launch_exact. Qed.
Print Assumptions launch_all_once.
Example launch_example : dispatched 4 23 3 4 = Some [0;1;2;3;4;5;6;7;8;9;10;11;12;13;14;15;16;17;18;19;20;21;22]
  /\ launches 4 23 3 4 0 = Some [(3, 0); (3, 12)].
Proof. split; reflexivity. Qed.

(** C49: with the default sizes, it does not end for larger counts. *)
Theorem launch_endless_default : forall N, 2 ^ 32 - 2 ^ 19 < N -> forall f, dispatched f N 1024 512 = None.
Proof. exact launch_endless. Qed.
Print Assumptions launch_endless_default.

(** C49: for larger counts, units can be dispatched twice even if the loop ends. *)
Theorem launch_twice_refuted : ~ (forall N G B f l, 0 < B -> 0 < G -> 0 <= N < 2 ^ 32 -> G * B < 2 ^ 32 ->
  dispatched f N G B = Some l -> NoDup l).
Proof.
  intros H. destruct launch_twice as (f & l & E & D). apply D. apply (H (7 * 2 ^ 29) (5 * 2 ^ 19) 1024 f l); try lia. exact E.
Qed.
Print Assumptions launch_twice_refuted.

(** C54: bunched ranges. *)
Theorem bunch_elements : forall b g n, 0 < b < 2 ^ 32 -> 0 <= g -> 0 <= n <= 2 ^ 32 ->
  exists f0, forall f, (f0 <= f)%nat -> bunch_visited f b g n = Some (filter (fun k => k mod (b + g) <? b) (zrange n)).
Proof. exact bunch_range. Qed.
Print Assumptions bunch_elements.
Example bunch_example : bunch_visited 20 2 3 13 = Some [0;1;5;6;10;11].
Proof. reflexivity. Qed.

(** C54: bunched ranges over more than 2^32 elements visit elements again instead. *)
Theorem bunch_elements_refuted : ~ (forall b g n f l, 0 < b < 2 ^ 32 -> 0 <= g < 2 ^ 32 -> 0 <= n < 2 ^ 63 ->
  bunch_visited f b g n = Some l -> NoDup l).
Proof.
  intros H. destruct (bunch_visits 1 0 ltac:(lia) ltac:(lia) (Z.to_nat (2 ^ 32 + 1)) (2 ^ 32 + 1) 0 ltac:(lia) ltac:(lia) (S (Z.to_nat (2 ^ 32 + 1))) ltac:(lia)) as (c & _ & E & _).
  assert (V : bunch_visited (S (Z.to_nat (2 ^ 32 + 1))) 1 0 (2 ^ 32 + 1) = Some (map (bunch_advance 1 0) (zrange (0 + c)))).
  { unfold bunch_visited. rewrite E. reflexivity. }
  apply (proj2 bunch_long _ _ V). apply (H 1 0 (2 ^ 32 + 1) _ _ ltac:(lia) ltac:(lia) ltac:(lia) V).
Qed.
Print Assumptions bunch_elements_refuted.

(** C54: strided ranges and strided pointers. *)
Theorem strided_elements : forall s n, 0 < s -> 0 <= n ->
  strided_visited s n = filter (fun k => k mod s =? 0) (zrange n) /\
  exists f0, forall f, (f0 <= f)%nat -> pointer_visited f s 0 n = Some (filter (fun k => k mod s =? 0) (zrange n)).
Proof. intros s n Hs Hn. split; [now apply strided_range|now apply pointer_range]. Qed.
Print Assumptions strided_elements.
Example strided_example : strided_visited 3 10 = [0;3;6;9] /\ strided_visited 3 9 = [0;3;6] /\ pointer_visited 9 3 0 10 = Some [0;3;6;9].
Proof. repeat split. Qed.

(** C54: advancing a strided pointer stops at the end; there, it throws. *)
Theorem pointer_advancing : forall s, 0 < s ->
  (forall k c p, 0 <= c < p -> pointer_advance k s c p = Ok (Z.min (c + Z.of_nat k * s) p)) /\
  (forall k p, pointer_advance (S k) s p p = Err PyException).
Proof. intros s Hs. split; [exact (pointer_advances s Hs)|intros; apply pointer_advance_end]. Qed.
Print Assumptions pointer_advancing.

(** C56: one thread: every bit has the value assigned to it last. *)
Theorem bitset_array : forall f sets, (forall c, bitset_get (performed f (calls sets)) c = assigned c sets (bitset_get f c)) /\
  (words f -> words (performed f (calls sets))).
Proof. intros f sets. split; [intros c; apply calls_get|apply calls_words]. Qed.
Print Assumptions bitset_array.
Example bitset_example : let f := performed (fun _ => 0) (calls [(3, true); (31, true); (40, true); (3, false); (4, true)]) in
  map (bitset_get f) (zrange 42) = map (fun b => (b =? 31) || (b =? 40) || (b =? 4)) (zrange 42).
Proof. vm_compute. reflexivity. Qed.

(** C56: several threads: every bit has the value assigned to it last in some order; a bit
    that only one thread assigns to has the value it assigned last; and if all assign the
    same value, it has that value. *)
Theorem bitset_concurrent : forall threads f s, interleaving (map calls threads) s ->
  (forall c, exists order, interleaving threads order /\ bitset_get (performed f s) c = assigned c order (bitset_get f c)) /\
  (forall c l t r, threads = l ++ t :: r -> (forall u x, In u (l ++ r) -> In x u -> fst x <> c) ->
     bitset_get (performed f s) c = assigned c t (bitset_get f c)) /\
  (forall c v, (forall t x, In t threads -> In x t -> fst x = c -> snd x = v) ->
     (exists t x, In t threads /\ In x t /\ fst x = c) -> bitset_get (performed f s) c = v).
Proof. exact bitset_threads. Qed.
Print Assumptions bitset_concurrent.
Example bitset_concurrent_example : interleaving (map calls [[(0, true); (1, true)]; [(32, true)]]) (calls [(0, true); (32, true); (1, true)]).
Proof.
  cbn. apply (interleaving_step []). apply (interleaving_step [_]). apply (interleaving_step []).
  constructor. intros t [<-|[<-|[]]]; reflexivity.
Qed.

(** C56: [setAll] sets all bits. *)
Theorem bitset_all_bits : forall f n v c, 0 <= c < n -> n + 32 < 2 ^ 64 -> bitset_get (performed f (bitset_set_all n v)) c = v.
Proof. exact bitset_all. Qed.
Print Assumptions bitset_all_bits.

(** C56: all accesses are to allocated memory if the memory of the object happened to
    contain a large enough number. *)
Theorem bitset_room : forall stale contents n, 0 <= n -> n <= stale -> stale + 32 < 2 ^ 64 -> let s := bitset_new stale contents n in
  (forall b v a, 0 <= b < n -> In a (bitset_set b v) -> 0 <= accessed a < size s) /\
  (forall v a, In a (bitset_set_all n v) -> 0 <= accessed a < size s) /\
  (forall b, 0 <= b < n -> 0 <= b / 32 < size s).
Proof. exact bitset_room_from. Qed.
Print Assumptions bitset_room.

(** C56: but not otherwise. *)
Theorem bitset_room_refuted : ~ (forall stale contents n b v a, 0 <= stale < 2 ^ 64 -> 0 <= b < n -> n + 32 < 2 ^ 64 ->
  In a (bitset_set b v) -> 0 <= accessed a < size (bitset_new stale contents n)).
Proof.
  intros H. specialize (H 0 (fun _ => 0) 1 0 true (AtomicOr 0 1) ltac:(lia) ltac:(lia) ltac:(lia) (or_introl eq_refl)).
  cbn in H. lia.
Qed.
Print Assumptions bitset_room_refuted.

(** C57: with types of at least 47 bits (so, with 64 bits), products do not overflow, only
    numbers between 1 and m - 1 are generated, and all of them once before the sequence
    repeats. *)
Theorem minstd_full_period : forall width, 47 <= width -> forall next multiplier,
  (next, multiplier) = (minstd_rand width, 48271) \/ (next, multiplier) = (minstd_rand0 width, 16807) ->
  let m := 2147483647 in
  (forall x, 0 < x < m -> multiplier * x + 0 < 2 ^ width /\ next x = (multiplier * x) mod m) /\
  (forall x n y, 0 < x < m -> In y (draws next n x) -> 0 < y < m) /\
  (forall x, 0 < x < m -> NoDup (draws next (Z.to_nat (m - 1)) x) /\ (forall y, 0 < y < m -> In y (draws next (Z.to_nat (m - 1)) x)) /\
     Nat.iter (Z.to_nat (m - 1)) next x = x).
Proof.
  intros width W next a [E|E]; injection E as -> ->; cbv zeta.
  - apply (generator 48271); try lia; vm_compute; reflexivity.
  - apply (generator 16807); try lia; vm_compute; reflexivity.
Qed.
Print Assumptions minstd_full_period.
(** The values required by the C++ standard. *)
Example minstd_example : Nat.iter (Z.to_nat 10000) (minstd_rand 64) 1 = 399268537 /\ Nat.iter (Z.to_nat 10000) (minstd_rand0 64) 1 = 1043618065.
Proof. split; vm_compute; reflexivity. Qed.

(** C57: with 32 bits, the generators can get stuck at 0. *)
Theorem minstd_32_refuted : exists x, 0 < x < 2147483647 /\ forall n, Nat.iter (S n) (minstd_rand 32) x = 0.
Proof.
  exists 1622613393. split; [lia|]. induction n as [|n IH]; [reflexivity|].
  change (Nat.iter (S (S n)) (minstd_rand 32) 1622613393) with (minstd_rand 32 (Nat.iter (S n) (minstd_rand 32) 1622613393)). rewrite IH. reflexivity.
Qed.
Print Assumptions minstd_32_refuted.

(** C57: the seed 0, which the documentation allows, yields 0 only. *)
Theorem minstd_seed_zero : forall width n, 0 <= width -> Nat.iter n (minstd_rand width) 0 = 0 /\ Nat.iter n (minstd_rand0 width) 0 = 0.
Proof.
  intros width n W. induction n as [|n [IH1 IH2]]; [split; reflexivity|].
  change (Nat.iter (S n) (minstd_rand width) 0) with (minstd_rand width (Nat.iter n (minstd_rand width) 0)).
  change (Nat.iter (S n) (minstd_rand0 width) 0) with (minstd_rand0 width (Nat.iter n (minstd_rand0 width) 0)).
  rewrite IH1, IH2. unfold minstd_rand, minstd_rand0, lcg. rewrite !Z.mul_0_r, !Z.add_0_l, !Z.mod_0_l by (try discriminate; apply Z.pow_nonzero; lia). split; reflexivity.
Qed.
Print Assumptions minstd_seed_zero.
