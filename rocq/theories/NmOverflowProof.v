(** A measurement of normal modes whose buffers are exactly as large as the constructor makes them. *)
From Coq Require Import List ZArith Bool Reals Lia Lra Permutation.
From Verif Require Import VecBase VecSpec PartSpec PartProof CuModel CuProof NmModel NmSpec NmProof.
From Verif Require StarModel.
Import ListNotations.
Open Scope R_scope.

Lemma value_ext N C P S m m' k : (1 <= N)%Z -> (0 <= k < C * (3 * (N + 1)))%Z ->
  (forall a, (P <= a < P + 3 * C * N)%Z -> m a = m' a) -> value N P S m k = value N P S m' k.
Proof.
  intros HN Hk E. unfold value. f_equal. apply cnc_ext. intros a Ha. apply E.
  assert (0 <= k / (3 * (N + 1)) < C)%Z by (split; [apply Z.div_pos; lia|apply Z.div_lt_upper_bound; lia]). nia.
Qed.
Lemma launched_zrange n : StarModel.launched n (zrange n).
Proof.
  split; [apply Forall_forall; intros u Hu; apply In_zrange in Hu; lia|].
  rewrite filter_all; [apply Permutation_refl|]. intros u Hu. apply In_zrange in Hu. apply Z.ltb_lt. lia.
Qed.

(** 32 chains of one particle each; two adjacent buffers of 64 numbers, at addresses 0 and 64. *)
Definition tight_buffers (i : nat) : Z := (64 * Z.of_nat i)%Z.
(** All particles at the origin, then all at (1, 1, 1). *)
Definition tight_calls : list ((Z -> R) * list Z) := [(fun _ => 0, zrange 32); (fun _ => 1, zrange 32)].

Section At.
Variables (N C P : Z) (S0 : R).
Hypotheses (HN : (1 <= N)%Z) (HC : (1 <= C)%Z) (H32 : (C * (3 * (N + 1)) < 2 ^ 32)%Z).
Lemma first_step x units b m : apart N C P b -> StarModel.launched C units ->
  forall a, computeNormalCoordinates units N C P b S0 (simulate N C P m x) a =
  if (Z.leb b a && Z.ltb a (b + C * (3 * (N + 1))))%bool then element N S0 x (a - b) else simulate N C P m x a.
Proof.
  intros A U a. rewrite (host_writes N C P S0 HN HC H32 b units _ a A U).
  destruct (Z.leb_spec b a), (Z.ltb_spec a (b + C * (3 * (N + 1)))); cbn [andb]; auto.
  apply (value_element N C P S0); [exact HN|lia|]. intros k Hk. unfold simulate.
  destruct (Z.leb_spec P (P + k)), (Z.ltb_spec (P + k) (P + 3 * C * N)); try lia. cbn [andb]. f_equal. lia.
Qed.
End At.

Lemma element_constant v k : (0 <= k)%Z -> element 1 0 (fun _ => v) k = if Z.ltb (k mod 6) 3 then v else - v.
Proof.
  intros Hk. unfold element, n_. replace (Z.to_nat 1) with 1%nat by reflexivity.
  replace (3 * (1 + 1))%Z with 6%Z by reflexivity.
  unfold normal_coordinate. cbn [seq map]. unfold vsum. cbn [fold_right].
  unfold chain, vector_at. set (j := Z.to_nat (k mod 6 / 3)).
  replace (INR j * PI * (INR 1 + 0) / INR 1) with (INR j * PI) by (cbn [INR]; field).
  assert (Hm : (0 <= k mod 6 < 6)%Z) by (apply Z.mod_pos_bound; lia).
  assert (E : cos (INR j * PI) = if Z.ltb (k mod 6) 3 then 1 else -1).
  { destruct (Z.ltb_spec (k mod 6) 3).
    - replace j with 0%nat by (unfold j; rewrite Z.div_small by lia; reflexivity). cbn [INR]. rewrite Rmult_0_l. apply cos_0.
    - replace j with 1%nat. cbn [INR]. rewrite Rmult_1_l. apply cos_PI.
      unfold j. replace (k mod 6)%Z with ((k mod 6 - 3) + 1 * 3)%Z by ring. rewrite Z.div_add by lia. rewrite Z.div_small by lia. reflexivity. }
  rewrite E. unfold comp, times3, plus3, zero3. cbn [vx vy vz INR].
  destruct (Z.ltb (k mod 6) 3); repeat (destruct (Z.eqb _ _)); cbn [vx vy vz]; field.
Qed.
Lemma tight_dot c m1 : (c < 32)%nat ->
  let m2 := computeNormalCoordinates (zrange 32) 1 32 1024 64 0 (simulate 1 32 1024 m1 (fun _ => 1)) in
  (forall a, (0 <= a < 64)%Z -> m1 a = 0) ->
  dot3 (vector_at (at_ m2 0) (Z.of_nat (c * 2 + 0))) (vector_at (at_ m2 64) (Z.of_nat (c * 2 + 0))) = if Nat.ltb c 11 then 0 else -1.
Proof.
  intros Hc m2 H1.
  assert (E : forall a, m2 a = if (Z.leb 64 a && Z.ltb a (64 + 32 * (3 * (1 + 1))))%bool then element 1 0 (fun _ => 1) (a - 64) else simulate 1 32 1024 m1 (fun _ => 1) a).
  { apply (first_step 1 32 1024 0); try lia. unfold apart. lia. apply launched_zrange. }
  assert (E1 : forall a, (0 <= a < 64)%Z -> m2 a = 0).
  { intros a Ha. rewrite E. destruct (Z.leb_spec 64 a); [lia|]. cbn [andb]. unfold simulate. destruct (Z.leb_spec 1024 a); [lia|]. cbn [andb]. now apply H1. }
  assert (E2 : forall a, (64 <= a < 256)%Z -> m2 a = if Z.ltb ((a - 64) mod 6) 3 then 1 else - (1)).
  { intros a Ha. rewrite E. destruct (Z.leb_spec 64 a), (Z.ltb_spec a (64 + 32 * (3 * (1 + 1)))); try lia. cbn [andb]. apply element_constant. lia. }
  assert (M : forall (k r : Z), (0 <= r < 6)%Z -> ((6 * k + r) mod 6 = r)%Z).
  { intros k r Hr. rewrite Z.add_comm, Z.mul_comm, Z.mod_add by lia. now apply Z.mod_small. }
  unfold vector_at, at_, dot3. cbn [vx vy vz].
  replace (3 * Z.of_nat (c * 2 + 0))%Z with (6 * Z.of_nat c)%Z by lia.
  rewrite (E2 (64 + 6 * Z.of_nat c)%Z), (E2 (64 + (6 * Z.of_nat c + 1))%Z), (E2 (64 + (6 * Z.of_nat c + 2))%Z) by lia.
  replace (64 + 6 * Z.of_nat c - 64)%Z with (6 * Z.of_nat c + 0)%Z by ring.
  replace (64 + (6 * Z.of_nat c + 1) - 64)%Z with (6 * Z.of_nat c + 1)%Z by ring.
  replace (64 + (6 * Z.of_nat c + 2) - 64)%Z with (6 * Z.of_nat c + 2)%Z by ring.
  rewrite !M by lia. cbn [Z.ltb Z.compare Pos.compare Pos.compare_cont].
  destruct (Nat.ltb_spec c 11).
  - rewrite !E1 by lia. ring.
  - rewrite (E2 (0 + 6 * Z.of_nat c)%Z), (E2 (0 + (6 * Z.of_nat c + 1))%Z), (E2 (0 + (6 * Z.of_nat c + 2))%Z) by lia.
    replace (0 + 6 * Z.of_nat c - 64)%Z with (6 * (Z.of_nat c - 11) + 2)%Z by ring.
    replace (0 + (6 * Z.of_nat c + 1) - 64)%Z with (6 * (Z.of_nat c - 11) + 3)%Z by ring.
    replace (0 + (6 * Z.of_nat c + 2) - 64)%Z with (6 * (Z.of_nat c - 11) + 4)%Z by ring.
    rewrite !M by lia. cbn [Z.ltb Z.compare Pos.compare Pos.compare_cont]. ring.
Qed.
Lemma tight_result : exists st, nm_run 1 32 1024 1 2 0 tight_buffers tight_calls (nm_new (fun _ => 0)) = Some st /\
  getAutocorrelation st 0 1 0 = Some (-21 / 32).
Proof.
  unfold tight_calls. cbn [nm_run]. unfold nm_new, nm_measure.
  cbn [sweeps device autocorrelations length Nat.eqb negb andb].
  assert (B1 : nm_buffers 2 tight_buffers 0 = [Some 0%Z; None]) by reflexivity.
  assert (B2 : nm_buffers 2 tight_buffers 1 = [Some 64%Z; Some 0%Z]) by reflexivity.
  rewrite B1. cbn [nm_lags]. rewrite (average_general 1 32) by lia.
  cbn [sweeps device autocorrelations length Nat.eqb negb andb app]. rewrite B2. cbn [nm_lags]. rewrite !(average_general 1 32) by lia.
  eexists. split; [reflexivity|].
  unfold getAutocorrelation. cbn [autocorrelations app nth_error Nat.sub].
  unfold n_. replace (Z.to_nat 1 + 1)%nat with 2%nat by reflexivity. cbn [seq map nth_error]. f_equal.
  set (m1 := computeNormalCoordinates (zrange 32) 1 32 1024 0 0 (simulate 1 32 1024 (fun _ => 0) (fun _ => 0))).
  assert (E1 : forall a, (0 <= a < 64)%Z -> m1 a = 0).
  { intros a Ha. unfold m1. rewrite (first_step 1 32 1024 0); try lia; [|unfold apart; lia|apply launched_zrange].
    destruct (Z.leb_spec 0 a), (Z.ltb_spec a (0 + 32 * (3 * (1 + 1)))); try lia. cbn [andb]. rewrite element_constant by lia.
    destruct (Z.ltb _ _); ring. }
  unfold general, n_, c_. replace (Z.to_nat 32) with 32%nat by reflexivity. replace (Z.to_nat 1 + 1)%nat with 2%nat by reflexivity.
  rewrite (map_ext_in _ (fun c => if Nat.ltb c 11 then 0 else -1)).
  - cbn. field.
  - intros c Hc. apply in_seq in Hc. apply tight_dot; [lia|exact E1].
Qed.
