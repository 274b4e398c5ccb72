(** Properties of the streaming of the fluid. *)
From Coq Require Import List ZArith Bool Reals Lra Lia Permutation.
From Verif Require Import PyBase VecBase VecModel VecSpec PartSpec CuModel MdModel MdSpec PotProof MdProof.
Import ListNotations.
Open Scope R_scope.

(** C50: if there are [m] molecules, and each unit of work is done once, in any order, then
    each molecule keeps its momentum, its centre of mass moves uniformly, and nothing else
    is moved. *)
Theorem streaming_momentum : forall k m timestep stepCount units f b f' b',
  (0 < molecule_size k)%Z -> every_unit m units ->
  threads_stream k (molecule_size k * m) timestep stepCount units (f, b) = Ok (f', b') ->
  (forall u, (0 <= u < m)%Z -> let l := members (molecule_size k) u in
    total (vel f') l = total (vel f) l /\
    total (pos f') l = plus3 (total (pos f) l) (times3 (step_number k stepCount * timestep) (total (vel f) l))) /\
  (forall i, ~ (0 <= i < molecule_size k * m)%Z -> pos f' i = pos f i /\ vel f' i = vel f i).
Proof.
  intros k m timestep stepCount units f b f' b' Hs Hu E. split.
  - exact (stream_totals k m _ timestep stepCount Hs eq_refl units f b f' b' Hu E).
  - exact (stream_outside k m _ timestep Hs eq_refl stepCount units f b f' b' Hu E).
Qed.
Print Assumptions streaming_momentum.
(** The same for the fluid as a whole. *)
Theorem streaming_total_momentum : forall k m timestep stepCount units f b f' b',
  (0 < molecule_size k)%Z -> (0 <= m)%Z -> every_unit m units ->
  threads_stream k (molecule_size k * m) timestep stepCount units (f, b) = Ok (f', b') ->
  let l := zrange (molecule_size k * m) in
  total (vel f') l = total (vel f) l /\
  total (pos f') l = plus3 (total (pos f) l) (times3 (step_number k stepCount * timestep) (total (vel f) l)).
Proof. exact stream_grand_totals. Qed.
Print Assumptions streaming_total_momentum.
(** Reversing all velocities and streaming again retraces the trajectory. *)
Theorem streaming_reversible : forall k m timestep stepCount units units' f b f' b' b'',
  (0 < molecule_size k)%Z -> every_unit m units -> every_unit m units' ->
  threads_stream k (molecule_size k * m) timestep stepCount units (f, b) = Ok (f', b') ->
  exists b''', threads_stream k (molecule_size k * m) timestep stepCount units' (reversed f', b'') = Ok (reversed f, b''').
Proof.
  intros k m timestep stepCount units units' f b f' b' b'' Hs.
  exact (stream_reverse k m _ timestep stepCount Hs eq_refl units units' f b f' b' b'').
Qed.
Print Assumptions streaming_reversible.
(** The order in which the threads run does not matter. *)
Theorem streaming_order : forall k m timestep stepCount units units' f b f' b' b'',
  (0 < molecule_size k)%Z -> every_unit m units -> every_unit m units' ->
  threads_stream k (molecule_size k * m) timestep stepCount units (f, b) = Ok (f', b') ->
  exists b''', threads_stream k (molecule_size k * m) timestep stepCount units' (f, b'') = Ok (f', b''').
Proof.
  intros k m timestep stepCount units units' f b f' b' b'' Hs Hu Hu' E.
  exact (stream_order k m _ timestep stepCount Hs eq_refl units units' f b Hu Hu' f' b' E b'').
Qed.
Print Assumptions streaming_order.
(** Streaming does not fail, with one exception. *)
Theorem streaming_succeeds : forall k m timestep stepCount units f b,
  (0 < molecule_size k)%Z -> ~ may_fail k -> every_unit m units ->
  exists f' b', threads_stream k (molecule_size k * m) timestep stepCount units (f, b) = Ok (f', b').
Proof.
  intros k m timestep stepCount units f b Hs. exact (stream_ok k m _ timestep stepCount Hs eq_refl units f b).
Qed.
Print Assumptions streaming_succeeds.
(** A step of rods fails only if the partners of a bond meet, before or after they moved. *)
Theorem rods_fail : forall l k m timestep units f b e, every_unit m units ->
  threads_stream (Rods l k) (2 * m) timestep 1 units (f, b) = Err e ->
  e = AssertionError /\ exists u, (0 <= u < m)%Z /\ (pos f (2 * u)%Z = pos f (2 * u + 1)%Z \/
    exists a a', spring_acceleration (Rods l k) u (pos f) (2 * u) a /\ spring_acceleration (Rods l k) u (pos f) (2 * u + 1) a' /\
      plus3 (plus3 (pos f (2 * u)%Z) (times3 timestep (vel f (2 * u)%Z))) (times3 (timestep * timestep / 2) a) =
      plus3 (plus3 (pos f (2 * u + 1)%Z) (times3 timestep (vel f (2 * u + 1)%Z))) (times3 (timestep * timestep / 2) a')).
Proof. exact rods_break. Qed.
Print Assumptions rods_fail.
(** A step is one of the velocity-Verlet method, for Newton's equations with the forces of
    the springs. *)
Theorem streaming_step : forall k m timestep units f b f' b', (0 < molecule_size k)%Z -> every_unit m units ->
  threads_stream k (molecule_size k * m) timestep 1 units (f, b) = Ok (f', b') ->
  forall u i, (0 <= u < m)%Z -> In i (members (molecule_size k) u) ->
  exists a a', spring_acceleration k u (pos f) i a /\ spring_acceleration k u (pos f') i a' /\
    pos f' i = plus3 (plus3 (pos f i) (times3 timestep (vel f i))) (times3 (timestep * timestep / 2) a) /\
    vel f' i = plus3 (vel f i) (times3 (timestep / 2) (plus3 a a')).
Proof.
  intros k m timestep units f b f' b' Hs. exact (step_verlet k m _ timestep Hs eq_refl units f b f' b').
Qed.
Print Assumptions streaming_step.
(** Many steps are single steps, one after the other. *)
Theorem streaming_steps : forall k m timestep stepCount units units' units'' f b f1 b1 f2 b2 b',
  (0 < molecule_size k)%Z -> k <> Simple -> every_unit m units -> every_unit m units' -> every_unit m units'' ->
  threads_stream k (molecule_size k * m) timestep stepCount units (f, b) = Ok (f1, b1) ->
  threads_stream k (molecule_size k * m) timestep 1 units' (f1, b1) = Ok (f2, b2) ->
  exists b3, threads_stream k (molecule_size k * m) timestep (S stepCount) units'' (f, b') = Ok (f2, b3).
Proof.
  intros k m timestep stepCount units units' units'' f b f1 b1 f2 b2 b' Hs.
  exact (more_steps k m _ timestep Hs eq_refl stepCount units units' units'' f b f1 b1 f2 b2 b').
Qed.
Print Assumptions streaming_steps.
Theorem streaming_no_steps : forall k m timestep units f b, (0 < molecule_size k)%Z -> k <> Simple -> every_unit m units ->
  threads_stream k (molecule_size k * m) timestep 0 units (f, b) = Ok (f, b).
Proof. exact no_steps. Qed.
Print Assumptions streaming_no_steps.

(** Two particles at rest at distance one meet after a step of length one, and have
    exchanged places after two; rods at their mean bond length stay at rest. *)
Example streaming_example :
  (exists f b, threads_stream (Dumbbells 1) 2 1 1 [0]%Z (at_rest, vel at_rest) = Ok (f, b) /\
    pos f 0%Z = Vec (1 / 2) 0 0 /\ pos f 1%Z = Vec (1 / 2) 0 0 /\ vel f 0%Z = Vec (1 / 2) 0 0 /\ vel f 1%Z = Vec (- (1 / 2)) 0 0) /\
  (exists f b, threads_stream (Dumbbells 1) 2 1 2 [0]%Z (at_rest, vel at_rest) = Ok (f, b) /\
    pos f 0%Z = Vec 1 0 0 /\ pos f 1%Z = Vec 0 0 0) /\
  (exists f b, threads_stream (Rods 1 7) 2 3 1 [0]%Z (at_rest, vel at_rest) = Ok (f, b) /\
    pos f 0%Z = Vec 0 0 0 /\ pos f 1%Z = Vec 1 0 0 /\ vel f 1%Z = Vec 0 0 0).
Proof. exact rest_example. Qed.

(** C51: analytic streaming conserves the momentum and the energy of each dumbbell, and
    moves centres of mass uniformly. *)
Theorem exact_streaming_conserves : forall m omega k t units f, omega <> 0 -> omega * omega = 2 * k -> every_unit m units ->
  let f' := threads_stream_exactly (2 * m) t omega units f in
  (forall u, (0 <= u < m)%Z ->
    total (vel f') (members 2 u) = total (vel f) (members 2 u) /\
    total (pos f') (members 2 u) = plus3 (total (pos f) (members 2 u)) (times3 t (total (vel f) (members 2 u))) /\
    spring_energy k f' (2 * u) = spring_energy k f (2 * u)) /\
  (forall i, ~ (0 <= i < 2 * m)%Z -> pos f' i = pos f i /\ vel f' i = vel f i).
Proof. exact exact_conserves. Qed.
Print Assumptions exact_streaming_conserves.
(** Streaming for [t1], then for [t2], is streaming for [t1 + t2]. *)
Theorem exact_streaming_group : forall m omega t1 t2 units1 units2 units f, omega <> 0 ->
  every_unit m units1 -> every_unit m units2 -> every_unit m units ->
  threads_stream_exactly (2 * m) t2 omega units2 (threads_stream_exactly (2 * m) t1 omega units1 f) =
    threads_stream_exactly (2 * m) (t1 + t2) omega units f /\
  threads_stream_exactly (2 * m) 0 omega units f = f.
Proof. exact exact_is_group. Qed.
Print Assumptions exact_streaming_group.
(** It solves Newton's equations of motion. *)
Theorem exact_streaming_motion : forall m omega k units f u, omega <> 0 -> omega * omega = 2 * k -> every_unit m units ->
  (0 <= u < m)%Z -> spring_motion k (fun t => threads_stream_exactly (2 * m) t omega units f) (2 * u).
Proof. exact exact_moves. Qed.
Print Assumptions exact_streaming_motion.
(** The spring is the same as the one used for the velocity-Verlet method. *)
Theorem spring_parameters : forall lambda kT mass, 0 < lambda -> 0 < kT -> 0 < mass ->
  dumbbell_omega lambda kT mass <> 0 /\
  dumbbell_omega lambda kT mass * dumbbell_omega lambda kT mass = 2 * dumbbell_spring_constant lambda kT mass.
Proof. exact omega_ok. Qed.
Print Assumptions spring_parameters.
(** After half a period, the particles have exchanged places. *)
Example exact_streaming_example :
  pos (threads_stream_exactly 2 PI 1 [0]%Z at_rest) 0%Z = Vec 1 0 0 /\
  pos (threads_stream_exactly 2 PI 1 [0]%Z at_rest) 1%Z = Vec 0 0 0 /\
  spring_energy (1 / 2) at_rest 0 = 1 / 4.
Proof. exact half_period. Qed.
