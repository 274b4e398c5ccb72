(** What measurements of the velocity autocorrelation have to record. *)
From Verif Require Import QcBase StrBase PyBase CuModel VtfModel OtfsSpec MeasModel VacModel.
Open Scope string_scope.
Open Scope list_scope.
Open Scope Qc_scope.

(** Coordinate [c] of the velocity of a particle. *)
Definition velocity_of (velocities : array) (particle c : Z) : Qc := velocities (3 * particle + c)%Z.
(** The number of particles in a logical entity. *)
Definition entity_size (f : fluid) : Z := match f with Simple => 1 | Doublets => 2 | Triplets => 3 | Chains l => l end.
(** The particles of the logical entity with number [k] follow each other. *)
Definition entity_particles (f : fluid) (k : Z) : list Z := map (fun i => (entity_size f * k + Z.of_nat i)%Z) (seq 0 (Z.to_nat (entity_size f))).
(** The mean of the velocities: that of the center of mass, as all particles have the same mass. *)
Definition entity_velocity (f : fluid) (velocities : array) (k c : Z) : Qc :=
  qsum (map (fun p => velocity_of velocities p c) (entity_particles f k)) / qz (entity_size f).
(** The number of logical entities that are complete. *)
Definition entity_count (f : fluid) (particleCount : Z) : Z := (particleCount / entity_size f)%Z.
(** VelocityAutocorrelation/Base.hpp, documentation: V(t_i, t), for given velocities of the entities and [n] entities. *)
Definition correlation (n : Z) (u v : Z -> Z -> Qc) : Qc :=
  qsum (map (fun k => u k 0%Z * v k 0%Z + u k 1%Z * v k 1%Z + u k 2%Z * v k 2%Z) (map Z.of_nat (seq 0 (Z.to_nat n)))) / qz n.
Definition fluid_correlation (f : fluid) (particleCount : Z) (u v : array) : Qc :=
  correlation (entity_count f particleCount) (entity_velocity f u) (entity_velocity f v).
(** There is a logical entity, and the number of coordinates fits into 32 bits. *)
Definition sound (f : fluid) (particleCount : Z) : Prop :=
  (0 < entity_count f particleCount)%Z /\ (0 < entity_size f)%Z /\ (3 * particleCount < 2 ^ 32)%Z.

(** A call: simulation time and velocities of the particles. *)
Definition call := (Qc * array)%type.
(** One millionth. *)
Definition millionth : Qc := Q2Qc (1 # 1000000).
Definition older (measurementTime now : Qc) (c : call) : bool := qltb (measurementTime + millionth) (now - fst c).
(** The snapshots, oldest first at the beginning.  Those that are too old are taken again in place; after that, one is added if there are fewer than [count] and the last of
    them is old enough.  [full_only] is the variant of the documentation, where snapshots are only replaced if there are [count] of them. *)
Definition procedure (full_only : bool) (count : nat) (measurementTime : Qc) (snaps : list call) (new : call) : list call :=
  let snaps' := if negb full_only || Nat.eqb (length snaps) count
                then map (fun c => if older measurementTime (fst new) c then new else c) snaps else snaps in
  if Nat.ltb (length snaps) count &&
     match rev snaps' with [] => true | c :: _ => qltb (measurementTime / qn count - millionth) (fst new - fst c) end
  then snaps' ++ [new] else snaps'.
(** The records of a sequence of calls, for the given value of a pair of velocities. *)
Fixpoint records (full_only : bool) (V : array -> array -> Qc) (count : nat) (measurementTime : Qc) (snaps : list call) (calls : list call) : list (Qc * Qc * Qc) :=
  match calls with
  | [] => []
  | new :: rest =>
    let snaps := procedure full_only count measurementTime snaps new in
    map (fun c => (fst c, fst new, V (snd c) (snd new))) snaps ++ records full_only V count measurementTime snaps rest
  end.

(** Calls in regular intervals, with velocities [v k]. *)
Definition regular_call (t0 h : Qc) (v : nat -> array) (k : nat) : call := (t0 + qn k * h, v k).
(** [m] is the number of intervals after which a further snapshot is due, [p] that after which a snapshot is too old. *)
Definition intervals (count : nat) (measurementTime h : Qc) (m p : nat) : Prop :=
  (forall k, measurementTime / qn count - millionth < qn k * h <-> (m <= k)%nat) /\
  (forall k, measurementTime + millionth < qn k * h <-> (p <= k)%nat).
(** The call with which call [k] is correlated through snapshot [i]. *)
Definition reference (m p k i : nat) : nat := (i * m + (k - i * m) / p * p)%nat.

(** Times that never decrease. *)
Fixpoint ordered (l : list call) : Prop :=
  match l with
  | [] => True
  | a :: r => match r with [] => True | b :: _ => fst a <= fst b /\ ordered r end
  end.

(** ** The script *)
(** The data for the time difference [n dt], from all lines with a second time of at least [minimum]. *)
Definition lag_data (round : Qc -> Z) (dt minimum : Qc) (lines : list (Qc * Qc * Qc)) (n : Z) : list Qc :=
  flat_map (fun e => let '(t1, t2, v) := e in if qleb minimum t2 && Z.eqb (round ((t2 - t1) / dt)) n then [v] else []) lines.
Definition in_order (e : Qc * Qc * Qc) : Prop := let '(t1, t2, _) := e in 0 <= t1 /\ t1 <= t2.
(** The line of the table for the time [t]: the time, the mean of the data, their standard error with square [e], and their number. *)
Definition table_line (str str_root : Qc -> string) (error : list Qc -> Qc -> Prop) (data : Z -> list Qc) (dt t : Qc) (line : string) : Prop :=
  exists n e, t = qz n * dt /\ error (data n) e /\
    line = (str t ++ String "009" (str (OtfsSpec.mean (data n)) ++ String "009" (str_root e ++ String "009" (str_of_Z (Z.of_nat (length (data n))) ++ String "009" eol))))%string.
