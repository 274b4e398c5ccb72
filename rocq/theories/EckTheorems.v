(** Theorems about Eckart systems. *)
From Coq Require Import List Arith Bool Reals Lra Psatz.
From Verif Require Import PyBase VecBase VecModel VecSpec VecProof PartModel PartSpec PartProof EckModel EckSpec EckProof.
Import ListNotations.
Open Scope R_scope.

(** C76: for a rotated and shifted copy of the reference, the Eckart frame is the rotated
    coordinate frame, the equilibrium positions are the rotated reference positions
    relative to the centre, and the Eckart angular velocity of a body that moves and turns
    rigidly is its angular velocity; provided that the reference is spatial, and that the
    matrix functions of the library compute what they are named after. *)
Theorem eckart_rigid_body : forall inv_sqrt inv reference ref inst m f t,
  uniformMass reference = Some m -> uniformMass inst = Some m -> 0 < m ->
  positions reference <> [] ->
  eckart_new reference = Ok ref ->
  rigid f -> copy_of f t (pos_values reference) (pos_values inst) ->
  spatial (pos_values ref) ->
  (forall F, eckart_vectors ref inst = Ok F -> inverse_root (mapply (gram F)) (mapply (inv_sqrt (gram F)))) ->
  same_differences (pos_values reference) (pos_values ref) /\
  eckart_frame inv_sqrt ref inst = Ok (f ex, f ey, f ez) /\
  equilibrium inv_sqrt ref inst = Ok (map f (pos_values ref)) /\
  (forall u w, moving u w (pos_values inst) (vel_values inst) ->
   exists J, eckart_inertia inst (map f (pos_values ref)) = Ok J /\
     ((forall v, mapply (inv J) (mapply J v) = v) -> eckart_velocity inv_sqrt inv ref inst = Ok w)).
Proof. exact eckart_rigid. Qed.
Print Assumptions eckart_rigid_body.

(** C76: when constructing an Eckart system fails; in particular for a reference without
    velocities, although only its positions matter. *)
Theorem eckart_construction_fails : forall reference,
  (positions reference = [] -> eckart_new reference = Err RuntimeError) /\
  (positions reference <> [] -> uniformMass reference = None -> eckart_new reference = Err ValueError) /\
  (positions reference <> [] -> (exists m, uniformMass reference = Some m /\ 0 < m) -> velocities reference = [] ->
   eckart_new reference = Err ValueError).
Proof. exact eckart_new_fails. Qed.
Print Assumptions eckart_construction_fails.

Definition octahedron := [Vec 1 0 0; Vec (-1) 0 0; Vec 0 1 0; Vec 0 (-1) 0; Vec 0 0 1; Vec 0 0 (-1)].
Definition quarter (v : vec) := Vec (- vy v) (vx v) (vz v).
Definition turned := map (fun x => plus3 (Vec 5 6 7) (quarter x)) octahedron.
(** All hypotheses hold for an octahedron turned by ninety degrees. *)
Example eckart_example :
  let reference := Coll (fresh octahedron) (seq 0 6) (fresh octahedron) (seq 0 6) (Some 1) None in
  let inst := Coll (fresh turned) (seq 0 6) (fresh octahedron) (seq 0 6) (Some 1) None in
  rigid quarter /\ copy_of quarter (Vec 5 6 7) (pos_values reference) (pos_values inst) /\
  exists ref, eckart_new reference = Ok ref /\ spatial (pos_values ref) /\
  forall F, eckart_vectors ref inst = Ok F ->
    inverse_root (mapply (gram F)) (mapply ((fun _ => Mat (1/2) 0 0 0 (1/2) 0 0 0 (1/2)) (gram F))).
Proof.
  cbv zeta. set (reference := Coll _ _ _ _ _ _). set (inst := Coll (fresh turned) _ _ _ _ _).
  assert (V : pos_values reference = octahedron) by reflexivity.
  assert (R : rigid quarter).
  { repeat split; intros; unfold quarter; vring. }
  assert (C : copy_of quarter (Vec 5 6 7) (pos_values reference) (pos_values inst)) by reflexivity.
  split; [exact R|]. split; [exact C|].
  destruct (shift_spec reference 1 eq_refl Rlt_0_1 ltac:(cbn; congruence) ltac:(cbn; congruence)) as (ref & E & H & _ & P & _).
  assert (Mz : mean octahedron = zero3).
  { unfold mean, octahedron, times3, zero3; cbn. apply vec_ext; field. }
  assert (Pv : pos_values ref = octahedron).
  { rewrite P, V, Mz. unfold octahedron, minus3, zero3; cbn. repeat (apply f_equal2; [apply vec_ext; ring|]). reflexivity. }
  exists ref. split; [exact E|]. split.
  - rewrite Pv. intros [x y z] N. unfold octahedron, dot3; cbn.
    destruct (Req_dec x 0) as [->|]; [|nra]. destruct (Req_dec y 0) as [->|]; [|nra]. destruct (Req_dec z 0) as [->|]; [|nra].
    exfalso. apply N. reflexivity.
  - intros F EF.
    assert (GF : gram F = Mat 4 0 0 0 4 0 0 0 4).
    { revert EF. unfold eckart_vectors.
      assert (LL : length (positions ref) = 6%nat).
      { assert (L := f_equal (@length vec) Pv). unfold pos_values in L. rewrite map_length in L. exact L. }
      rewrite LL. cbn [positions inst length seq Nat.eqb].
      rewrite (eckart_loop_spec inst ref 1 eq_refl H) by (rewrite Pv; reflexivity).
      rewrite Pv. intros EF. injection EF as <-. unfold gram, F_sum, turned, octahedron, quarter, plus3, times3, pydot. cbn.
      apply mat_ext; ring. }
    rewrite GF. repeat split.
    + intros [x y z] [x' y' z']. unfold dot3, mapply; cbn. field.
    + intros [x y z] N. unfold dot3, mapply; cbn.
      destruct (Req_dec x 0) as [->|]; [|nra]. destruct (Req_dec y 0) as [->|]; [|nra]. destruct (Req_dec z 0) as [->|]; [|nra].
      exfalso. apply N. reflexivity.
    + intros [x y z]. unfold mapply; cbn. apply vec_ext; field.
Qed.

(** C77: for any instance, however deformed, the Eckart frame is orthonormal, the
    equilibrium positions fulfil the Eckart condition, and the Eckart angular velocity is
    the one of the frame in which the Eckart condition keeps being fulfilled. *)
Theorem eckart_conditions : forall inv_sqrt inv reference ref inst m,
  uniformMass reference = Some m -> uniformMass inst = Some m -> 0 < m ->
  positions reference <> [] -> length (positions inst) = length (positions reference) ->
  length (velocities inst) = length (positions inst) ->
  eckart_new reference = Ok ref ->
  (forall F, eckart_vectors ref inst = Ok F -> inverse_root (mapply (gram F)) (mapply (inv_sqrt (gram F)))) ->
  exists fr cs J w, eckart_frame inv_sqrt ref inst = Ok fr /\ orthonormal fr /\
    cs = map (fun a => let '(f0, f1, f2) := fr in plus3 (plus3 (times3 (vx a) f0) (times3 (vy a) f1)) (times3 (vz a) f2))
      (centered (pos_values reference)) /\
    equilibrium inv_sqrt ref inst = Ok cs /\ moment cs (centered (pos_values inst)) = zero3 /\
    eckart_inertia inst cs = Ok J /\ eckart_velocity inv_sqrt inv ref inst = Ok w /\
    ((forall v, mapply J (mapply (inv J) v) = v) -> moment cs (remaining w (pos_values inst) (vel_values inst)) = zero3).
Proof. exact eckart_general. Qed.
Print Assumptions eckart_conditions.
(** Instances with another mass, or another number of particles, are rejected. *)
Theorem eckart_mismatch : forall inv_sqrt inv ref inst m m',
  uniformMass ref = Some m -> uniformMass inst = Some m' ->
  length (positions inst) <> length (positions ref) \/ (m <> m' /\ positions inst <> []) ->
  eckart_vectors ref inst = Err ValueError /\ eckart_frame inv_sqrt ref inst = Err ValueError /\
  equilibrium inv_sqrt ref inst = Err ValueError /\ eckart_velocity inv_sqrt inv ref inst = Err ValueError.
Proof. exact eckart_rejects. Qed.
Print Assumptions eckart_mismatch.

(** All hypotheses hold for an octahedron that is stretched along the axes. *)
Example eckart_stretched_example :
  let stretch v := Vec (vx v) (2 * vy v) (3 * vz v) in
  let reference := Coll (fresh octahedron) (seq 0 6) (fresh octahedron) (seq 0 6) (Some 1) None in
  let inst := Coll (fresh (map stretch octahedron)) (seq 0 6) (fresh octahedron) (seq 0 6) (Some 1) None in
  exists ref, eckart_new reference = Ok ref /\
  forall F, eckart_vectors ref inst = Ok F ->
    inverse_root (mapply (gram F)) (mapply ((fun _ => Mat (1/2) 0 0 0 (1/4) 0 0 0 (1/6)) (gram F))).
Proof.
  cbv zeta. set (reference := Coll _ _ _ _ _ _). set (inst := Coll (fresh (map _ octahedron)) _ _ _ _ _).
  assert (V : pos_values reference = octahedron) by reflexivity.
  destruct (shift_spec reference 1 eq_refl Rlt_0_1 ltac:(cbn; congruence) ltac:(cbn; congruence)) as (ref & E & H & _ & P & _).
  assert (Mz : mean octahedron = zero3).
  { unfold mean, octahedron, times3, zero3; cbn. apply vec_ext; field. }
  assert (Pv : pos_values ref = octahedron).
  { rewrite P, V, Mz. unfold octahedron, minus3, zero3; cbn. repeat (apply f_equal2; [apply vec_ext; ring|]). reflexivity. }
  exists ref. split; [exact E|]. intros F EF.
  assert (GF : gram F = Mat 4 0 0 0 16 0 0 0 36).
  { revert EF. unfold eckart_vectors.
    assert (LL : length (positions ref) = 6%nat).
    { assert (L := f_equal (@length vec) Pv). unfold pos_values in L. rewrite map_length in L. exact L. }
    rewrite LL. cbn [positions inst length seq Nat.eqb].
    rewrite (eckart_loop_spec inst ref 1 eq_refl H) by (rewrite Pv; reflexivity).
    rewrite Pv. intros EF. injection EF as <-. unfold gram, F_sum, octahedron, plus3, times3, pydot. cbn.
    apply mat_ext; ring. }
  rewrite GF. repeat split.
  - intros [x y z] [x' y' z']. unfold dot3, mapply; cbn. field.
  - intros [x y z] N. unfold dot3, mapply; cbn.
    destruct (Req_dec x 0) as [->|]; [|nra]. destruct (Req_dec y 0) as [->|]; [|nra]. destruct (Req_dec z 0) as [->|]; [|nra].
    exfalso. apply N. reflexivity.
  - intros [x y z]. unfold mapply; cbn. apply vec_ext; field.
Qed.
