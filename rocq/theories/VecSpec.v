(** What rotations, projections and directions are, independently of the code. *)
From Coq Require Import List Reals.
From Verif Require Import VecBase.
Open Scope R_scope.

Definition plus3 (a b : vec) := Vec (vx a + vx b) (vy a + vy b) (vz a + vz b).
Definition minus3 (a b : vec) := Vec (vx a - vx b) (vy a - vy b) (vz a - vz b).
Definition times3 (k : R) (a : vec) := Vec (k * vx a) (k * vy a) (k * vz a).
Definition zero3 := Vec 0 0 0.
(** The scalar product, and the determinant of three vectors: the signed volume they
    span, positive for right-handed triples. *)
Definition dot3 (a b : vec) := vx a * vx b + vy a * vy b + vz a * vz b.
Definition det3 (a b c : vec) :=
  vx a * vy b * vz c + vy a * vz b * vx c + vz a * vx b * vy c
  - vz a * vy b * vx c - vx a * vz b * vy c - vy a * vx b * vz c.
(** [c] is the vector product of [a] and [b]: the vector that represents the volume
    spanned with them. *)
Definition vector_product (a b c : vec) := forall v, dot3 c v = det3 a b v.
Definition unit3 (a : vec) := dot3 a a = 1.

Definition linear3 (f : vec -> vec) :=
  (forall a b, f (plus3 a b) = plus3 (f a) (f b)) /\ (forall k a, f (times3 k a) = times3 k (f a)).
(** A linear map that keeps scalar products and orientation. *)
Definition rigid (f : vec -> vec) :=
  linear3 f /\ (forall a b, dot3 (f a) (f b) = dot3 a b)
  /\ (forall a b c, det3 (f a) (f b) (f c) = det3 a b c).
(** The counter-clockwise rotation about the unit vector [n] by an angle with the given
    cosine and sine: linear, the axis stays, and any vector perpendicular to the axis
    stays so, and has that angle with its image, counted counter-clockwise as seen from
    the tip of the axis. *)
Definition rotation_about (n : vec) (c s : R) (f : vec -> vec) :=
  linear3 f /\ f n = n /\
  forall v, dot3 v n = 0 ->
    dot3 (f v) n = 0 /\ dot3 v (f v) = c * dot3 v v /\ det3 n v (f v) = s * dot3 v v.

(** [p] and [q] split [v] into a part along [u] and a part perpendicular to it. *)
Definition splits (v u p q : vec) :=
  v = plus3 p q /\ (exists k, p = times3 k u) /\ dot3 q u = 0.

(** The direction with height [z] above the equator and azimuth [phi]. *)
Definition direction (z phi : R) := Vec (sqrt (1 - z * z) * cos phi) (sqrt (1 - z * z) * sin phi) z.

(** The dictionary order. *)
Definition lex3 (a b : vec) :=
  vx a < vx b \/ (vx a = vx b /\ (vy a < vy b \/ (vy a = vy b /\ vz a < vz b))).

(** A real vector as a complex one; the real and imaginary parts of a complex vector,
    and its squared length. *)
Definition real_cvec (n : vec) : cvec := CVec (Cplx (vx n) 0) (Cplx (vy n) 0) (Cplx (vz n) 0).
Definition cre (v : cvec) : vec := Vec (re (cvx v)) (re (cvy v)) (re (cvz v)).
Definition cim (v : cvec) : vec := Vec (im (cvx v)) (im (cvy v)) (im (cvz v)).
Definition clength2 (v : cvec) : R := dot3 (cre v) (cre v) + dot3 (cim v) (cim v).
(** The imaginary unit times the first unit vector. *)
Definition i_axis : cvec := CVec (Cplx 0 1) (Cplx 0 0) (Cplx 0 0).
