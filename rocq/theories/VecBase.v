(** Real and complex three-dimensional vectors, as data. *)
From Coq Require Export Reals Lra Psatz.
Open Scope R_scope.

Record vec := Vec { vx : R; vy : R; vz : R }.
(** Complex numbers, and vectors of them. *)
Record cplx := Cplx { re : R; im : R }.
Record cvec := CVec { cvx : cplx; cvy : cplx; cvz : cplx }.

Lemma vec_eta v : v = Vec (vx v) (vy v) (vz v).
Proof. destruct v. reflexivity. Qed.
Lemma vec_ext a b c x y z : a = x -> b = y -> c = z -> Vec a b c = Vec x y z.
Proof. intros -> -> ->. reflexivity. Qed.
Lemma vec_inj a b c x y z : Vec a b c = Vec x y z -> a = x /\ b = y /\ c = z.
Proof. intros H. injection H. auto. Qed.
Lemma vec_eq_dec (v w : vec) : {v = w} + {v <> w}.
Proof.
  destruct v as [a b c], w as [x y z].
  destruct (Req_EM_T a x) as [->|H]; [|right; intros E; apply vec_inj in E; tauto].
  destruct (Req_EM_T b y) as [->|H]; [|right; intros E; apply vec_inj in E; tauto].
  destruct (Req_EM_T c z) as [->|H]; [left; reflexivity|right; intros E; apply vec_inj in E; tauto].
Qed.
