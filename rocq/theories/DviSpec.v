(** What is expected of interactions in device memory. *)
From Coq Require Import List ZArith Bool.
From Verif Require Import PotModel StarModel ResModel DviModel.
Import ListNotations.
Open Scope Z_scope.

(** There is room for [n] bytes at [p], beside what has been allocated. *)
Definition room (l : list (Z * Z)) (p n : Z) : Prop := 0 < p /\ forall q k, In (q, k) l -> p <> q /\ (p + n <= q \/ q + k <= p).
(** The runtime finds room for the three arrays. *)
Definition arrays_fit (l : list (Z * Z)) (w f m : Z) : Prop := room l w 48 /\ room ((w, 48) :: l) f 48 /\ room ((f, 48) :: (w, 48) :: l) m 8.
(** The addresses of new objects are not in use. *)
Definition objects_fit (l : list (Z * potential)) (new : nat -> Z) : Prop :=
  forall i, (i < 10)%nat -> new i <> 0 /\ ~ In (new i) (map fst l) /\ forall j, (j < i)%nat -> new j <> new i.
(** Memory holds a pointer to an object. *)
Definition finds (d : device) (cell : Z) (x : potential) : Prop := exists a, pointers d cell = Some a /\ a <> 0 /\ In (a, x) (objects d).
(** Bonds are between arm particles and others. *)
Definition bondable (t u : ptype) : Prop := t = TArm \/ u = TArm.
(** Where the pointers are: by pairs of types in the two arrays, and the magnetic one. *)
Definition pairs_of_types : list (ptype * ptype) := [(TCore, TCore); (TCore, TArm); (TArm, TArm); (TCore, TMagnetic); (TArm, TMagnetic); (TMagnetic, TMagnetic)].
Definition bonds_of_types : list (ptype * ptype) := [(TCore, TArm); (TArm, TArm); (TArm, TMagnetic)].
Definition slot (base : Z) (tu : ptype * ptype) : Z := base + 8 * getParticleTypeCombinationIndex (fst tu) (snd tu).
Definition slots (w f m : Z) : list Z := map (slot w) pairs_of_types ++ map (slot f) bonds_of_types ++ [m].
(** The arrays are allocated and hold pointers to different objects, [l]; in debug builds, they hold NULL if there is no bond. *)
Definition owns (debug : bool) (w f m : Z) (l : list Z) (d : device) : Prop :=
  (NoDup [w; f; m] /\ 0 < w /\ 0 < f /\ 0 < m) /\
  (In (w, 48) (live (memory d)) /\ In (f, 48) (live (memory d)) /\ In (m, 8) (live (memory d))) /\
  map (pointers d) (slots w f m) = map Some l /\ NoDup l /\ ~ In 0 l /\ (forall a, In a l -> In a (map fst (objects d))) /\
  (debug = true -> forall t u, ~ bondable t u -> pointers d (slot f (t, u)) = Some 0).
(** What remains if some addresses are taken away. *)
Definition without {A} (l : list Z) (from : list (Z * A)) : list (Z * A) := filter (fun o => negb (existsb (Z.eqb (fst o)) l)) from.
(** [cudaMalloc] finds room for buffers of [n] bytes, one after the other, up to a failure. *)
Fixpoint fits (n : Z) (answers : list (option Z)) (l : list (Z * Z)) : Prop :=
  match answers with
  | Some p :: answers => room l p n /\ fits n answers ((p, n) :: l)
  | _ => True
  end.
(** The buffers that there are. *)
Fixpoint obtained (n : Z) (answers : list (option Z)) (l : list (Z * Z)) : list (Z * Z) :=
  match answers with Some p :: answers => obtained n answers ((p, n) :: l) | _ => l end.
(** What [cudaMalloc] answers to the constructor of star polymers: for the four buffers first, then for the three arrays. *)
Definition four (answers : nat -> option Z) : list (option Z) := [answers 3%nat; answers 4%nat; answers 5%nat; answers 6%nat].
(** Numbers and their sizes are in range: the buffers have [size * n] bytes. *)
Definition sizes_ok (size n : Z) : Prop := 0 < size < 2 ^ 32 /\ 0 < n < 2 ^ 32.
(** Nothing has been left behind, and nothing else has been released. *)
Definition unchanged (d d' : device) : Prop :=
  live (memory d') = live (memory d) /\ objects d' = objects d /\ faults d' = faults d /\ invalid (memory d') = invalid (memory d).
(** A device without anything, and addresses for examples. *)
Definition empty_device : device := Device (Runtime [] [] 0) [] (fun _ => None) 0.
Definition addresses (i : nat) : Z := 5000 + 64 * Z.of_nat i.
Definition malloc (i : nat) : option Z := Some (1000 + 64 * Z.of_nat i).
