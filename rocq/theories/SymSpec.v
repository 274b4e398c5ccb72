(** What setting symbols on the device means. *)
From Coq Require Import List ZArith Reals.
From Verif Require Import SymModel.
Import ListNotations.
Open Scope Z_scope.

(** No error is pending and all copies succeed. *)
Definition healthy (d : device) : Prop := pending d = false /\ Forall (eq false) (failures d).
(** After a call, these integer symbols and real symbols have these values, and all others are as before. *)
Definition sets (c : call) (d : device) (is : list (int_symbol * Z)) (rs : list (real_symbol * R)) : Prop :=
  let (d', e) := c d in
  e = None /\ healthy d' /\
  (forall s v, In (s, v) is -> ints d' s = v) /\ (forall s, ~ In s (map fst is) -> ints d' s = ints d s) /\
  (forall s v, In (s, v) rs -> reals d' s = v) /\ (forall s, ~ In s (map fst rs) -> reals d' s = reals d s).
(** A call changes no symbol and throws. *)
Definition refuses (c : call) (d : device) (e : exception) : Prop :=
  snd (c d) = Some e /\ (forall s, ints (fst (c d)) s = ints d s) /\ (forall s, reals (fst (c d)) s = reals d s).
(** Sizes that an unsigned integer holds. *)
Definition unsigned (x : Z) : Prop := 0 <= x < 2 ^ 32.
(** A device without errors, on which all symbols are zero. *)
Definition fresh : device := Device (fun _ => 0) (fun _ => 0%R) false [].
