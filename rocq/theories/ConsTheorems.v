(** Settings that are the same in several runs. *)
From Coq Require Import String List ZArith.
From Verif Require Import QcBase PyBase StrBase ConfModel ConsModel ConsSpec.
Import ListNotations.
Open Scope string_scope.
Open Scope list_scope.

Section Runs.
Variables (load : string -> result (heap * nat)) (key : string).
Notation has := (has load key).
Notation lacks := (lacks load key).
Lemma loop_ok x dirs : Forall (fun d => exists v, has d v /\ equal_to x v) dirs -> consistent_loop load dirs key (Some (Leaf x)) = Ok (Some (Leaf x)).
Proof.
  induction 1 as [|d r (v & (H & l & L & G) & (y & -> & E)) F IH]; [reflexivity|].
  cbn [consistent_loop]. rewrite L. cbn [bind]. unfold getConfigValueAndCheckConstistency. cbn [fst snd]. rewrite G. cbn [bind values_differ]. rewrite E. exact IH.
Qed.
(** A run that lacks the setting, or has another value, or a group or list. *)
Definition disagrees (x : val) (d : string) : Prop := lacks d \/ exists v, has d v /\ values_differ x v = true.
Lemma loop_err x dirs d more : Forall (fun d => exists v, has d v /\ values_differ x v = false) dirs -> disagrees x d ->
  consistent_loop load (dirs ++ d :: more) key (Some x) = Err KeyError \/ consistent_loop load (dirs ++ d :: more) key (Some x) = Err ValueError.
Proof.
  intros F D. induction F as [|d' r (v & (H & l & L & G) & E) F IH].
  - cbn [app consistent_loop]. destruct D as [(H & l & L & G)|(v & (H & l & L & G) & E)]; rewrite L; cbn [bind]; unfold getConfigValueAndCheckConstistency; cbn [fst snd]; rewrite G; cbn [bind]; [auto|].
    rewrite E. cbn [bind]. auto.
  - cbn [app consistent_loop]. rewrite L. cbn [bind]. unfold getConfigValueAndCheckConstistency. cbn [fst snd]. rewrite G. cbn [bind]. rewrite E. exact IH.
Qed.
(** C88: with a scalar setting that all runs agree on, the value of the first run is returned, and [None] without runs;
    a run that disagrees, or lacks the setting, gives a [ValueError]. *)
Theorem consistent_value :
  getConsistentConfigValue load [] key = Ok None
  /\ (forall d r x, has d (Leaf x) -> Forall (fun d => exists v, has d v /\ equal_to x v) r -> getConsistentConfigValue load (d :: r) key = Ok (Some (Leaf x)))
  /\ (forall d r, lacks d -> getConsistentConfigValue load (d :: r) key = Err ValueError)
  /\ (forall d r x d' r', has d (Leaf x) -> Forall (fun d => exists v, has d v /\ equal_to x v) r ->
      (lacks d' \/ exists y, has d' (Leaf y) /\ leaf_eqb x y = false) -> getConsistentConfigValue load (d :: r ++ d' :: r') key = Err ValueError)
  /\ (forall d r e, load (d ++ "/config.txt")%string = Err e -> e <> KeyError -> getConsistentConfigValue load (d :: r) key = Err e).
Proof.
  unfold getConsistentConfigValue. split; [reflexivity|]. split; [|split; [|split]].
  - intros d r x (H & l & L & G) F. cbn [consistent_loop]. rewrite L. cbn [bind]. unfold getConfigValueAndCheckConstistency at 1. cbn [fst snd]. rewrite G. cbn [bind]. rewrite loop_ok by exact F. reflexivity.
  - intros d r (H & l & L & G). cbn [consistent_loop]. rewrite L. cbn [bind]. unfold getConfigValueAndCheckConstistency. cbn [fst snd]. rewrite G. reflexivity.
  - intros d r x d' r' (H & l & L & G) F D. cbn [consistent_loop]. rewrite L. cbn [bind]. unfold getConfigValueAndCheckConstistency at 1. cbn [fst snd]. rewrite G. cbn [bind].
    destruct (loop_err (Leaf x) r d' r') as [-> | ->]; try reflexivity.
    + revert F. apply Forall_impl. intros a (v & A & y & -> & E). exists (Leaf y). split; [exact A|]. cbn. rewrite E. reflexivity.
    + destruct D as [D|(y & A & E)]; [left; exact D|]. right. exists (Leaf y). split; [exact A|]. cbn. rewrite E. reflexivity.
  - intros d r e L N. cbn [consistent_loop]. rewrite L. cbn [bind]. destruct e; congruence || reflexivity.
Qed.
(** C88, refuted: for groups and lists, even the same ones are taken to be different. *)
Theorem consistent_group_refuted : forall d d' r m m', has d (Ref m) -> has d' (Ref m') -> getConsistentConfigValue load (d :: d' :: r) key = Err ValueError.
Proof.
  intros d d' r m m' (H & l & L & G) A. unfold getConsistentConfigValue. cbn [consistent_loop]. rewrite L. cbn [bind]. unfold getConfigValueAndCheckConstistency at 1. cbn [fst snd]. rewrite G. cbn [bind].
  destruct (loop_err (Ref m) [] d' r) as [E|E]; [constructor|right; exists (Ref m'); split; [exact A|reflexivity]|..]; cbn [app consistent_loop] in E; rewrite E; reflexivity.
Qed.
End Runs.
Print Assumptions consistent_value.
Print Assumptions consistent_group_refuted.

(** Three runs: a number that is written differently, a group, and a setting that one of them lacks. *)
Definition example_load (p : string) : result (heap * nat) :=
  if String.eqb p "r1/config.txt" then Ok ([NGroup true [("a", Leaf (LInt 1)); ("g", Ref 1)]; NGroup false [("b", Leaf (LInt 2))]], 0%nat)
  else if String.eqb p "r2/config.txt" then Ok ([NGroup true [("a", Leaf (LFloat 1%Qc)); ("g", Ref 1); ("c", Leaf (LStr "x"))]; NGroup false [("b", Leaf (LInt 2))]], 0%nat)
  else Err OSError.
Example consistent_ex : getConsistentConfigValue example_load ["r1"; "r2"] "a" = Ok (Some (Leaf (LInt 1)))
  /\ getConsistentConfigValue example_load ["r1"; "r2"] "g.b" = Ok (Some (Leaf (LInt 2)))
  /\ getConsistentConfigValue example_load ["r1"; "r2"] "c" = Err ValueError
  /\ getConsistentConfigValue example_load ["r1"; "r2"] "g" = Err ValueError
  /\ getConsistentConfigValue example_load ["r1"; "r3"] "a" = Err OSError.
Proof. vm_compute. auto. Qed.
