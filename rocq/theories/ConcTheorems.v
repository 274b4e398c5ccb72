(** Theorems about concurrent additions. *)
From Coq Require Import List ZArith Bool Reals Lra Lia.
From Verif Require Import VecBase VecModel PartSpec SimModel ConcModel ConcSpec ConcProof.
Import ListNotations.
Open Scope R_scope.

(** C48: whatever the interleaving of the threads, when all have finished, each address has
    received exactly the numbers that were to be added to it. *)
Theorem concurrent_additions : forall n m ls m' ts, steps n (m, map start ls) (m', ts) -> finished ts ->
  forall a, m' a = m a + added a (concat ls).
Proof. exact conc_sum. Qed.
Print Assumptions concurrent_additions.

(** C48: no interleaving runs forever or gets stuck: the number of steps is bounded, and as
    long as not all threads have finished there is a next step. *)
Theorem concurrent_termination : forall m ls,
  (exists bound, forall n s, steps n (m, map start ls) s -> (n <= bound)%nat) /\
  (forall n s, steps n (m, map start ls) s -> finished (snd s) \/ exists s', step s s') /\
  (exists n m' ts, steps n (m, map start ls) (m', ts) /\ finished ts).
Proof.
  intros m ls. split; [apply conc_bounded|]. split; [intros n s; apply conc_progress|].
  destruct (conc_completes 0 m ls _ (steps_none _)) as (k & [m' ts] & K & F). exists k, m', ts. split; assumption.
Qed.
Print Assumptions concurrent_termination.

(** C48: the momenta and masses of the cells are those of the sequential code. *)
Theorem concurrent_contributions : forall dv dm s PM n m m' ts,
  steps n (m, map start (map (contribution_thread dv dm (fst s)) (snd s))) (m', ts) -> finished ts ->
  holds_cells m PM -> holds_cells m' (contributions PM s).
Proof. exact conc_contributions. Qed.
Print Assumptions concurrent_contributions.

(** C48: so are the kinetic energies and particle counts. *)
Theorem concurrent_energies : forall d cf PM s EN n m m' ts,
  steps n (m, map start (map (step1_thread d PM (fst s)) (snd s))) (m', ts) -> finished ts ->
  holds_energies m EN -> holds_energies m' (snd (step1_list cf PM (fst s) (snd s) EN)).
Proof. exact conc_step1. Qed.
Print Assumptions concurrent_energies.

(** Two threads read the same value; one swaps first; the other has to try again. *)
Example concurrent_example : exists m', 
  steps 5 (fun _ => 0, map start [[Loop (Masses, 0%Z) 1]; [Loop (Masses, 0%Z) 2]]) (m', [start []; start []]) /\ m' (Masses, 0%Z) = 3.
Proof.
  eexists. split.
  - assert (K : forall n s m m' t t' l r s', thread_step m t m' t' -> s = (m, l ++ t :: r) -> steps n (m', l ++ t' :: r) s' -> steps (S n) s s').
    { intros n s m m' t t' l r s' H -> H1. eapply steps_more; [apply step_thread, H|exact H1]. }
    eapply (K _ _ _ _ _ _ [] [start [Loop (Masses, 0%Z) 2]]); [|reflexivity|]; [apply step_read|]. cbn [app].
    eapply (K _ _ _ _ _ _ [Thread [Loop (Masses, 0%Z) 1] (Some 0)] []); [|reflexivity|]; [apply step_read|]. cbn [app].
    eapply (K _ _ _ _ _ _ [Thread [Loop (Masses, 0%Z) 1] (Some 0)] []); [|reflexivity|]; [apply step_swapped; reflexivity|]. cbn [app].
    eapply (K _ _ _ _ _ _ [] [start []]); [|reflexivity|]; [apply step_again|]. { cbn. lra. } cbn [app].
    eapply (K _ _ _ _ _ _ [] [start []]); [|reflexivity|]; [apply step_swapped; reflexivity|]. apply steps_none.
  - cbn. lra.
Qed.
