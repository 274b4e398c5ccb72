From Coq Require Import List ZArith Bool Lia.
From Verif Require Import ResModel ResSpec.
Import ListNotations.

Definition others (hs : handles) : Prop := Forall (fun h => snd h = false) hs.
Lemma others_handle hs id own : others hs -> handle hs id = Some own -> own = false.
Proof.
  unfold handle. intros H E. destruct (find _ hs) as [[i b]|] eqn:F; [|discriminate]. injection E as <-.
  apply find_some in F. unfold others in H. rewrite Forall_forall in H. now apply (H (i, b)).
Qed.
Lemma others_filter f hs : others hs -> others (filter f hs).
Proof. unfold others. rewrite !Forall_forall. intros H h Hh. apply filter_In in Hh. now apply H. Qed.

(** MPI is in use by others: nothing happens to it. *)
Lemma mpi_foreign cs : forall hs s, others hs -> initialized s = true -> finalized s = false ->
  exists hs', mpi_all cs hs s = Some (hs', s) /\ others hs'.
Proof.
  induction cs as [|c cs IH]; intros hs s H Ei Ef; cbn [mpi_all].
  - eauto.
  - assert (Same : mpi_use s = s) by (destruct s; cbn in *; subst; reflexivity).
    destruct c as [id t|id f|id|id]; cbn [mpi_perform].
    + unfold MPI_new. rewrite Ei. apply IH; auto. constructor; auto.
    + destruct (handle hs f) as [own|] eqn:E; [|now apply IH]. apply IH; auto. constructor; [|exact H]. now apply (others_handle hs f).
    + destruct (handle hs id); [rewrite Same|]; now apply IH.
    + destruct (handle hs id) as [own|] eqn:E; [|now apply IH]. rewrite (others_handle hs id own H E). unfold MPI_delete. rewrite Ef.
      apply IH; auto. now apply others_filter.
Qed.
(** After finalization. *)
Lemma mpi_after cs : forall hs s, plain_calls cs -> others hs -> initialized s = true -> finalized s = true ->
  exists hs' s', mpi_all cs hs s = Some (hs', s') /\ inits s' = inits s /\ finals s' = finals s /\ (unused cs -> s' = s).
Proof.
  induction cs as [|c cs IH]; intros hs s Pl H Ei Ef; cbn [mpi_all].
  - exists hs, s. auto.
  - inversion Pl; subst. destruct c as [id t|id f|id|id]; cbn [mpi_perform].
    + unfold MPI_new. rewrite Ei. destruct (IH ((id, false) :: hs) s) as (hs' & s' & A & B & C & D); auto; [constructor; auto|].
      exists hs', s'. repeat (split; [assumption|]). intros U. inversion U; auto.
    + contradiction.
    + destruct (handle hs id).
      * destruct (IH hs (mpi_use s)) as (hs' & s' & A & B & C & D); auto. exists hs', s'. repeat (split; [assumption|]). intros U. inversion U. contradiction.
      * destruct (IH hs s) as (hs' & s' & A & B & C & D); auto. exists hs', s'. repeat (split; [assumption|]). intros U. inversion U. contradiction.
    + destruct (handle hs id) as [own|] eqn:E.
      * rewrite (others_handle hs id own H E). unfold MPI_delete. rewrite Ef.
        destruct (IH (filter (fun h => negb (Nat.eqb (fst h) id)) hs) s) as (hs' & s' & A & B & C & D); auto; [now apply others_filter|].
        exists hs', s'. repeat (split; [assumption|]). intros U. inversion U; auto.
      * destruct (IH hs s) as (hs' & s' & A & B & C & D); auto. exists hs', s'. repeat (split; [assumption|]). intros U. inversion U; auto.
Qed.
(** While the first object exists. *)
Definition owned (id : nat) (hs : handles) : Prop :=
  (forall h, In h hs -> fst h = id -> snd h = true) /\ (forall h, In h hs -> fst h <> id -> snd h = false) /\ In (id, true) hs.
Lemma owned_handle id hs i own : owned id hs -> handle hs i = Some own -> own = Nat.eqb i id.
Proof.
  unfold handle. intros (A & B & _) E. destruct (find _ hs) as [[j b]|] eqn:F; [|discriminate]. injection E as <-.
  apply find_some in F. cbn in F. destruct F as [F1 F2]. apply Nat.eqb_eq in F2. subst. destruct (Nat.eqb_spec i id).
  - now apply (A (i, b)).
  - now apply (B (i, b)).
Qed.
Lemma owned_has id hs : owned id hs -> exists own, handle hs id = Some own.
Proof.
  intros (_ & _ & C). unfold handle. destruct (find (fun h => Nat.eqb (fst h) id) hs) eqn:F; [cbn; eauto|].
  pose proof (find_none _ _ F _ C) as E. cbn in E. rewrite Nat.eqb_refl in E. discriminate.
Qed.
Lemma mpi_during id cs : forall hs used s, plain_calls cs -> fresh_ids cs used -> In id used -> owned id hs -> initialized s = true -> finalized s = false ->
  exists hs' s', mpi_all cs hs s = Some (hs', s') /\ inits s' = inits s /\
  finals s' = (finals s + (if existsb (fun c => match c with Delete id' => Nat.eqb id id' | _ => false end) cs then 1 else 0))%nat /\
  (unused cs -> forbidden s' = forbidden s).
Proof.
  induction cs as [|c cs IH]; intros hs used s Pl Fr Hu Ow Ei Ef; cbn [mpi_all existsb].
  - exists hs, s. rewrite Nat.add_0_r. auto.
  - assert (Same : mpi_use s = s) by (destruct s; cbn in *; subst; reflexivity). inversion Pl; subst.
    destruct c as [i t|i f|i|i]; cbn [mpi_perform orb].
    + unfold MPI_new. rewrite Ei. cbn in Fr. destruct Fr as [Fr1 Fr2].
      assert (N : i <> id) by (intros ->; contradiction). destruct Ow as (A & B & C).
      destruct (IH ((i, false) :: hs) (i :: used) s) as (hs' & s' & E); auto.
      * now right.
      * split; [|split]; [| |now right].
        -- intros h [<-|Hh] E; [cbn in E; congruence|auto].
        -- intros h [<-|Hh] E; [reflexivity|auto].
      * exists hs', s'. destruct E as (E1 & E2 & E3 & E4). repeat (split; [assumption|]). intros U. inversion U; auto.
    + contradiction.
    + assert (E : match handle hs i with Some _ => Some (hs, mpi_use s) | None => Some (hs, s) end = Some (hs, s)) by (rewrite Same; now destruct (handle hs i)).
      rewrite E. destruct (IH hs used s) as (hs' & s' & E1 & E2 & E3 & E4); auto. exists hs', s'. repeat (split; [assumption|]). intros U. inversion U; contradiction.
    + cbn in Fr. destruct (Nat.eqb_spec id i) as [<-|N]; cbn [orb].
      * destruct (owned_has id hs Ow) as [own E]. rewrite E. rewrite (owned_handle id hs id own Ow E), Nat.eqb_refl. unfold MPI_delete. rewrite Ef.
        destruct (mpi_after cs (filter (fun h => negb (Nat.eqb (fst h) id)) hs) (mpi_finalize s)) as (hs' & s' & E1 & E2 & E3 & E4); auto.
        -- unfold others. apply Forall_forall. intros h Hh. apply filter_In in Hh. destruct Hh as [Hh Nh]. destruct Ow as (_ & B & _). apply B; [exact Hh|].
           intros Eh. rewrite Eh, Nat.eqb_refl in Nh. discriminate.
        -- exists hs', s'. split; [exact E1|]. split; [exact E2|]. split; [rewrite E3; cbn; lia|]. intros U. inversion U; subst. rewrite E4 by assumption.
           cbn. now rewrite Ei, Ef.
      * destruct (handle hs i) as [own|] eqn:E.
        -- rewrite (owned_handle id hs i own Ow E). destruct (Nat.eqb_spec i id); [congruence|]. unfold MPI_delete. rewrite Ef.
           destruct (IH (filter (fun h => negb (Nat.eqb (fst h) i)) hs) used s) as (hs' & s' & E1 & E2 & E3 & E4); auto.
           ++ destruct Ow as (A & B & C). split; [|split].
              ** intros h Hh. apply filter_In in Hh. now apply A.
              ** intros h Hh. apply filter_In in Hh. now apply B.
              ** apply filter_In. split; [exact C|]. cbn. destruct (Nat.eqb_spec id i); [congruence|reflexivity].
           ++ exists hs', s'. repeat (split; [assumption|]). intros U. inversion U; auto.
        -- destruct (IH hs used s) as (hs' & s' & E1 & E2 & E3 & E4); auto. exists hs', s'. repeat (split; [assumption|]). intros U. inversion U; auto.
Qed.
Lemma mpi_before cs : forall used, plain_calls cs -> fresh_ids cs used ->
  exists hs s, mpi_all cs [] untouched = Some (hs, s) /\ inits s = (if created cs then 1 else 0)%nat /\
  finals s = (if first_destroyed cs then 1 else 0)%nat /\ (unused cs -> forbidden s = 0%nat).
Proof.
  induction cs as [|c cs IH]; intros used Pl Fr.
  - exists [], untouched. auto.
  - inversion Pl; subst. destruct c as [i t|i f|i|i]; cbn [mpi_all mpi_perform handle find option_map created first_destroyed].
    + cbn in H1. subst t. cbn in Fr. destruct Fr as [Fr1 Fr2]. cbn [MPI_new untouched initialized].
      destruct (mpi_during i cs [(i, true)] (i :: used) (mpi_init untouched)) as (hs & s & E1 & E2 & E3 & E4); auto; [now left| |].
      * split; [|split]; [| |now left]; intros h [<-|[]]; cbn; congruence.
      * exists hs, s. split; [exact E1|]. split; [exact E2|]. split; [rewrite E3; reflexivity|]. intros U. inversion U; subst. now rewrite E4.
    + contradiction.
    + destruct (IH used) as (hs & s & E1 & E2 & E3 & E4); auto. exists hs, s. repeat (split; [assumption|]). intros U. inversion U; contradiction.
    + destruct (IH used) as (hs & s & E1 & E2 & E3 & E4); auto. exists hs, s. repeat (split; [assumption|]). intros U. inversion U; auto.
Qed.
