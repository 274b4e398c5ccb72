(** Proofs about plots of analyses of star polymers. *)
From Coq Require Import String List Bool Arith Lia.
From Verif Require Import PyBase SgpModel SgpSpec.
Import ListNotations.
Open Scope list_scope.

Section P.
Variable N : Type.
Lemma combine_maps : forall (A B C : Type) (f : A -> B) (g : A -> C) l, combine (map f l) (map g l) = map (fun e => (f e, g e)) l.
Proof. induction l; cbn; congruence. Qed.
Lemma combine_self : forall (A B : Type) (l : list (A * B)), combine (map fst l) (map snd l) = l.
Proof. induction l as [|[a b] l IH]; cbn; congruence. Qed.
Lemma plot_line_ok : forall xs ys l, List.length xs = List.length ys -> plot_line N xs ys l = Ok (Line N xs ys l).
Proof. intros. unfold plot_line. rewrite H, Nat.eqb_refl. reflexivity. Qed.
(** The loop, when all components are there. *)
Lemma components_ok : forall (E : Type) (pick : value N -> nat -> result (value N)) (d f g h : E -> value N) l a0 a1 a2,
  (forall e, In e l -> pick (d e) 0 = Ok (f e) /\ pick (d e) 1 = Ok (g e) /\ pick (d e) 2 = Ok (h e)) ->
  components N pick (map d l) a0 a1 a2 = Ok (a0 ++ map f l, a1 ++ map g l, a2 ++ map h l).
Proof.
  induction l as [|e l IH]; intros a0 a1 a2 H; cbn.
  - now rewrite !app_nil_r.
  - destruct (H e (or_introl eq_refl)) as (-> & -> & ->). cbn. rewrite IH by (intros; apply H; now right).
    now rewrite <- !app_assoc.
Qed.
Lemma three_ok : forall (E : Type) (pick : value N -> nat -> result (value N)) (d : E -> N * value N) (f g h : E -> value N) l l0 l1 l2 t y,
  (forall e, In e l -> pick (snd (d e)) 0 = Ok (f e) /\ pick (snd (d e)) 1 = Ok (g e) /\ pick (snd (d e)) 2 = Ok (h e)) ->
  plot_three N pick l0 l1 l2 t y (map d l) =
  Ok (Plot N [Line N (map (fun e => fst (d e)) l) (map f l) l0; Line N (map (fun e => fst (d e)) l) (map g l) l1;
              Line N (map (fun e => fst (d e)) l) (map h l) l2] t "Simulation Time t" y).
Proof.
  intros E pick d f g h l l0 l1 l2 t y H. unfold plot_three. rewrite !map_map.
  rewrite (components_ok E pick (fun e => snd (d e)) f g h l [] [] [] H). cbn.
  rewrite !plot_line_ok by now rewrite !map_length. reflexivity.
Qed.
(** The loop, when a value is too short. *)
Lemma components_short : forall l a0 a1 a2,
  Forall (fun v => exists c, v = Lst c) l -> Exists (fun v => exists c, v = Lst c /\ List.length c < 3) l ->
  components N (item N) l a0 a1 a2 = Err IndexError.
Proof.
  induction l as [|v l IH]; intros a0 a1 a2 F X; [inversion X|].
  inversion F as [|? ? [c ->] F']; subst. cbn.
  destruct c as [|x [|y [|z c]]]; cbn; try reflexivity.
  apply IH; [exact F'|]. inversion X as [? ? (c' & E & L)|]; subst; [|assumption].
  inversion E; subst. cbn in L. lia.
Qed.
End P.

Lemma register_all_app : forall l1 l2 r, register_all r (l1 ++ l2) = (do r' <- register_all r l1; register_all r' l2).
Proof. induction l1 as [|c l1 IH]; intros; cbn; [reflexivity|]. destruct (register r c); cbn; [apply IH|reflexivity]. Qed.
Lemma existsb_names : forall r name, existsb (fun e : string * object => String.eqb (fst e) name) r = true <-> registered r name.
Proof.
  intros. unfold registered. rewrite existsb_exists, in_map_iff. split.
  - intros (e & I & E). exists e. apply String.eqb_eq in E. auto.
  - intros (e & E & I). exists e. split; [exact I|]. now apply String.eqb_eq.
Qed.
