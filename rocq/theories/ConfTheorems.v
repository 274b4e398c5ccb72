(** The properties C11-C14 and C71: configurations. *)
From Coq Require Import List ZArith String Ascii Bool Lia Qcanon Permutation.
From Verif Require Import QcBase PyBase DictBase StrBase ConfModel ConfSpec ConfProof ConfTreeProof ConfCanonProof.
Import ListNotations.
Close Scope Qc_scope.
Open Scope string_scope.
Open Scope nat_scope.

(** * C11: reading what was written *)

(** After a successful assignment to a plain name, reading the name returns the value,
    the name is contained, and every name that is neither above nor below it reads as
    before.  The invariant that no object is reachable along two ways is kept, if the
    value does not share objects with the configuration (a scalar never does). *)
Theorem conf_set_read H l key v H' : good H l -> plain key -> setitem H l key v = (H', Ok tt) ->
  getitem H' l key = Ok v /\ contains H' l key = Ok true /\
  (forall key2, ~ extends key key2 -> ~ extends key2 key ->
     getitem H' l key2 = getitem H l key2 /\ contains H' l key2 = contains H l key2) /\
  (separate H l v -> good H' l).
Proof. exact (setitem_correct H l key v H'). Qed.
Print Assumptions conf_set_read.

(** An assignment to a plain name succeeds exactly if every setting above that name
    that exists is a group. *)
Theorem conf_set_succeeds H l key v : good H l -> plain key ->
  (exists H', setitem H l key v = (H', Ok tt)) <->
  (forall key2 w, extends key2 key -> key2 <> key -> getitem H l key2 = Ok w ->
     exists i, w = Ref i /\ is_group H i).
Proof. exact (setitem_ok H l key v). Qed.
Print Assumptions conf_set_succeeds.

(** Deleting removes exactly the name and what is below it. *)
Theorem conf_delete H l key H' : good H l -> plain key -> delitem H l key = (H', Ok tt) ->
  contains H' l key = Ok false /\ getitem H' l key = Err KeyError /\
  (forall key2, ~ extends key key2 ->
     getitem H' l key2 = getitem H l key2 /\ contains H' l key2 = contains H l key2) /\
  good H' l.
Proof. exact (delitem_correct H l key H'). Qed.
Print Assumptions conf_delete.

(** On a complete configuration, deleting never fails. *)
Theorem conf_delete_succeeds H l key d : good H l -> node_at H l = NGroup true d -> plain key ->
  exists H', delitem H l key = (H', Ok tt).
Proof. exact (delitem_ok H l key d). Qed.
Print Assumptions conf_delete_succeeds.

Definition conf0 : heap := [NGroup true []].
Definition run2 (k1 : string) (v1 : val) (k2 : string) (v2 : val) : heap :=
  fst (setitem (fst (setitem conf0 0 k1 v1)) 0 k2 v2).
Definition val_is (r : result val) (z : Z) : bool :=
  match r with Ok (Leaf (LInt y)) => Z.eqb y z | _ => false end.
Definition err_is_key {A} (r : result A) : bool := match r with Err KeyError => true | _ => false end.

Example conf_set_read_example :
  let H := run2 "a.b.c" (Leaf (LInt 1)) "a.b.d" (Leaf (LInt 2)) in
  let H2 := fst (delitem H 0 "a.b.c") in
  val_is (getitem H 0 "a.b.c") 1 && val_is (getitem H 0 "a.b.d") 2 &&
  err_is_key (getitem H2 0 "a.b.c") && val_is (getitem H2 0 "a.b.d") 2 &&
  match snd (setitem H 0 "a.b.c.e" (Leaf (LInt 3))) with Err _ => true | Ok _ => false end = true.
Proof. vm_compute. reflexivity. Qed.
Example conf_good_example : good (run2 "a.b.c" (Leaf (LInt 1)) "a.b.d" (Leaf (LInt 2))) 0.
Proof.
  assert (P1 : plain "a.b.c") by plain_tac. assert (P2 : plain "a.b.d") by plain_tac.
  assert (G1 : good (fst (setitem conf0 0 "a.b.c" (Leaf (LInt 1)))) 0).
  { eapply conf_set_read; [exact empty_good|exact P1|reflexivity|apply separate_leaf]. }
  eapply conf_set_read; [exact G1|exact P2|reflexivity|apply separate_leaf].
Qed.

(** Without that invariant the claim is false: assigning a sub-configuration of the
    same configuration stores the very same object, and later assignments below one
    name show below the other. *)
Theorem conf_alias_refuted :
  ~ (forall H l k1 r k2 H1 k3 x H2 key, good H l -> plain k2 -> plain k3 ->
       getitem H l k1 = Ok r -> setitem H l k2 r = (H1, Ok tt) ->
       setitem H1 l k3 (Leaf x) = (H2, Ok tt) ->
       ~ extends k3 key -> ~ extends key k3 -> getitem H2 l key = getitem H1 l key).
Proof.
  intros A.
  assert (P0 : plain "a.x") by plain_tac. assert (P1 : plain "b") by plain_tac. assert (P2 : plain "b.x") by plain_tac.
  assert (G : good (fst (setitem conf0 0 "a.x" (Leaf (LInt 1)))) 0).
  { eapply conf_set_read; [exact empty_good|exact P0|reflexivity|apply separate_leaf]. }
  specialize (A _ 0 "a" (Ref 1) "b" _ "b.x" (LInt 2) _ "a.x" G P1 P2 eq_refl eq_refl eq_refl).
  assert (X : getitem (fst (setitem (fst (setitem (fst (setitem conf0 0 "a.x" (Leaf (LInt 1)))) 0 "b" (Ref 1))) 0 "b.x" (Leaf (LInt 2)))) 0 "a.x"
     = getitem (fst (setitem (fst (setitem conf0 0 "a.x" (Leaf (LInt 1)))) 0 "b" (Ref 1))) 0 "a.x").
  { apply A; intros [E|(r & E)]; try discriminate E; cbn in E; discriminate E. }
  vm_compute in X. discriminate X.
Qed.
Print Assumptions conf_alias_refuted.

(** * C12: containment and lookup *)

(** On a complete configuration, a name is contained exactly if looking it up
    succeeds, and it is not contained exactly if looking it up raises KeyError. *)
Theorem conf_contains_config H l key d : node_at H l = NGroup true d ->
  (contains H l key = Ok true <-> exists w, getitem H l key = Ok w) /\
  (contains H l key = Ok false <-> getitem H l key = Err KeyError).
Proof. exact (contains_config H l key d). Qed.
Print Assumptions conf_contains_config.

(** The same holds for groups taken out of a configuration, as long as there are no
    lists or arrays. *)
Theorem conf_contains_groups H l key : no_lists H -> closed H -> l < length H ->
  (contains H l key = Ok true <-> exists w, getitem H l key = Ok w) /\
  (contains H l key = Ok false <-> getitem H l key = Err KeyError).
Proof. exact (contains_no_lists H l key). Qed.
Print Assumptions conf_contains_groups.

(** The configuration g = { l = (7, { y = 8; }); }: with lists, the containment test
    of the group g raises although the lookup succeeds; and the containment test of the list
    reports names as contained whose lookup fails. *)
Definition conf_list : heap :=
  [NGroup true [("g", Ref 1)]; NGroup false [("l", Ref 2)]; NList [Leaf (LInt 7); Ref 3];
   NGroup false [("y", Leaf (LInt 8))]].
Theorem conf_contains_list_refuted :
  ~ (forall H l key, closed H -> l < length H ->
       (contains H l key = Ok true <-> exists w, getitem H l key = Ok w)) /\
  contains conf_list 1 "l.[0]" = Err AttributeError /\ getitem conf_list 1 "l.[0]" = Ok (Leaf (LInt 7)) /\
  contains conf_list 2 "[1].z" = Ok true /\ getitem conf_list 2 "[1].z" = Err KeyError.
Proof.
  assert (R1 : contains conf_list 1 "l.[0]" = Err AttributeError) by (vm_compute; reflexivity).
  assert (R2 : getitem conf_list 1 "l.[0]" = Ok (Leaf (LInt 7))) by (vm_compute; reflexivity).
  split; [|split; [exact R1|split; [exact R2|split; vm_compute; reflexivity]]].
  intros A. destruct (A conf_list 1 "l.[0]") as (_ & B).
  - intros l m L. cbn in L. destruct l as [|[|[|[|l]]]]; cbn; try lia;
      intros HI; repeat (destruct HI as [HI|HI]; [try discriminate HI; injection HI as <-; lia|]); destruct HI.
  - cbn. lia.
  - rewrite R1 in B. specialize (B (ex_intro _ _ R2)). discriminate B.
Qed.
Print Assumptions conf_contains_list_refuted.
Example conf_contains_example :
  contains conf_list 0 "g.l.[1].y" = Ok true /\ contains conf_list 0 "g.l.[2].y" = Ok false /\
  contains conf_list 3 "y" = Ok true /\ contains conf_list 3 "z" = Ok false.
Proof. vm_compute. repeat split. Qed.

(** * C13: equivalence *)

(** [isEquivalent] decides whether two configurations have the same settings. *)
Theorem conf_equiv_spec ts a b : proper a -> proper b ->
  (equiv ts false a b = true <-> same_settings (translate ts) false a b).
Proof. exact (equiv_spec ts a false b). Qed.
Print Assumptions conf_equiv_spec.

Theorem conf_equiv_refl ts a : proper a -> equiv ts false a a = true.
Proof. intros P. apply conf_equiv_spec; auto. apply same_refl. Qed.
Print Assumptions conf_equiv_refl.
Theorem conf_equiv_sym ts a b : proper a -> proper b -> equiv ts false a b = equiv ts false b a.
Proof.
  intros Pa Pb. apply eq_true_iff_eq. rewrite !conf_equiv_spec by assumption.
  split; apply same_sym; assumption.
Qed.
Print Assumptions conf_equiv_sym.
Theorem conf_equiv_trans ts a b c : proper a -> proper b -> proper c ->
  equiv ts false a b = true -> equiv ts false b c = true -> equiv ts false a c = true.
Proof.
  intros Pa Pb Pc. rewrite !conf_equiv_spec by assumption. apply same_trans. assumption.
Qed.
Print Assumptions conf_equiv_trans.
(** The order in which the settings of a group were defined is irrelevant. *)
Theorem conf_equiv_order ts d d' b : proper (CGroup d) -> proper (CGroup d') -> proper b -> Permutation d d' ->
  equiv ts false (CGroup d) b = equiv ts false (CGroup d') b.
Proof.
  intros Pd Pd' Pb P. apply eq_true_iff_eq. rewrite !conf_equiv_spec by assumption.
  assert (N : NoDup (map fst d)) by (inversion Pd; assumption).
  assert (S := same_perm (translate ts) false d d' N P).
  split; intros Q.
  - eapply same_trans; [exact Pd| |exact Q]. apply same_sym; assumption.
  - eapply same_trans; [exact Pd'|exact S|exact Q].
Qed.
Print Assumptions conf_equiv_order.

Definition tree1 : conf :=
  CGroup [("s", CLeaf (LStr "/home/u/x")); ("g", CGroup [("n", CLeaf (LInt 1)); ("l", CList [CLeaf (LInt 2); CLeaf (LBool true)])]);
          ("e", CGroup [])].
Definition tree2 : conf :=
  CGroup [("g", CGroup [("l", CArr [CLeaf (LInt 2); CLeaf (LBool true)]); ("n", CLeaf (LFloat 1%Qc))]);
          ("e", CGroup []); ("s", CLeaf (LStr "/data/u/x"))].
Definition tr (s : string) : string :=
  if String.eqb (String.substring 0 6 s) "/home/" then "/data/" ++ String.substring 6 (String.length s) s else s.
Example conf_equiv_example :
  equiv [tr] false tree1 tree2 && equiv [tr] false tree2 tree1 && negb (equiv [] false tree1 tree2) = true.
Proof. vm_compute. reflexivity. Qed.
Example conf_proper_example : proper tree1.
Proof.
  assert (L : forall x, proper (CLeaf x)) by constructor.
  unfold tree1. constructor.
  - repeat constructor; cbn; intuition discriminate.
  - intros k v HI. cbn in HI. destruct HI as [E|[E|[E|[]]]]; injection E as <- <-; (split; [reflexivity|]); try apply L.
    + constructor.
      * repeat constructor; cbn; intuition discriminate.
      * intros k v HI. cbn in HI. destruct HI as [E|[E|[]]]; injection E as <- <-; (split; [reflexivity|]); try apply L.
        constructor. intros v HI. cbn in HI. destruct HI as [<-|[<-|[]]]; apply L.
    + constructor; [constructor|intros k v []].
Qed.

(** * C14: differences *)

(** The flat view has exactly the paths to scalars and to empty groups and lists. *)
Theorem conf_flat_view c : proper c -> forall key y, sget (flat c) key = Some y <->
  exists w, at_path c (split dot key) w /\ recorded w y.
Proof. exact (flat_get c). Qed.
Print Assumptions conf_flat_view.

(** The difference records exactly the names on which the flat views do not agree, with
    what is found on either side. *)
Theorem conf_differences a b key :
  (agree (sget (flat a) key) (sget (flat b) key) -> sget (diffs a b) key = None) /\
  (~ agree (sget (flat a) key) (sget (flat b) key) ->
   sget (diffs a b) key = Some (sget (flat a) key, sget (flat b) key)).
Proof. exact (diffs_get a b key). Qed.
Print Assumptions conf_differences.
Theorem conf_differences_empty a b :
  diffs a b = [] <-> forall key, agree (sget (flat a) key) (sget (flat b) key).
Proof. exact (diffs_empty a b). Qed.
Print Assumptions conf_differences_empty.
Theorem conf_differences_swap a b key : sget (diffs b a) key =
  match sget (diffs a b) key with None => None | Some (x, y) => Some (y, x) end.
Proof. exact (diffs_swap a b key). Qed.
Print Assumptions conf_differences_swap.
(** Equivalent configurations have no differences... *)
Theorem conf_equiv_no_differences a b : proper a -> proper b ->
  equiv [] false a b = true -> diffs a b = [].
Proof. exact (equiv_no_diffs a b). Qed.
Print Assumptions conf_equiv_no_differences.
(** ... but configurations without differences need not be equivalent. *)
Theorem conf_no_differences_equiv_refuted :
  ~ (forall a b, proper a -> proper b -> diffs a b = [] -> equiv [] false a b = true).
Proof.
  intros A.
  assert (Q : equiv [] false (CGroup [("x", CList [CLeaf (LInt 1)])]) (CGroup [("x", CList [CLeaf (LFloat 1%Qc)])]) = true).
  { apply A.
    - constructor; [repeat constructor; intros []|]. intros k v [E|[]]. injection E as <- <-. split; [reflexivity|].
      constructor. intros v [<-|[]]. constructor.
    - constructor; [repeat constructor; intros []|]. intros k v [E|[]]. injection E as <- <-. split; [reflexivity|].
      constructor. intros v [<-|[]]. constructor.
    - vm_compute. reflexivity. }
  vm_compute in Q. discriminate Q.
Qed.
Print Assumptions conf_no_differences_equiv_refuted.
Example conf_differences_example :
  map fst (diffs tree1 tree2) = ["s"] /\ map fst (flat tree1) = ["s"; "g.n"; "g.l.[0]"; "g.l.[1]"; "e"].
Proof. vm_compute. split; reflexivity. Qed.

(** * C71: deprecated settings *)

(** Loading translates the deprecated settings: they are gone afterwards, their values
    are found under the new names, everything else reads as before, a configuration
    without deprecated settings is not changed, and doing it again changes nothing. *)
Theorem conf_canonicalize H l d H' : good H l -> node_at H l = NGroup true d ->
  canonicalize H l = (H', Ok tt) ->
  contains H' l bt = Ok false /\ contains H' l ic = Ok false /\
  (contains H l bt = Ok true -> contains H' l bs = Ok false /\ getitem H' l bl = getitem H l bs) /\
  (contains H l ic = Ok true -> getitem H' l ifp = getitem H l ic /\ getitem H' l idp = getitem H l ic) /\
  (contains H l bt = Ok false -> contains H l ic = Ok false -> H' = H) /\
  (forall key, unrelated key [bt; bs; bl; ic; ifp; idp] ->
     getitem H' l key = getitem H l key /\ contains H' l key = contains H l key) /\
  canonicalize H' l = (H', Ok tt).
Proof. exact (canonicalize_correct H l d H'). Qed.
Print Assumptions conf_canonicalize.

Definition conf_old : heap :=
  fst (setitem (fst (setitem (run2 bt (Leaf (LStr "Lees-Edwards")) bs (Leaf (LInt 3))) 0
     "instrumentation.cellSubdivision.x" (Leaf (LInt 5)))) 0 "mpc.density" (Leaf (LInt 10))).
Example conf_canonicalize_example :
  match canonicalize conf_old 0 with
  | (H, Ok _) => val_is (getitem H 0 bl) 3 && val_is (getitem H 0 "instrumentation.flowProfile.cellSubdivision.x") 5
      && val_is (getitem H 0 "mpc.density") 10 && err_is_key (getitem H 0 bs)
  | _ => false
  end = true.
Proof. vm_compute. reflexivity. Qed.

(** The two copies of the cell subdivision are one object: changing one of them
    afterwards changes the other. *)
Theorem conf_canonicalize_alias_refuted :
  ~ (forall H l H1 x H2 key key2, good H l -> canonicalize H l = (H1, Ok tt) -> plain key ->
       setitem H1 l key (Leaf x) = (H2, Ok tt) -> ~ extends key key2 -> ~ extends key2 key ->
       getitem H2 l key2 = getitem H1 l key2).
Proof.
  intros A.
  assert (P : plain "instrumentation.flowProfile.cellSubdivision.x") by plain_tac.
  assert (G : good conf_old 0).
  { assert (P1 : plain bt) by plain_tac. assert (P2 : plain bs) by plain_tac.
    assert (P3 : plain "instrumentation.cellSubdivision.x") by plain_tac. assert (P4 : plain "mpc.density") by plain_tac.
    assert (S : forall H key v, good H 0 -> plain key -> snd (setitem H 0 key (Leaf v)) = Ok tt ->
              good (fst (setitem H 0 key (Leaf v))) 0).
    { intros H key v GH PK O. destruct (setitem H 0 key (Leaf v)) as (H', r) eqn:E. cbn in O |- *. subst r.
      exact (proj2 (proj2 (proj2 (conf_set_read _ _ _ _ _ GH PK E))) (separate_leaf _ _ _)). }
    unfold conf_old, run2.
    apply S; [|exact P4|vm_compute; reflexivity]. apply S; [|exact P3|vm_compute; reflexivity].
    apply S; [|exact P2|vm_compute; reflexivity].
    apply S; [exact empty_good|exact P1|vm_compute; reflexivity]. }
  set (H1 := fst (canonicalize conf_old 0)).
  set (H2 := fst (setitem H1 0 "instrumentation.flowProfile.cellSubdivision.x" (Leaf (LInt 6)))).
  assert (E1 : canonicalize conf_old 0 = (H1, Ok tt)) by (vm_compute; reflexivity).
  assert (E2 : setitem H1 0 "instrumentation.flowProfile.cellSubdivision.x" (Leaf (LInt 6)) = (H2, Ok tt)) by (vm_compute; reflexivity).
  assert (X := A _ 0 _ (LInt 6) _ _ "instrumentation.densityProfile.cellSubdivision.x" G E1 P E2).
  assert (Y : getitem H2 0 "instrumentation.densityProfile.cellSubdivision.x"
     = getitem H1 0 "instrumentation.densityProfile.cellSubdivision.x").
  { apply X; intros [E|(r & E)]; try discriminate E; cbn in E; discriminate E. }
  vm_compute in Y. discriminate Y.
Qed.
Print Assumptions conf_canonicalize_alias_refuted.
