(** What users rely on when reading, writing and comparing configurations;
    independent of the traversals in ConfModel.v. *)
From Coq Require Import List ZArith String Ascii Bool Qcanon.
From Verif Require Import QcBase PyBase StrBase ConfModel.
Import ListNotations.
Set Implicit Arguments.
Close Scope string_scope.
Close Scope Qc_scope.
Open Scope nat_scope.

(** [k'] is [k] itself or a name below it. *)
Definition extends (k k' : string) : Prop :=
  k' = k \/ exists r, k' = (k ++ "." ++ r)%string.

(** A name all of whose components are nonempty and none of which starts like a
    list index. *)
Definition plain (k : string) : Prop :=
  forall c, In c (split dot k) -> c <> ""%string /\ first_is "[" c = false.

(** Physical steps through the objects: an entry of a group, an element of a list. *)
Inductive step := SName (s : string) | SIdx (i : nat).
Definition child (H : heap) (v : val) (s : step) : option val :=
  match v with
  | Leaf _ => None
  | Ref l =>
    match node_at H l, s with
    | NGroup _ d, SName c => sget d c
    | NList xs, SIdx i | NArr xs, SIdx i => nth_error xs i
    | _, _ => None
    end
  end.
Fixpoint follow (H : heap) (v : val) (p : list step) : option val :=
  match p with
  | [] => Some v
  | s :: r => match child H v s with None => None | Some w => follow H w r end
  end.

(** No object can be reached from [l] along two different ways. *)
Definition unshared (H : heap) (l : nat) : Prop :=
  forall p q m, follow H (Ref l) p = Some (Ref m) -> follow H (Ref l) q = Some (Ref m) -> p = q.
(** Every object mentioned exists. *)
Definition node_vals (n : node) : list val :=
  match n with NGroup _ d => map snd d | NList xs | NArr xs => xs end.
Definition closed (H : heap) : Prop :=
  forall l m, l < length H -> In (Ref m) (node_vals (node_at H l)) -> m < length H.
(** Dictionaries have each name once. *)
Definition keys_once (H : heap) : Prop :=
  forall l k d, node_at H l = NGroup k d -> NoDup (map fst d).
Definition is_group (H : heap) (l : nat) : Prop := exists k d, node_at H l = NGroup k d.
Definition good (H : heap) (l : nat) : Prop :=
  l < length H /\ is_group H l /\ unshared H l /\ closed H /\ keys_once H.

(** The value shares no object with what is reachable from [l]. *)
Definition separate (H : heap) (l : nat) (v : val) : Prop :=
  forall r, v = Ref r -> r < length H /\ unshared H r /\
    forall p q x, follow H (Ref l) p = Some (Ref x) -> follow H (Ref r) q <> Some (Ref x).

(** No lists or arrays below [l]. *)
Definition no_lists (H : heap) : Prop := forall l, l < length H -> is_group H l.

(** ** Trees *)

(** Python's equality of scalars: strings by content, everything else by number. *)
Inductive py_equal : leaf -> leaf -> Prop :=
| PE_str s : py_equal (LStr s) (LStr s)
| PE_num x y q : leaf_num x = Some q -> leaf_num y = Some q -> py_equal x y.
Definition is_str (x : leaf) : bool := match x with LStr _ => true | _ => false end.

(** Two configurations have the same settings, strings compared after translation [f]:
    groups by name, lists and arrays (not distinguished) by position; scalars inside
    lists must in addition have the same type. *)
Inductive same_settings (f : string -> string) : bool -> conf -> conf -> Prop :=
| SS_str l s t : f s = f t -> same_settings f l (CLeaf (LStr s)) (CLeaf (LStr t))
| SS_num x y : is_str x = false -> py_equal x y -> same_settings f false (CLeaf x) (CLeaf y)
| SS_elem x y : is_str x = false -> py_equal x y -> leaf_same_type x y = true ->
    same_settings f true (CLeaf x) (CLeaf y)
| SS_seq l a b xs ys :
    (a = CList xs \/ a = CArr xs) -> (b = CList ys \/ b = CArr ys) ->
    Forall2 (same_settings f true) xs ys -> same_settings f l a b
| SS_group l d e :
    (forall k v, In (k, v) d -> exists w, In (k, w) e /\ same_settings f false v w) ->
    (forall k, In k (map fst e) -> In k (map fst d)) ->
    same_settings f l (CGroup d) (CGroup e).

(** Trees as the library can produce them: each name once, no dots in names, arrays
    of scalars. *)
Inductive proper : conf -> Prop :=
| P_leaf x : proper (CLeaf x)
| P_group d : NoDup (map fst d) -> (forall k v, In (k, v) d -> has_char dot k = false /\ proper v) ->
    proper (CGroup d)
| P_list xs : (forall v, In v xs -> proper v) -> proper (CList xs)
| P_arr xs : (forall v, In v xs -> exists x, v = CLeaf x) -> proper (CArr xs).

(** The setting found by following a path of names and "[i]" components. *)
Inductive at_path : conf -> list string -> conf -> Prop :=
| AP_here c : at_path c [] c
| AP_group d k v r w : In (k, v) d -> at_path v r w -> at_path (CGroup d) (k :: r) w
| AP_list xs i v r w : nth_error xs i = Some v -> at_path v r w -> at_path (CList xs) (bracket i :: r) w
| AP_arr xs i v r w : nth_error xs i = Some v -> at_path v r w -> at_path (CArr xs) (bracket i :: r) w.
(** What the flat view records for it. *)
Inductive recorded : conf -> option leaf -> Prop :=
| R_leaf x : recorded (CLeaf x) (Some x)
| R_group : recorded (CGroup []) None
| R_list : recorded (CList []) None
| R_arr : recorded (CArr []) None.

(** Agreement of two optional entries of flat dictionaries. *)
Definition agree (x y : option (option leaf)) : Prop :=
  match x, y with
  | None, None => True
  | Some None, Some None => True
  | Some (Some a), Some (Some b) => py_equal a b
  | _, _ => False
  end.

(** ** Deprecated settings and their replacements *)
Definition bt := "boundaryConditions.type"%string.
Definition bs := "boundaryConditions.shearRate"%string.
Definition bl := "boundaryConditions.LeesEdwards.shearRate"%string.
Definition ic := "instrumentation.cellSubdivision"%string.
Definition ifp := "instrumentation.flowProfile.cellSubdivision"%string.
Definition idp := "instrumentation.densityProfile.cellSubdivision"%string.
(** Neither above nor below any of the names [l]. *)
Definition unrelated (key : string) (l : list string) : Prop :=
  forall k, In k l -> ~ extends k key /\ ~ extends key k.
