(** Model of the configuration wrapper of the analysis package
    (Analysis/MPCDAnalysis/Configuration.py).

    The wrapper holds a reference to an object of the external library
    pylibconfig2.  That library is not part of the repository; what the model
    assumes about it is: [Config] and [ConfGroup] objects are name/value
    dictionaries with [keys], [get] and [set]; [ConfList] and [ConfArray] objects
    behave as Python lists and have no [keys] and no [set]; [Config.lookup(path)]
    descends one dot-separated component at a time, a component "[i]" selecting an
    element of a list, and returns None if a step fails.

    Since the wrapper shares the objects it hands out (an assignment
    [c["a.b"] = x] is performed in place, and assigning a [Configuration] stores
    the very object), reading, writing and deleting are modelled on a heap.
    The read-only comparisons ([isEquivalent], [getAsFlatDictionary],
    [getDifferencesAsFlatDictionary]) are modelled on trees. *)
From Coq Require Import List ZArith String Ascii Bool Lia Qcanon.
From Verif Require Import QcBase PyBase DictBase StrBase.
Import ListNotations.
Set Implicit Arguments.
Close Scope string_scope.

(** Values of scalar settings, as pylibconfig2 delivers them (Configuration.py l.353-402). *)
Inductive leaf :=
| LStr (s : string) | LInt (z : Z) | LFloat (q : Qc) | LBool (b : bool).

(** What a dictionary entry or list element holds: a scalar, or an object (Configuration.py l.353-402). *)
Inductive val := Leaf (x : leaf) | Ref (l : nat).

(** The objects: [NGroup true] is a [Config], [NGroup false] a [ConfGroup] (Configuration.py l.25-41). *)
Inductive node :=
| NGroup (config : bool) (d : list (string * val))
| NList (xs : list val)
| NArr (xs : list val).
Notation heap := (list node).

(** Dereferencing an object, Configuration.py l.353-402. *)
Definition node_at (H : heap) (l : nat) : node := nth l H (NGroup false []).
(** Changing an object in place, Configuration.py l.450-457. *)
Fixpoint upd (H : heap) (l : nat) (n : node) : heap :=
  match H, l with
  | [], _ => []
  | _ :: r, O => n :: r
  | m :: r, S l' => m :: upd r l' n
  end.

(** [get] of a group, Configuration.py l.355-361. *)
Definition sget {V} := @dget string V String.eqb.
(** [set] of a group, Configuration.py l.450-457. *)
Definition sset {V} := @dset string V String.eqb.
(** [del] of an entry, Configuration.py l.460-484. *)
Definition sdel {V} := @ddel string V String.eqb.

(** The separator of components, Configuration.py l.332-402. *)
Definition dot : ascii := "."%char.
(** [numeral[0]], Configuration.py l.373. *)
Definition first_is (a : ascii) (s : string) : bool :=
  match s with String b _ => Ascii.eqb a b | EmptyString => false end.
(** [numeral[-1]], Configuration.py l.373. *)
Fixpoint last_is (a : ascii) (s : string) : bool :=
  match s with
  | EmptyString => false
  | String b EmptyString => Ascii.eqb a b
  | String _ r => last_is a r
  end.
(** [s[1:-1]] (Configuration.py l.375-376) *)
Definition inner (s : string) : string := String.substring 1 (String.length s - 2) s.

(** Python sequence indexing [xs[n]], negative numbers counting from the end (Configuration.py l.379). *)
Definition pyindex {A} (xs : list A) (n : Z) : option nat :=
  let len := Z.of_nat (length xs) in
  if (0 <=? n)%Z && (n <? len)%Z then Some (Z.to_nat n)
  else if (- len <=? n)%Z && (n <? 0)%Z then Some (Z.to_nat (len + n))
  else None.

(** Configuration.py l.451-455 (assignment): the number in "[n]", not necessarily
    in canonical form. *)
Definition numeral_loose (c : string) : result Z :=
  if negb (first_is "[" c) || negb (last_is "]" c) then Err KeyError
  else match Z_of_str (inner c) with None => Err ValueError | Some n => Ok n end.
(** Configuration.py l.375-376 and l.519-527: the number in "[n]", in canonical form.
    [numeral[0]] of an empty component raises IndexError. *)
Definition numeral (c : string) : result Z :=
  match c with
  | EmptyString => Err IndexError
  | _ =>
    do n <- numeral_loose c;
    if String.eqb (str_of_Z n) (inner c) then Ok n else Err KeyError
  end.

(** [pylibconfig2.Config.lookup] (external; see the head of this file) (Configuration.py l.354). *)
Fixpoint lookup (H : heap) (v : val) (comps : list string) : option val :=
  match comps with
  | [] => Some v
  | c :: r =>
    match v with
    | Leaf _ => None
    | Ref l =>
      match node_at H l with
      | NGroup _ d => match sget d c with None => None | Some w => lookup H w r end
      | NList xs | NArr xs =>
        match numeral c with
        | Err _ => None
        | Ok n => match pyindex xs n with
                  | None => None
                  | Some i => lookup H (nth i xs v) r
                  end
        end
      end
    end
  end.

(** Configuration.py l.353-402, [__getitem__] on objects that are not a [Config]:
    the loop over the components of a group, and the recursion through lists.
    A scalar inside a path has no [keys()]; a scalar element of a list is
    returned whatever components follow. *)
Fixpoint get_at (H : heap) (v : val) (comps : list string) : result val :=
  match comps with
  | [] => Ok v
  | c :: r =>
    match v with
    | Leaf _ => Err AttributeError
    | Ref l =>
      match node_at H l with
      | NGroup _ d => match sget d c with None => Err KeyError | Some w => get_at H w r end
      | NList xs | NArr xs =>
        do n <- numeral c;
        match pyindex xs n with
        | None => Err IndexError
        | Some i =>
          match nth i xs v with
          | Leaf x => Ok (Leaf x)
          | Ref m =>
            match node_at H m with
            | NGroup true _ =>
              match r with
              | [] => Ok (Ref m)
              | _ => match lookup H (Ref m) r with None => Err KeyError | Some w => Ok w end
              end
            | _ => get_at H (Ref m) r
            end
          end
        end
      end
    end
  end.
(** Configuration.py l.332-402: the recursion over the components. *)
Definition get_comps (H : heap) (l : nat) (comps : list string) : result val :=
  match node_at H l with
  | NGroup true _ => match lookup H (Ref l) comps with None => Err KeyError | Some w => Ok w end
  | _ => get_at H (Ref l) comps
  end.
(** Configuration.py l.332-402, [__getitem__] with a [str] key. *)
Definition getitem (H : heap) (l : nat) (key : string) : result val :=
  get_comps H l (split dot key).

(** Configuration.py l.509-517, [__contains__] on a [ConfGroup]. *)
Fixpoint contains_group (H : heap) (v : val) (comps : list string) : result bool :=
  match comps with
  | [] => Ok true
  | c :: r =>
    match v with
    | Leaf _ => Err AttributeError
    | Ref l =>
      match node_at H l with
      | NGroup _ d => match sget d c with None => Ok false | Some w => contains_group H w r end
      | _ => Err AttributeError
      end
    end
  end.
(** Configuration.py l.487-535: the recursion over the components. *)
Definition contains_comps (H : heap) (l : nat) (comps : list string) : result bool :=
  match node_at H l with
  | NGroup true _ => Ok (match lookup H (Ref l) comps with None => false | Some _ => true end)
  | NGroup false _ => contains_group H (Ref l) comps
  | NList xs | NArr xs =>
    (* l.519-533: only the first component is looked at *)
    match comps with
    | [] => Ok true
    | c :: _ =>
      do n <- numeral c;
      Ok (match pyindex xs n with None => false | Some _ => true end)
    end
  end.
(** Configuration.py l.487-535, [__contains__] with a [str] key. *)
Definition contains (H : heap) (l : nat) (key : string) : result bool :=
  contains_comps H l (split dot key).

(** [group.set(c, v)] in place (Configuration.py l.456-457). *)
Definition set_entry (H : heap) (l : nat) (c : string) (v : val) : heap :=
  match node_at H l with
  | NGroup k d => upd H l (NGroup k (sset d c v))
  | _ => H
  end.
(** Configuration.py l.43-71, [createGroup] of a single component that is not
    contained: a fresh group is entered. *)
Definition create_group (H : heap) (l : nat) (c : string) : heap :=
  set_entry (H ++ [NGroup false []]) l c (Ref (length H)).

(** Configuration.py l.439-447, [__setitem__]: walk to the parent object, creating
    groups on the way.  (A scalar on the way raises; which exception depends on the
    scalar, the model says AttributeError.) *)
Fixpoint walk (H : heap) (l : nat) (comps : list string) : heap * result nat :=
  match comps with
  | [] => (H, Ok l)
  | c :: r =>
    match contains_comps H l [c] with
    | Err e => (H, Err e)
    | Ok false =>
      if first_is "[" c then (H, Err (if last_is "]" c then PyException else KeyError))
      else walk (create_group H l c) (length H) r
    | Ok true =>
      match get_comps H l [c] with
      | Err e => (H, Err e)
      | Ok (Leaf _) => (H, Err AttributeError)
      | Ok (Ref m) => walk H m r
      end
    end
  end.
(** Configuration.py l.450-457: the assignment in the parent object. *)
Definition assign (H : heap) (l : nat) (c : string) (v : val) : heap * result unit :=
  match node_at H l with
  | NArr xs =>
    match numeral_loose c with
    | Err e => (H, Err e)
    | Ok n =>
      match pyindex xs n with
      | None => (H, Err IndexError)
      | Some i => (upd H l (NArr (firstn i xs ++ v :: skipn (S i) xs)), Ok tt)
      end
    end
  | NGroup _ _ => (set_entry H l c v, Ok tt)
  | NList _ => (H, Err AttributeError)
  end.
(** Configuration.py l.405-457, [__setitem__] with a [str] key.  The value is a
    scalar, or the object wrapped by a [Configuration]. *)
Definition setitem (H : heap) (l : nat) (key : string) (v : val) : heap * result unit :=
  let comps := split dot key in
  if existsb (String.eqb "") comps then (H, Err KeyError)
  else match comps with
  | [c] =>
    match node_at H l with
    | NGroup _ _ => (set_entry H l c v, Ok tt)
    | _ => (H, Err AttributeError)
    end
  | _ =>
    match walk H l (removelast comps) with
    | (H', Err e) => (H', Err e)
    | (H', Ok m) => assign H' m (last comps ""%string) v
    end
  end.

(** [del group.__dict__[c]] in place (Configuration.py l.484). *)
Definition del_entry (H : heap) (l : nat) (c : string) : heap * result unit :=
  match node_at H l with
  | NGroup k d =>
    match sget d c with
    | None => (H, Err KeyError)
    | Some _ => (upd H l (NGroup k (sdel d c)), Ok tt)
    end
  | _ => (H, Err KeyError)
  end.
(** Configuration.py l.460-484, [__delitem__] with a [str] key. *)
Definition delitem (H : heap) (l : nat) (key : string) : heap * result unit :=
  let comps := split dot key in
  match contains_comps H l comps with
  | Err e => (H, Err e)
  | Ok false => (H, Ok tt)
  | Ok true =>
    match comps with
    | [c] => del_entry H l c
    | _ =>
      match get_comps H l (removelast comps) with
      | Err e => (H, Err e)
      | Ok (Leaf _) => (H, Err TypeError)
      | Ok (Ref m) =>
        let c := last comps ""%string in
        match contains_comps H m [c] with
        | Err e => (H, Err e)
        | Ok false => (H, Ok tt)
        | Ok true => del_entry H m c
        end
      end
    end
  end.

(** Configuration.py l.549-574, [_canonicalize], on a [Config] at location [l]. *)
Definition leaf_is_str (v : val) (s : string) : bool :=
  match v with Leaf (LStr t) => String.eqb t s | _ => false end.
(** Sequential statements, Configuration.py l.549-574. *)
Definition andthen (r : heap * result unit) (k : heap -> heap * result unit) : heap * result unit :=
  match r with (H, Ok _) => k H | (H, Err e) => (H, Err e) end.
(** Configuration.py l.555-562. *)
Definition canonicalize_shear (H : heap) (l : nat) : heap * result unit :=
  match contains H l "boundaryConditions.type" with
  | Err e => (H, Err e)
  | Ok false => (H, Ok tt)
  | Ok true =>
    match getitem H l "boundaryConditions.type" with
    | Err e => (H, Err e)
    | Ok ty =>
      if leaf_is_str ty "Lees-Edwards" then
        match getitem H l "boundaryConditions.shearRate" with
        | Err e => (H, Err e)
        | Ok rate =>
          andthen (delitem H l "boundaryConditions.type") (fun H =>
          andthen (delitem H l "boundaryConditions.shearRate") (fun H =>
          setitem H l "boundaryConditions.LeesEdwards.shearRate" rate))
        end
      else (H, Err RuntimeError)
    end
  end.
(** Configuration.py l.564-574. *)
Definition canonicalize_subdivision (H : heap) (l : nat) : heap * result unit :=
  match contains H l "instrumentation.cellSubdivision" with
  | Err e => (H, Err e)
  | Ok false => (H, Ok tt)
  | Ok true =>
    match contains H l "instrumentation.flowProfile", contains H l "instrumentation.densityProfile" with
    | Ok false, Ok false =>
      match getitem H l "instrumentation.cellSubdivision" with
      | Err e => (H, Err e)
      | Ok sub =>
        andthen (delitem H l "instrumentation.cellSubdivision") (fun H =>
        andthen (setitem H l "instrumentation.flowProfile.cellSubdivision" sub) (fun H =>
        setitem H l "instrumentation.densityProfile.cellSubdivision" sub))
      end
    | Err e, _ => (H, Err e)
    | Ok true, _ => (H, Err AssertionError)
    | Ok false, Err e => (H, Err e)
    | Ok false, Ok true => (H, Err AssertionError)
    end
  end.
(** Configuration.py l.549-574. *)
Definition canonicalize (H : heap) (l : nat) : heap * result unit :=
  andthen (canonicalize_shear H l) (fun H => canonicalize_subdivision H l).

(** ** Configurations as trees, for the functions that only read. *)
(** Configuration.py l.74-262. *)
Inductive conf :=
| CLeaf (x : leaf)
| CGroup (d : list (string * conf))
| CList (xs : list conf)
| CArr (xs : list conf).

(** Python's [==] on scalars: numbers and booleans compare by value (Configuration.py l.164-166). *)
Definition leaf_num (x : leaf) : option Qc :=
  match x with
  | LStr _ => None
  | LInt z => Some (qz z)
  | LFloat q => Some q
  | LBool b => Some (if b then 1 else 0)%Qc
  end.
(** Configuration.py l.164-166. *)
Definition leaf_eqb (x y : leaf) : bool :=
  match x, y with
  | LStr a, LStr b => String.eqb a b
  | _, _ => match leaf_num x, leaf_num y with Some a, Some b => qeqb a b | _, _ => false end
  end.
(** [type(x) == type(y)] (Configuration.py l.131) *)
Definition leaf_same_type (x y : leaf) : bool :=
  match x, y with
  | LStr _, LStr _ | LInt _, LInt _ | LFloat _, LFloat _ | LBool _, LBool _ => true
  | _, _ => false
  end.
(** Configuration.py l.97-100, [applyTanslators] *)
Definition translate (ts : list (string -> string)) (s : string) : string :=
  fold_left (fun s t => t s) ts s.
(** Configuration.py l.118-141: elements of lists that are scalars. *)
Definition elem_equiv ts (x y : leaf) : bool :=
  leaf_same_type x y &&
  match x, y with
  | LStr a, LStr b => String.eqb (translate ts a) (translate ts b)
  | _, _ => leaf_eqb x y
  end.
(** Configuration.py l.152-166: entries of groups that are scalars. *)
Definition entry_equiv ts (x y : leaf) : bool :=
  match x, y with
  | LStr a, LStr b => String.eqb (translate ts a) (translate ts b)
  | LStr _, _ => false
  | _, _ => leaf_eqb x y
  end.

(** The loop over the elements of two lists (l.126-155). *)
Section All2.
Variable f : conf -> conf -> bool.
(** The loop over two lists of equal length, Configuration.py l.118-143. *)
Fixpoint all2 (xs ys : list conf) : bool :=
  match xs, ys with
  | x :: xr, y :: yr => f x y && all2 xr yr
  | _, _ => true
  end.
(** The loop over the entries of a group (l.161-170, first loop). *)
Variable e : list (string * conf).
(** The loop over the keys, Configuration.py l.148-170. *)
Fixpoint entries_in (d : list (string * conf)) : bool :=
  match d with
  | [] => true
  | (k, v) :: r =>
    match sget e k with
    | None => false
    | Some w => f v w && entries_in r
    end
  end.
End All2.

Section Equiv.
Variable ts : list (string -> string).
(** Configuration.py l.74-172, [isEquivalent].  The first argument is the left-hand
    configuration; [in_list] says whether the two values are elements of lists
    (scalars are then compared with their types). *)
Fixpoint equiv (in_list : bool) (a b : conf) {struct a} : bool :=
  match a, b with
  | CLeaf x, CLeaf y => if in_list then elem_equiv ts x y else entry_equiv ts x y
  | CList xs, CList ys | CList xs, CArr ys | CArr xs, CList ys | CArr xs, CArr ys =>
    Nat.eqb (length xs) (length ys) && all2 (equiv true) xs ys
  | CGroup d, CGroup e =>
    entries_in (equiv false) e d
    && forallb (fun k => match sget d k with None => false | Some _ => true end) (map fst e)
  | _, _ => false
  end.
End Equiv.

(** ["[" + str(i) + "]"], Configuration.py l.119, l.214. *)
Definition bracket (i : nat) : string := ("[" ++ str_of_Z (Z.of_nat i) ++ "]")%string.

(** Entries a sub-configuration contributes to the flat dictionary
    (Configuration.py l.203-210 and l.216-223). *)
Definition flat_entry (ret : list (string * option leaf)) (key : string)
    (sub : list (string * option leaf)) : list (string * option leaf) :=
  let ret := fold_left (fun ret kv => sset ret (key ++ String dot (fst kv))%string (snd kv)) sub ret in
  match sub with [] => sset ret key None | _ => ret end.
Section Flat.
Variable f : conf -> list (string * option leaf).
(** The value of one key: a scalar, or the entries of a sub-configuration (Configuration.py l.184-224). *)
Definition flat_one (ret : list (string * option leaf)) (key : string) (v : conf) :=
  match v with
  | CLeaf x => sset ret key (Some x)
  | _ => flat_entry ret key (f v)
  end.
(** The loop over the elements of a list, Configuration.py l.213-223. *)
Fixpoint flat_elems (i : nat) (xs : list conf) (ret : list (string * option leaf)) :=
  match xs with
  | [] => ret
  | v :: r => flat_elems (S i) r (flat_one ret (bracket i) v)
  end.
(** The loop over the entries of a group, Configuration.py l.202-211. *)
Fixpoint flat_entries (d : list (string * conf)) (ret : list (string * option leaf)) :=
  match d with
  | [] => ret
  | (k, v) :: r => flat_entries r (flat_one ret k v)
  end.
End Flat.
(** Configuration.py l.184-224, [getAsFlatDictionary].  Arrays contain only scalars,
    so that the early branch for arrays (l.193-199) does the same as the one for lists. *)
Fixpoint flat (c : conf) : list (string * option leaf) :=
  match c with
  | CLeaf _ => []
  | CArr xs | CList xs => flat_elems flat O xs []
  | CGroup d => flat_entries flat d []
  end.

(** [!=] on the values of the flat dictionary (Configuration.py l.227-262). *)
Definition flat_val_eqb (x y : option leaf) : bool :=
  match x, y with
  | None, None => true
  | Some a, Some b => leaf_eqb a b
  | _, _ => false
  end.
(** Configuration.py l.227-262, [getDifferencesAsFlatDictionary]; the two lists of at
    most one element are options. *)
Definition diffs (a b : conf)
    : list (string * (option (option leaf) * option (option leaf))) :=
  let my := flat a in
  let rhs := flat b in
  let ret :=
    fold_left (fun ret kv =>
      match sget rhs (fst kv) with
      | None => sset ret (fst kv) (Some (snd kv), None)
      | Some w => if flat_val_eqb (snd kv) w then ret
                  else sset ret (fst kv) (Some (snd kv), Some w)
      end) my [] in
  fold_left (fun ret kv =>
      match sget my (fst kv) with
      | None => sset ret (fst kv) (None, Some (snd kv))
      | Some _ => ret
      end) rhs ret.
