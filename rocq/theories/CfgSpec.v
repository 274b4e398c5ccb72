(** Specification of the configuration: a tree whose inner nodes are groups, in which settings are found by the names on the way to them. *)
From Verif Require Import StrBase CfgModel.
Open Scope list_scope.
Open Scope Z_scope.

(** Names of settings: a letter or an asterisk, followed by letters, digits, asterisks, underscores and hyphens. *)
Definition letters : string := "ABCDEFGHIJKLMNOPQRSTUVWXYZabcdefghijklmnopqrstuvwxyz*".
Definition further : string := "0123456789_-".
Definition proper_name (s : string) : Prop :=
  exists a r, s = String a r /\ has_char a letters = true /\ forall b, has_char b r = true -> has_char b (letters ++ further) = true.
(** A path, and its text with dots. *)
Definition proper_path (p : list string) : Prop := p <> [] /\ forall n, In n p -> proper_name n.
Definition dotted (p : list string) : string := String.concat "." p.

(** The setting with the given path. *)
Inductive reaches {D} : setting D -> list string -> setting D -> Prop :=
| reaches_here : forall s, reaches s [] s
| reaches_member : forall before n t after p s, ~ In n (map fst before) -> reaches t p s -> reaches (Group (before ++ (n, t) :: after)) (n :: p) s.
(** There is no such setting. *)
Definition absent {D} (root : setting D) (p : list string) : Prop := forall s, ~ reaches root p s.
(** The one path begins with the other. *)
Definition begins (p q : list string) : Prop := exists r, q = p ++ r.
(** All settings on the way that exist are groups. *)
Definition way_free {D} (root : setting D) (p : list string) : Prop :=
  forall q s, begins q p -> q <> p -> reaches root q s -> exists m, s = Group m.
(** Nothing but [p], what is in it and the groups it is in changes; those remain groups. *)
Definition unchanged_outside {D} (root root' : setting D) (p : list string) : Prop :=
  (forall q s, ~ begins p q -> ~ begins q p -> (reaches root' q s <-> reaches root q s))
  /\ (forall q, begins q p -> q <> p -> exists m', reaches root' q (Group m')
       /\ forall m, reaches root q (Group m) -> map fst m' = map fst m \/ exists n, map fst m' = map fst m ++ [n] /\ begins (q ++ [n]) p /\ absent root (q ++ [n])).

(** Values of the same type. *)
Inductive same_type {D} : scalar D -> scalar D -> Prop :=
| same_bool : forall a b, same_type (VBool a) (VBool b)
| same_int : forall a b, same_type (VInt a) (VInt b)
| same_int64 : forall a b, same_type (VInt64 a) (VInt64 b)
| same_float : forall a b, same_type (VFloat a) (VFloat b)
| same_string : forall a b, same_type (VString a) (VString b).
(** A value can be read into a variable of some type, without a conversion. *)
Inductive has_type {D} : scalar D -> type -> Prop :=
| has_bool : forall b, has_type (VBool b) TBool
| has_int : forall z, has_type (VInt z) TInt
| has_unsigned : forall z, 0 <= z -> has_type (VInt z) TUnsigned
| has_int64 : forall z, has_type (VInt64 z) TInt64
| has_float : forall d, has_type (VFloat d) TFloat
| has_string : forall s, has_type (VString s) TString.
(** A negative number is read into an [unsigned int]. *)
Definition negative_read {D} (t : type) (s : setting D) : Prop := t = TUnsigned /\ exists z, s = Scalar (VInt z) /\ z < 0.
(** All names in the tree are names of settings. *)
Definition well_named {D} (root : setting D) : Prop := forall p s n, reaches root p s -> In n p -> proper_name n.
(** The name of the first child that is not among the given names. *)
Inductive first_not_in (names : list string) : list string -> string -> Prop :=
| first_here : forall n r, ~ In n names -> first_not_in names (n :: r) n
| first_later : forall k r n, In k names -> first_not_in names r n -> first_not_in names (k :: r) n.
