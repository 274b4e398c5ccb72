(** The configuration of the simulation program: include/OpenMPCD/Configuration.hpp, src/OpenMPCD/Configuration.cpp and
    include/OpenMPCD/ImplementationDetails/Configuration/Setting.hpp.
    Simplifications: of the library libconfig, the part that is called is modelled as documented (members of groups by name, paths with dots, no automatic conversion
    of types, new members are added at the end); the separators of paths other than the dot and indices in paths are left out.
    The text of configuration files, and with it copies of a configuration, is not modelled; pointers are not null. *)
From Verif Require Import StrBase CuModel.
Open Scope list_scope.
Open Scope Z_scope.

(** Exceptions: those of the program, and those of libconfig (Configuration.hpp l.154-156, 261, 604, 680-682). *)
Inductive failure := InvalidArgument | InvalidConfiguration | GeneralException | InvalidCall | Unimplemented | SettingTypeException | SettingNameException | SettingNotFoundException.
(** A result or an exception (Configuration.hpp l.131-182). *)
Inductive outcome (A : Type) := Done (a : A) | Fails (f : failure).
Arguments Done {A} _.
Arguments Fails {A} _.

(** The values of settings that are not groups, lists or arrays; [D] are the floating-point numbers (Setting.hpp l.42-124). *)
Inductive scalar (D : Type) := VBool (b : bool) | VInt (z : Z) | VInt64 (z : Z) | VFloat (d : D) | VString (s : string).
Arguments VBool {D} _.
Arguments VInt {D} _.
Arguments VInt64 {D} _.
Arguments VFloat {D} _.
Arguments VString {D} _.
(** [libconfig::Setting] (getSettingTypeString.hpp l.30-59). *)
Inductive setting (D : Type) :=
| Scalar (v : scalar D)
| Group (members : list (string * setting D))
| Listing (elements : list (setting D))
| Arr (elements : list (setting D)).
Arguments Scalar {D} _.
Arguments Group {D} _.
Arguments Listing {D} _.
Arguments Arr {D} _.
(** The types into which values are read (Configuration.hpp l.130-131, 203-209, 537-538). *)
Inductive type := TBool | TInt | TUnsigned | TInt64 | TFloat | TString.

Section Config.
Variable D : Type.
(** What libconfig makes of a negative number that is to be read as [unsigned int] (Configuration.hpp l.545). *)
Variable negative_as_unsigned : Z -> option Z.

(** libconfig: the first member with the given name (called in Configuration.hpp l.97, 106, 674). *)
Fixpoint find_member (name : string) (m : list (string * setting D)) : option (setting D) :=
  match m with
  | [] => None
  | (n, s) :: r => if String.eqb n name then Some s else find_member name r
  end.
(** libconfig: the member of a setting; only groups have members with names (called in Configuration.hpp l.97, 106, 674). *)
Definition member (s : setting D) (name : string) : option (setting D) := match s with Group m => find_member name m | _ => None end.
(** [libconfig::Setting::exists] (called in Configuration.hpp l.97, 106, 674, 692, 788). *)
Definition exists_ (s : setting D) (name : string) : bool := match member s name with Some _ => true | None => false end.
(** libconfig: members of members (called in Configuration.hpp l.284, 511, 545). *)
Fixpoint walk (s : setting D) (path : list string) : option (setting D) :=
  match path with
  | [] => Some s
  | n :: r => match member s n with Some t => walk t r | None => None end
  end.
(** [libconfig::Config::lookup] and [libconfig::Setting::lookup] with a path, of which libconfig skips empty components (called in Configuration.hpp l.284, 511, 545, 587, 699). *)
Definition lookup (s : setting D) (path : string) : option (setting D) :=
  walk s (filter (fun n => negb (String.eqb n "")) (split "." path)).
(** The conversions of libconfig, without automatic conversion (called in Configuration.hpp l.165, 409, 545, 620). *)
Definition convert (t : type) (s : setting D) : option (scalar D) :=
  match t, s with
  | TBool, Scalar (VBool b) => Some (VBool b)
  | TInt, Scalar (VInt z) => Some (VInt z)
  | TUnsigned, Scalar (VInt z) => if z <? 0 then option_map VInt (negative_as_unsigned z) else Some (VInt z)
  | TInt64, Scalar (VInt64 z) => Some (VInt64 z)
  | TFloat, Scalar (VFloat d) => Some (VFloat d)
  | TString, Scalar (VString v) => Some (VString v)
  | _, _ => None
  end.
(** libconfig: [isAggregate] (called in Configuration.hpp l.701). *)
Definition isAggregate (s : setting D) : bool := match s with Scalar _ => false | _ => true end.
(** libconfig: [isArray() || isList()] (called in Configuration.hpp l.337, 383, 603). *)
Definition isArrayOrList (s : setting D) : bool := match s with Listing _ | Arr _ => true | _ => false end.
(** libconfig: [getLength] (called in Configuration.hpp l.237, 348). *)
Definition getLength (s : setting D) : nat := match s with Scalar _ => 0 | Group m => length m | Listing l | Arr l => length l end.
(** libconfig: the children with their names, which elements of lists do not have (called in Configuration.hpp l.55, 71, 255-258). *)
Definition children (s : setting D) : list (option string * setting D) :=
  match s with
  | Scalar _ => []
  | Group m => map (fun p => (Some (fst p), snd p)) m
  | Listing l | Arr l => map (fun t => (None, t)) l
  end.
(** libconfig: the letters, and an asterisk, with which names may begin (called in Configuration.hpp l.707, 801). *)
Definition name_start (a : ascii) : bool :=
  let n := nat_of_ascii a in
  ((65 <=? n) && (n <=? 90) || (97 <=? n) && (n <=? 122) || (n =? 42))%nat%bool.
(** libconfig: the other characters of names (called in Configuration.hpp l.707, 801). *)
Definition name_char (a : ascii) : bool :=
  let n := nat_of_ascii a in
  (name_start a || (48 <=? n) && (n <=? 57) || (n =? 95) || (n =? 45))%nat%bool.
(** libconfig: whether a name is valid (called in Configuration.hpp l.707, 801). *)
Definition valid_name (s : string) : bool :=
  match s with EmptyString => false | String a r => name_start a && all_chars name_char r end.
(** [libconfig::Setting::add] (called in Setting.hpp l.46-122 and Configuration.hpp l.707, 801). *)
Definition add (parent : setting D) (name : string) (s : setting D) : outcome (setting D) :=
  match parent with
  | Group m => if negb (valid_name name) || exists_ parent name then Fails SettingNameException else Done (Group (m ++ [(name, s)]))
  | _ => Fails SettingTypeException
  end.
(** Replacing the first member with the given name (Configuration.hpp l.678). *)
Fixpoint replace_member (name : string) (s : setting D) (m : list (string * setting D)) : list (string * setting D) :=
  match m with
  | [] => []
  | (n, t) :: r => if String.eqb n name then (n, s) :: r else (n, t) :: replace_member name s r
  end.
(** What a pointer to a setting, given by the names of the settings on the way to it, points to is replaced (Configuration.hpp l.678, 699, 707, 795, 801). *)
Fixpoint replace (root : setting D) (pointer : list string) (s : setting D) : setting D :=
  match pointer, root with
  | [], _ => s
  | n :: r, Group m => match find_member n m with Some t => Group (replace_member n (replace t r s) m) | None => root end
  | _, _ => root
  end.
(** libconfig: assignment of a value, without automatic conversion (called in Configuration.hpp l.678). *)
Definition assign (s : setting D) (v : scalar D) : outcome (setting D) :=
  match s, v with
  | Scalar (VBool _), VBool _ | Scalar (VInt _), VInt _ | Scalar (VInt64 _), VInt64 _ | Scalar (VFloat _), VFloat _ | Scalar (VString _), VString _ => Done (Scalar v)
  | _, _ => Fails SettingTypeException
  end.

(** Configuration.hpp l.84, 139: [find(".")], as the parts before and after the dot. *)
Fixpoint at_dot (s : string) : option (string * string) :=
  match s with
  | EmptyString => None
  | String a r => if Ascii.eqb a "." then Some (EmptyString, r) else match at_dot r with Some (x, y) => Some (String a x, y) | None => None end
  end.
(** Configuration.hpp l.82-107: Setting::has; [fuel] is at least the number of dots. *)
Fixpoint has_loop (fuel : nat) (s : setting D) (settingName : string) : outcome bool :=
  match at_dot settingName with
  | Some (first, second) =>
    if String.eqb first "" || String.eqb second "" then Fails InvalidArgument
    else
      if negb (exists_ s first) then Done false
      else match lookup s first, fuel with
           | Some subsetting, Datatypes.S fuel => has_loop fuel subsetting second
           | _, _ => Fails SettingNotFoundException
           end
  | None => Done (exists_ s settingName)
  end.
(** Configuration.hpp l.82-107. *)
Definition setting_has (s : setting D) (settingName : string) : outcome bool := has_loop (String.length settingName) s settingName.
(** Configuration.hpp l.165-181 and, for a path, l.545-554: lookupValue, and the error. *)
Definition read_value (t : type) (s : setting D) (name : string) : outcome (scalar D) :=
  match match lookup s name with Some x => convert t x | None => None end with
  | Some v => Done v
  | None => Fails InvalidConfiguration
  end.
(** Configuration.hpp l.130-182: Setting::read. *)
Fixpoint setting_read_loop (fuel : nat) (t : type) (s : setting D) (name : string) : outcome (scalar D) :=
  match at_dot name with
  | Some (first, second) =>
    if String.eqb first "" || String.eqb second "" then Fails InvalidArgument
    else
      if negb (exists_ s first) then Fails InvalidConfiguration
      else match lookup s first, fuel with
           | Some subsetting, Datatypes.S fuel => setting_read_loop fuel t subsetting second
           | _, _ => Fails SettingNotFoundException
           end
  | None => read_value t s name
  end.
(** Configuration.hpp l.130-209, 222-228. *)
Definition setting_read (t : type) (s : setting D) (name : string) : outcome (scalar D) := setting_read_loop (String.length name) t s name.
(** Configuration.hpp l.235-238. *)
Definition getChildCount (s : setting D) : nat := getLength s.
(** Configuration.hpp l.250-263: the loop. *)
Fixpoint child_loop (current childIndex : nat) (l : list (option string * setting D)) : outcome (option string * setting D) :=
  match l with
  | [] => Fails InvalidArgument
  | c :: r => if Nat.eqb current childIndex then Done c else child_loop (Datatypes.S current) childIndex r
  end.
(** Configuration.hpp l.250-263. *)
Definition getChild (s : setting D) (childIndex : nat) : outcome (option string * setting D) := child_loop 0 childIndex (children s).
(** Configuration.hpp l.275-285. *)
Definition setting_getSetting (s : setting D) (name : string) : outcome (setting D) :=
  match setting_has s name with
  | Fails f => Fails f
  | Done false => Fails InvalidConfiguration
  | Done true => match lookup s name with Some t => Done t | None => Fails SettingNotFoundException end
  end.
(** Configuration.hpp l.811-822 and the constructor l.334-340: Setting::getList; [debug] is whether [OPENMPCD_DEBUG] is defined. *)
Definition setting_getList (debug : bool) (s : setting D) (name : string) : outcome (setting D) :=
  match setting_getSetting s name with
  | Fails f => Fails f
  | Done t => if debug && negb (isArrayOrList t) then Fails GeneralException else Done t
  end.
(** src/OpenMPCD/Configuration.cpp l.12-27: the loop from child [i], of which there are [n] more; the result and what [offender] points to. A child without a name
    is an exception if [OPENMPCD_DEBUG] is defined (Configuration.hpp l.64-72), and is left out here otherwise. *)
Fixpoint names_loop (n i : nat) (s : setting D) (names : list string) (offender : string) : outcome (bool * string) :=
  match n with
  | O => Done (true, offender)
  | Datatypes.S n =>
    match getChild s i with
    | Fails f => Fails f
    | Done (None, _) => Fails InvalidCall
    | Done (Some name, _) => if existsb (String.eqb name) names then names_loop n (Datatypes.S i) s names offender else Done (false, name)
    end
  end.
(** src/OpenMPCD/Configuration.cpp l.12-27. *)
Definition childrenHaveNamesInCollection (s : setting D) (names : list string) (offender : string) : outcome (bool * string) :=
  names_loop (getChildCount s) 0 s names offender.

(** libconfig: the element with the given index (called in Configuration.hpp l.367, 381, 409, 445). *)
Definition element (s : setting D) (index : Z) : option (setting D) :=
  if index <? 0 then None else option_map snd (nth_error (children s) (Z.to_nat index)).
(** Configuration.hpp l.346-349. *)
Definition list_getSize (s : setting D) : Z := Z.of_nat (getLength s).
(** Configuration.hpp l.359-368: List::getSetting. *)
Definition list_getSetting (s : setting D) (index : Z) : outcome (setting D) :=
  if list_getSize s <=? index then Fails InvalidConfiguration
  else match element s index with Some t => Done t | None => Fails SettingNotFoundException end.
(** Configuration.hpp l.376-387: List::getList. *)
Definition list_getList (s : setting D) (index : Z) : outcome (setting D) :=
  if list_getSize s <=? index then Fails InvalidConfiguration
  else match element s index with
       | Some child => if negb (isArrayOrList child) then Fails GeneralException else Done child
       | None => Fails SettingNotFoundException
       end.
(** Configuration.hpp l.399-454, 463-469: List::read. *)
Definition list_read (t : type) (s : setting D) (index : Z) : outcome (scalar D) :=
  match match element s index with Some x => convert t x | None => None end with
  | Some v => Done v
  | None => Fails InvalidConfiguration
  end.

(** Configuration.hpp l.509-512. *)
Definition has (root : setting D) (name : string) : bool := match lookup root name with Some _ => true | None => false end.
(** Configuration.hpp l.537-569. *)
Definition read (t : type) (root : setting D) (name : string) : outcome (scalar D) := read_value t root name.
(** Configuration.hpp l.522-527: the values that have been stored, and the exception that has ended the loop, if any. *)
Fixpoint read_all (t : type) (root : setting D) (names : list string) : list (scalar D) * option failure :=
  match names with
  | [] => ([], None)
  | n :: r => match read t root n with
              | Done v => let (l, f) := read_all t root r in (v :: l, f)
              | Fails f => ([], Some f)
              end
  end.
(** Configuration.hpp l.579-588. *)
Definition getSetting (root : setting D) (name : string) : outcome (setting D) :=
  if negb (has root name) then Fails InvalidConfiguration
  else match lookup root name with Some t => Done t | None => Fails SettingNotFoundException end.
(** Configuration.hpp l.596-607. *)
Definition getList (root : setting D) (name : string) : outcome (setting D) :=
  if negb (has root name) then Fails InvalidConfiguration
  else match lookup root name with
       | Some child => if negb (isArrayOrList child) then Fails GeneralException else Done child
       | None => Fails SettingNotFoundException
       end.
(** Configuration.hpp l.616-651: [None] if the assertion holds; [same] is whether values are equal. *)
Definition assertValue (same : scalar D -> scalar D -> bool) (t : type) (root : setting D) (name : string) (value : scalar D) : option failure :=
  match match lookup root name with Some x => convert t x | None => None end with
  | None => Some InvalidConfiguration
  | Some configValue => if negb (same configValue value) then Some InvalidConfiguration else None
  end.

(** Setting.hpp l.42-123: createSetting. *)
Definition createSetting (parent : setting D) (name : string) (v : scalar D) : outcome (setting D) :=
  if exists_ parent name then Fails InvalidCall else add parent name (Scalar v).
(** Configuration.hpp l.694-697, 790-793: lookupPath, where the path of a setting has its names with dots in between. *)
Definition lookup_path (currentSetting : list string) (currentName : string) : string :=
  let path := join "." currentSetting in
  ((if negb (String.eqb path "") then path ++ "." else path) ++ currentName)%string.
(** Where a pointer points to (Configuration.hpp l.666, 699, 707). *)
Definition pointee (root : setting D) (pointer : list string) : setting D := match walk root pointer with Some s => s | None => Group [] end.
(** Configuration.hpp l.667-710: the loop of [set]; [currentSetting] is a pointer, given by the names on the way to the setting. The result is the configuration afterwards, and the exception, if any. *)
Fixpoint set_loop (debug : bool) (root : setting D) (currentSetting pathComponents : list string) (value : scalar D) : setting D * option failure :=
  match pathComponents with
  | [] => (root, None)
  | [currentName] =>
    let current := pointee root currentSetting in
    match member current currentName with
    | Some old =>
      match assign old value with
      | Done new => (replace root (currentSetting ++ [currentName]) new, None)
      | Fails SettingTypeException => (root, Some InvalidArgument)
      | Fails f => (root, Some f)
      end
    | None =>
      match createSetting current currentName value with
      | Done new => (replace root currentSetting new, None)
      | Fails f => (root, Some f)
      end
    end
  | currentName :: rest =>
    let current := pointee root currentSetting in
    if exists_ current currentName then
      match lookup root (lookup_path currentSetting currentName) with
      | Some t =>
        if debug && negb (isAggregate t) then (root, Some GeneralException)
        else set_loop debug root (currentSetting ++ [currentName]) rest value
      | None => (root, Some SettingNotFoundException)
      end
    else
      match add current currentName (Group []) with
      | Done new => set_loop debug (replace root currentSetting new) (currentSetting ++ [currentName]) rest value
      | Fails f => (root, Some f)
      end
  end.
(** Configuration.hpp l.660-711. *)
Definition set (debug : bool) (root : setting D) (name : string) (value : scalar D) : setting D * option failure :=
  set_loop debug root [] (split "." name) value.
(** The conversion to [int] (Configuration.hpp l.841, 843). *)
Definition to_int (z : Z) : Z := if u32 z <? 2 ^ 31 then u32 z else u32 z - 2 ^ 32.
(** Configuration.hpp l.839-854: [set] for [unsigned int]; for the comparison, the [int] is converted to [unsigned int]. *)
Definition set_unsigned (debug : bool) (root : setting D) (name : string) (value : Z) : setting D * option failure :=
  if u32 (to_int value) =? value then set debug root name (VInt (to_int value))
  else set debug root name (VInt64 value).
(** Configuration.hpp l.783-803: the loop of createAggregateSetting for a group or a list. *)
Fixpoint aggregate_loop (root : setting D) (currentSetting pathComponents : list string) (new : setting D) : setting D * option failure :=
  match pathComponents with
  | [] => (root, None)
  | currentName :: rest =>
    let current := pointee root currentSetting in
    if exists_ current currentName then
      match lookup root (lookup_path currentSetting currentName) with
      | Some _ => aggregate_loop root (currentSetting ++ [currentName]) rest new
      | None => (root, Some SettingNotFoundException)
      end
    else
      match add current currentName (match rest with [] => new | _ => Group [] end) with
      | Done added => aggregate_loop (replace root currentSetting added) (currentSetting ++ [currentName]) rest new
      | Fails f => (root, Some f)
      end
  end.
(** Configuration.hpp l.767-804. *)
Definition createAggregateSetting (root : setting D) (name : string) (new : setting D) : setting D * option failure :=
  if has root name then (root, Some GeneralException) else aggregate_loop root [] (split "." name) new.
(** Configuration.hpp l.719-722. *)
Definition createGroup (root : setting D) (name : string) : setting D * option failure := createAggregateSetting root name (Group []).
(** Configuration.hpp l.730-733. *)
Definition createList (root : setting D) (name : string) : setting D * option failure := createAggregateSetting root name (Listing []).
End Config.
