(** Model of the VTF snapshot files: the C++ class
    (include/OpenMPCD/VTFSnapshotFile.hpp, src/OpenMPCD/VTFSnapshotFile.cpp) and
    the Python class (Analysis/MPCDAnalysis/VTFSnapshotFile.py). *)
From Verif Require Export PyBase StrBase.
From Coq Require Export ZArith List Bool.
Open Scope string_scope.
Open Scope Z_scope.
Open Scope list_scope.

(** * Text *)

(** The separators of the tokenizers: " \t" (VTFSnapshotFile.cpp l.227, l.493). *)
Definition is_blank (a : ascii) : bool := Ascii.eqb a " " || Ascii.eqb a "009".
(** [\s] in a regular expression (VTFSnapshotFile.cpp l.421-445, l.490). *)
Definition is_ws (a : ascii) : bool :=
  Ascii.eqb a " " || (Nat.leb 9 (nat_of_ascii a) && Nat.leb (nat_of_ascii a) 13).
(** VTFSnapshotFile.cpp l.865-875. *)
Definition newline : ascii := "010".

(** [boost::tokenizer] with a [boost::char_separator]: the maximal runs of
    characters that are no separators.  Also [str.split()] of Python (VTFSnapshotFile.cpp l.227, l.493). *)
Fixpoint words (sep : ascii -> bool) (s : string) : list string :=
  match s with
  | EmptyString => []
  | String a r =>
    if sep a then words sep r
    else match r with
         | EmptyString => [String a EmptyString]
         | String b _ =>
           if sep b then String a EmptyString :: words sep r
           else match words sep r with
                | h :: t => String a h :: t
                | [] => [String a EmptyString]
                end
         end
  end.

(** [boost::regex_replace(line, "\\s*,\\s*", ", ")] (VTFSnapshotFile.cpp l.490-491, l.733-734):
    white space around commas becomes one space after the comma.  [pending] is
    the white space read that may turn out to precede a comma; [after] says that
    a comma precedes. *)
Fixpoint commas (pending : string) (after : bool) (s : string) : string :=
  match s with
  | EmptyString => pending
  | String a r =>
    if Ascii.eqb a "," then String "," (String " " (commas EmptyString true r))
    else if is_ws a then
      if after then commas EmptyString true r
      else commas (pending ++ String a EmptyString)%string false r
    else (pending ++ String a (commas EmptyString false r))%string
  end.
(** VTFSnapshotFile.cpp l.490-491, l.733-734. *)
Definition spread_commas (s : string) : string := commas EmptyString false s.

(** VTFSnapshotFile.cpp l.865-875. *)
Fixpoint stripLeadingWhitespace (s : string) : string :=
  match s with
  | EmptyString => EmptyString
  | String a r => if is_blank a || Ascii.eqb a newline then stripLeadingWhitespace r else s
  end.

(** The longest prefix of decimal digits, and the rest (VTFSnapshotFile.cpp l.497, l.740). *)
Fixpoint digits (s : string) : string * string :=
  match s with
  | String a r => if is_digit a then let (d, t) := digits r in (String a d, t) else (EmptyString, s)
  | EmptyString => (EmptyString, EmptyString)
  end.

(** [(,)?] at the end of a token (VTFSnapshotFile.cpp l.497-498, l.740). *)
Definition end_comma (s : string) : option bool :=
  if String.eqb s "" then Some false else if String.eqb s "," then Some true else None.

(** The regular expression [([0-9]+)(?::([0-9]+))?(,)?] (VTFSnapshotFile.cpp l.497). *)
Definition match_aid (s : string) : option (string * option string * bool) :=
  let (d, r) := digits s in
  if String.eqb d "" then None
  else match r with
       | String ":" r' =>
         let (e, t) := digits r' in
         if String.eqb e "" then None
         else option_map (fun c => (d, Some e, c)) (end_comma t)
       | _ => option_map (fun c => (d, None, c)) (end_comma r)
       end.
(** The regular expression [default(,)?] (VTFSnapshotFile.cpp l.498). *)
Definition match_default (s : string) : option bool :=
  if String.eqb s "default" then Some false
  else if String.eqb s "default," then Some true else None.
(** The regular expression [([0-9]+)(::?)([0-9]+)(,)?] (VTFSnapshotFile.cpp l.740); the boolean
    before the last says that there are two colons. *)
Definition match_bond (s : string) : option (string * bool * string * bool) :=
  let (d, r) := digits s in
  if String.eqb d "" then None
  else match r with
       | String ":" r' =>
         let (chain, r'') := match r' with String ":" q => (true, q) | _ => (false, r') end in
         let (e, t) := digits r'' in
         if String.eqb e "" then None
         else option_map (fun c => (d, chain, e, c)) (end_comma t)
       | _ => None
       end.

(** [lexicalCast<std::size_t>] of a string of digits
    (VTFSnapshotFile.hpp l.506-517). *)
Definition cast_id (s : string) : result Z :=
  match Z_of_str s with
  | Some z => if z <? 2 ^ 64 then Ok z else Err MalformedFileException
  | None => Err MalformedFileException
  end.

(** The lines of a text.  If the text ends in a line break there is an empty line
    at the end; all functions below skip empty lines, and do the same at an
    empty line as at the end of the file, so this does not matter ([std::getline], VTFSnapshotFile.cpp l.377-419, l.823-863). *)
Definition lines_of (s : string) : list string := StrBase.split newline s.

Section Vtf.

(** The floating-point type [FP]: numbers are only printed, read, and compared
    with 0 and -1. *)
Variable F : Type.
(** [file << x], with [digits10 + 2] digits (l.48). *)
Variable show : F -> string.
(** [lexicalCast<FP>]. *)
Variable cast : string -> option F.
(** [x < 0]. *)
Variable negative : F -> bool.
(** [x == -1]. *)
Variable minus_one : F -> bool.
(** [OPENMPCD_DEBUG] is defined. *)
Variable debug : bool.

(** [OPENMPCD_DEBUG_ASSERT] (OPENMPCD_DEBUG_ASSERT.hpp) (used in VTFSnapshotFile.cpp l.626-700). *)
Definition debug_assert (b : bool) : result unit :=
  if debug && negb b then Err AssertionError else Ok tt.

(** * Data *)

(** VTFSnapshotFile.hpp l.55-60. *)
Record properties := Props { p_radius : option F; p_name : option string; p_type : option string }.
(** VTFSnapshotFile.hpp l.353-358. *)
Record range := Range { r_first : Z; r_last : Z; r_props : properties }.
(** The fields that hold the structure block (VTFSnapshotFile.hpp l.519-536). *)
Record structure := Structure {
  volume : option (F * F * F);
  defaults : properties;
  ranges : list range;
  bonds : list (Z * Z)  (* in the order of [std::set] *) }.

(** VTFSnapshotFile.hpp l.55-60: no property is set. *)
Definition no_properties : properties := Props None None None.
(** VTFSnapshotFile.cpp l.19-24. *)
Definition new_structure : structure := Structure None no_properties [] [].

(** VTFSnapshotFile.hpp l.200-206. *)
Fixpoint atomCount (l : list range) : Z :=
  match l with
  | [] => 0
  | [r] => r_last r + 1
  | _ :: l' => atomCount l'
  end.
(** VTFSnapshotFile.hpp l.200-206. *)
Definition getNumberOfAtoms (s : structure) : Z := atomCount (ranges s).
(** VTFSnapshotFile.hpp l.214-217; atom IDs are unsigned. *)
Definition isValidAtomID (s : structure) (i : Z) : bool := i <? getNumberOfAtoms s.

(** VTFSnapshotFile.cpp l.137-150. *)
Fixpoint propertiesIn (l : list range) (i : Z) : result properties :=
  match l with
  | [] => Err OutOfBoundsException
  | r :: l' => if r_last r <? i then propertiesIn l' i else Ok (r_props r)
  end.
(** VTFSnapshotFile.cpp l.137-150. *)
Definition getAtomProperties (s : structure) (i : Z) : result properties := propertiesIn (ranges s) i.

(** The order of [std::pair], membership and insertion in [std::set] (used in VTFSnapshotFile.cpp l.152-188, l.789-814). *)
Definition pair_ltb (a b : Z * Z) : bool :=
  (fst a <? fst b) || ((fst a =? fst b) && (snd a <? snd b)).
(** Equality of [std::pair], used in VTFSnapshotFile.cpp l.152-188, l.789-814. *)
Definition pair_eqb (a b : Z * Z) : bool := (fst a =? fst b) && (snd a =? snd b).
(** [std::set::count], used in VTFSnapshotFile.cpp l.152-188, l.789-814. *)
Definition has_pair (b : Z * Z) (l : list (Z * Z)) : bool := existsb (pair_eqb b) l.
(** [std::set::insert], used in VTFSnapshotFile.cpp l.152-188, l.789-814. *)
Fixpoint insert_pair (b : Z * Z) (l : list (Z * Z)) : list (Z * Z) :=
  match l with
  | [] => [b]
  | c :: l' => if pair_ltb b c then b :: l else if pair_eqb b c then l else c :: insert_pair b l'
  end.
(** VTFSnapshotFile.cpp l.152-188: the smaller number first. *)
Definition ordered (a b : Z) : Z * Z := if b <? a then (b, a) else (a, b).

(** VTFSnapshotFile.cpp l.174-188. *)
Definition hasBond (s : structure) (a b : Z) : result bool :=
  if negb (isValidAtomID s a) || negb (isValidAtomID s b) then Err OutOfBoundsException
  else if a =? b then Err InvalidArgumentException
  else Ok (has_pair (ordered a b) (bonds s)).

(** * Writing *)

(** An instance in write mode (VTFSnapshotFile.hpp l.519-536). *)
Record writer := Writer {
  w_structure : structure;
  w_processed : bool;   (* [structureBlockProcessed] *)
  w_text : string }.    (* the contents of the file (VTFSnapshotFile.cpp l.19-57) *)
Definition new_writer : writer := Writer new_structure false "".

(** VTFSnapshotFile.cpp l.65-76. *)
Definition setPrimarySimulationVolumeSize (w : writer) (x y z : F) : result writer :=
  if w_processed w then Err InvalidCallException
  else let s := w_structure w in
       Ok (Writer (Structure (Some (x, y, z)) (defaults s) (ranges s) (bonds s)) false (w_text w)).

(** VTFSnapshotFile.cpp l.78-135: the common part. *)
Definition add_range (w : writer) (count : Z) (p : properties) : writer * (Z * Z) :=
  let s := w_structure w in
  let first := getNumberOfAtoms s in
  let last := first + count - 1 in
  (Writer (Structure (volume s) (defaults s) (ranges s ++ [Range first last p]) (bonds s))
          (w_processed w) (w_text w),
   (first, last)).
(** VTFSnapshotFile.cpp l.78-95. *)
Definition declareAtoms (w : writer) (count : Z) : result (writer * (Z * Z)) :=
  if w_processed w then Err InvalidCallException
  else if count =? 0 then Ok (w, (0, 0))
  else Ok (add_range w count (defaults (w_structure w))).
(** VTFSnapshotFile.cpp l.97-135. *)
Definition declareAtomsOf (w : writer) (count : Z) (radius : F) (name type : string)
  : result (writer * (Z * Z)) :=
  if w_processed w then Err InvalidCallException
  else if count =? 0 then Ok (w, (0, 0))
  else if negative radius && negb (minus_one radius) then Err InvalidArgumentException
  else if Nat.ltb 16 (String.length name) then Err InvalidArgumentException
  else if Nat.ltb 16 (String.length type) then Err InvalidArgumentException
  else
    let d := defaults (w_structure w) in
    Ok (add_range w count
         (Props (if minus_one radius then p_radius d else Some radius)
                (if String.eqb name "" then p_name d else Some name)
                (if String.eqb type "" then p_type d else Some type))).
(** VTFSnapshotFile.cpp l.152-172. *)
Definition declareBond (w : writer) (a b : Z) : result writer :=
  let s := w_structure w in
  if w_processed w then Err InvalidCallException
  else if negb (isValidAtomID s a) || negb (isValidAtomID s b) then Err OutOfBoundsException
  else if a =? b then Err InvalidArgumentException
  else if has_pair (ordered a b) (bonds s) then Err InvalidArgumentException
  else Ok (Writer (Structure (volume s) (defaults s) (ranges s) (insert_pair (ordered a b) (bonds s)))
                  false (w_text w)).

(** [std::endl] and "\n", VTFSnapshotFile.cpp l.357-375. *)
Definition eol : string := String newline EmptyString.
(** VTFSnapshotFile.cpp l.362-368. *)
Definition volume_text (v : option (F * F * F)) : string :=
  match v with
  | Some (x, y, z) => ("pbc " ++ show x ++ " " ++ show y ++ " " ++ show z ++ eol)%string
  | None => ""
  end.
(** VTFSnapshotFile.cpp l.460-483: one optional property. *)
Definition option_text {A} (key : string) (f : A -> string) (o : option A) : string :=
  match o with Some a => (key ++ f a)%string | None => "" end.
(** VTFSnapshotFile.cpp l.460-483. *)
Definition atom_text (r : range) : string :=
  ("atom " ++ str_of_Z (r_first r) ++
   (if Z.eqb (r_first r) (r_last r) then "" else ":" ++ str_of_Z (r_last r)) ++
   option_text " name " (fun n => n) (p_name (r_props r)) ++
   option_text " type " (fun t => t) (p_type (r_props r)) ++
   option_text " radius " show (p_radius (r_props r)) ++ eol)%string.
(** VTFSnapshotFile.cpp l.718-726. *)
Definition bond_text (b : Z * Z) : string :=
  ("bond " ++ str_of_Z (fst b) ++ ":" ++ str_of_Z (snd b) ++ eol)%string.
(** Output in sequence, VTFSnapshotFile.cpp l.357-375. *)
Definition concat_text (l : list string) : string := String.concat "" l.
(** VTFSnapshotFile.cpp l.357-375. *)
Definition structure_text (s : structure) : string :=
  (volume_text (volume s) ++ concat_text (map atom_text (ranges s)) ++
   concat_text (map bond_text (bonds s)))%string.
(** VTFSnapshotFile.cpp l.357-375. *)
Definition writeStructureBlock (w : writer) : writer :=
  Writer (w_structure w) true (w_text w ++ structure_text (w_structure w))%string.

(** The numbers of the atoms, VTFSnapshotFile.cpp l.190-218. *)
Definition atom_ids (n : Z) : list Z := map Z.of_nat (seq 0 (Z.to_nat n)).
(** The three numbers of an atom in an array (VTFSnapshotFile.cpp l.205-216). *)
Definition triple_text (a : Z -> F) (i : Z) : string :=
  (show (a (3 * i)) ++ " " ++ show (a (3 * i + 1)) ++ " " ++ show (a (3 * i + 2)))%string.
(** VTFSnapshotFile.cpp l.205-216. *)
Definition atom_row_text (positions : Z -> F) (velocities : option (Z -> F)) (i : Z) : string :=
  (triple_text positions i ++
   match velocities with Some v => " " ++ triple_text v i | None => "" end ++ eol)%string.
(** VTFSnapshotFile.cpp l.190-218; arrays are functions of the index.  The case of a null pointer
    [positions] is left out. *)
Definition writeTimestepBlock (w : writer) (positions : Z -> F) (velocities : option (Z -> F)) : writer :=
  let w' := if w_processed w then w else writeStructureBlock w in
  Writer (w_structure w') true
    (w_text w' ++ "timestep" ++ eol ++
     concat_text (map (atom_row_text positions velocities) (atom_ids (getNumberOfAtoms (w_structure w')))))%string.
(** VTFSnapshotFile.cpp l.59-63: the contents of the file after the instance is destroyed. *)
Definition file_contents (w : writer) : string :=
  w_text (if w_processed w then w else writeStructureBlock w).

(** * Reading *)

(** VTFSnapshotFile.cpp l.702-716: the loop. *)
Fixpoint contiguousFrom (n : Z) (l : list range) : bool :=
  match l with
  | [] => true
  | r :: l' => (r_first r =? n) && (r_first r <=? r_last r) && contiguousFrom (r_last r + 1) l'
  end.
(** VTFSnapshotFile.cpp l.702-716. *)
Definition assertAtomRangesContiguous (l : list range) : result unit :=
  if contiguousFrom 0 l then Ok tt else Err RuntimeError.
(** VTFSnapshotFile.cpp l.665-685: remove what the range covers, shorten the next range, insert. *)
Fixpoint cover (r : range) (l : list range) : result (list range) :=
  match l with
  | [] => Ok [r]
  | it :: l' =>
    if r_last it <=? r_last r then cover r l'
    else
      do _ <- debug_assert (r_first r <=? r_first it);
      do _ <- debug_assert (r_first it <=? r_last r);
      do _ <- debug_assert (r_last r <? r_last it);
      Ok (r :: Range (r_last r + 1) (r_last it) (r_props it) :: l')
  end.
(** VTFSnapshotFile.cpp l.647-686; [None] if the loop ends without return. *)
Fixpoint replace_range (r : range) (l : list range) : result (option (list range)) :=
  match l with
  | [] => Ok None
  | it :: l' =>
    if r_last it <? r_first r then
      do o <- replace_range r l'; Ok (option_map (cons it) o)
    else
      do _ <- debug_assert (r_first it <=? r_first r);
      let inside := r_first it <? r_first r in
      let it' := if inside then Range (r_first r) (r_last it) (r_props it) else it in
      do _ <- debug_assert (r_first r =? r_first it');
      do l'' <- cover r (it' :: l');
      Ok (Some ((if inside then [Range (r_first it) (r_first r - 1) (r_props it)] else []) ++ l''))
  end.
(** VTFSnapshotFile.cpp l.626-700; [d] are the default properties. *)
Definition setAtomRange (d : properties) (l : list range) (r : range) : result (list range) :=
  do _ <- assertAtomRangesContiguous l;
  do _ <- debug_assert (r_first r <=? r_last r);
  let l1 := match l with
            | [] => (if r_first r =? 0 then [] else [Range 0 (r_first r - 1) d]) ++ [r]
            | _ => l
            end in
  do o <- replace_range r l1;
  match o with
  | Some l2 => Ok l2
  | None =>
    let n := atomCount l1 in
    Ok (l1 ++ (if n <? r_first r then [Range n (r_first r - 1) d] else []) ++ [r])
  end.

(** VTFSnapshotFile.cpp l.502, l.556-572: the expected property. *)
Inductive option_name := OptName | OptType | OptRadius.
(** VTFSnapshotFile.cpp l.556-572. *)
Definition option_of (t : string) : option option_name :=
  if String.eqb t "n" || String.eqb t "name" then Some OptName
  else if String.eqb t "t" || String.eqb t "type" then Some OptType
  else if String.eqb t "r" || String.eqb t "radius" then Some OptRadius
  else None.
(** VTFSnapshotFile.cpp l.577-604. *)
Definition set_option (p : properties) (o : option_name) (t : string) : result properties :=
  match o with
  | OptName => if Nat.ltb 16 (String.length t) then Err MalformedFileException
               else Ok (Props (p_radius p) (Some t) (p_type p))
  | OptType => if Nat.ltb 16 (String.length t) then Err MalformedFileException
               else Ok (Props (p_radius p) (p_name p) (Some t))
  | OptRadius => match cast t with
                 | Some x => if negative x then Err MalformedFileException
                             else Ok (Props (Some x) (p_name p) (p_type p))
                 | None => Err MalformedFileException
                 end
  end.

(** The local variables of [readAtomLine] (VTFSnapshotFile.cpp l.500-504). *)
Record atom_line := AtomLine {
  al_props : properties; al_ranges : list (Z * Z); al_option : option option_name;
  al_default : bool; al_expect : bool }.
(** One token (VTFSnapshotFile.cpp l.505-608). *)
Definition atom_token (st : atom_line) (t : string) : result atom_line :=
  match al_expect st, match_default t, match_aid t with
  | true, Some c, _ => Ok (AtomLine (al_props st) (al_ranges st) (al_option st) true c)
  | true, None, Some (a, b, c) =>
    do first <- cast_id a;
    do last <- match b with Some b' => cast_id b' | None => Ok first end;
    if last <? first then Err MalformedFileException
    else Ok (AtomLine (al_props st) (al_ranges st ++ [(first, last)]) (al_option st) (al_default st) c)
  | true, None, None => Err MalformedFileException
  | false, _, _ =>
    match al_option st with
    | None => match option_of t with
              | Some o => Ok (AtomLine (al_props st) (al_ranges st) (Some o) (al_default st) false)
              | None => Err MalformedFileException
              end
    | Some o => do p <- set_option (al_props st) o t;
                Ok (AtomLine p (al_ranges st) None (al_default st) false)
    end
  end.
(** VTFSnapshotFile.cpp l.505-608: the loop over tokens. *)
Fixpoint atom_tokens (st : atom_line) (l : list string) : result atom_line :=
  match l with [] => Ok st | t :: l' => do st' <- atom_token st t; atom_tokens st' l' end.
(** VTFSnapshotFile.cpp l.616-623: the loop over ranges. *)
Fixpoint set_ranges (d p : properties) (l : list range) (new : list (Z * Z)) : result (list range) :=
  match new with
  | [] => Ok l
  | (a, b) :: new' => do l' <- setAtomRange d l (Range a b p); set_ranges d p l' new'
  end.
(** The tokens after the optional keyword (VTFSnapshotFile.cpp l.507-508, l.745-746). *)
Definition arguments (keys : list string) (line : string) : list string :=
  match words is_blank (spread_commas line) with
  | [] => []
  | t :: l => if existsb (String.eqb t) keys then l else t :: l
  end.
(** VTFSnapshotFile.cpp l.485-624. *)
Definition readAtomLine (s : structure) (line : string) : result structure :=
  do st <- atom_tokens (AtomLine (defaults s) [] None false true) (arguments ["a"; "atom"] line);
  match al_option st with
  | Some _ => Err MalformedFileException
  | None =>
    let d := if al_default st then al_props st else defaults s in
    do l <- set_ranges d (al_props st) (ranges s) (al_ranges st);
    Ok (Structure (volume s) d l (bonds s))
  end.

(** VTFSnapshotFile.cpp l.789-798, l.805-814. *)
Definition add_bond (l : list (Z * Z)) (b : Z * Z) : result (list (Z * Z)) :=
  if has_pair b l then Err MalformedFileException else Ok (insert_pair b l).
(** VTFSnapshotFile.cpp l.782-815: the loop over bonds. *)
Fixpoint add_bonds (l new : list (Z * Z)) : result (list (Z * Z)) :=
  match new with [] => Ok l | b :: new' => do l' <- add_bond l b; add_bonds l' new' end.
(** VTFSnapshotFile.cpp l.784-787: the bonds of a chain. *)
Definition chain (first last : Z) : list (Z * Z) :=
  map (fun i => (first + i, first + i + 1)) (atom_ids (last - first)).
(** VTFSnapshotFile.cpp l.743-820; [expect] is [expectBondSpecifier]. *)
Fixpoint bond_tokens (n : Z) (l : list (Z * Z)) (expect : bool) (ts : list string)
  : result (list (Z * Z)) :=
  match ts with
  | [] => Ok l
  | t :: ts' =>
    if negb expect then Err MalformedFileException
    else match match_bond t with
         | None => Err MalformedFileException
         | Some (a, c, b, comma) =>
           do first <- cast_id a;
           do last <- cast_id b;
           if last <=? first then Err MalformedFileException
           else if negb (first <? n) || negb (last <? n) then Err MalformedFileException
           else do l' <- add_bonds l (if c then chain first last else [(first, last)]);
                bond_tokens n l' comma ts'
         end
  end.
(** VTFSnapshotFile.cpp l.728-821. *)
Definition readBondLine (s : structure) (line : string) : result structure :=
  do b <- bond_tokens (getNumberOfAtoms s) (bonds s) true (arguments ["b"; "bond"] line);
  Ok (Structure (volume s) (defaults s) (ranges s) b).

(** [lexicalCast], VTFSnapshotFile.hpp l.506-517. *)
Definition cast_number (t : string) : result F :=
  match cast t with Some x => Ok x | None => Err MalformedFileException end.
(** VTFSnapshotFile.cpp l.453-457. *)
Definition set_volume (s : structure) (a b c : string) : result structure :=
  do x <- cast_number a;
  do y <- cast_number b;
  do z <- cast_number c;
  Ok (Structure (Some (x, y, z)) (defaults s) (ranges s) (bonds s)).
(** VTFSnapshotFile.cpp l.421-458: the regular expression says that the line consists of the keyword
    and three or six more words. *)
Definition readUnitcellLine (s : structure) (line : string) : result structure :=
  match words is_ws line with
  | key :: args =>
    if existsb (String.eqb key) ["p"; "pbc"; "u"; "unitcell"] then
      match args with
      | [a; b; c] => set_volume s a b c
      | [a; b; c; _; _; _] => set_volume s a b c
      | _ => Err MalformedFileException
      end
    else Err MalformedFileException
  | [] => Err MalformedFileException
  end.

(** VTFSnapshotFile.cpp l.377-419; also returns the lines that are not consumed. *)
Fixpoint readStructureBlock (s : structure) (ls : list string) : result (structure * list string) :=
  match ls with
  | [] => Ok (s, [])
  | l :: ls' =>
    match stripLeadingWhitespace l with
    | EmptyString => readStructureBlock s ls'
    | String c _ as line =>
      if Ascii.eqb c "#" then readStructureBlock s ls'
      else if Ascii.eqb c "b" then do s' <- readBondLine s line; readStructureBlock s' ls'
      else if Ascii.eqb c "p" || Ascii.eqb c "u"
      then do s' <- readUnitcellLine s line; readStructureBlock s' ls'
      else if existsb (Ascii.eqb c) ["t"; "c"; "i"; "o"]%char then Ok (s, ls)
      else do s' <- readAtomLine s line; readStructureBlock s' ls'
    end
  end.
(** The constructor for an existing file (VTFSnapshotFile.cpp l.19-57). *)
Definition open_file (contents : string) : result (structure * list string) :=
  readStructureBlock new_structure (lines_of contents).

(** VTFSnapshotFile.cpp l.232-238: the next line that is not empty, and the lines after it. *)
Fixpoint next_line (ls : list string) : option (string * list string) :=
  match ls with
  | [] => None
  | l :: ls' => match stripLeadingWhitespace l with
                | EmptyString => next_line ls'
                | String _ _ as line => Some (line, ls')
                end
  end.
(** VTFSnapshotFile.cpp l.240-266. *)
Definition check_header (line : string) : result unit :=
  match words is_blank line with
  | t :: rest =>
    if existsb (String.eqb t) ["t"; "timestep"; "c"; "coordinates"] then
      match rest with
      | [] => Ok tt
      | [u] => if existsb (String.eqb u) ["i"; "indexed"] then Err UnimplementedException
               else if existsb (String.eqb u) ["o"; "ordered"] then Ok tt
               else Err MalformedFileException
      | _ => Err MalformedFileException
      end
    else Ok tt
  | [] => Ok tt
  end.
(** VTFSnapshotFile.cpp l.287-296: the numbers of a row. *)
Fixpoint cast_all (ts : list string) : result (list F) :=
  match ts with
  | [] => Ok []
  | t :: ts' => do x <- cast_number t; do l <- cast_all ts'; Ok (x :: l)
  end.
(** VTFSnapshotFile.cpp l.284-309, with both arrays given: three or six numbers. *)
Definition read_row (line : string) : result (list F) :=
  let ts := words is_blank line in
  do xs <- cast_all (firstn 6 ts);
  if Nat.eqb (length ts) 3 || Nat.eqb (length ts) 6 then Ok xs else Err MalformedFileException.
(** VTFSnapshotFile.cpp l.274-312: at most [k] rows, and the remaining lines. *)
Fixpoint read_rows (k : nat) (ls : list string) {struct ls} : result (list (list F) * list string) :=
  match k with
  | O => Ok ([], ls)
  | Datatypes.S k' =>
    match ls with
    | [] => Ok ([], [])
    | l :: ls' =>
      match stripLeadingWhitespace l with
      | EmptyString => read_rows k ls'
      | String _ _ as line =>
        do x <- read_row line;
        do (xs, rest) <- read_rows k' ls';
        Ok (x :: xs, rest)
      end
    end
  end.
(** VTFSnapshotFile.cpp l.220-331 for [n] atoms: [None] if [false] is returned, otherwise the rows; and
    the lines that are not consumed. *)
Definition readTimestepBlock (n : Z) (ls : list string)
  : result (option (list (list F)) * list string) :=
  match next_line ls with
  | None => Ok (None, [])
  | Some (line, ls') =>
    do _ <- check_header line;
    if n =? 0 then Ok (Some [], ls')
    else
      do (rows, rest) <- read_rows (Z.to_nat n) ls';
      match rows with
      | [] => Ok (None, rest)
      | _ =>
        if existsb (fun x => Nat.eqb (length x) 3) rows && existsb (fun x => Nat.eqb (length x) 6) rows
        then Err MalformedFileException
        else if negb (Z.of_nat (length rows) =? n) then Err MalformedFileException
        else Ok (Some rows, rest)
      end
  end.

End Vtf.

Arguments no_properties {F}.
Arguments new_structure {F}.
Arguments atomCount {F}.
Arguments getNumberOfAtoms {F}.
Arguments isValidAtomID {F}.
Arguments propertiesIn {F}.
Arguments getAtomProperties {F}.
Arguments hasBond {F}.
Arguments new_writer {F}.
Arguments setPrimarySimulationVolumeSize {F}.
Arguments add_range {F}.
Arguments declareAtoms {F}.
Arguments declareAtomsOf {F}.
Arguments declareBond {F}.
Arguments volume_text {F}.
Arguments atom_text {F}.
Arguments structure_text {F}.
Arguments writeStructureBlock {F}.
Arguments triple_text {F}.
Arguments atom_row_text {F}.
Arguments writeTimestepBlock {F}.
Arguments file_contents {F}.
Arguments contiguousFrom {F}.
Arguments assertAtomRangesContiguous {F}.
Arguments cover {F}.
Arguments replace_range {F}.
Arguments setAtomRange {F}.
Arguments set_option {F}.
Arguments atom_token {F}.
Arguments atom_tokens {F}.
Arguments set_ranges {F}.
Arguments readAtomLine {F}.
Arguments readBondLine {F}.
Arguments cast_number {F}.
Arguments set_volume {F}.
Arguments readUnitcellLine {F}.
Arguments readStructureBlock {F}.
Arguments open_file {F}.
Arguments cast_all {F}.
Arguments read_row {F}.
Arguments read_rows {F}.
Arguments readTimestepBlock {F}.
Arguments Props {F}.
Arguments p_radius {F}.
Arguments p_name {F}.
Arguments p_type {F}.
Arguments Range {F}.
Arguments r_first {F}.
Arguments r_last {F}.
Arguments r_props {F}.
Arguments Structure {F}.
Arguments volume {F}.
Arguments defaults {F}.
Arguments ranges {F}.
Arguments bonds {F}.
Arguments Writer {F}.
Arguments w_structure {F}.
Arguments w_processed {F}.
Arguments w_text {F}.
Arguments AtomLine {F}.
Arguments al_props {F}.
Arguments al_ranges {F}.
Arguments al_option {F}.
Arguments al_default {F}.
Arguments al_expect {F}.
