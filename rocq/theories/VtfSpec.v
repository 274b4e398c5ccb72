(** What users of snapshot files rely on, stated per atom, without ranges, tokens
    or files. *)
From Verif Require Export VtfModel.
Open Scope string_scope.
Open Scope Z_scope.
Open Scope list_scope.

(** * Text *)

(** No white space and no comma. *)
Definition plain (s : string) : bool := all_chars (fun a => negb (is_ws a) && negb (Ascii.eqb a ",")) s.
(** No white space. *)
Definition no_space (s : string) : bool := all_chars (fun a => negb (is_ws a)) s.

(** Numbers are printed without white space and commas, and what is printed is
    read back as the same number. *)
Definition prints {F} (show : F -> string) (cast : string -> option F) : Prop :=
  forall x, cast (show x) = Some x /\ show x <> "" /\ plain (show x) = true.

(** * What is declared *)

(** The calls that change an instance in write mode. *)
Inductive call (F : Type) :=
| CallVolume (x y z : F)
| CallAtoms (count : Z)
| CallAtomsOf (count : Z) (radius : F) (name type : string)
| CallBond (a b : Z)
| CallTimestep (positions : Z -> F) (velocities : option (Z -> F)).
Arguments CallVolume {F}.
Arguments CallAtoms {F}.
Arguments CallAtomsOf {F}.
Arguments CallBond {F}.
Arguments CallTimestep {F}.

(** One call; a call that throws changes nothing. *)
Definition perform {F} (show : F -> string) (negative minus_one : F -> bool) (w : writer F) (c : call F)
  : writer F :=
  match c with
  | CallVolume x y z =>
    match setPrimarySimulationVolumeSize w x y z with Ok w' => w' | Err _ => w end
  | CallAtoms n => match declareAtoms w n with Ok (w', _) => w' | Err _ => w end
  | CallAtomsOf n r name type =>
    match declareAtomsOf negative minus_one w n r name type with Ok (w', _) => w' | Err _ => w end
  | CallBond a b => match declareBond w a b with Ok w' => w' | Err _ => w end
  | CallTimestep p v => writeTimestepBlock show w p v
  end.
(** The file that results from a sequence of calls. *)
Definition written {F} (show : F -> string) (negative minus_one : F -> bool) (l : list (call F)) : string :=
  file_contents show (fold_left (perform show negative minus_one) l new_writer).

(** What has been declared: the properties of each atom, the bonds, the size of
    the volume, and the timesteps. *)
Record contents (F : Type) := Contents {
  c_atoms : list (properties F);
  c_bonds : list (Z * Z);
  c_volume : option (F * F * F);
  c_steps : list ((Z -> F) * option (Z -> F)) }.
Arguments Contents {F}.
Arguments c_atoms {F}.
Arguments c_bonds {F}.
Arguments c_volume {F}.
Arguments c_steps {F}.

Definition given {A} (default : bool) (a : A) : option A := if default then None else Some a.
Definition bonded (l : list (Z * Z)) (a b : Z) : bool :=
  existsb (fun c => ((fst c =? a) && (snd c =? b)) || ((fst c =? b) && (snd c =? a))) l.
Definition declare {F} (negative minus_one : F -> bool) (c : contents F) (k : call F) : contents F :=
  let open := match c_steps c with [] => true | _ => false end in
  let n := Z.of_nat (length (c_atoms c)) in
  match k with
  | CallVolume x y z =>
    if open then Contents (c_atoms c) (c_bonds c) (Some (x, y, z)) (c_steps c) else c
  | CallAtoms count =>
    if open then Contents (c_atoms c ++ repeat no_properties (Z.to_nat count)) (c_bonds c) (c_volume c) (c_steps c)
    else c
  | CallAtomsOf count r name type =>
    if open && (minus_one r || negb (negative r)) &&
       (String.length name <=? 16)%nat && (String.length type <=? 16)%nat
    then Contents (c_atoms c ++ repeat (Props (given (minus_one r) r) (given (String.eqb name "") name)
                                               (given (String.eqb type "") type)) (Z.to_nat count))
                  (c_bonds c) (c_volume c) (c_steps c)
    else c
  | CallBond a b =>
    if open && (a <? n) && (b <? n) && negb (a =? b) && negb (bonded (c_bonds c) a b)
    then Contents (c_atoms c) (c_bonds c ++ [(a, b)]) (c_volume c) (c_steps c)
    else c
  | CallTimestep p v => Contents (c_atoms c) (c_bonds c) (c_volume c) (c_steps c ++ [(p, v)])
  end.
Definition declared {F} (negative minus_one : F -> bool) (l : list (call F)) : contents F :=
  fold_left (declare negative minus_one) l (Contents [] [] None []).

(** Arguments are unsigned. *)
Definition unsigned {F} (c : call F) : Prop :=
  match c with
  | CallAtoms n => 0 <= n
  | CallAtomsOf n _ _ _ => 0 <= n
  | CallBond a b => 0 <= a /\ 0 <= b
  | _ => True
  end.
(** Names and types contain neither white space nor commas. *)
Definition plain_names {F} (c : call F) : Prop :=
  match c with
  | CallAtomsOf _ _ name type => plain name = true /\ plain type = true
  | _ => True
  end.
(** Names and types are as documented (VTFSnapshotFile.hpp l.182-187). *)
Definition documented_names {F} (c : call F) : Prop :=
  match c with
  | CallAtomsOf _ _ name type =>
    no_space name = true /\ no_space type = true /\
    (String.length name <= 16)%nat /\ (String.length type <= 16)%nat
  | _ => True
  end.

(** The numbers of a timestep, atom by atom. *)
Definition step_rows {F} (n : nat) (step : (Z -> F) * option (Z -> F)) : list (list F) :=
  map (fun k => let i := 3 * Z.of_nat k in
                [fst step i; fst step (i + 1); fst step (i + 2)] ++
                match snd step with Some v => [v i; v (i + 1); v (i + 2)] | None => [] end) (seq 0 n).

(** Reading the timesteps one after another gives these rows, and then [false]. *)
Fixpoint reads_steps {F} (cast : string -> option F) (n : Z) (ls : list string) (steps : list (list (list F)))
  : Prop :=
  match steps with
  | [] => exists rest, readTimestepBlock cast n ls = Ok (None, rest)
  | rows :: steps' =>
    exists rest, readTimestepBlock cast n ls = Ok (Some rows, rest) /\ reads_steps cast n rest steps'
  end.

(** A structure block describes these contents. *)
Definition describes {F} (s : structure F) (c : contents F) : Prop :=
  getNumberOfAtoms s = Z.of_nat (length (c_atoms c)) /\
  (forall i p, nth_error (c_atoms c) i = Some p -> getAtomProperties s (Z.of_nat i) = Ok p) /\
  (forall a b, 0 <= a < Z.of_nat (length (c_atoms c)) -> 0 <= b < Z.of_nat (length (c_atoms c)) -> a <> b ->
     hasBond s a b = Ok (bonded (c_bonds c) a b)) /\
  volume s = c_volume c.

(** * Lines of a structure block *)

(** The ranges are contiguous and start at [n]. *)
Fixpoint contiguous {F} (n : Z) (l : list (range F)) : Prop :=
  match l with
  | [] => True
  | r :: l' => r_first r = n /\ n <= r_last r /\ contiguous (r_last r + 1) l'
  end.

(** What an atom line is about, and what it says. *)
Inductive target := ToDefault | ToAtoms (a b : Z).
Inductive setting (F : Type) := SetName (short : bool) (n : string) | SetType (short : bool) (t : string)
  | SetRadius (short : bool) (x : F).
Arguments SetName {F}.
Arguments SetType {F}.
Arguments SetRadius {F}.

Definition target_text (t : target) : string :=
  match t with
  | ToDefault => "default"
  | ToAtoms a b => if a =? b then str_of_Z a else (str_of_Z a ++ ":" ++ str_of_Z b)%string
  end.
Fixpoint target_words (l : list target) : list string :=
  match l with
  | [] => []
  | [t] => [target_text t]
  | t :: l' => (target_text t ++ ",")%string :: target_words l'
  end.
Definition setting_words {F} (show : F -> string) (s : setting F) : list string :=
  match s with
  | SetName short n => [if short then "n" else "name"; n]
  | SetType short t => [if short then "t" else "type"; t]
  | SetRadius short x => [if short then "r" else "radius"; show x]
  end.
(** The text of an atom line; the keyword may be left out. *)
Definition atom_line_text {F} (show : F -> string) (key : list string) (targets : list target)
  (settings : list (setting F)) : string :=
  join " " (key ++ target_words targets ++ flat_map (setting_words show) settings).
Definition atom_key (key : list string) : Prop := key = [] \/ key = ["a"] \/ key = ["atom"].

Definition apply_setting {F} (p : properties F) (s : setting F) : properties F :=
  match s with
  | SetName _ n => Props (p_radius p) (Some n) (p_type p)
  | SetType _ t => Props (p_radius p) (p_name p) (Some t)
  | SetRadius _ x => Props (Some x) (p_name p) (p_type p)
  end.
Definition legal_setting {F} (negative : F -> bool) (s : setting F) : Prop :=
  match s with
  | SetName _ n => plain n = true /\ n <> "" /\ (String.length n <= 16)%nat
  | SetType _ t => plain t = true /\ t <> "" /\ (String.length t <= 16)%nat
  | SetRadius _ x => negative x = false
  end.
Definition legal_target (t : target) : Prop :=
  match t with ToDefault => True | ToAtoms a b => 0 <= a <= b /\ b < 2 ^ 64 - 1 end.
Definition is_default (t : target) : bool := match t with ToDefault => true | _ => false end.
Definition hits (i : Z) (t : target) : bool :=
  match t with ToDefault => false | ToAtoms a b => (a <=? i) && (i <=? b) end.
Definition target_end (t : target) : Z := match t with ToDefault => 0 | ToAtoms _ b => b + 1 end.

(** The bonds that a bond line mentions. *)
Inductive bond_spec := OneBond (a b : Z) | BondChain (a b : Z).
Definition bond_spec_text (s : bond_spec) : string :=
  match s with
  | OneBond a b => (str_of_Z a ++ ":" ++ str_of_Z b)%string
  | BondChain a b => (str_of_Z a ++ "::" ++ str_of_Z b)%string
  end.
Fixpoint bond_spec_words (l : list bond_spec) : list string :=
  match l with
  | [] => []
  | [s] => [bond_spec_text s]
  | s :: l' => (bond_spec_text s ++ ",")%string :: bond_spec_words l'
  end.
Definition bond_line_text (key : list string) (l : list bond_spec) : string := join " " (key ++ bond_spec_words l).
Definition legal_bond (n : Z) (s : bond_spec) : Prop :=
  match s with OneBond a b | BondChain a b => 0 <= a < b /\ b < n /\ b < 2 ^ 64 end.
(** The numbers fit. *)
Definition numeric_bond (s : bond_spec) : Prop :=
  match s with OneBond a b | BondChain a b => 0 <= a < 2 ^ 64 /\ 0 <= b < 2 ^ 64 end.
(** The pair of IDs [a < b] is mentioned. *)
Definition mentions (s : bond_spec) (a b : Z) : bool :=
  match s with
  | OneBond c d => (c =? a) && (d =? b)
  | BondChain c d => (c <=? a) && (b <=? d) && (b =? a + 1)
  end.
(** No two of the specifications mention the same pair. *)
Fixpoint separate (l : list bond_spec) : Prop :=
  match l with
  | [] => True
  | s :: l' => (forall t a b, In t l' -> mentions s a b = true -> mentions t a b = false) /\ separate l'
  end.
(** The bonds of a structure block are as [std::set] keeps them. *)
Fixpoint sorted_pairs (l : list (Z * Z)) : Prop :=
  match l with
  | [] => True
  | b :: l' => (forall c, In c l' -> pair_ltb b c = true) /\ sorted_pairs l'
  end.

(** * Numbers for the examples *)

(** Integers as numbers. *)
Definition z_negative (z : Z) : bool := z <? 0.
Definition z_minus_one (z : Z) : bool := z =? -1.

(** * Structure blocks written by hand *)

(** Lines of a structure block. *)
Inductive file_line (F : Type) :=
| LAtoms (key : list string) (targets : list target) (settings : list (setting F))
| LBonds (short : bool) (specs : list bond_spec)
| LRemark (text : string).
Arguments LAtoms {F}.
Arguments LBonds {F}.
Arguments LRemark {F}.
Definition line_text {F} (show : F -> string) (l : file_line F) : string :=
  match l with
  | LAtoms key targets settings => atom_line_text show key targets settings
  | LBonds short specs => bond_line_text [if short then "b" else "bond"] specs
  | LRemark text => ("#" ++ text)%string
  end.
Definition bonds_of (s : bond_spec) : list (Z * Z) :=
  match s with
  | OneBond a b => [(a, b)]
  | BondChain a b => map (fun k => (a + Z.of_nat k, a + Z.of_nat k + 1)) (seq 0 (Z.to_nat (b - a)))
  end.
(** What has been said so far: the default properties, and the contents. *)
Definition said (F : Type) : Type := properties F * contents F.
Definition count_said {F} (st : said F) : Z := Z.of_nat (length (c_atoms (snd st))).
Definition say {F} (st : said F) (l : file_line F) : said F :=
  let (d, c) := st in
  match l with
  | LAtoms _ targets settings =>
    let p := fold_left apply_setting settings d in
    let d' := if existsb is_default targets then p else d in
    let n := fold_left Z.max (map target_end targets) (count_said st) in
    (d', Contents (map (fun i => if existsb (hits (Z.of_nat i)) targets then p else nth i (c_atoms c) d')
                       (seq 0 (Z.to_nat n)))
                  (c_bonds c) (c_volume c) (c_steps c))
  | LBonds _ specs => (d, Contents (c_atoms c) (c_bonds c ++ flat_map bonds_of specs) (c_volume c) (c_steps c))
  | LRemark _ => st
  end.
(** A line that is documented to be legal at this point. *)
Definition legal_line {F} (negative : F -> bool) (st : said F) (l : file_line F) : Prop :=
  match l with
  | LAtoms key targets settings =>
    atom_key key /\ targets <> [] /\ Forall legal_target targets /\ Forall (legal_setting negative) settings
  | LBonds _ specs =>
    Forall (legal_bond (count_said st)) specs /\ separate specs /\
    forall s a b, In s specs -> mentions s a b = true -> bonded (c_bonds (snd st)) a b = false
  | LRemark text => has_char newline text = false
  end.
Fixpoint legal_lines {F} (negative : F -> bool) (st : said F) (ls : list (file_line F)) : Prop :=
  match ls with
  | [] => True
  | l :: ls' => legal_line negative st l /\ legal_lines negative (say st l) ls'
  end.
Definition nothing_said {F} : said F := (no_properties, Contents [] [] None []).
(** The file with these lines. *)
Definition block_text {F} (show : F -> string) (ls : list (file_line F)) : string :=
  fold_right (fun l r => (line_text show l ++ String newline r)%string) EmptyString ls.

(** * Timestep blocks *)

Definition row_text {F} (show : F -> string) (xs : list F) : string := join " " (map show xs).
Definition ordered_header (h : string) : Prop :=
  exists a b, In a ["t"; "timestep"; "c"; "coordinates"] /\ In b [[]; ["o"]; ["ordered"]] /\ h = join " " (a :: b).
Definition indexed_header (h : string) : Prop :=
  exists a b, In a ["t"; "timestep"; "c"; "coordinates"] /\ In b ["i"; "indexed"] /\ h = (a ++ " " ++ b)%string.
Definition bad_row {F} (xs : list F) : bool := negb (Nat.eqb (length xs) 3) && negb (Nat.eqb (length xs) 6).
Definition with_velocity {F} (xs : list F) : bool := Nat.eqb (length xs) 6.
(** Some rows have velocities, and some do not. *)
Definition mixed {F} (rows : list (list F)) : bool :=
  existsb with_velocity rows && negb (forallb with_velocity rows).
(** What a block with these rows means for [n] atoms. *)
Definition block_meaning {F} (show : F -> string) (n : nat) (rows : list (list F))
  : result (option (list (list F)) * list string) :=
  if existsb bad_row (firstn n rows) then Err MalformedFileException
  else match rows with
       | [] => Ok (None, [])
       | _ => if mixed (firstn n rows) || (length rows <? n)%nat then Err MalformedFileException
              else Ok (Some (firstn n rows), map (row_text show) (skipn n rows))
       end.
