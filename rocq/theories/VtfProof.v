(** Writing a snapshot file and reading it back. *)
From Verif Require Import VtfSpec VtfTextProof VtfRangeProof VtfLineProof.
From Coq Require Import Lia.
Open Scope string_scope.
Open Scope Z_scope.
Open Scope list_scope.

Section RoundTrip.
Variable F : Type.
Variable show : F -> string.
Variable cast : string -> option F.
Variable negative minus_one : F -> bool.
Hypothesis Hprints : prints show cast.

(** * The lines that are written *)

Definition settings_of (p : properties F) : list (setting F) :=
  match p_name p with Some n => [SetName false n] | None => [] end ++
  match p_type p with Some t => [SetType false t] | None => [] end ++
  match p_radius p with Some x => [SetRadius false x] | None => [] end.
Lemma settings_apply p : fold_left apply_setting (settings_of p) no_properties = p.
Proof. destruct p as [[x|] [n|] [t|]]; reflexivity. Qed.

Definition atom_line_of (r : range F) : string :=
  atom_line_text show ["atom"] [ToAtoms (r_first r) (r_last r)] (settings_of (r_props r)).
Lemma atom_text_line r : atom_text show r = end_line (atom_line_of r).
Proof.
  unfold atom_text, end_line, atom_line_of, atom_line_text, settings_of.
  destruct r as [a b [[x|] [n|] [t|]]]; cbn [r_first r_last r_props p_name p_type p_radius app target_words flat_map
    setting_words target_text option_text join]; destruct (a =? b);
    repeat (progress (rewrite ?append_assoc'; cbn [append])); reflexivity.
Qed.
Definition bond_line_of (b : Z * Z) : string := bond_line_text ["bond"] [OneBond (fst b) (snd b)].
Lemma bond_text_line b : bond_text b = end_line (bond_line_of b).
Proof.
  unfold bond_text, end_line, bond_line_of, bond_line_text. cbn [bond_spec_words bond_spec_text app join].
  repeat (progress (rewrite ?append_assoc'; cbn [append])). reflexivity.
Qed.
Definition volume_lines (v : option (F * F * F)) : list string :=
  match v with Some (x, y, z) => [join " " ["pbc"; show x; show y; show z]] | None => [] end.
Lemma volume_text_lines v : volume_text show v = text_of (volume_lines v).
Proof.
  destruct v as [[[x y] z]|]; [|reflexivity].
  unfold text_of. cbn [volume_lines map volume_text]. rewrite concat_cons. change (concat_text []) with "".
  rewrite str_app_nil. unfold end_line. cbn [join append].
  repeat (progress (rewrite ?append_assoc'; cbn [append])). reflexivity.
Qed.
Definition structure_lines (s : structure F) : list string :=
  volume_lines (volume s) ++ map atom_line_of (ranges s) ++ map bond_line_of (bonds s).
Lemma structure_text_lines s : structure_text show s = text_of (structure_lines s).
Proof.
  unfold structure_text, structure_lines. rewrite !text_of_app, volume_text_lines. f_equal. f_equal.
  - unfold text_of. rewrite map_map. f_equal. apply map_ext, atom_text_line.
  - unfold text_of. rewrite map_map. f_equal. apply map_ext, bond_text_line.
Qed.

Notation step := ((Z -> F) * option (Z -> F))%type.
Definition row_line (xs : list F) : string := join " " (map show xs).
Definition row_of (st : step) (i : Z) : list F :=
  [fst st (3 * i); fst st (3 * i + 1); fst st (3 * i + 2)] ++
  match snd st with Some v => [v (3 * i); v (3 * i + 1); v (3 * i + 2)] | None => [] end.
Lemma row_text_line st i : atom_row_text show (fst st) (snd st) i = end_line (row_line (row_of st i)).
Proof.
  destruct st as [p [v|]]; unfold atom_row_text, triple_text, row_line, row_of, end_line;
    cbn [fst snd app map join]; repeat (progress (rewrite ?append_assoc'; cbn [append])); reflexivity.
Qed.
Definition step_lines (n : Z) (st : step) : list string :=
  "timestep" :: map row_line (map (row_of st) (atom_ids n)).
Lemma step_text n st :
  ("timestep" ++ eol ++ concat_text (map (atom_row_text show (fst st) (snd st)) (atom_ids n)))%string =
  text_of (step_lines n st).
Proof.
  unfold step_lines, text_of. cbn [map]. rewrite concat_cons. unfold end_line at 1. rewrite append_assoc'.
  f_equal. f_equal. rewrite !map_map. f_equal. apply map_ext. intros i. apply row_text_line.
Qed.
Lemma rows_spec n st : map (row_of st) (atom_ids (Z.of_nat n)) = step_rows n st.
Proof.
  unfold atom_ids, step_rows. rewrite Nat2Z.id, map_map. apply map_ext. intros k. reflexivity.
Qed.

(** * Reading them *)

Lemma row_words xs : words is_blank (row_line xs) = map show xs.
Proof.
  apply words_join; [reflexivity|]. intros w Hw. apply in_map_iff in Hw. destruct Hw as [x [<- _]].
  destruct (Hprints x) as [_ [A B]]. split; [exact A|apply plain_blank, B].
Qed.
Lemma cast_all_show xs : cast_all cast (map show xs) = Ok xs.
Proof.
  induction xs as [|x xs IH]; [reflexivity|]. cbn [map cast_all]. unfold cast_number.
  rewrite (proj1 (Hprints x)). cbn [bind]. rewrite IH. reflexivity.
Qed.
Lemma read_row_ok xs : length xs = 3%nat \/ length xs = 6%nat -> read_row cast (row_line xs) = Ok xs.
Proof.
  intros H. unfold read_row. rewrite row_words, map_length.
  assert (L : firstn 6 (map show xs) = map show xs).
  { apply firstn_all2. rewrite map_length. lia. }
  rewrite L, cast_all_show. cbn [bind]. destruct H as [-> | ->]; reflexivity.
Qed.
Lemma row_strip xs : xs <> [] -> exists c t, stripLeadingWhitespace (row_line xs) = String c t /\ row_line xs = String c t.
Proof.
  intros N. destruct xs as [|x xs]; [congruence|]. destruct (Hprints x) as [_ [A B]].
  assert (J : exists r, row_line (x :: xs) = (show x ++ r)%string).
  { unfold row_line. destruct xs as [|y xs]; cbn [map].
    - cbn [join]. exists "". symmetry. apply str_app_nil.
    - eexists. reflexivity. }
  destruct J as [r ->]. rewrite strip_word by assumption.
  destruct (show x) as [|c t]; [congruence|]. exists c, (t ++ r)%string. split; reflexivity.
Qed.
Lemma read_rows_ok rows rest : Forall (fun xs => length xs = 3%nat \/ length xs = 6%nat) rows ->
  read_rows cast (length rows) (map row_line rows ++ rest) = Ok (rows, rest).
Proof.
  induction rows as [|xs rows IH]; intros H.
  - cbn [length map app]. destruct rest; reflexivity.
  - inversion H as [|? ? H1 H2]; subst. cbn [length map app read_rows].
    assert (N : xs <> []) by (intros ->; cbn [length] in H1; lia).
    destruct (row_strip xs N) as [c [t [E1 E2]]]. rewrite E1. rewrite <- E2.
    rewrite read_row_ok by exact H1. cbn [bind]. rewrite IH by exact H2. reflexivity.
Qed.
Lemma row_length st i : length (row_of st i) = match snd st with Some _ => 6%nat | None => 3%nat end.
Proof. unfold row_of. destruct st as [p [v|]]; reflexivity. Qed.
Lemma existsb_length k l (f : Z -> list F) m : (forall i, length (f i) = m) ->
  existsb (fun x : list F => Nat.eqb (length x) k) (map f l) = negb (Nat.eqb (length l) 0) && Nat.eqb m k.
Proof.
  intros H. induction l as [|i l IH]; [reflexivity|]. cbn [map existsb length]. rewrite H, IH. cbn.
  destruct (Nat.eqb m k); [reflexivity|]. rewrite andb_false_r. reflexivity.
Qed.
Lemma read_step_ok n st rest : 0 <= n ->
  readTimestepBlock cast n (step_lines n st ++ rest) = Ok (Some (map (row_of st) (atom_ids n)), rest).
Proof.
  intros Hn. unfold readTimestepBlock, step_lines. cbn [app].
  change (next_line ("timestep" :: (map row_line (map (row_of st) (atom_ids n)) ++ rest)))
    with (Some ("timestep", map row_line (map (row_of st) (atom_ids n)) ++ rest)).
  cbv iota beta. change (check_header "timestep") with (Ok tt : result unit). cbn [bind].
  destruct (Z.eqb_spec n 0) as [->|N]; [reflexivity|].
  assert (L : length (map (row_of st) (atom_ids n)) = Z.to_nat n).
  { unfold atom_ids. rewrite !map_length, seq_length. reflexivity. }
  rewrite <- L, read_rows_ok.
  2:{ rewrite Forall_forall. intros xs Hx. apply in_map_iff in Hx. destruct Hx as [i [<- _]].
      rewrite row_length. destruct (snd st); [right|left]; reflexivity. }
  cbn [bind].
  rewrite !(existsb_length _ (atom_ids n) (row_of st) _ (row_length st)), L.
  rewrite Z2Nat.id by exact Hn. rewrite Z.eqb_refl. cbn [negb].
  destruct (map (row_of st) (atom_ids n)) eqn:E; [cbn [length] in L; lia|].
  destruct (snd st); rewrite ?andb_false_r; cbn [Nat.eqb]; rewrite ?andb_false_r; reflexivity.
Qed.
Lemma read_steps_ok n steps : 0 <= n ->
  reads_steps cast n (flat_map (step_lines n) steps ++ [""]) (map (fun st => map (row_of st) (atom_ids n)) steps).
Proof.
  intros Hn. induction steps as [|st steps IH]; cbn [flat_map map reads_steps].
  - exists []. reflexivity.
  - rewrite <- app_assoc. exists (flat_map (step_lines n) steps ++ [""]). split; [|exact IH].
    apply read_step_ok, Hn.
Qed.

Definition legal_range (r : range F) : Prop := Forall (legal_setting negative) (settings_of (r_props r)).

Lemma join_cons w l : exists r, join " " (w :: l) = (w ++ r)%string.
Proof. destruct l as [|v l]; [exists ""; symmetry; apply str_app_nil|]. eexists. reflexivity. Qed.

Lemma read_volume_line dbg s v rest : (volume s = None) -> 
  readStructureBlock cast negative dbg s (volume_lines v ++ rest) =
  readStructureBlock cast negative dbg (Structure v (defaults s) (ranges s) (bonds s)) rest.
Proof.
  intros Hv. destruct v as [[[x y] z]|].
  - cbn [volume_lines app].
    destruct (Hprints x) as [Cx [Nx Px]], (Hprints y) as [Cy [Ny Py]], (Hprints z) as [Cz [Nz Pz]].
    assert (U : readUnitcellLine cast s (join " " ["pbc"; show x; show y; show z]) =
                Ok (Structure (Some (x, y, z)) (defaults s) (ranges s) (bonds s))).
    { unfold readUnitcellLine. rewrite words_join.
      - change (existsb (String.eqb "pbc") ["p"; "pbc"; "u"; "unitcell"]) with true. cbv iota.
        unfold set_volume, cast_number. rewrite Cx, Cy, Cz. reflexivity.
      - reflexivity.
      - intros w [<-|[<-|[<-|[<-|[]]]]]; (split; [discriminate || assumption|]);
          try (apply plain_ws; assumption); reflexivity. }
    destruct (join_cons "pbc" [show x; show y; show z]) as [r E].
    cbn [readStructureBlock]. rewrite E at 1.
    rewrite strip_word by (discriminate || reflexivity). rewrite <- E. 
    replace (match join " " ["pbc"; show x; show y; show z] with
             | EmptyString => readStructureBlock cast negative dbg s rest
             | String c _ as line => _ end) with
      (do s' <- readUnitcellLine cast s (join " " ["pbc"; show x; show y; show z]);
       readStructureBlock cast negative dbg s' rest).
    + rewrite U. reflexivity.
    + rewrite E. reflexivity.
  - cbn [volume_lines app]. destruct s as [vs d l b]. cbn [volume defaults ranges bonds] in *. subst. reflexivity.
Qed.
Lemma read_atom_lines dbg rs : forall s rest, defaults s = no_properties ->
  contiguous 0 (ranges s ++ rs) -> Forall legal_range rs -> atomCount (ranges s ++ rs) < 2 ^ 64 ->
  readStructureBlock cast negative dbg s (map atom_line_of rs ++ rest) =
  readStructureBlock cast negative dbg (Structure (volume s) (defaults s) (ranges s ++ rs) (bonds s)) rest.
Proof.
  induction rs as [|r rs IH]; intros s rest D C L B.
  - rewrite app_nil_r. destruct s; reflexivity.
  - inversion L as [|? ? L1 L2]; subst.
    assert (C' : contiguous 0 ((ranges s ++ [r]) ++ rs)) by (rewrite <- app_assoc; exact C).
    assert (B' : atomCount ((ranges s ++ [r]) ++ rs) < 2 ^ 64) by (rewrite <- app_assoc; exact B).
    assert (Cs := C). apply contiguous_app in Cs. destruct Cs as [Cs1 Cs2].
    cbn [contiguous] in Cs2. destruct Cs2 as [Cs2 [Cs3 Cs4]].
    rewrite <- atomCount_ends0 in Cs2, Cs3.
    assert (N0 : 0 <= atomCount (ranges s)) by (rewrite atomCount_ends0; apply ends_ge, Cs1).
    assert (LT : legal_target (ToAtoms (r_first r) (r_last r))).
    { cbn [legal_target]. split; [lia|].
      pose proof (in_last F 0 _ r C) as X. rewrite <- atomCount_ends0 in X.
      assert (Hin : In r (ranges s ++ r :: rs)) by (apply in_or_app; right; left; reflexivity).
      specialize (X Hin). lia. }
    assert (V : readAtomLine cast negative dbg s (atom_line_of r) =
                Ok (Structure (volume s) (defaults s) (ranges s ++ [r]) (bonds s))).
    { unfold atom_line_of. rewrite (atom_line_value F show cast negative Hprints).
      - cbn [existsb is_default orb flat_map range_of app set_ranges]. cbv zeta.
        rewrite D, settings_apply.
        replace (Range (r_first r) (r_last r) (r_props r)) with r by (destruct r; reflexivity).
        rewrite setAtomRange_append by (assumption || lia). reflexivity.
      - right. right. reflexivity.
      - discriminate.
      - constructor; [exact LT|constructor].
      - exact L1. }
    cbn [map app readStructureBlock].
    assert (E : exists q, atom_line_of r = ("atom" ++ q)%string).
    { unfold atom_line_of, atom_line_text. cbn [app]. apply join_cons. }
    destruct E as [q E]. rewrite E at 1. rewrite strip_word by (discriminate || reflexivity). rewrite <- E.
    replace (match atom_line_of r with
             | EmptyString => readStructureBlock cast negative dbg s (map atom_line_of rs ++ rest)
             | String c _ as line => _ end) with
      (do s' <- readAtomLine cast negative dbg s (atom_line_of r);
       readStructureBlock cast negative dbg s' (map atom_line_of rs ++ rest)).
    + rewrite V. cbn [bind]. rewrite IH; [|exact D|exact C'|exact L2|exact B'].
      cbn [volume defaults ranges bonds]. rewrite <- app_assoc. reflexivity.
    + rewrite E. reflexivity.
Qed.
Lemma read_bond_lines dbg bs : forall s rest, sorted_pairs (bonds s ++ bs) ->
  (forall b, In b bs -> 0 <= fst b < snd b /\ snd b < getNumberOfAtoms s) -> getNumberOfAtoms s < 2 ^ 64 ->
  readStructureBlock cast negative dbg s (map bond_line_of bs ++ rest) =
  readStructureBlock cast negative dbg (Structure (volume s) (defaults s) (ranges s) (bonds s ++ bs)) rest.
Proof.
  induction bs as [|b bs IH]; intros s rest St H B.
  - rewrite app_nil_r. destruct s; reflexivity.
  - assert (St' : sorted_pairs ((bonds s ++ [b]) ++ bs)) by (rewrite <- app_assoc; exact St).
    assert (Sx := St'). apply sorted_app in Sx. destruct Sx as [Sx _]. apply sorted_app in Sx.
    destruct Sx as [_ [_ Sx]].
    assert (LT : forall c, In c (bonds s) -> pair_ltb c b = true) by (intros c Hc; apply Sx; [exact Hc|left; reflexivity]).
    destruct (H b (or_introl eq_refl)) as [H1 H2].
    assert (V : readBondLine s (bond_line_of b) =
                Ok (Structure (volume s) (defaults s) (ranges s) (bonds s ++ [b]))).
    { unfold bond_line_of. rewrite bond_line_value.
      - cbn [flat_map pairs_of app add_bonds]. unfold add_bond.
        replace (fst b, snd b) with b by (destruct b; reflexivity).
        destruct (has_pair b (bonds s)) eqn:E.
        { apply has_pair_in in E. apply LT in E. rewrite pair_ltb_lt in E. lia. }
        cbn [bind]. rewrite insert_last by exact LT. reflexivity.
      - right. right. reflexivity.
      - constructor; [|constructor]. cbn [legal_bond]. lia. }
    cbn [map app readStructureBlock].
    assert (E : exists q, bond_line_of b = ("bond" ++ q)%string).
    { unfold bond_line_of, bond_line_text. cbn [app]. apply join_cons. }
    destruct E as [q E]. rewrite E at 1. rewrite strip_word by (discriminate || reflexivity). rewrite <- E.
    replace (match bond_line_of b with
             | EmptyString => readStructureBlock cast negative dbg s (map bond_line_of bs ++ rest)
             | String c _ as line => _ end) with
      (do s' <- readBondLine s (bond_line_of b);
       readStructureBlock cast negative dbg s' (map bond_line_of bs ++ rest)).
    + rewrite V. cbn [bind]. rewrite IH.
      * cbn [volume defaults ranges bonds]. rewrite <- app_assoc. reflexivity.
      * exact St'.
      * intros c Hc. apply (H c). right; exact Hc.
      * exact B.
    + rewrite E. reflexivity.
Qed.
Definition good (s : structure F) : Prop :=
  defaults s = no_properties /\ contiguous 0 (ranges s) /\ Forall legal_range (ranges s) /\
  sorted_pairs (bonds s) /\ (forall b, In b (bonds s) -> 0 <= fst b < snd b /\ snd b < getNumberOfAtoms s).
Lemma read_structure_ok dbg s rest : good s -> getNumberOfAtoms s < 2 ^ 64 ->
  readStructureBlock cast negative dbg new_structure (structure_lines s ++ rest) =
  readStructureBlock cast negative dbg s rest.
Proof.
  intros [D [C [L [St H]]]] B. unfold structure_lines. rewrite <- !app_assoc.
  rewrite read_volume_line by reflexivity. cbn [new_structure defaults ranges bonds].
  rewrite read_atom_lines; [|reflexivity|exact C|exact L|exact B]. cbn [volume defaults ranges bonds app].
  rewrite read_bond_lines.
  - cbn [volume defaults ranges bonds app]. rewrite <- D. destruct s; reflexivity.
  - exact St.
  - exact H.
  - exact B.
Qed.

Lemma plain_line l : (forall w, In w l -> has_char newline w = false) -> has_char newline (join " " l) = false.
Proof. apply has_newline_join. Qed.
Lemma show_newline x : has_char newline (show x) = false.
Proof. apply has_newline_plain, (Hprints x). Qed.
Lemma id_newline z : has_char newline (str_of_Z z) = false.
Proof. apply str_of_Z_no; reflexivity. Qed.
Lemma structure_newline s l : good s -> In l (structure_lines s) -> has_char newline l = false.
Proof.
  intros [_ [_ [L _]]] H. unfold structure_lines in H. rewrite !in_app_iff, !in_map_iff in H.
  destruct H as [H|[[r [<- Hr]]|[b [<- Hb]]]].
  - destruct (volume s) as [[[x y] z]|]; [|destruct H]. destruct H as [<-|[]]. apply plain_line.
    intros w [<-|[<-|[<-|[<-|[]]]]]; try apply show_newline. reflexivity.
  - apply plain_line. intros w Hw. apply in_app_or in Hw. destruct Hw as [[<-|[]]|Hw]; [reflexivity|].
    apply in_app_or in Hw. destruct Hw as [[<-|[]]|Hw].
    + cbn [target_text]. destruct (r_first r =? r_last r); rewrite ?has_char_app, !id_newline; reflexivity.
    + apply in_flat_map in Hw. destruct Hw as [x [Hx Hw]].
      rewrite Forall_forall in L. specialize (L r Hr). unfold legal_range in L. rewrite Forall_forall in L.
      apply has_newline_plain. apply (setting_wordlike F show cast negative Hprints x w (L x Hx) Hw).
  - apply plain_line. intros w [<-|[<-|[]]]; [reflexivity|]. cbn [bond_spec_text].
    rewrite !has_char_app, !id_newline. reflexivity.
Qed.
Lemma steps_newline n steps l : In l (flat_map (step_lines n) steps) -> has_char newline l = false.
Proof.
  intros H. apply in_flat_map in H. destruct H as [st [_ [<-|H]]]; [reflexivity|].
  apply in_map_iff in H. destruct H as [xs [<- _]]. apply plain_line. intros w Hw.
  apply in_map_iff in Hw. destruct Hw as [x [<- _]]. apply show_newline.
Qed.
Lemma open_ok dbg s steps : good s -> getNumberOfAtoms s < 2 ^ 64 ->
  exists rest, open_file cast negative dbg
      (text_of (structure_lines s ++ flat_map (step_lines (getNumberOfAtoms s)) steps)) = Ok (s, rest) /\
    reads_steps cast (getNumberOfAtoms s) rest
      (map (fun st => map (row_of st) (atom_ids (getNumberOfAtoms s))) steps).
Proof.
  intros G B. unfold open_file. rewrite lines_text.
  2:{ intros l Hl. apply in_app_or in Hl. destruct Hl as [Hl|Hl].
      - apply (structure_newline s l G Hl).
      - apply (steps_newline _ _ _ Hl). }
  rewrite <- app_assoc, read_structure_ok by assumption.
  assert (N : 0 <= getNumberOfAtoms s).
  { unfold getNumberOfAtoms. rewrite atomCount_ends0. apply ends_ge, G. }
  pose proof (read_steps_ok (getNumberOfAtoms s) steps N) as R.
  destruct steps as [|st steps].
  - exists []. split; [reflexivity|]. exists []. reflexivity.
  - eexists. split; [|exact R]. reflexivity.
Qed.

(** * Declarations *)

Definition atoms_of (l : list (range F)) : list (properties F) :=
  flat_map (fun r => repeat (r_props r) (Z.to_nat (r_last r + 1 - r_first r))) l.
Lemma atoms_of_length n l : contiguous n l -> Z.of_nat (length (atoms_of l)) = ends F n l - n.
Proof.
  revert n. induction l as [|r l IH]; intros n H; cbn [atoms_of flat_map ends]; [cbn [length]; lia|].
  destruct H as [H1 [H2 H3]]. rewrite app_length, repeat_length, Nat2Z.inj_add.
  unfold atoms_of in IH. rewrite (IH _ H3). lia.
Qed.
Lemma atoms_of_nth n l i p : contiguous n l -> nth_error (atoms_of l) i = Some p ->
  propertiesIn l (n + Z.of_nat i) = Ok p.
Proof.
  revert n i. induction l as [|r l IH]; intros n i H E.
  - destruct i; discriminate.
  - destruct H as [H1 [H2 H3]]. cbn [atoms_of flat_map] in E. cbn [propertiesIn].
    set (k := Z.to_nat (r_last r + 1 - r_first r)) in *.
    destruct (Nat.lt_ge_cases i k) as [L|L].
    + rewrite nth_error_app1 in E by (rewrite repeat_length; exact L).
      destruct (Z.ltb_spec (r_last r) (n + Z.of_nat i)); [lia|].
      rewrite nth_error_repeat in E by exact L. injection E as <-. reflexivity.
    + rewrite nth_error_app2 in E by (rewrite repeat_length; exact L). rewrite repeat_length in E.
      destruct (Z.ltb_spec (r_last r) (n + Z.of_nat i)); [|lia].
      specialize (IH _ (i - k)%nat H3 E). rewrite <- IH. f_equal. lia.
Qed.

Lemma ordered_cases a b : (a <= b /\ ordered a b = (a, b)) \/ (b < a /\ ordered a b = (b, a)).
Proof. unfold ordered. destruct (Z.ltb_spec b a); [right|left]; split; (lia || reflexivity). Qed.

Lemma bonded_app l c a b : bonded (l ++ [c]) a b = bonded l a b || bonded [c] a b.
Proof. unfold bonded. rewrite existsb_app. reflexivity. Qed.
Lemma bonded_one c d a b : bonded [(c, d)] a b = true <-> ordered a b = ordered c d.
Proof.
  unfold bonded. cbn [existsb fst snd]. rewrite orb_false_r, orb_true_iff, !andb_true_iff, !Z.eqb_eq.
  destruct (ordered_cases a b) as [[H1 ->]|[H1 ->]], (ordered_cases c d) as [[H2 ->]|[H2 ->]];
    (split; [intros H; f_equal; lia|intros H; injection H; lia]).
Qed.

Definition inv (w : writer F) (c : contents F) : Prop :=
  good (w_structure w) /\ atoms_of (ranges (w_structure w)) = c_atoms c /\
  (forall a b, In (ordered a b) (bonds (w_structure w)) <-> bonded (c_bonds c) a b = true) /\
  volume (w_structure w) = c_volume c /\
  w_processed w = match c_steps c with [] => false | _ => true end /\
  w_text w = if w_processed w
             then text_of (structure_lines (w_structure w) ++
                           flat_map (step_lines (getNumberOfAtoms (w_structure w))) (c_steps c))
             else "".

Lemma count_atoms w c : inv w c -> getNumberOfAtoms (w_structure w) = Z.of_nat (length (c_atoms c)).
Proof.
  intros [[_ [C _]] [A _]]. unfold getNumberOfAtoms. rewrite atomCount_ends0, <- A, (atoms_of_length 0) by exact C. lia.
Qed.
Lemma good_range s count p : good s -> 0 < count -> Forall (legal_setting negative) (settings_of p) ->
  good (Structure (volume s) (defaults s) (ranges s ++ [Range (getNumberOfAtoms s) (getNumberOfAtoms s + count - 1) p]) (bonds s)).
Proof.
  intros [D [C [L [St B]]]] Hc Hp. unfold good. cbn [defaults ranges bonds].
  assert (N : getNumberOfAtoms s = ends F 0 (ranges s)) by apply atomCount_ends0.
  split; [exact D|]. split; [|split; [|split; [exact St|]]].
  - apply contiguous_app. split; [exact C|]. cbn [contiguous r_first r_last]. lia.
  - apply Forall_app. split; [exact L|]. constructor; [exact Hp|constructor].
  - intros b Hb. specialize (B b Hb). unfold getNumberOfAtoms at 1. cbn [ranges]. rewrite atomCount_ends0, ends_app.
    cbn [ends r_last]. lia.
Qed.
Lemma atoms_add l n count p : 0 < count ->
  atoms_of (l ++ [Range n (n + count - 1) p]) = atoms_of l ++ repeat p (Z.to_nat count).
Proof.
  intros H. unfold atoms_of. rewrite flat_map_app. cbn [flat_map r_first r_last r_props]. rewrite app_nil_r.
  replace (n + count - 1 + 1 - n) with count by lia. reflexivity.
Qed.
Lemma steps_open w c : inv w c -> w_processed w = match c_steps c with [] => false | _ => true end.
Proof. intros H. apply H. Qed.

Lemma add_inv w c count p : inv w c -> w_processed w = false -> 0 < count ->
  Forall (legal_setting negative) (settings_of p) ->
  inv (fst (add_range w count p))
      (Contents (c_atoms c ++ repeat p (Z.to_nat count)) (c_bonds c) (c_volume c) (c_steps c)).
Proof.
  intros [G [A [B [V [P T]]]]] Hp Hc Hl. unfold add_range, inv. cbn [fst w_structure w_processed w_text ranges bonds volume
    c_atoms c_bonds c_volume c_steps].
  split; [apply good_range; assumption|]. split; [rewrite atoms_add by exact Hc; rewrite A; reflexivity|].
  split; [exact B|]. split; [exact V|]. split; [exact P|]. rewrite Hp in *. exact T.
Qed.
Lemma perform_inv w c k : inv w c -> unsigned k -> plain_names k ->
  inv (perform show negative minus_one w k) (declare negative minus_one c k).
Proof.
  intros H U P. pose proof (count_atoms w c H) as N. pose proof (steps_open w c H) as O.
  assert (D : defaults (w_structure w) = no_properties) by apply H.
  destruct k as [x y z|count|count r name type|a b|p v]; cbn [perform declare].
  - unfold setPrimarySimulationVolumeSize. rewrite O. destruct (c_steps c) as [|st0 steps] eqn:Es; [|exact H].
    destruct H as [G [A [B [V [_ T]]]]]. rewrite O in T.
    unfold inv. cbn [w_structure w_processed w_text ranges bonds volume c_atoms c_bonds c_volume c_steps].
    split; [exact G|]. split; [exact A|]. split; [exact B|]. split; [reflexivity|]. split; [reflexivity|exact T].
  - unfold declareAtoms. rewrite O. destruct (c_steps c) as [|st0 steps] eqn:Es; [|exact H].
    cbn [unsigned] in U. destruct (Z.eqb_spec count 0) as [->|Hc].
    + cbn [Z.to_nat repeat]. rewrite app_nil_r, <- Es. destruct c. exact H.
    + rewrite D, <- Es. destruct (add_range w count no_properties) as [w' ab] eqn:Ea.
      replace w' with (fst (add_range w count no_properties)) by (rewrite Ea; reflexivity).
      apply add_inv; [exact H|exact O|lia|constructor].
  - unfold declareAtomsOf. rewrite O. destruct (c_steps c) as [|st0 steps] eqn:Es; [|exact H].
    cbn [unsigned plain_names] in U, P. cbn [andb].
    destruct (Z.eqb_spec count 0) as [->|Hc].
    { cbn [Z.to_nat repeat]. rewrite app_nil_r, <- Es. destruct c.
      match goal with |- context [if ?x then _ else _] => destruct x end; exact H. }
    destruct (negative r) eqn:Nr, (minus_one r) eqn:Mr; cbn [andb orb negb]; try exact H;
      (destruct (Nat.ltb_spec 16 (String.length name)) as [L1|L1], (Nat.leb_spec (String.length name) 16) as [L2|L2];
       try lia; cbn [andb]; try exact H);
      (destruct (Nat.ltb_spec 16 (String.length type)) as [L3|L3], (Nat.leb_spec (String.length type) 16) as [L4|L4];
       try lia; cbn [andb]; try exact H);
      (rewrite D; cbn [p_radius p_name p_type no_properties]; rewrite <- Es;
       match goal with |- inv _ (Contents (_ ++ repeat ?q _) _ _ _) =>
         apply (add_inv w c count q H O); [lia|] end;
       cbn [settings_of p_radius p_name p_type];
       destruct (String.eqb_spec name "") as [E1|E1], (String.eqb_spec type "") as [E2|E2];
       cbn [app given]; repeat (constructor; cbn [legal_setting]; try tauto; try exact Nr)).
  - unfold declareBond. rewrite O. destruct (c_steps c) as [|st0 steps] eqn:Es; [|exact H].
    cbn [unsigned] in U. unfold isValidAtomID. rewrite N. cbn [andb].
    destruct (Z.ltb_spec a (Z.of_nat (length (c_atoms c)))) as [La|La]; cbn [negb orb andb]; [|exact H].
    destruct (Z.ltb_spec b (Z.of_nat (length (c_atoms c)))) as [Lb|Lb]; cbn [negb orb andb]; [|exact H].
    destruct (Z.eqb_spec a b) as [Eab|Eab]; cbn [negb andb]; [exact H|].
    assert (HB : has_pair (ordered a b) (bonds (w_structure w)) = bonded (c_bonds c) a b).
    { destruct H as [_ [_ [B _]]]. specialize (B a b). rewrite <- has_pair_in in B.
      destruct (has_pair (ordered a b) (bonds (w_structure w))), (bonded (c_bonds c) a b); try reflexivity;
        destruct B as [B1 B2]; [symmetry; apply B1|apply B2]; reflexivity. }
    rewrite HB. destruct (bonded (c_bonds c) a b) eqn:Eb; cbn [negb]; [exact H|].
    destruct H as [[D' [C [L [St Bd]]]] [A [B [V [_ T]]]]]. rewrite O in T.
    unfold inv. cbn [w_structure w_processed w_text ranges bonds volume defaults c_atoms c_bonds c_volume c_steps].
    split; [|split; [exact A|split; [|split; [exact V|split; [reflexivity|exact T]]]]].
    + unfold good. cbn [w_structure ranges bonds volume defaults]. split; [exact D'|]. split; [exact C|]. split; [exact L|].
      split; [apply sorted_insert, St|]. intros e He. apply in_insert in He. destruct He as [->|He]; [|apply Bd, He].
      change (getNumberOfAtoms {| volume := volume (w_structure w); defaults := defaults (w_structure w);
         ranges := ranges (w_structure w); bonds := insert_pair (ordered a b) (bonds (w_structure w)) |})
        with (getNumberOfAtoms (w_structure w)). rewrite N.
      destruct (ordered_cases a b) as [[H1 ->]|[H1 ->]]; cbn [fst snd]; lia.
    + intros a' b'. rewrite in_insert, bonded_app, orb_true_iff, B, bonded_one. tauto.
  - unfold inv, writeTimestepBlock. cbn [c_atoms c_bonds c_volume c_steps w_structure w_processed w_text].
    destruct H as [G [A [B [V [_ T]]]]].
    assert (Ws : w_structure (if w_processed w then w else writeStructureBlock show w) = w_structure w)
      by (destruct (w_processed w); reflexivity).
    rewrite Ws. split; [exact G|]. split; [exact A|]. split; [exact B|]. split; [exact V|].
    split; [destruct (c_steps c); reflexivity|].
    rewrite flat_map_app, app_assoc, text_of_app. cbn [flat_map]. rewrite app_nil_r, <- step_text. cbn [fst snd].
    f_equal. destruct (w_processed w) eqn:Pw; [exact T|].
    destruct (c_steps c); [|discriminate]. cbn [flat_map]. rewrite app_nil_r. cbn [writeStructureBlock w_text].
    rewrite T, structure_text_lines. reflexivity.
Qed.
Lemma written_inv l : Forall unsigned l -> Forall plain_names l ->
  inv (fold_left (perform show negative minus_one) l new_writer) (declared negative minus_one l).
Proof.
  intros U P. unfold declared.
  assert (I0 : inv new_writer (Contents [] [] None [])).
  { unfold inv, new_writer, good. cbn. repeat split; try constructor; try tauto; try discriminate. }
  revert I0 U P. generalize (@new_writer F) as w, (Contents (F := F) [] [] None []) as c.
  induction l as [|k l IH]; intros w c H U P; [exact H|].
  inversion U; inversion P; subst. cbn [fold_left]. apply IH; try assumption. apply perform_inv; assumption.
Qed.

Lemma file_lines w c : inv w c -> file_contents show w =
  text_of (structure_lines (w_structure w) ++ flat_map (step_lines (getNumberOfAtoms (w_structure w))) (c_steps c)).
Proof.
  intros [_ [_ [_ [_ [P T]]]]]. unfold file_contents. destruct (w_processed w) eqn:E; [exact T|].
  destruct (c_steps c); [|discriminate]. cbn [flat_map writeStructureBlock w_text]. rewrite app_nil_r, T.
  rewrite structure_text_lines. reflexivity.
Qed.
Lemma describes_ok w c : inv w c -> describes (w_structure w) c.
Proof.
  intros H. pose proof (count_atoms w c H) as N. destruct H as [G [A [B [V _]]]].
  split; [exact N|]. split; [|split; [|exact V]].
  - intros i p E. unfold getAtomProperties. rewrite <- A in E. apply (atoms_of_nth 0 _ i p); [apply G|exact E].
  - intros a b Ha Hb Hn. unfold hasBond, isValidAtomID. rewrite N.
    destruct (Z.ltb_spec a (Z.of_nat (length (c_atoms c)))); [|lia].
    destruct (Z.ltb_spec b (Z.of_nat (length (c_atoms c)))); [|lia]. cbn [negb orb].
    destruct (Z.eqb_spec a b); [congruence|]. f_equal.
    specialize (B a b). rewrite <- has_pair_in in B.
    destruct (has_pair (ordered a b) (bonds (w_structure w))), (bonded (c_bonds c) a b); try reflexivity;
      destruct B as [B1 B2]; [symmetry; apply B1|apply B2]; reflexivity.
Qed.
Lemma round_trip dbg l : Forall unsigned l -> Forall plain_names l ->
  Z.of_nat (length (c_atoms (declared negative minus_one l))) < 2 ^ 64 ->
  exists s rest, open_file cast negative dbg (written show negative minus_one l) = Ok (s, rest) /\
    describes s (declared negative minus_one l) /\
    reads_steps cast (getNumberOfAtoms s) rest
      (map (step_rows (length (c_atoms (declared negative minus_one l)))) (c_steps (declared negative minus_one l))).
Proof.
  intros U P B. pose proof (written_inv l U P) as I. unfold written.
  set (w := fold_left (perform show negative minus_one) l new_writer) in *.
  set (c := declared negative minus_one l) in *.
  pose proof (count_atoms w c I) as N.
  destruct (open_ok dbg (w_structure w) (c_steps c)) as [rest [E R]].
  - apply I.
  - rewrite N. exact B.
  - exists (w_structure w), rest. rewrite (file_lines w c I). split; [exact E|]. split; [apply describes_ok, I|].
    rewrite N in R |- *.
    rewrite (map_ext _ (step_rows (length (c_atoms c))) (rows_spec (length (c_atoms c)))) in R. exact R.
Qed.
End RoundTrip.
