(** The Python class for snapshot files. *)
From Verif Require Import VtfPySpec VtfTextProof VtfRangeProof VtfLineProof VtfProof.
From Coq Require Import Lia.
Open Scope string_scope.
Open Scope Z_scope.
Open Scope list_scope.

Lemma keep_cons l r : has_char newline l = false ->
  keep_lines (l ++ String newline r)%string = (l ++ eol)%string :: keep_lines r.
Proof.
  induction l as [|a l IH]; intros H.
  - reflexivity.
  - cbn [has_char] in H. apply orb_false_iff in H. destruct H as [H1 H2].
    cbn [append keep_lines]. rewrite H1, (IH H2). reflexivity.
Qed.
Lemma text_with_app l m : text_with (l ++ m) = (text_with l ++ text_with m)%string.
Proof.
  induction l as [|a l IH]; [reflexivity|]. cbn [app text_with fold_right]. fold (text_with (l ++ m)).
  rewrite IH, append_assoc'. reflexivity.
Qed.
Lemma text_with_text_of l : text_with l = text_of l.
Proof.
  induction l as [|a l IH]; [reflexivity|]. unfold text_of. cbn [map]. rewrite concat_cons.
  cbn [text_with fold_right]. fold (text_with l). rewrite IH. change (end_line a) with (a ++ eol)%string. rewrite append_assoc'. reflexivity.
Qed.
Lemma keep_text ls : (forall l, In l ls -> has_char newline l = false) ->
  keep_lines (text_with ls) = map (fun l => (l ++ eol)%string) ls.
Proof.
  induction ls as [|l ls IH]; intros H; [reflexivity|]. cbn [text_with fold_right map]. fold (text_with ls).
  rewrite keep_cons by (apply H; left; reflexivity). f_equal. apply IH. intros x Hx. apply H. right; exact Hx.
Qed.
Lemma prefix_app p a b : String.prefix p (a ++ b)%string = true ->
  (String.length p <= String.length a)%nat \/ exists q, p = (a ++ q)%string /\ String.prefix q b = true.
Proof.
  revert a. induction p as [|x p IH]; intros a H; [left; cbn; lia|].
  destruct a as [|y a]; [right; exists (String x p); split; [reflexivity|exact H]|].
  cbn [append String.prefix] in H. destruct (ascii_dec x y) as [->|]; [|discriminate].
  destruct (IH a H) as [L|[q [-> Q]]]; [left; cbn [String.length]; lia|right; exists q; split; [reflexivity|exact Q]].
Qed.
Lemma prefix_longer p a b : String.prefix p (a ++ b)%string = true -> (String.length p <= String.length a)%nat ->
  String.prefix p a = true.
Proof.
  revert a. induction p as [|x p IH]; intros a H L; [destruct a; reflexivity|].
  destruct a as [|y a]; [cbn in L; lia|]. cbn [append String.prefix String.length] in *.
  destruct (ascii_dec x y) as [->|]; [|discriminate]. apply IH; [exact H|lia].
Qed.
Lemma header_end l : is_header (l ++ eol)%string = is_header l.
Proof.
  unfold is_header. destruct (String.prefix "timestep" l) eqn:E.
  - revert E. generalize "timestep". intros p. revert l. induction p as [|x p IH]; intros l E; [destruct l; reflexivity|].
    destruct l as [|y l]; [discriminate|]. cbn [append String.prefix] in *. destruct (ascii_dec x y); [|discriminate].
    apply IH, E.
  - destruct (String.prefix "timestep" (l ++ eol)%string) eqn:E2; [|reflexivity].
    destruct (prefix_app _ _ _ E2) as [L|[q [Q1 Q2]]].
    + rewrite (prefix_longer _ _ _ E2 L) in E. discriminate.
    + destruct q as [|c q].
      * rewrite str_app_nil in Q1. subst l. discriminate.
      * unfold eol in Q2. cbn [String.prefix] in Q2. destruct (ascii_dec c newline) as [->|]; [|discriminate].
        assert (H : has_char newline "timestep" = has_char newline (l ++ String newline q)%string) by (rewrite <- Q1; reflexivity).
        rewrite has_char_app in H. cbn [has_char] in H. rewrite Ascii.eqb_refl, orb_true_l, orb_true_r in H. discriminate.
Qed.
Lemma open_block ls rest : Forall block_line ls -> forall block,
  py_readStructureBlock block (map (fun l => (l ++ eol)%string) ls ++ rest) =
  py_readStructureBlock (block ++ text_with ls)%string rest.
Proof.
  induction ls as [|l ls IH]; intros H block.
  - cbn [map app text_with fold_right]. rewrite str_app_nil. reflexivity.
  - inversion H as [|? ? [H1 H2] H3]; subst. cbn [map app py_readStructureBlock].
    rewrite header_end, H2, (IH H3). f_equal. rewrite append_assoc'. f_equal.
    cbn [text_with fold_right]. unfold eol. rewrite append_assoc'. reflexivity.
Qed.
Lemma words_join_end sep c l : sep " "%char = true -> sep c = true -> l <> [] ->
  (forall w, In w l -> w <> "" /\ wordy sep w = true) -> words sep (join " " l ++ String c "")%string = l.
Proof.
  intros Hs Hc. induction l as [|w l IH]; intros N H; [congruence|].
  destruct (H w (or_introl eq_refl)) as [W1 W2].
  destruct l as [|v l].
  - cbn [join]. rewrite words_cons by assumption. reflexivity.
  - cbn [join]. rewrite !append_assoc'. cbn [append]. rewrite words_cons by assumption. f_equal.
    apply IH; [discriminate|]. intros x Hx. apply H. right; exact Hx.
Qed.

Section Py.
Variable F : Type.
Variable str : F -> string.
Variable float : string -> option F.
Hypothesis Hprints : prints str float.
Hypothesis Hnumeric : numeric str.
Notation vector := (F * F * F)%type.
Notation collection := (list vector * list vector)%type.

Definition nums (v : vector) : list F := let '(x, y, z) := v in [x; y; z].
Definition both (pv : vector * vector) : list F := nums (fst pv) ++ nums (snd pv).
Definition py_row (xs : list F) : string := join " " (map str xs).
Lemma py_row_words xs : xs <> [] -> words is_ws (py_row xs ++ eol)%string = map str xs.
Proof.
  intros N. apply words_join_end; [reflexivity|reflexivity|destruct xs; [congruence|discriminate]|].
  intros w Hw. apply in_map_iff in Hw. destruct Hw as [x [<- _]].
  destruct (Hprints x) as [_ [A B]]. split; [exact A|apply plain_ws, B].
Qed.
Lemma py_row_header xs : is_header (py_row xs ++ eol)%string = false.
Proof.
  rewrite header_end. destruct xs as [|x xs]; [reflexivity|]. unfold py_row, is_header. cbn [map].
  destruct (join_cons (str x) (map str xs)) as [r ->].
  destruct (Hprints x) as [_ [A _]]. pose proof (Hnumeric x) as T. unfold not_t in T.
  destruct (str x) as [|a s]; [congruence|]. cbn [append String.prefix].
  destruct (ascii_dec "t" a) as [<-|]; [discriminate|reflexivity].
Qed.
Lemma py_vector_ok v : match map str (nums v) with [a; b; c] => py_vector float a b c | _ => Err ValueError end = Ok v.
Proof.
  destruct v as [[x y] z]. cbn [nums map]. unfold py_vector, py_float.
  rewrite (proj1 (Hprints x)), (proj1 (Hprints y)), (proj1 (Hprints z)). reflexivity.
Qed.

(** The rows of a collection. *)
Definition rows_of (c : collection) : list (list F) :=
  match snd c with
  | [] => map nums (fst c)
  | vs => map both (combine (fst c) vs)
  end.
Definition lines_of_step (c : collection) : list string := "timestep" :: map py_row (rows_of c).
Lemma write_rows_pos ps : forall file,
  py_write_rows str file ps [] = ((file ++ text_with (map py_row (map nums ps)))%string, Ok tt).
Proof.
  induction ps as [|p ps IH]; intros file.
  - cbn [map text_with fold_right py_write_rows]. rewrite str_app_nil. reflexivity.
  - cbn [py_write_rows map text_with fold_right]. fold (text_with (map py_row (map nums ps))). rewrite IH.
    f_equal. destruct p as [[x y] z]. unfold vector_text, py_row, eol. cbn [nums map join].
    repeat (progress (rewrite ?append_assoc'; cbn [append])). reflexivity.
Qed.
Lemma write_rows_vel ps : forall vs file, length vs = length ps ->
  py_write_rows str file ps vs =
  ((file ++ text_with (map py_row (map both (combine ps vs))))%string, Ok tt).
Proof.
  induction ps as [|p ps IH]; intros vs file H; destruct vs as [|v vs]; try discriminate.
  - cbn [combine map text_with fold_right py_write_rows]. rewrite str_app_nil. reflexivity.
  - cbn [length] in H. injection H as H. cbn [py_write_rows combine map text_with fold_right fst snd].
    fold (text_with (map py_row (map both (combine ps vs)))). rewrite IH by exact H.
    f_equal. destruct p as [[x y] z], v as [[x' y'] z']. unfold both at 1. unfold vector_text, py_row, eol. cbn [both fst snd nums app map join].
    repeat (progress (rewrite ?append_assoc'; cbn [append])). reflexivity.
Qed.
Lemma write_step file c : consistent c ->
  py_writeTimestep str false file c = ((file ++ text_with (lines_of_step c))%string, Ok tt).
Proof.
  intros H. destruct c as [ps vs]. unfold py_writeTimestep, lines_of_step, rows_of. cbn [fst snd].
  destruct vs as [|v vs].
  - rewrite write_rows_pos. cbn [text_with fold_right]. unfold eol. rewrite !append_assoc'. reflexivity.
  - destruct H as [H|H]; [discriminate|]. cbn [fst snd] in H. rewrite write_rows_vel by exact H.
    cbn [text_with fold_right]. unfold eol. rewrite !append_assoc'. reflexivity.
Qed.
Lemma write_all cs : Forall consistent cs -> forall file,
  py_write_all str false file cs = ((file ++ text_with (flat_map lines_of_step cs))%string, Ok tt).
Proof.
  induction cs as [|c cs IH]; intros H file.
  - cbn [py_write_all flat_map text_with fold_right]. rewrite str_app_nil. reflexivity.
  - inversion H as [|? ? H1 H2]; subst. cbn [py_write_all flat_map]. rewrite write_step by exact H1.
    rewrite IH by exact H2. rewrite text_with_app, append_assoc'. reflexivity.
Qed.

(** Reading. *)
Definition after (rest : list string) : list string := match rest with [] => [] | _ :: r => r end.
Lemma rows_end rest ps vs : (rest = [] \/ exists l r, rest = l :: r /\ is_header l = true) ->
  py_rows float rest ps vs = Ok (ps, vs, after rest).
Proof. intros [->|[l [r [-> H]]]]; [reflexivity|]. cbn [py_rows]. rewrite H. reflexivity. Qed.
Lemma read_rows_pos l rest : (rest = [] \/ exists h r, rest = h :: r /\ is_header h = true) -> forall ps vs,
  py_rows float (map (fun x => (x ++ eol)%string) (map py_row (map nums l)) ++ rest) ps vs = Ok (ps ++ l, vs, after rest).
Proof.
  intros HR. induction l as [|v l IH]; intros ps vs.
  - cbn [map app]. rewrite app_nil_r. apply rows_end, HR.
  - cbn [map app py_rows]. rewrite py_row_header, py_row_words by (destruct v as [[x y] z]; discriminate).
    pose proof (py_vector_ok v) as V. destruct v as [[x y] z]. cbn [nums map] in V |- *. rewrite V. cbn [bind].
    rewrite IH, <- app_assoc. reflexivity.
Qed.
Lemma read_rows_vel l rest : (rest = [] \/ exists h r, rest = h :: r /\ is_header h = true) -> forall m, length m = length l -> forall ps vs,
  py_rows float (map (fun x => (x ++ eol)%string) (map py_row (map both (combine l m))) ++ rest) ps vs
  = Ok (ps ++ l, vs ++ m, after rest).
Proof.
  intros HR. induction l as [|v l IH]; intros m Hm ps vs; destruct m as [|w m]; try discriminate.
  - cbn [combine map app]. rewrite !app_nil_r. apply rows_end, HR.
  - cbn [length] in Hm. injection Hm as Hm. cbn [combine map app py_rows fst snd].
    rewrite py_row_header, py_row_words by (destruct v as [[x y] z]; discriminate).
    pose proof (py_vector_ok v) as V. pose proof (py_vector_ok w) as W.
    destruct v as [[x y] z], w as [[x' y'] z']. unfold both at 1. cbn [fst snd nums map app] in V, W |- *. rewrite V. cbn [bind]. rewrite W. cbn [bind].
    rewrite (IH m Hm), <- !app_assoc. reflexivity.
Qed.
Lemma read_step c rest : consistent c -> (rest = [] \/ exists h r, rest = h :: r /\ is_header h = true) ->
  py_readTimestep float (map (fun x => (x ++ eol)%string) (map py_row (rows_of c)) ++ rest) = Ok (c, after rest).
Proof.
  intros H HR. destruct c as [ps vs]. unfold py_readTimestep, rows_of. cbn [fst snd].
  destruct vs as [|v vs].
  - rewrite read_rows_pos by exact HR. reflexivity.
  - destruct H as [H|H]; [discriminate|]. cbn [fst snd] in H. rewrite read_rows_vel by (exact HR || exact H).
    cbn [bind app]. unfold setPositionsAndVelocities. rewrite H, Nat.eqb_refl, andb_false_r. reflexivity.
Qed.
Lemma steps_start cs : let rest := map (fun x => (x ++ eol)%string) (flat_map lines_of_step cs) in
  rest = [] \/ exists h r, rest = h :: r /\ is_header h = true.
Proof. destruct cs as [|c cs]; [left; reflexivity|right]. eexists. eexists. split; reflexivity. Qed.
Lemma reads_all cs : Forall consistent cs ->
  py_reads float (after (map (fun x => (x ++ eol)%string) (flat_map lines_of_step cs))) cs.
Proof.
  induction cs as [|c cs IH]; intros H; [split; reflexivity|].
  inversion H as [|? ? H1 H2]; subst. cbn [py_reads].
  exists (after (map (fun x => (x ++ eol)%string) (flat_map lines_of_step cs))). split; [|apply IH, H2].
  cbn [flat_map lines_of_step app map after]. rewrite map_app. apply read_step; [exact H1|apply steps_start].
Qed.
Lemma step_newline cs l : In l (flat_map lines_of_step cs) -> has_char newline l = false.
Proof.
  intros H. apply in_flat_map in H. destruct H as [c [_ [<-|H]]]; [reflexivity|].
  apply in_map_iff in H. destruct H as [xs [<- _]]. apply has_newline_join. intros w Hw.
  apply in_map_iff in Hw. destruct Hw as [x [<- _]]. apply has_newline_plain, (Hprints x).
Qed.
Lemma file_ok ls cs : Forall block_line ls -> Forall consistent cs ->
  exists rest, py_open (text_with (ls ++ flat_map lines_of_step cs)) = (text_with ls, rest) /\ py_reads float rest cs.
Proof.
  intros HL HC. unfold py_open. rewrite keep_text.
  2:{ intros l Hl. apply in_app_or in Hl. destruct Hl as [Hl|Hl]; [|apply (step_newline cs), Hl].
      rewrite Forall_forall in HL. apply (HL l Hl). }
  rewrite map_app, (open_block ls _ HL).
  exists (after (map (fun x => (x ++ eol)%string) (flat_map lines_of_step cs))). split; [|apply reads_all, HC].
  destruct cs as [|c cs]; reflexivity.
Qed.
Lemma py_round_trip ls cs : Forall block_line ls -> Forall consistent cs ->
  exists file rest, py_written str false (text_with ls) cs = (file, Ok tt) /\
    py_open file = (text_with ls, rest) /\ py_reads float rest cs.
Proof.
  intros HL HC. destruct (file_ok ls cs HL HC) as [rest [E R]].
  exists (text_with (ls ++ flat_map lines_of_step cs)), rest. split; [|split; assumption].
  unfold py_written, py_writeStructureBlock. rewrite write_all by exact HC. rewrite text_with_app. reflexivity.
Qed.

(** Files written by the simulation. *)
Variable negative minus_one : F -> bool.
Lemma step_rows_of n st : rows_of (step_collection n st) = step_rows n st.
Proof.
  destruct st as [p [v|]]; unfold step_collection, rows_of, step_rows; cbn [fst snd].
  - destruct n as [|n]; [reflexivity|].
    change (map (at_index v) (seq 0 (S n))) with (at_index v 0 :: map (at_index v) (seq 1 n)). cbv iota.
    change (at_index v 0 :: map (at_index v) (seq 1 n)) with (map (at_index v) (seq 0 (S n))).
    generalize (seq 0 (S n)). intros l. induction l as [|k l IH]; [reflexivity|].
    cbn [map combine fst snd]. f_equal. exact IH.
  - rewrite map_map. apply map_ext. intros k. reflexivity.
Qed.
Lemma step_lines_same n st : step_lines F str (Z.of_nat n) st = lines_of_step (step_collection n st).
Proof.
  unfold step_lines, lines_of_step. f_equal. rewrite step_rows_of, <- (rows_spec F n st). reflexivity.
Qed.
Lemma structure_block_lines s : good F negative s -> Forall block_line (structure_lines F str s).
Proof.
  intros G. rewrite Forall_forall. intros l Hl. split; [apply (structure_newline F str float negative Hprints s l G Hl)|].
  unfold structure_lines in Hl. rewrite !in_app_iff, !in_map_iff in Hl.
  destruct Hl as [H|[[r [<- Hr]]|[b [<- Hb]]]].
  - destruct (volume s) as [[[x y] z]|]; [|destruct H]. destruct H as [<-|[]].
    cbn [join]. reflexivity.
  - unfold atom_line_of, atom_line_text. cbn [app].
    match goal with |- is_header (join " " (?w :: ?l)) = _ => destruct (join_cons w l) as [q ->] end. reflexivity.
  - unfold bond_line_of, bond_line_text. cbn [app].
    match goal with |- is_header (join " " (?w :: ?l)) = _ => destruct (join_cons w l) as [q ->] end. reflexivity.
Qed.
Lemma consistent_step n (st : (Z -> F) * option (Z -> F)) : consistent (step_collection n st).
Proof.
  destruct st as [p [v|]]; [right|left; reflexivity]. unfold step_collection. cbn [fst snd].
  rewrite !map_length. reflexivity.
Qed.
Lemma py_reads_simulation l : Forall unsigned l -> Forall plain_names l ->
  let c := declared negative minus_one l in
  exists block rest, py_open (written str negative minus_one l) = (block, rest) /\
    block = structure_text str (w_structure (fold_left (perform str negative minus_one) l new_writer)) /\
    py_reads float rest (map (step_collection (length (c_atoms c))) (c_steps c)).
Proof.
  intros U P c. pose proof (written_inv F str negative minus_one l U P) as I. fold c in I.
  set (w := fold_left (perform str negative minus_one) l new_writer) in *.
  pose proof (count_atoms F str negative w c I) as N.
  unfold written. fold w. rewrite (file_lines F str negative w c I).
  assert (E : flat_map (step_lines F str (getNumberOfAtoms (w_structure w))) (c_steps c) =
              flat_map lines_of_step (map (step_collection (length (c_atoms c))) (c_steps c))).
  { rewrite N. induction (c_steps c) as [|st sts IH]; [reflexivity|]. cbn [flat_map map]. rewrite step_lines_same, IH. reflexivity. }
  rewrite E, <- text_with_text_of.
  destruct (file_ok (structure_lines F str (w_structure w)) (map (step_collection (length (c_atoms c))) (c_steps c))) as [rest [R1 R2]].
  - apply structure_block_lines, I.
  - rewrite Forall_forall. intros x Hx. apply in_map_iff in Hx. destruct Hx as [st [<- _]]. apply consistent_step.
  - eexists. exists rest. split; [exact R1|]. split; [|exact R2].
    rewrite text_with_text_of. symmetry. apply structure_text_lines.
Qed.
End Py.

Lemma integers_numeric : numeric str_of_Z.
Proof.
  intros z. pose proof (str_of_Z_chars z) as H. destruct (str_of_Z z) as [|a s]; [reflexivity|].
  cbn [all_chars] in H. apply andb_true_iff in H. destruct H as [H _]. cbn [not_t].
  destruct a as [[] [] [] [] [] [] [] []]; (reflexivity || discriminate).
Qed.
