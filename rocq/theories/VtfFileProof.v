(** Structure blocks written by hand. *)
From Verif Require Import VtfSpec VtfTextProof VtfRangeProof VtfLineProof VtfProof.
From Coq Require Import Lia.
Open Scope string_scope.
Open Scope Z_scope.
Open Scope list_scope.

Lemma bonds_pairs s : bonds_of s = pairs_of s.
Proof. destruct s; [reflexivity|]. unfold bonds_of, pairs_of, chain, atom_ids. rewrite map_map. reflexivity. Qed.
Lemma bonds_pairs_all l : flat_map bonds_of l = flat_map pairs_of l.
Proof. induction l as [|s l IH]; [reflexivity|]. cbn [flat_map]. rewrite bonds_pairs, IH. reflexivity. Qed.
Lemma bonded_app_all l m a b : bonded (l ++ m) a b = bonded l a b || bonded m a b.
Proof. unfold bonded. apply existsb_app. Qed.
Lemma bonded_in l a b : (forall c, In c l -> fst c < snd c) -> a <> b -> (bonded l a b = true <-> In (ordered a b) l).
Proof.
  intros H N. unfold bonded. rewrite existsb_exists. split.
  - intros [[c d] [Hc E]]. cbn [fst snd] in E. rewrite orb_true_iff, !andb_true_iff, !Z.eqb_eq in E.
    specialize (H _ Hc). cbn [fst snd] in H.
    destruct (ordered_cases a b) as [[H1 ->]|[H1 ->]];
      (replace (_, _) with (c, d); [exact Hc|f_equal; lia]).
  - intros Hc. exists (ordered a b). split; [exact Hc|].
    destruct (ordered_cases a b) as [[H1 ->]|[H1 ->]]; cbn [fst snd];
      rewrite orb_true_iff, !andb_true_iff, !Z.eqb_eq; lia.
Qed.

Section File.
Variable F : Type.
Variable show : F -> string.
Variable cast : string -> option F.
Variable negative : F -> bool.
Hypothesis Hprints : prints show cast.
Implicit Types (s : structure F) (st : said F).

(** First characters of lines that are about atoms. *)
Definition atom_char (c : ascii) : bool :=
  negb (Ascii.eqb c "#" || Ascii.eqb c "b" || (Ascii.eqb c "p" || Ascii.eqb c "u") ||
        existsb (Ascii.eqb c) ["t"; "c"; "i"; "o"]%char).
Lemma atom_dispatch dbg s w c t r ls : w = String c t -> atom_char c = true -> plain w = true ->
  readStructureBlock cast negative dbg s ((w ++ r)%string :: ls) =
  do s' <- readAtomLine cast negative dbg s (w ++ r)%string; readStructureBlock cast negative dbg s' ls.
Proof.
  intros E C P. cbn [readStructureBlock]. rewrite strip_word by (subst; discriminate || assumption).
  subst w. cbn [append]. unfold atom_char in C. rewrite negb_true_iff, !orb_false_iff in C.
  destruct C as [[[C1 C2] [C3 C4]] C5]. rewrite C1, C2, C3, C4, C5. reflexivity.
Qed.
Lemma digit_char c : is_digit c = true -> atom_char c = true.
Proof. destruct c as [[] [] [] [] [] [] [] []]; (reflexivity || discriminate). Qed.
Lemma atom_line_head key targets settings : atom_key key -> targets <> [] -> Forall legal_target targets ->
  exists w c t r, atom_line_text show key targets settings = (w ++ r)%string /\ w = String c t /\
    atom_char c = true /\ plain w = true.
Proof.
  intros K N H. unfold atom_line_text. destruct K as [->|[->| ->]].
  - destruct targets as [|t0 targets]; [congruence|]. inversion H as [|? ? H1 H2]; subst.
    destruct (target_wordlike t0 true H1) as [w [W1 [W2 W3]]].
    assert (X : exists r, join " " ([] ++ target_words (t0 :: targets) ++ flat_map (setting_words show) settings)
                = (target_text t0 ++ r)%string).
    { destruct targets as [|t1 targets]; cbn [target_words app].
      - destruct (join_cons (target_text t0) (flat_map (setting_words show) settings)) as [r ->]. exists r. reflexivity.
      - destruct (join_cons (target_text t0 ++ ",")%string
                    (target_words (t1 :: targets) ++ flat_map (setting_words show) settings)) as [r E].
        cbn [target_words] in E. rewrite E, append_assoc'. eexists. reflexivity. }
    destruct X as [r X]. rewrite X.
    assert (P : plain (target_text t0) = true).
    { destruct t0 as [|a b]; cbn [target_text legal_target] in *; [reflexivity|].
      destruct (a =? b); [apply id_plain; lia|]. rewrite !plain_app, !id_plain by lia. reflexivity. }
    destruct t0 as [|a b].
    + exists "default", "d"%char, "efault", r. repeat split.
    + assert (D : head_digit (target_text (ToAtoms a b)) = true).
      { cbn [target_text legal_target] in *. destruct (a =? b).
        - rewrite <- (str_app_nil (str_of_Z a)). apply head_id; lia.
        - apply head_id; lia. }
      destruct (target_text (ToAtoms a b)) as [|c t] eqn:E; [discriminate|].
      exists (String c t), c, t, r. repeat split; [apply digit_char, D|exact P].
  - cbn [app]. destruct (join_cons "a" (target_words targets ++ flat_map (setting_words show) settings)) as [r ->].
    exists "a", "a"%char, "", r. repeat split.
  - cbn [app]. destruct (join_cons "atom" (target_words targets ++ flat_map (setting_words show) settings)) as [r ->].
    exists "atom", "a"%char, "tom", r. repeat split.
Qed.
Lemma bond_dispatch dbg s (short : bool) specs ls :
  let line := bond_line_text [if short then "b" else "bond"] specs in
  readStructureBlock cast negative dbg s (line :: ls) =
  do s' <- readBondLine s line; readStructureBlock cast negative dbg s' ls.
Proof.
  cbv zeta. unfold bond_line_text. cbn [app].
  destruct (join_cons (if short then "b" else "bond") (bond_spec_words specs)) as [r ->].
  cbn [readStructureBlock]. rewrite strip_word by (destruct short; discriminate || reflexivity).
  destruct short; reflexivity.
Qed.
Lemma remark_dispatch dbg s text ls :
  readStructureBlock cast negative dbg s (("#" ++ text)%string :: ls) = readStructureBlock cast negative dbg s ls.
Proof. cbn [readStructureBlock]. rewrite strip_word by (discriminate || reflexivity). reflexivity. Qed.

(** The structure that has been read so far is as the lines say. *)
Definition known s st : Prop :=
  contiguous 0 (ranges s) /\ defaults s = fst st /\ volume s = c_volume (snd st) /\
  getNumberOfAtoms s = count_said st /\
  (forall i, (i < length (c_atoms (snd st)))%nat -> forall d,
     getAtomProperties s (Z.of_nat i) = Ok (nth i (c_atoms (snd st)) d)) /\
  sorted_pairs (bonds s) /\
  (forall b, In b (bonds s) -> 0 <= fst b < snd b /\ snd b < getNumberOfAtoms s) /\
  (forall b, In b (bonds s) <-> In b (c_bonds (snd st))).

Lemma known_describes s st : known s st -> describes s (snd st).
Proof.
  intros [_ [_ [V [N [P [_ [B E]]]]]]]. split; [exact N|]. split; [|split; [|exact V]].
  - intros i p H. assert (L : (i < length (c_atoms (snd st)))%nat) by (apply nth_error_Some; congruence).
    rewrite (P i L p). rewrite (nth_error_nth _ _ p H). reflexivity.
  - intros a b Ha Hb Hn. unfold hasBond, isValidAtomID. rewrite N. unfold count_said.
    destruct (Z.ltb_spec a (Z.of_nat (length (c_atoms (snd st))))); [|lia].
    destruct (Z.ltb_spec b (Z.of_nat (length (c_atoms (snd st))))); [|lia]. cbn [negb orb].
    destruct (Z.eqb_spec a b); [congruence|]. f_equal.
    assert (X : bonded (c_bonds (snd st)) a b = true <-> In (ordered a b) (c_bonds (snd st))).
    { apply bonded_in; [|exact Hn]. intros c Hc. apply E in Hc. apply B in Hc. lia. }
    rewrite <- E, <- has_pair_in in X.
    destruct (has_pair (ordered a b) (bonds s)), (bonded (c_bonds (snd st)) a b); try reflexivity;
      destruct X as [X1 X2]; [symmetry; apply X2|apply X1]; reflexivity.
Qed.
Lemma known_nothing : known new_structure nothing_said.
Proof.
  repeat split; try (cbn in *; tauto); try (cbn in *; lia).
Qed.
Lemma fold_max_le l : forall n, n <= fold_left Z.max l n.
Proof. apply fold_max_mono. Qed.
Lemma say_known s st l ls : known s st -> legal_line negative st l ->
  exists s', known s' (say st l) /\
    readStructureBlock cast negative false s (line_text show l :: ls) = readStructureBlock cast negative false s' ls.
Proof.
  intros K L. destruct K as [C [D [V [N [P [So [B E]]]]]]].
  destruct st as [d c]. destruct l as [key targets settings|short specs|text]; cbn [legal_line line_text] in *.
  - destruct L as [LK [LT [LL LS]]].
    destruct (atom_line_head key targets settings LK LT LL) as [w [ch [t [r [E1 [E2 [E3 E4]]]]]]].
    destruct (atom_line_ok F show cast negative Hprints s key targets settings C LK LT LL LS)
      as [s' [R [C' [V' [B' [D' [N' P']]]]]]].
    exists s'. split.
    + unfold known, say, count_said. cbn [fst snd c_atoms c_bonds c_volume].
      rewrite map_length, seq_length.
      assert (G : 0 <= fold_left Z.max (map target_end targets) (Z.of_nat (length (c_atoms c)))).
      { pose proof (fold_max_le (map target_end targets) (Z.of_nat (length (c_atoms c)))). lia. }
      cbn [fst snd] in D, V, N, P, E. unfold count_said in N, G. cbn [snd] in N.
      rewrite Z2Nat.id by exact G. rewrite N in N'. rewrite D in D', P'.
      split; [exact C'|]. split; [exact D'|]. split; [rewrite V'; exact V|]. split; [exact N'|].
      split; [|split; [|split]].
      * intros i Hi d0. rewrite P' by lia.
        match goal with |- context [map ?f (seq 0 ?n)] =>
          rewrite (nth_indep _ d0 (f 0%nat)) by (rewrite map_length, seq_length; exact Hi);
          rewrite (map_nth f (seq 0 n) 0%nat i) end.
        rewrite seq_nth by exact Hi. rewrite Nat.add_0_l.
        destruct (existsb (hits (Z.of_nat i)) targets); [reflexivity|].
        rewrite N. destruct (Z.ltb_spec (Z.of_nat i) (Z.of_nat (length (c_atoms c)))).
        -- apply P. lia.
        -- rewrite N', D'. destruct (Z.ltb_spec (Z.of_nat i) (fold_left Z.max (map target_end targets) (Z.of_nat (length (c_atoms c))))); [|lia].
           rewrite nth_overflow by lia. reflexivity.
      * rewrite B'. exact So.
      * rewrite B'. intros b Hb. specialize (B b Hb). rewrite N'.
        pose proof (fold_max_le (map target_end targets) (Z.of_nat (length (c_atoms c)))). rewrite N in B. lia.
      * intros b. rewrite B'. apply E.
    + rewrite E1, (atom_dispatch _ _ _ _ _ _ _ E2 E3 E4), <- E1, R. reflexivity.
  - destruct L as [LB [LS LD]]. cbv zeta.
    pose proof (bond_line_value F s [if short then "b" else "bond"] specs) as BV.
    rewrite N in BV. specialize (BV ltac:(destruct short; [right; left|right; right]; reflexivity) LB).
    assert (Hin : forall b, In b (flat_map pairs_of specs) -> 0 <= fst b < snd b /\ snd b < getNumberOfAtoms s).
    { intros [a b] Hb. apply in_flat_map in Hb. destruct Hb as [x [Hx Hb]]. rewrite Forall_forall in LB.
      specialize (LB x Hx). rewrite N. destruct x as [e f|e f]; cbn [pairs_of legal_bond] in *.
      - destruct Hb as [Hb|[]]. injection Hb as -> ->. cbn [fst snd]. lia.
      - apply in_chain in Hb. destruct Hb as [i [Hi Hb]]. injection Hb as -> ->. cbn [fst snd]. lia. }
    destruct (add_bonds_ok (flat_map pairs_of specs) (bonds s)) as [b' [A1 [A2 A3]]].
    + exact So.
    + apply (proj1 (separate_nodup _ _ LB) LS).
    + intros [a b] Hb Hb'. specialize (Hin _ Hb). cbn [fst snd] in Hin.
      apply in_flat_map in Hb. destruct Hb as [x [Hx Hb]].
      rewrite Forall_forall in LB. apply (mentions_in _ x a b (LB x Hx)) in Hb.
      specialize (LD x a b Hx Hb). apply E in Hb'.
      assert (X : bonded (c_bonds (snd (d, c))) a b = true).
      { apply bonded_in; [|lia|].
        - intros q Hq. apply E in Hq. apply B in Hq. lia.
        - destruct (ordered_cases a b) as [[_ ->]|[Q _]]; [exact Hb'|lia]. }
      congruence.
    + exists (Structure (volume s) (defaults s) (ranges s) b'). split.
      * unfold known, say, getNumberOfAtoms, getAtomProperties. cbn [fst snd c_atoms c_bonds c_volume ranges defaults volume bonds] in *.
        split; [exact C|]. split; [exact D|]. split; [exact V|]. split; [exact N|]. split; [exact P|].
        split; [exact A2|]. split.
        -- intros b Hb. apply A3 in Hb. destruct Hb as [Hb|Hb]; [apply B, Hb|apply Hin, Hb].
        -- intros b. rewrite A3, in_app_iff, bonds_pairs_all, E. reflexivity.
      * rewrite (bond_dispatch false s short specs ls), BV, A1. reflexivity.
  - exists s. split; [exact (conj C (conj D (conj V (conj N (conj P (conj So (conj B E)))))))|]. apply remark_dispatch.
Qed.
Lemma lines_known ls : forall s st, known s st -> legal_lines negative st ls ->
  exists s', known s' (fold_left say ls st) /\
    readStructureBlock cast negative false s (map (line_text show) ls ++ [""]) = Ok (s', []).
Proof.
  induction ls as [|l ls IH]; intros s st K L.
  - exists s. split; [exact K|reflexivity].
  - destruct L as [L1 L2]. destruct (say_known s st l (map (line_text show) ls ++ [""]) K L1) as [s1 [K1 E1]].
    destruct (IH s1 (say st l) K1 L2) as [s2 [K2 E2]]. exists s2. split; [exact K2|].
    cbn [map app]. rewrite E1. exact E2.
Qed.

Lemma line_newline st l : legal_line negative st l -> has_char newline (line_text show l) = false.
Proof.
  destruct l as [key targets settings|short specs|text]; cbn [legal_line line_text]; intros L.
  - destruct L as [LK [LT [LL LS]]]. apply plain_line. intros w Hw. rewrite !in_app_iff in Hw.
    assert (WL : forall w, wordlike w -> has_char newline w = false).
    { intros u [v [V1 [V2 [->| ->]]]]; rewrite ?has_char_app, (has_newline_plain v V2); reflexivity. }
    destruct Hw as [Hw|[Hw|Hw]].
    + destruct LK as [->|[->| ->]]; [destruct Hw| |]; destruct Hw as [<-|[]]; reflexivity.
    + apply WL, (target_words_wordlike targets); assumption.
    + apply in_flat_map in Hw. destruct Hw as [x [Hx Hw]]. rewrite Forall_forall in LS.
      apply has_newline_plain, (setting_wordlike F show cast negative Hprints x w (LS x Hx) Hw).
  - destruct L as [LB _]. apply plain_line. intros w Hw. cbn [app] in Hw.
    destruct Hw as [<-|Hw]; [destruct short; reflexivity|].
    destruct (bond_words_wordlike specs w (Forall_impl _ (legal_numeric _) LB) Hw) as [v [V1 [V2 [->| ->]]]];
      rewrite ?has_char_app, (has_newline_plain v V2); reflexivity.
  - exact L.
Qed.
Lemma block_lines ls : forall st, legal_lines negative st ls ->
  lines_of (block_text show ls) = map (line_text show) ls ++ [""].
Proof.
  induction ls as [|l ls IH]; intros st L; [reflexivity|]. destruct L as [L1 L2].
  cbn [block_text fold_right map app]. rewrite lines_cons by (apply (line_newline st), L1).
  f_equal. apply (IH (say st l)), L2.
Qed.
Lemma block_read ls : legal_lines negative nothing_said ls ->
  exists s, open_file cast negative false (block_text show ls) = Ok (s, []) /\
    contiguous 0 (ranges s) /\ defaults s = fst (fold_left say ls nothing_said) /\
    describes s (snd (fold_left say ls nothing_said)).
Proof.
  intros L. unfold open_file. rewrite (block_lines ls nothing_said L).
  destruct (lines_known ls new_structure nothing_said known_nothing L) as [s [K E]].
  exists s. split; [exact E|]. split; [apply K|]. split; [apply K|]. apply known_describes, K.
Qed.

(** A bond that is mentioned twice. *)
Lemma bond_twice s (short : bool) specs : sorted_pairs (bonds s) ->
  (forall b, In b (bonds s) -> fst b < snd b) -> Forall (legal_bond (getNumberOfAtoms s)) specs ->
  ~ (separate specs /\ forall x a b, In x specs -> mentions x a b = true -> bonded (bonds s) a b = false) ->
  readBondLine s (bond_line_text [if short then "b" else "bond"] specs) = Err MalformedFileException.
Proof.
  intros So B L N. rewrite bond_line_value; [|destruct short; [right; left|right; right]; reflexivity|exact L].
  rewrite add_bonds_err; [reflexivity|]. intros [D1 D2]. apply N. split.
  - apply (separate_nodup _ _ L), D1.
  - intros x a b Hx Hm. destruct (bonded (bonds s) a b) eqn:E; [|reflexivity]. exfalso.
    rewrite Forall_forall in L. specialize (L x Hx).
    assert (Hp : In (a, b) (pairs_of x)) by (apply (mentions_in _ x a b L), Hm).
    apply (D2 (a, b)); [apply in_flat_map; exists x; split; assumption|].
    assert (H : a < b).
    { destruct x as [e f|e f]; cbn [pairs_of legal_bond] in *.
      - destruct Hp as [Hp|[]]. injection Hp. lia.
      - apply in_chain in Hp. destruct Hp as [i [Hi Hp]]. injection Hp. lia. }
    apply bonded_in in E; [|exact B|lia]. destruct (ordered_cases a b) as [[_ O]|[Q _]]; [|lia].
    rewrite O in E. exact E.
Qed.
End File.
