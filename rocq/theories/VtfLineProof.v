(** The lines of a structure block. *)
From Verif Require Import VtfSpec VtfTextProof VtfRangeProof.
From Coq Require Import Lia FinFun.
Open Scope string_scope.
Open Scope Z_scope.
Open Scope list_scope.

(** * Bonds *)

Lemma pair_eqb_eq a b : pair_eqb a b = true <-> a = b.
Proof.
  destruct a as [a1 a2], b as [b1 b2]. unfold pair_eqb. cbn [fst snd]. rewrite andb_true_iff, !Z.eqb_eq.
  split; [intros [-> ->]; reflexivity|intros E; injection E; auto].
Qed.
Lemma has_pair_in b l : has_pair b l = true <-> In b l.
Proof.
  unfold has_pair. rewrite existsb_exists. split.
  - intros [x [Hx E]]. apply pair_eqb_eq in E. subst. exact Hx.
  - intros H. exists b. split; [exact H|]. apply pair_eqb_eq. reflexivity.
Qed.
Lemma has_pair_bool b l l' : (In b l <-> In b l') -> has_pair b l = has_pair b l'.
Proof.
  intros H. destruct (has_pair b l) eqn:E, (has_pair b l') eqn:E'; try reflexivity.
  - apply has_pair_in, H, has_pair_in in E. congruence.
  - apply has_pair_in, H, has_pair_in in E'. congruence.
Qed.
Lemma pair_ltb_lt a b : pair_ltb a b = true <-> fst a < fst b \/ (fst a = fst b /\ snd a < snd b).
Proof. unfold pair_ltb. rewrite orb_true_iff, andb_true_iff, !Z.ltb_lt, Z.eqb_eq. tauto. Qed.
Lemma pair_trans a b c : pair_ltb a b = true -> pair_ltb b c = true -> pair_ltb a c = true.
Proof. rewrite !pair_ltb_lt. lia. Qed.
Lemma pair_total a b : pair_ltb a b = false -> pair_eqb a b = false -> pair_ltb b a = true.
Proof.
  intros H E. rewrite pair_ltb_lt.
  destruct (Z_lt_ge_dec (fst a) (fst b)) as [L|L].
  - assert (X : pair_ltb a b = true) by (apply pair_ltb_lt; left; exact L). congruence.
  - destruct (Z_lt_ge_dec (fst b) (fst a)) as [M|M]; [left; exact M|]. right. split; [lia|].
    destruct (Z_lt_ge_dec (snd a) (snd b)) as [P|P].
    + assert (X : pair_ltb a b = true) by (apply pair_ltb_lt; right; lia). congruence.
    + destruct (Z.eq_dec (snd a) (snd b)) as [Q|Q]; [|lia].
      assert (X : pair_eqb a b = true).
      { unfold pair_eqb. rewrite andb_true_iff, !Z.eqb_eq. lia. } congruence.
Qed.
Lemma in_insert b l c : In c (insert_pair b l) <-> c = b \/ In c l.
Proof.
  induction l as [|x l IH]; cbn [insert_pair]; [cbn [In]; intuition congruence|].
  destruct (pair_ltb b x); [cbn [In]; intuition congruence|].
  destruct (pair_eqb b x) eqn:E.
  - apply pair_eqb_eq in E. subst. cbn [In]. intuition congruence.
  - cbn [In]. rewrite IH. intuition congruence.
Qed.
Lemma sorted_insert b l : sorted_pairs l -> sorted_pairs (insert_pair b l).
Proof.
  induction l as [|x l IH]; intros H; cbn [insert_pair]; [cbn; tauto|].
  destruct H as [H1 H2]. destruct (pair_ltb b x) eqn:L.
  - cbn [sorted_pairs]. split; [|tauto]. intros c [<-|Hc]; [exact L|].
    apply (pair_trans _ x); [exact L|apply H1, Hc].
  - destruct (pair_eqb b x) eqn:E; [cbn [sorted_pairs]; tauto|].
    cbn [sorted_pairs]. split; [|apply IH, H2]. intros c Hc. apply in_insert in Hc. destruct Hc as [->|Hc].
    + apply pair_total; assumption.
    + apply H1, Hc.
Qed.
Lemma insert_last b l : (forall c, In c l -> pair_ltb c b = true) -> insert_pair b l = l ++ [b].
Proof.
  induction l as [|x l IH]; intros H; [reflexivity|]. cbn [insert_pair app].
  pose proof (H x (or_introl eq_refl)) as X.
  destruct (pair_ltb b x) eqn:L.
  - rewrite pair_ltb_lt in *. lia.
  - destruct (pair_eqb b x) eqn:E.
    + apply pair_eqb_eq in E. subst. rewrite pair_ltb_lt in X. lia.
    + rewrite IH; [reflexivity|]. intros c Hc. apply H. right; exact Hc.
Qed.
Lemma sorted_app l m : sorted_pairs (l ++ m) <->
  sorted_pairs l /\ sorted_pairs m /\ forall a b, In a l -> In b m -> pair_ltb a b = true.
Proof.
  induction l as [|x l IH]; cbn [app sorted_pairs]; [firstorder|]. rewrite IH. split.
  - intros [H1 [H2 [H3 H4]]]. split; [split; [|exact H2]|split; [exact H3|]].
    + intros c Hc. apply H1, in_or_app. left; exact Hc.
    + intros a b [<-|Ha] Hb; [|apply H4; assumption]. apply H1, in_or_app. right; exact Hb.
  - intros [[H1 H2] [H3 H4]]. split; [|split; [exact H2|split; [exact H3|]]].
    + intros c Hc. apply in_app_or in Hc. destruct Hc as [Hc|Hc]; [apply H1, Hc|].
      apply H4; [left; reflexivity|exact Hc].
    + intros a b Ha Hb. apply H4; [right; exact Ha|exact Hb].
Qed.

Lemma add_bonds_ok new : forall l, sorted_pairs l -> NoDup new -> (forall b, In b new -> ~ In b l) ->
  exists l', add_bonds l new = Ok l' /\ sorted_pairs l' /\ forall b, In b l' <-> In b l \/ In b new.
Proof.
  induction new as [|x new IH]; intros l H N D.
  - exists l. split; [reflexivity|]. split; [exact H|]. intros b. cbn [In]. tauto.
  - cbn [add_bonds]. unfold add_bond. destruct (has_pair x l) eqn:E.
    { apply has_pair_in in E. destruct (D x (or_introl eq_refl) E). }
    cbn [bind]. inversion N as [|? ? N1 N2]; subst.
    destruct (IH (insert_pair x l)) as [l' [E1 [E2 E3]]].
    + apply sorted_insert, H.
    + exact N2.
    + intros b Hb Hi. apply in_insert in Hi. destruct Hi as [->|Hi]; [contradiction|].
      apply (D b); [right; exact Hb|exact Hi].
    + exists l'. split; [exact E1|]. split; [exact E2|]. intros b. rewrite E3, in_insert. cbn [In].
      intuition congruence.
Qed.
Lemma add_bonds_err new : forall l, ~ (NoDup new /\ forall b, In b new -> ~ In b l) ->
  add_bonds l new = Err MalformedFileException.
Proof.
  induction new as [|x new IH]; intros l H.
  - destruct H. split; [constructor|]. intros b [].
  - cbn [add_bonds]. unfold add_bond. destruct (has_pair x l) eqn:E; [reflexivity|]. cbn [bind].
    apply IH. intros [N D]. apply H. split.
    + constructor; [|exact N]. intros Hx. apply (D x Hx). apply in_insert. left; reflexivity.
    + intros b [<-|Hb] Hl.
      * apply has_pair_in in Hl. congruence.
      * apply (D b Hb). apply in_insert. right; exact Hl.
Qed.
Lemma add_bonds_app l m n : add_bonds l (m ++ n) = do l' <- add_bonds l m; add_bonds l' n.
Proof.
  revert l. induction m as [|x m IH]; intros l; [reflexivity|]. cbn [app add_bonds].
  destruct (add_bond l x); [|reflexivity]. cbn [bind]. apply IH.
Qed.

Definition pairs_of (s : bond_spec) : list (Z * Z) :=
  match s with OneBond a b => [(a, b)] | BondChain a b => chain a b end.
Lemma in_chain a b c : In c (chain a b) <-> exists i, a <= i < b /\ c = (i, i + 1).
Proof.
  unfold chain, atom_ids. rewrite map_map, in_map_iff. split.
  - intros [k [<- Hk]]. apply in_seq in Hk. exists (a + Z.of_nat k). split; [lia|reflexivity].
  - intros [i [Hi ->]]. exists (Z.to_nat (i - a)). split.
    + rewrite Z2Nat.id by lia. f_equal; lia.
    + apply in_seq. lia.
Qed.
Lemma nodup_chain a b : NoDup (chain a b).
Proof.
  unfold chain, atom_ids. rewrite map_map. apply FinFun.Injective_map_NoDup; [|apply seq_NoDup].
  intros i j E. injection E. lia.
Qed.
Lemma mentions_in n s a b : legal_bond n s -> (mentions s a b = true <-> In (a, b) (pairs_of s)).
Proof.
  destruct s as [c d|c d]; cbn [legal_bond mentions pairs_of]; intros H.
  - rewrite andb_true_iff, !Z.eqb_eq. cbn [In]. split.
    + intros [-> ->]. left; reflexivity.
    + intros [E|[]]. injection E; auto.
  - rewrite !andb_true_iff, !Z.leb_le, Z.eqb_eq, in_chain. split.
    + intros [[H1 H2] ->]. exists a. split; [lia|reflexivity].
    + intros [i [Hi E]]. injection E. lia.
Qed.
Lemma nodup_pairs s : NoDup (pairs_of s).
Proof. destruct s; [constructor; [intros []|constructor]|apply nodup_chain]. Qed.
Lemma nodup_app {A} (l m : list A) : NoDup (l ++ m) <-> NoDup l /\ NoDup m /\ forall x, In x l -> ~ In x m.
Proof.
  induction l as [|a l IH]; cbn [app].
  - split; [intros H; repeat split; [constructor|exact H|intros x []]|tauto].
  - rewrite !NoDup_cons_iff, IH, in_app_iff. split.
    + intros [H1 [H2 [H3 H4]]]. repeat split; try tauto. intros x [<-|Hx]; [tauto|apply H4, Hx].
    + intros [[H1 H2] [H3 H4]]. repeat split; try tauto.
      * intros [Hx|Hx]; [contradiction|]. apply (H4 a); [left; reflexivity|exact Hx].
      * intros x Hx. apply H4. right; exact Hx.
Qed.
Lemma separate_nodup n l : Forall (legal_bond n) l -> (separate l <-> NoDup (flat_map pairs_of l)).
Proof.
  induction l as [|s l IH]; intros H; cbn [separate flat_map]; [split; [constructor|tauto]|].
  inversion H as [|? ? H1 H2]; subst. rewrite nodup_app, <- (IH H2). split.
  - intros [D S2]. split; [apply nodup_pairs|]. split; [exact S2|].
    intros [a b] Hx Hm. apply in_flat_map in Hm. destruct Hm as [t [Ht Hm]].
    rewrite Forall_forall in H2.
    apply (mentions_in n s a b H1) in Hx. apply (mentions_in n t a b (H2 t Ht)) in Hm.
    rewrite (D t a b Ht Hx) in Hm. discriminate.
  - intros [_ [S2 D]]. split; [|exact S2]. intros t a b Ht Hx. rewrite Forall_forall in H2.
    destruct (mentions t a b) eqn:E; [|reflexivity]. exfalso.
    apply (D (a, b)).
    + apply (mentions_in n s a b H1), Hx.
    + apply in_flat_map. exists t. split; [exact Ht|]. apply (mentions_in n t a b (H2 t Ht)), E.
Qed.

Lemma bond_token n s c rest l : legal_bond n s ->
  bond_tokens n l true ((bond_spec_text s ++ comma_if c)%string :: rest) =
  do l' <- add_bonds l (pairs_of s); bond_tokens n l' c rest.
Proof.
  intros H. cbn [bond_tokens negb].
  assert (E : match_bond (bond_spec_text s ++ comma_if c)%string =
    match s with OneBond a b => Some (str_of_Z a, false, str_of_Z b, c)
               | BondChain a b => Some (str_of_Z a, true, str_of_Z b, c) end).
  { destruct s as [a b|a b]; cbn [bond_spec_text legal_bond] in *.
    - apply (match_bond_spec a b false c); lia.
    - apply (match_bond_spec a b true c); lia. }
  rewrite E. destruct s as [a b|a b]; cbn [legal_bond pairs_of] in *;
    rewrite !cast_id_id by lia; cbn [bind];
    (destruct (Z.leb_spec b a); [lia|]); (destruct (Z.ltb_spec a n); [|lia]); (destruct (Z.ltb_spec b n); [|lia]);
    reflexivity.
Qed.
Lemma bond_tokens_specs n specs : Forall (legal_bond n) specs -> forall l,
  bond_tokens n l true (bond_spec_words specs) = add_bonds l (flat_map pairs_of specs).
Proof.
  induction specs as [|s specs IH]; intros H l; [reflexivity|].
  inversion H as [|? ? H1 H2]; subst. destruct specs as [|t specs].
  - cbn [bond_spec_words flat_map]. rewrite <- (str_app_nil (bond_spec_text s)).
    change "" with (comma_if false) at 1. rewrite bond_token by exact H1. rewrite app_nil_r.
    destruct (add_bonds l (pairs_of s)); reflexivity.
  - change (bond_spec_words (s :: t :: specs)) with ((bond_spec_text s ++ comma_if true)%string :: bond_spec_words (t :: specs)).
    rewrite bond_token by exact H1.
    change (flat_map pairs_of (s :: t :: specs)) with (pairs_of s ++ flat_map pairs_of (t :: specs)).
    rewrite add_bonds_app. destruct (add_bonds l (pairs_of s)); [|reflexivity]. cbn [bind]. apply IH, H2.
Qed.

Lemma bond_wordlike s c : numeric_bond s -> wordlike (bond_spec_text s ++ comma_if c)%string.
Proof.
  intros H. exists (bond_spec_text s). split; [|split].
  - assert (0 <= 0) by lia. destruct s as [a b|a b]; cbn [bond_spec_text];
      pose proof (str_of_Z_nonempty a); destruct (str_of_Z a); try congruence; discriminate.
  - destruct s as [a b|a b]; cbn [bond_spec_text numeric_bond] in *; rewrite !plain_app, !id_plain by lia; reflexivity.
  - destruct c; [right; reflexivity|left; apply str_app_nil].
Qed.
Lemma bond_words_wordlike specs w : Forall numeric_bond specs -> In w (bond_spec_words specs) -> wordlike w.
Proof.
  induction specs as [|s specs IH]; intros H Hw; [destruct Hw|].
  inversion H as [|? ? H1 H2]; subst. destruct specs as [|t specs].
  - destruct Hw as [<-|[]]. rewrite <- (str_app_nil (bond_spec_text s)). apply (bond_wordlike s false H1).
  - destruct Hw as [<-|Hw]; [apply (bond_wordlike s true H1)|apply IH; assumption].
Qed.
Definition bond_key (key : list string) : Prop := key = [] \/ key = ["b"] \/ key = ["bond"].
Lemma head_not_key w k : head_digit w = true -> head_digit k = false -> String.eqb w k = false.
Proof. intros H1 H2. apply String.eqb_neq. intros ->. congruence. Qed.
Lemma bond_head s c : numeric_bond s -> head_digit (bond_spec_text s ++ comma_if c)%string = true.
Proof.
  intros H. destruct s as [a b|a b]; cbn [bond_spec_text numeric_bond] in *; rewrite !append_assoc'; apply head_id; lia.
Qed.
Lemma bond_arguments key specs : bond_key key -> Forall numeric_bond specs ->
  arguments ["b"; "bond"] (bond_line_text key specs) = bond_spec_words specs.
Proof.
  intros K H. unfold arguments, spread_commas, bond_line_text. rewrite tokens_join.
  - destruct K as [->|[->| ->]]; cbn [app]; [|reflexivity|reflexivity].
    destruct specs as [|s specs]; [reflexivity|]. inversion H as [|? ? H1 H2]; subst.
    destruct specs as [|t specs]; cbn [bond_spec_words existsb].
    + pose proof (bond_head s false H1) as Hd. cbn [comma_if] in Hd. rewrite str_app_nil in Hd.
      rewrite !head_not_key by (assumption || reflexivity). reflexivity.
    + pose proof (bond_head s true H1) as Hd. cbn [comma_if] in Hd.
      rewrite !head_not_key by (assumption || reflexivity). reflexivity.
  - intros w Hw. apply in_app_or in Hw. destruct Hw as [Hw|Hw]; [|apply (bond_words_wordlike specs); assumption].
    exists w. destruct K as [->|[->| ->]]; [destruct Hw| |]; destruct Hw as [<-|[]]; repeat split; try discriminate; left; reflexivity.
Qed.

Lemma legal_numeric n s : legal_bond n s -> numeric_bond s.
Proof. destruct s; cbn [legal_bond numeric_bond]; lia. Qed.
Lemma add_bonds_malformed new : forall l e, add_bonds l new = Err e -> e = MalformedFileException.
Proof.
  induction new as [|x new IH]; intros l e h; cbn [add_bonds] in h; [discriminate|].
  unfold add_bond in h. destruct (has_pair x l); cbn [bind] in h; [congruence|]. eapply IH; exact h.
Qed.
Lemma bond_token_illegal n s c rest l : numeric_bond s -> ~ legal_bond n s ->
  bond_tokens n l true ((bond_spec_text s ++ comma_if c)%string :: rest) = Err MalformedFileException.
Proof.
  intros H L. cbn [bond_tokens negb].
  assert (E : match_bond (bond_spec_text s ++ comma_if c)%string =
    match s with OneBond a b => Some (str_of_Z a, false, str_of_Z b, c)
               | BondChain a b => Some (str_of_Z a, true, str_of_Z b, c) end).
  { destruct s as [a b|a b]; cbn [bond_spec_text numeric_bond] in *.
    - apply (match_bond_spec a b false c); lia.
    - apply (match_bond_spec a b true c); lia. }
  rewrite E. destruct s as [a b|a b]; cbn [legal_bond numeric_bond] in *;
    rewrite !cast_id_id by lia; cbn [bind];
    (destruct (Z.leb_spec b a); [reflexivity|]); (destruct (Z.ltb_spec a n); [|reflexivity]); (destruct (Z.ltb_spec b n); [|reflexivity]);
    destruct L; lia.
Qed.
Lemma bond_tokens_illegal n specs : Forall numeric_bond specs -> ~ Forall (legal_bond n) specs -> forall l,
  bond_tokens n l true (bond_spec_words specs) = Err MalformedFileException.
Proof.
  induction specs as [|s specs IH]; intros H L l; [destruct L; constructor|].
  inversion H as [|? ? H1 H2]; subst.
  assert (D: legal_bond n s \/ ~ legal_bond n s).
  { destruct s as [a b|a b]; cbn [legal_bond numeric_bond] in *; destruct (Z_lt_dec a b), (Z_lt_dec b n); (left; lia) || (right; lia). }
  destruct D as [D|D].
  - assert (L': ~ Forall (legal_bond n) specs) by (intros Q; apply L; constructor; assumption).
    destruct specs as [|t specs]; [destruct L'; constructor|].
    change (bond_spec_words (s :: t :: specs)) with ((bond_spec_text s ++ comma_if true)%string :: bond_spec_words (t :: specs)).
    rewrite bond_token by exact D. destruct (add_bonds l (pairs_of s)) eqn:E; cbn [bind].
    + apply IH; assumption.
    + f_equal. eapply add_bonds_malformed; exact E.
  - destruct specs as [|t specs].
    + cbn [bond_spec_words]. rewrite <- (str_app_nil (bond_spec_text s)).
      change "" with (comma_if false) at 1. apply bond_token_illegal; assumption.
    + change (bond_spec_words (s :: t :: specs)) with ((bond_spec_text s ++ comma_if true)%string :: bond_spec_words (t :: specs)).
      apply bond_token_illegal; assumption.
Qed.

Section Lines.
Variable F : Type.
Variable show : F -> string.
Variable cast : string -> option F.
Variable negative : F -> bool.
Hypothesis Hprints : prints show cast.
Implicit Types (s : structure F) (p : properties F).

Lemma bond_line_value s key specs : bond_key key -> Forall (legal_bond (getNumberOfAtoms s)) specs ->
  readBondLine s (bond_line_text key specs) =
  do b <- add_bonds (bonds s) (flat_map pairs_of specs); Ok (Structure (volume s) (defaults s) (ranges s) b).
Proof.
  intros K H. unfold readBondLine. rewrite bond_arguments; [|assumption|eapply Forall_impl; [apply legal_numeric|exact H]].
  rewrite bond_tokens_specs by exact H. reflexivity.
Qed.

Lemma bond_line_illegal s key specs : bond_key key -> Forall numeric_bond specs -> ~ Forall (legal_bond (getNumberOfAtoms s)) specs ->
  readBondLine s (bond_line_text key specs) = Err MalformedFileException.
Proof.
  intros K H L. unfold readBondLine. rewrite bond_arguments by assumption.
  rewrite bond_tokens_illegal by assumption. reflexivity.
Qed.

(** * Atom lines *)

Definition range_of (t : target) : list (Z * Z) := match t with ToDefault => [] | ToAtoms a b => [(a, b)] end.

Lemma target_token (c : bool) t (st : atom_line F) : al_expect st = true -> legal_target t ->
  atom_token cast negative st (target_text t ++ comma_if c)%string =
  Ok (AtomLine (al_props st) (al_ranges st ++ range_of t) (al_option st) (al_default st || is_default t) c).
Proof.
  intros E H. unfold atom_token. rewrite E. destruct t as [|a b]; cbn [target_text range_of is_default].
  - rewrite app_nil_r, orb_true_r. destruct c; reflexivity.
  - destruct H as [H1 H2]. rewrite orb_false_r. destruct (Z.eqb_spec a b) as [->|N].
    + rewrite match_default_id, match_aid_one by lia. rewrite cast_id_id by lia. cbn [bind].
      rewrite Z.ltb_irrefl. reflexivity.
    + rewrite append_assoc', match_default_id by lia. rewrite <- append_assoc'.
      rewrite match_aid_two by lia. rewrite !cast_id_id by lia. cbn [bind].
      destruct (Z.ltb_spec b a); [lia|]. reflexivity.
Qed.
Lemma target_tokens l rest : l <> [] -> Forall legal_target l -> forall st : atom_line F, al_expect st = true ->
  atom_tokens cast negative st (target_words l ++ rest) =
  atom_tokens cast negative
    (AtomLine (al_props st) (al_ranges st ++ flat_map range_of l) (al_option st)
       (al_default st || existsb is_default l) false) rest.
Proof.
  induction l as [|t l IH]; intros N H st E; [congruence|].
  inversion H as [|? ? H1 H2]; subst. destruct l as [|u l].
  - cbn [target_words app atom_tokens flat_map existsb].
    rewrite <- (str_app_nil (target_text t)). change "" with (comma_if false) at 1.
    rewrite target_token by assumption. cbn [bind]. rewrite app_nil_r, orb_false_r. reflexivity.
  - change (target_words (t :: u :: l) ++ rest)
      with ((target_text t ++ comma_if true)%string :: (target_words (u :: l) ++ rest)).
    cbn [atom_tokens]. rewrite target_token by assumption. cbn [bind].
    rewrite IH by (congruence || assumption || reflexivity). cbn [al_props al_ranges al_option al_default].
    change (flat_map range_of (t :: u :: l)) with (range_of t ++ flat_map range_of (u :: l)).
    rewrite app_assoc. change (existsb is_default (t :: u :: l)) with (is_default t || existsb is_default (u :: l)).
    rewrite orb_assoc. reflexivity.
Qed.
Lemma setting_tokens x rest p rs dflt : legal_setting negative x ->
  atom_tokens cast negative (AtomLine p rs None dflt false) (setting_words show x ++ rest) =
  atom_tokens cast negative (AtomLine (apply_setting p x) rs None dflt false) rest.
Proof.
  intros H. destruct x as [sh n|sh n|sh x]; cbn [setting_words app atom_tokens legal_setting apply_setting] in *.
  - assert (E : atom_token cast negative (AtomLine p rs None dflt false) (if sh then "n" else "name") =
                Ok (AtomLine p rs (Some OptName) dflt false)) by (destruct sh; reflexivity).
    rewrite E. cbn [bind]. unfold atom_token. cbn [al_expect al_option al_props al_ranges al_default set_option].
    destruct H as [_ [_ H]]. destruct (Nat.ltb_spec 16 (String.length n)); [lia|]. reflexivity.
  - assert (E : atom_token cast negative (AtomLine p rs None dflt false) (if sh then "t" else "type") =
                Ok (AtomLine p rs (Some OptType) dflt false)) by (destruct sh; reflexivity).
    rewrite E. cbn [bind]. unfold atom_token. cbn [al_expect al_option al_props al_ranges al_default set_option].
    destruct H as [_ [_ H]]. destruct (Nat.ltb_spec 16 (String.length n)); [lia|]. reflexivity.
  - assert (E : atom_token cast negative (AtomLine p rs None dflt false) (if sh then "r" else "radius") =
                Ok (AtomLine p rs (Some OptRadius) dflt false)) by (destruct sh; reflexivity).
    rewrite E. cbn [bind]. unfold atom_token. cbn [al_expect al_option al_props al_ranges al_default set_option].
    rewrite (proj1 (Hprints x)), H. reflexivity.
Qed.
Lemma settings_tokens l : Forall (legal_setting negative) l -> forall p rs dflt,
  atom_tokens cast negative (AtomLine p rs None dflt false) (flat_map (setting_words show) l) =
  Ok (AtomLine (fold_left apply_setting l p) rs None dflt false).
Proof.
  induction l as [|x l IH]; intros H p rs dflt; [reflexivity|].
  inversion H as [|? ? H1 H2]; subst. cbn [flat_map fold_left]. rewrite setting_tokens by exact H1. apply IH, H2.
Qed.

Lemma target_wordlike t c : legal_target t -> wordlike (target_text t ++ comma_if c)%string.
Proof.
  intros H. exists (target_text t). split; [|split].
  - destruct t as [|a b]; cbn [target_text]; [discriminate|]. destruct (a =? b); [apply str_of_Z_nonempty|].
    pose proof (str_of_Z_nonempty a). destruct (str_of_Z a); [congruence|discriminate].
  - destruct t as [|a b]; cbn [target_text legal_target] in *; [reflexivity|].
    destruct (a =? b); [apply id_plain; lia|]. rewrite !plain_app, !id_plain by lia. reflexivity.
  - destruct c; [right; reflexivity|left; apply str_app_nil].
Qed.
Lemma target_words_wordlike l w : Forall legal_target l -> In w (target_words l) -> wordlike w.
Proof.
  induction l as [|s l IH]; intros H Hw; [destruct Hw|].
  inversion H as [|? ? H1 H2]; subst. destruct l as [|t l].
  - destruct Hw as [<-|[]]. rewrite <- (str_app_nil (target_text s)). apply (target_wordlike s false H1).
  - destruct Hw as [<-|Hw]; [apply (target_wordlike s true H1)|apply IH; assumption].
Qed.
Lemma setting_wordlike x w : legal_setting negative x -> In w (setting_words show x) -> w <> "" /\ plain w = true.
Proof.
  intros H Hw. destruct x as [sh n|sh n|sh f]; cbn [setting_words legal_setting] in H, Hw.
  - destruct Hw as [E|[E|[]]]; subst w; [destruct sh; split; [discriminate|reflexivity|discriminate|reflexivity]|].
    split; apply H.
  - destruct Hw as [E|[E|[]]]; subst w; [destruct sh; split; [discriminate|reflexivity|discriminate|reflexivity]|].
    split; apply H.
  - destruct Hw as [E|[E|[]]]; subst w; [destruct sh; split; [discriminate|reflexivity|discriminate|reflexivity]|].
    apply (Hprints f).
Qed.
Lemma target_key t c : legal_target t -> existsb (String.eqb (target_text t ++ comma_if c)%string) ["a"; "atom"] = false.
Proof.
  intros H. destruct t as [|a b]; cbn [target_text].
  - destruct c; reflexivity.
  - assert (Hd : head_digit ((if Z.eqb a b then str_of_Z a else (str_of_Z a ++ ":" ++ str_of_Z b)%string) ++ comma_if c)%string = true).
    { cbn [legal_target] in H. destruct (a =? b); rewrite ?append_assoc'; apply head_id; lia. }
    cbn [existsb]. rewrite !head_not_key by (assumption || reflexivity). reflexivity.
Qed.
Lemma atom_arguments key targets settings : atom_key key -> targets <> [] -> Forall legal_target targets ->
  Forall (legal_setting negative) settings ->
  arguments ["a"; "atom"] (atom_line_text show key targets settings) =
  target_words targets ++ flat_map (setting_words show) settings.
Proof.
  intros K N H HS. unfold arguments, spread_commas, atom_line_text. rewrite tokens_join.
  - destruct K as [->|[->| ->]]; cbn [app]; [|reflexivity|reflexivity].
    destruct targets as [|t targets]; [congruence|]. inversion H as [|? ? H1 H2]; subst.
    destruct targets as [|u targets]; cbn [target_words app].
    + pose proof (target_key t false H1) as Hd. cbn [comma_if] in Hd. rewrite str_app_nil in Hd. rewrite Hd. reflexivity.
    + pose proof (target_key t true H1) as Hd. cbn [comma_if] in Hd. rewrite Hd. reflexivity.
  - intros w Hw. apply in_app_or in Hw. destruct Hw as [Hw|Hw].
    + exists w. destruct K as [->|[->| ->]]; [destruct Hw| |]; destruct Hw as [<-|[]]; repeat split; try discriminate; left; reflexivity.
    + apply in_app_or in Hw. destruct Hw as [Hw|Hw]; [apply (target_words_wordlike targets); assumption|].
      apply in_flat_map in Hw. destruct Hw as [x [Hx Hw]]. rewrite Forall_forall in HS.
      destruct (setting_wordlike x w (HS x Hx) Hw) as [A B]. exists w. repeat split; try assumption. left; reflexivity.
Qed.
Lemma atom_line_value dbg s key targets settings :
  atom_key key -> targets <> [] -> Forall legal_target targets -> Forall (legal_setting negative) settings ->
  readAtomLine cast negative dbg s (atom_line_text show key targets settings) =
  (let p := fold_left apply_setting settings (defaults s) in
   let d := if existsb is_default targets then p else defaults s in
   do l <- set_ranges dbg d p (ranges s) (flat_map range_of targets);
   Ok (Structure (volume s) d l (bonds s))).
Proof.
  intros K N H HS. unfold readAtomLine. rewrite atom_arguments by assumption.
  rewrite target_tokens by (assumption || reflexivity). cbn [al_props al_ranges al_option al_default app orb].
  rewrite settings_tokens by exact HS. reflexivity.
Qed.

Lemma set_ranges_ok (d p : properties F) new : Forall (fun ab => 0 <= fst ab <= snd ab) new -> forall l,
  contiguous 0 l -> exists l', set_ranges false d p l new = Ok l' /\ contiguous 0 l' /\
    atomCount l' = fold_left Z.max (map (fun ab => snd ab + 1) new) (atomCount l) /\
    forall i, 0 <= i -> propertiesIn l' i =
      if existsb (fun ab => (fst ab <=? i) && (i <=? snd ab)) new then Ok p
      else if i <? atomCount l then propertiesIn l i
      else if i <? atomCount l' then Ok d else Err OutOfBoundsException.
Proof.
  induction new as [|[a b] new IH]; intros H l C.
  - exists l. repeat split; try assumption. intros i Hi. cbn [existsb].
    destruct (Z.ltb_spec i (atomCount l)) as [L|L]; [reflexivity|].
    apply (lookup_end F 0 l i C). rewrite <- atomCount_ends0. exact L.
  - inversion H as [|? ? H1 H2]; subst. cbn [fst snd] in H1. cbn [set_ranges].
    destruct (setAtomRange_ok F d l (Range a b p) C) as [l1 [E1 [E2 [E3 E4]]]]; [exact H1|].
    rewrite E1. cbn [bind r_first r_last r_props] in *.
    destruct (IH H2 l1 E2) as [l2 [G1 [G2 [G3 G4]]]]. exists l2. split; [exact G1|]. split; [exact G2|].
    cbn [map fold_left snd]. split; [rewrite G3, E3; reflexivity|].
    intros i Hi. rewrite (G4 i Hi). cbn [existsb fst snd].
    destruct (existsb (fun ab => (fst ab <=? i) && (i <=? snd ab)) new) eqn:X; [rewrite orb_true_r; reflexivity|].
    rewrite orb_false_r. rewrite (E4 i Hi).
    assert (M : atomCount l1 <= atomCount l2).
    { rewrite G3. generalize (map (fun ab : Z * Z => snd ab + 1) new), (atomCount l1). clear.
      induction l as [|x l IH]; intros z; cbn [fold_left]; [lia|]. specialize (IH (Z.max z x)). lia. }
    destruct (Z.leb_spec a i), (Z.leb_spec i b), (Z.ltb_spec i (atomCount l)), (Z.ltb_spec i (atomCount l1)),
      (Z.ltb_spec i (atomCount l2)); try lia; reflexivity.
Qed.
Lemma hits_ranges i l : existsb (hits i) l =
  existsb (fun ab => (fst ab <=? i) && (i <=? snd ab)) (flat_map range_of l).
Proof.
  induction l as [|[|a b] l IH]; cbn [existsb flat_map range_of hits app]; [reflexivity|exact IH|].
  cbn [fst snd]. rewrite IH. reflexivity.
Qed.
Lemma fold_max_mono l : forall n, n <= fold_left Z.max l n.
Proof. induction l as [|x l IH]; intros n; cbn [fold_left]; [lia|]. specialize (IH (Z.max n x)). lia. Qed.
Lemma ends_targets l : forall n, 0 <= n ->
  fold_left Z.max (map target_end l) n = fold_left Z.max (map (fun ab : Z * Z => snd ab + 1) (flat_map range_of l)) n.
Proof.
  induction l as [|[|a b] l IH]; intros n Hn; cbn [map flat_map range_of app fold_left target_end snd]; [reflexivity| |].
  - rewrite Z.max_l by exact Hn. apply IH, Hn.
  - apply IH. lia.
Qed.
Lemma atom_line_ok s key targets settings : contiguous 0 (ranges s) ->
  atom_key key -> targets <> [] -> Forall legal_target targets -> Forall (legal_setting negative) settings ->
  exists s', readAtomLine cast negative false s (atom_line_text show key targets settings) = Ok s' /\
    contiguous 0 (ranges s') /\ volume s' = volume s /\ bonds s' = bonds s /\
    (let p := fold_left apply_setting settings (defaults s) in
     defaults s' = (if existsb is_default targets then p else defaults s) /\
     getNumberOfAtoms s' = fold_left Z.max (map target_end targets) (getNumberOfAtoms s) /\
     forall i, 0 <= i -> getAtomProperties s' i =
       if existsb (hits i) targets then Ok p
       else if i <? getNumberOfAtoms s then getAtomProperties s i
       else if i <? getNumberOfAtoms s' then Ok (defaults s') else Err OutOfBoundsException).
Proof.
  intros C K N H HS. rewrite atom_line_value by assumption. cbv zeta.
  set (p := fold_left apply_setting settings (defaults s)).
  set (d := if existsb is_default targets then p else defaults s).
  destruct (set_ranges_ok d p (flat_map range_of targets)) with (l := ranges s) as [l' [E1 [E2 [E3 E4]]]].
  - rewrite Forall_forall. intros ab Hab. apply in_flat_map in Hab. destruct Hab as [t [Ht Hab]].
    rewrite Forall_forall in H. specialize (H t Ht). destruct t as [|a b]; [destruct Hab|].
    destruct Hab as [<-|[]]. cbn [fst snd legal_target] in *. lia.
  - exact C.
  - rewrite E1. cbn [bind]. eexists. split; [reflexivity|]. cbn [ranges volume bonds defaults].
    split; [exact E2|]. split; [reflexivity|]. split; [reflexivity|]. split; [reflexivity|].
    unfold getNumberOfAtoms, getAtomProperties. cbn [ranges].
    split.
    + rewrite E3. symmetry. apply ends_targets. rewrite atomCount_ends0. apply ends_ge, C.
    + intros i Hi. rewrite hits_ranges. apply E4, Hi.
Qed.
End Lines.
