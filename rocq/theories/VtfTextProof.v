(** Texts, tokens and regular expressions of snapshot files. *)
From Verif Require Import VtfSpec.
From Coq Require Import Lia DecimalString DecimalZ Decimal.
Open Scope string_scope.
Open Scope Z_scope.
Open Scope list_scope.

Lemma all_chars_app p a b : all_chars p (a ++ b)%string = all_chars p a && all_chars p b.
Proof. induction a as [|x a IH]; simpl; [reflexivity|]. rewrite IH, andb_assoc. reflexivity. Qed.
Lemma all_chars_imp (p q : ascii -> bool) s : (forall a, p a = true -> q a = true) ->
  all_chars p s = true -> all_chars q s = true.
Proof.
  intros H. induction s as [|a s IH]; simpl; [auto|]. intros E. apply andb_true_iff in E. destruct E as [E1 E2].
  rewrite (H _ E1), (IH E2). reflexivity.
Qed.
Lemma blank_ws a : is_blank a = true -> is_ws a = true.
Proof.
  unfold is_blank, is_ws. intros H. apply orb_true_iff in H. destruct H as [H|H].
  - rewrite H. reflexivity.
  - apply Ascii.eqb_eq in H. subst. reflexivity.
Qed.
Definition wordy (sep : ascii -> bool) (s : string) : bool := all_chars (fun a => negb (sep a)) s.
Lemma plain_ws s : plain s = true -> wordy is_ws s = true.
Proof. apply all_chars_imp. intros a H. apply andb_true_iff in H. apply H. Qed.
Lemma plain_blank s : plain s = true -> wordy is_blank s = true.
Proof.
  apply all_chars_imp. intros a H. apply andb_true_iff in H. destruct H as [H _].
  destruct (is_blank a) eqn:E; [|reflexivity]. rewrite (blank_ws _ E) in H. discriminate.
Qed.

Lemma words_one sep w : w <> "" -> wordy sep w = true -> words sep w = [w].
Proof.
  induction w as [|a w IH]; intros N H; [congruence|].
  cbn [wordy all_chars] in H. unfold wordy in H. cbn [all_chars] in H.
  apply andb_true_iff in H. destruct H as [H1 H2]. apply negb_true_iff in H1.
  cbn [words]. rewrite H1. destruct w as [|b w]; [reflexivity|].
  assert (Hb := H2). cbn [all_chars] in Hb. apply andb_true_iff in Hb. destruct Hb as [Hb _].
  apply negb_true_iff in Hb. rewrite Hb. rewrite IH; [reflexivity|discriminate|exact H2].
Qed.
Lemma words_cons sep w c r : w <> "" -> wordy sep w = true -> sep c = true ->
  words sep (w ++ String c r)%string = w :: words sep r.
Proof.
  intros N H Hc. induction w as [|a w IH]; [congruence|].
  unfold wordy in H. cbn [all_chars] in H. apply andb_true_iff in H. destruct H as [H1 H2]. apply negb_true_iff in H1.
  destruct w as [|b w].
  - cbn [append words]. rewrite H1, Hc. reflexivity.
  - assert (Hb := H2). cbn [all_chars] in Hb. apply andb_true_iff in Hb. destruct Hb as [Hb _].
    apply negb_true_iff in Hb.
    change ((String a (String b w) ++ String c r)%string) with (String a (String b w ++ String c r)%string).
    cbn [words]. rewrite H1.
    change ((String b w ++ String c r)%string) with (String b (w ++ String c r)%string) at 1.
    cbv iota. rewrite Hb, IH; [reflexivity|discriminate|exact H2].
Qed.
Lemma words_join sep l : sep " "%char = true ->
  (forall w, In w l -> w <> "" /\ wordy sep w = true) -> words sep (join " " l) = l.
Proof.
  intros Hs. induction l as [|w l IH]; intros H; [reflexivity|].
  destruct (H w (or_introl eq_refl)) as [N W].
  destruct l as [|v l].
  - cbn [join]. apply words_one; assumption.
  - change (join " " (w :: v :: l)) with (w ++ String " " (join " " (v :: l)))%string.
    rewrite words_cons by assumption. rewrite IH; [reflexivity|]. intros u Hu. apply H. right; exact Hu.
Qed.

(** A plain word, possibly followed by a comma. *)
Definition wordlike (w : string) : Prop :=
  exists q, q <> "" /\ plain q = true /\ (w = q \/ w = (q ++ ",")%string).

Lemma append_assoc' (a b c : string) : ((a ++ b) ++ c)%string = (a ++ (b ++ c))%string.
Proof. symmetry. apply str_app_assoc. Qed.

Lemma commas_word p af q r : q <> "" -> plain q = true ->
  commas p af (q ++ r)%string = (p ++ q ++ commas "" false r)%string.
Proof.
  intros N H. destruct q as [|a q]; [congruence|].
  assert (G : forall q p' af', plain q = true -> commas p' af' (q ++ r)%string =
     match q with EmptyString => commas p' af' r | _ => (p' ++ q ++ commas "" false r)%string end).
  { clear. induction q as [|a q IH]; intros p af H; [reflexivity|].
    unfold plain in H. cbn [all_chars] in H. apply andb_true_iff in H. destruct H as [H1 H2].
    apply andb_true_iff in H1. destruct H1 as [W C]. apply negb_true_iff in W, C.
    cbn [append commas]. rewrite C, W. rewrite (IH "" false H2). destruct q; reflexivity. }
  rewrite (G _ p af H). reflexivity.
Qed.

Lemma tokens_join l : (forall w, In w l -> wordlike w) ->
  forall af, words is_blank (commas "" af (join " " l)) = l.
Proof.
  induction l as [|w l IH]; intros H af; [reflexivity|].
  destruct (H w (or_introl eq_refl)) as [q [N [P E]]].
  assert (WB : wordy is_blank q = true) by (apply plain_blank; exact P).
  assert (NC : (q ++ ",")%string <> "") by (destruct q; discriminate).
  assert (WC : wordy is_blank (q ++ ",")%string = true).
  { unfold wordy in *. rewrite all_chars_app, WB. reflexivity. }
  destruct l as [|v l].
  - cbn [join]. destruct E as [->| ->].
    + rewrite <- (str_app_nil q) at 1. rewrite commas_word by assumption. cbn [commas append].
      rewrite str_app_nil. apply words_one; assumption.
    + rewrite commas_word by assumption.
      change (commas "" false ",") with ", ".
      change ("" ++ q ++ ", ")%string with (q ++ ("," ++ String " " ""))%string. rewrite <- append_assoc'.
      rewrite words_cons by (assumption || reflexivity). reflexivity.
  - change (join " " (w :: v :: l)) with (w ++ String " " (join " " (v :: l)))%string.
    assert (H' : forall x, In x (v :: l) -> wordlike x) by (intros x Hx; apply H; right; exact Hx).
    destruct E as [->| ->].
    + rewrite commas_word by assumption. cbn [append].
      assert (S1 : commas "" false (String " " (join " " (v :: l))) =
                   String " " (commas "" false (join " " (v :: l)))).
      { cbn [commas]. change (Ascii.eqb " " ",") with false. change (is_ws " ") with true. cbv iota.
        change ("" ++ " ")%string with " ".
        destruct (H' v (or_introl eq_refl)) as [q' [N' [P' E']]].
        assert (J : exists r, join " " (v :: l) = (q' ++ r)%string).
        { destruct l as [|u l].
          - cbn [join]. destruct E' as [->| ->]; [exists ""; symmetry; apply str_app_nil|exists ","; reflexivity].
          - change (join " " (v :: u :: l)) with (v ++ String " " (join " " (u :: l)))%string.
            destruct E' as [->| ->]; [eexists; reflexivity|].
            rewrite append_assoc'. eexists; reflexivity. }
        destruct J as [r ->]. rewrite !commas_word by assumption. reflexivity. }
      rewrite S1, words_cons by (assumption || reflexivity). rewrite (IH H' false). reflexivity.
    + rewrite append_assoc', commas_word by assumption.
      change (commas "" false ("," ++ String " " (join " " (v :: l)))%string)
        with (String "," (String " " (commas "" true (join " " (v :: l))))).
      change ("" ++ q ++ String "," (String " " (commas "" true (join " " (v :: l)))))%string
        with (q ++ "," ++ String " " (commas "" true (join " " (v :: l))))%string.
      rewrite <- append_assoc', words_cons by (assumption || reflexivity). rewrite (IH H' true). reflexivity.
Qed.

(** * Numbers *)

Lemma str_of_Z_digits z : 0 <= z -> all_chars is_digit (str_of_Z z) = true.
Proof.
  intros H. unfold str_of_Z. destruct (Z.to_int z) as [d|d] eqn:E; cbn [NilZero.string_of_int].
  - destruct d; try reflexivity; apply uint_digits.
  - destruct z as [|p|p]; try discriminate. lia.
Qed.
Lemma digits_char a : is_digit a = true -> is_ws a = false /\ Ascii.eqb a "," = false.
Proof.
  unfold is_digit, is_ws. intros H. apply andb_true_iff in H. destruct H as [H1 H2].
  apply Nat.leb_le in H1, H2. split.
  - apply orb_false_iff. split.
    + destruct (Ascii.eqb_spec a " "); [|reflexivity]. subst. cbn in H1. lia.
    + apply andb_false_iff. right. apply Nat.leb_gt. lia.
  - destruct (Ascii.eqb_spec a ","); [|reflexivity]. subst. cbn in H1. lia.
Qed.
Lemma digits_plain s : all_chars is_digit s = true -> plain s = true.
Proof. apply all_chars_imp. intros a H. destruct (digits_char a H) as [-> ->]. reflexivity. Qed.
Lemma plain_app a b : plain (a ++ b)%string = plain a && plain b.
Proof. apply all_chars_app. Qed.
Lemma id_plain z : 0 <= z -> plain (str_of_Z z) = true.
Proof. intros H. apply digits_plain, str_of_Z_digits, H. Qed.

Definition head_digit (s : string) : bool := match s with String a _ => is_digit a | EmptyString => false end.
Lemma digits_app d r : all_chars is_digit d = true -> head_digit r = false -> digits (d ++ r)%string = (d, r).
Proof.
  intros H Hr. induction d as [|a d IH]; cbn [append digits].
  - destruct r as [|b r]; [reflexivity|]. cbn [head_digit] in Hr. cbn [digits]. rewrite Hr. reflexivity.
  - cbn [all_chars] in H. apply andb_true_iff in H. destruct H as [-> H]. rewrite (IH H). reflexivity.
Qed.
Lemma digits_id z r : 0 <= z -> head_digit r = false -> digits (str_of_Z z ++ r)%string = (str_of_Z z, r).
Proof. intros H Hr. apply digits_app; [apply str_of_Z_digits, H|exact Hr]. Qed.
Lemma id_nonempty z : String.eqb (str_of_Z z) "" = false.
Proof. apply String.eqb_neq, str_of_Z_nonempty. Qed.
Lemma cast_id_id z : z < 2 ^ 64 -> cast_id (str_of_Z z) = Ok z.
Proof.
  intros H. unfold cast_id. rewrite Z_of_str_of_Z. apply Z.ltb_lt in H. rewrite H. reflexivity.
Qed.
Definition comma_if (c : bool) : string := if c then "," else "".
Lemma end_comma_if c : end_comma (comma_if c) = Some c.
Proof. destruct c; reflexivity. Qed.

Lemma match_aid_one z c : 0 <= z -> match_aid (str_of_Z z ++ comma_if c)%string = Some (str_of_Z z, None, c).
Proof.
  intros H. unfold match_aid. rewrite digits_id by (assumption || (destruct c; reflexivity)).
  rewrite id_nonempty. destruct c; reflexivity.
Qed.
Lemma match_aid_two a b c : 0 <= a -> 0 <= b ->
  match_aid ((str_of_Z a ++ ":" ++ str_of_Z b) ++ comma_if c)%string = Some (str_of_Z a, Some (str_of_Z b), c).
Proof.
  intros Ha Hb. unfold match_aid. rewrite !append_assoc'.
  rewrite digits_id by (assumption || reflexivity). rewrite id_nonempty.
  cbn [append]. rewrite digits_id by (assumption || (destruct c; reflexivity)).
  rewrite id_nonempty, end_comma_if. reflexivity.
Qed.
Lemma head_id z r : 0 <= z -> head_digit (str_of_Z z ++ r)%string = true.
Proof.
  intros H. pose proof (str_of_Z_digits z H) as D. pose proof (str_of_Z_nonempty z) as N.
  destruct (str_of_Z z) as [|a s]; [congruence|]. cbn [all_chars] in D. apply andb_true_iff in D. apply D.
Qed.
Lemma match_default_id z r : 0 <= z -> match_default (str_of_Z z ++ r)%string = None.
Proof.
  intros H. pose proof (head_id z r H) as D. unfold match_default.
  destruct (str_of_Z z ++ r)%string as [|a s]; [discriminate|].
  cbn [head_digit] in D.
  assert (E : Ascii.eqb a "d" = false).
  { destruct (Ascii.eqb_spec a "d"); [subst; discriminate|reflexivity]. }
  cbn [String.eqb]. rewrite E. reflexivity.
Qed.
Lemma match_bond_spec a b (ch c : bool) : 0 <= a -> 0 <= b ->
  match_bond ((str_of_Z a ++ (if ch then "::" else ":") ++ str_of_Z b) ++ comma_if c)%string =
  Some (str_of_Z a, ch, str_of_Z b, c).
Proof.
  intros Ha Hb. unfold match_bond. rewrite !append_assoc'.
  assert (HB : head_digit (str_of_Z b ++ comma_if c)%string = true) by (apply head_id, Hb).
  destruct ch; cbn [append]; rewrite digits_id by (assumption || reflexivity); rewrite id_nonempty.
  - rewrite digits_id by (assumption || (destruct c; reflexivity)). rewrite id_nonempty, end_comma_if. reflexivity.
  - assert (X : match (str_of_Z b ++ comma_if c)%string with
            | String ":" q => (true, q) | _ => (false, (str_of_Z b ++ comma_if c)%string) end =
          (false, (str_of_Z b ++ comma_if c)%string)).
    { destruct (str_of_Z b ++ comma_if c)%string as [|x s]; [reflexivity|].
      cbn [head_digit] in HB. destruct x as [[] [] [] [] [] [] [] []]; try reflexivity. discriminate. }
    rewrite X. rewrite digits_id by (assumption || (destruct c; reflexivity)).
    rewrite id_nonempty, end_comma_if. reflexivity.
Qed.
(** * Lines *)

Lemma has_newline_plain s : plain s = true -> has_char newline s = false.
Proof. intros H. apply (all_chars_has (fun a => negb (is_ws a) && negb (Ascii.eqb a ",")) newline s H). reflexivity. Qed.
Lemma lines_cons l t : has_char newline l = false ->
  lines_of (l ++ String newline t)%string = l :: lines_of t.
Proof. intros H. unfold lines_of. apply split_cons, H. Qed.
Lemma has_newline_join l : (forall w, In w l -> has_char newline w = false) -> has_char newline (join " " l) = false.
Proof.
  induction l as [|w l IH]; intros H; [reflexivity|].
  destruct l as [|v l]; [apply H; left; reflexivity|].
  change (join " " (w :: v :: l)) with (w ++ String " " (join " " (v :: l)))%string.
  rewrite has_char_app, (H w) by (left; reflexivity). cbn [has_char orb].
  rewrite IH; [reflexivity|]. intros u Hu. apply H. right; exact Hu.
Qed.
Definition end_line (l : string) : string := (l ++ eol)%string.
Definition text_of (ls : list string) : string := concat_text (map end_line ls).
Lemma concat_cons a l : concat_text (a :: l) = (a ++ concat_text l)%string.
Proof. unfold concat_text. destruct l; cbn [String.concat]; [symmetry; apply str_app_nil|reflexivity]. Qed.
Lemma concat_app l m : concat_text (l ++ m) = (concat_text l ++ concat_text m)%string.
Proof.
  induction l as [|a l IH]; [reflexivity|]. change ((a :: l) ++ m) with (a :: (l ++ m)).
  rewrite (concat_cons a (l ++ m)), (concat_cons a l), IH. symmetry. apply append_assoc'.
Qed.
Lemma text_of_app l m : text_of (l ++ m) = (text_of l ++ text_of m)%string.
Proof. unfold text_of. rewrite map_app. apply concat_app. Qed.
Lemma lines_text ls : (forall l, In l ls -> has_char newline l = false) -> lines_of (text_of ls) = ls ++ [""].
Proof.
  induction ls as [|l ls IH]; intros H; [reflexivity|].
  unfold text_of. cbn [map]. rewrite concat_cons. unfold end_line at 1. rewrite append_assoc'.
  change (eol ++ concat_text (map end_line ls))%string with (String newline (text_of ls)).
  rewrite lines_cons by (apply H; left; reflexivity). cbn [app]. rewrite IH; [reflexivity|].
  intros x Hx. apply H. right; exact Hx.
Qed.
Lemma strip_word w r : w <> "" -> plain w = true -> stripLeadingWhitespace (w ++ r)%string = (w ++ r)%string.
Proof.
  intros N H. destruct w as [|a w]; [congruence|]. unfold plain in H. cbn [all_chars] in H.
  apply andb_true_iff in H. destruct H as [H _]. apply andb_true_iff in H. destruct H as [H _].
  apply negb_true_iff in H. cbn [append stripLeadingWhitespace].
  destruct (is_blank a) eqn:B; [rewrite (blank_ws _ B) in H; discriminate|].
  destruct (Ascii.eqb_spec a newline); [subst; discriminate|]. reflexivity.
Qed.
